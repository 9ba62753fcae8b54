(** C165-C168: matrices (archive/mat.c). *)
From Verif Require Import Base BaseFacts StrModel NumModel VecModel TypedModel TypedSpec TypedProofs MatModel MatProofs MatMain.
Local Open Scope Z_scope.

(** C165: a new matrix is a table of zero elements; for every sequence of calls (setting, getting,
    clearing, applying a function, resizing, copying, asking for the size) the answers are those of
    a table; a place outside the table is refused without change (the program ends in debug
    builds). *)
Theorem C165_table : forall dbg rows cols el l,
  0 < rows -> 0 < cols -> 0 < el -> rows * cols * el <= alloc_max -> Forall (good el) l ->
  exists m, mat_create dbg rows cols el = Ok (Some m) /\
  match trun dbg el (mk_table rows cols (fun _ _ => zeros el)) l with
  | None => mrun dbg m l = Abort
  | Some (_, al) => exists m', mrun dbg m l = Ok (m', al)
  end.
Proof. exact create_run. Qed.
Print Assumptions C165_table.
Example C165_example :
  match mat_create false 2 3 1 with
  | Ok (Some m) =>
      match mrun false m [OSet [7] 1 2; OGet 1 2; OGet 0 0; OSet [8] 2 0; OApply (fun c i j => [Some (10 * i + j)]); OGet 1 2; OCopy; OResize 4 3; OGet 0 1; OGet 3 0; OSize; OClear; OGet 1 2] with
      | Ok (_, al) => al = [AStatus Success; AElem (Some [Some 7]); AElem (Some [Some 0]); AStatus Error_bounds; ADone; AElem (Some [Some 12]); ADone;
                            AStatus Success; AElem (Some [Some 1]); AElem (Some [None]); ASize 4 3 12; AStatus Success; AElem (Some [Some 0])]
      | _ => False
      end
  | _ => False
  end.
Proof. vm_compute. reflexivity. Qed.

(** C166: after resizing, an element whose place exists before and after is where it was.
    Refuted: if the number of columns changes the elements move. *)
Theorem C166_places_refuted :
  ~ (forall el m t rows cols m' i j, is_table el m t -> 0 < rows -> 0 < cols -> rows * cols * el <= alloc_max ->
     mat_resize false m rows cols = Ok (m', Success) -> inb t i j = true -> 0 <= i < rows -> 0 <= j < cols ->
     mstep false m' (OGet i j) = Ok (m', AElem (Some (t_at t i j)))).
Proof.
  intros H. assert (is_table 1 (mk_mat (Some [Some 0; Some 1; Some 10; Some 11]) 2 2 1) (mk_table 2 2 (fun i j => [Some (10 * i + j)]))) as T.
  { split; [cbn; lia|]. split; [cbn; lia|]. split; [lia|]. split; [cbn [t_rows t_cols]; unfold alloc_max; lia|]. eexists. split; [reflexivity|]. split; [reflexivity|].
    intros i j [Hi Hj]. cbn [t_rows t_cols t_at] in *. assert (i = 0 \/ i = 1) as [->| ->] by lia; assert (j = 0 \/ j = 1) as [->| ->] by lia; reflexivity. }
  specialize (H 1 _ _ 2 3 (mk_mat (Some [Some 0; Some 1; Some 10; Some 11; None; None]) 2 3 1) 1 0 T). cbn [t_at] in H.
  assert (AElem (Some [Some 11]) = AElem (Some [Some 10])) as X; [|discriminate].
  specialize (H ltac:(lia) ltac:(lia) ltac:(unfold alloc_max; lia) eq_refl eq_refl ltac:(lia) ltac:(lia)). vm_compute in H. now injection H as ->.
Qed.
Print Assumptions C166_places_refuted.
(** What does hold: the k-th element in the order of rows stays the k-th, new ones are not set. *)
Theorem C166_order_partial : forall el m t rows cols i j,
  is_table el m t -> 0 < rows -> 0 < cols -> rows * cols * el <= alloc_max -> 0 <= i < rows -> 0 <= j < cols ->
  exists m', mat_resize false m rows cols = Ok (m', Success) /\
  mstep false m' (OGet i j) = Ok (m', AElem (Some
    (if i * cols + j <? t_rows t * t_cols t then t_at t ((i * cols + j) / t_cols t) ((i * cols + j) mod t_cols t) else repeat None (Z.to_nat el)))).
Proof.
  intros el m t rows cols i j T Hr Hc Hb Hi Hj. pose proof T as (Tr & Tc & He & Tb & G).
  assert (exists m', mat_resize false m rows cols = Ok (m', Success) /\ is_table el m' (renumber el t rows cols)) as (m' & E & T').
  { destruct ((t_rows t =? rows) && (t_cols t =? cols)) eqn:D.
    - exists m. split.
      + unfold mat_resize. replace ((rows =? 0) || (cols =? 0)) with false by lia. assert ((m_rows m =? rows) && (m_cols m =? cols) = true) as -> by (destruct G as (b & -> & _); exact D). reflexivity.
      + assert (rows = t_rows t) as -> by lia. assert (cols = t_cols t) as -> by lia. repeat split; cbn [renumber t_rows t_cols t_at]; try lia.
        destruct G as (b & Eb & L & R). exists b. repeat split; try assumption. intros i' j' [I1 I2]. cbv zeta.
        replace (i' * t_cols t + j' <? t_rows t * t_cols t) with true by (symmetry; apply Z.ltb_lt; nia).
        replace ((i' * t_cols t + j') / t_cols t) with i' by (rewrite Z.div_add_l, Z.div_small by lia; lia).
        replace ((i' * t_cols t + j') mod t_cols t) with j' by (rewrite Z.add_comm, Z.mod_add, Z.mod_small by lia; lia). now apply R.
    - pose proof (resize_table false el m t rows cols T Hr Hc ltac:(unfold two64, alloc_max in *; lia) D) as R. now replace (alloc_max <? rows * cols * el) with false in R by lia. }
  exists m'. split; [exact E|]. pose proof (step_table false el m' (renumber el t rows cols) (OGet i j) T' ltac:(cbn; lia)) as S. cbn [tstep] in S.
  replace (inb (renumber el t rows cols) i j) with true in S by (unfold inb; cbn; lia). destruct S as (m2 & S & _). cbn [renumber t_at] in S. unfold unset in S.
  assert (m2 = m') as ->; [|exact S]. revert S. cbn [mstep]. destruct (mat_get false m' i j) as [[o|]| | |]; cbn [bind]; try discriminate. destruct (m_blk m'); [|discriminate]. destruct (bread _ _ _); cbn [bind]; try discriminate. intros S. now injection S as <-.
Qed.
Print Assumptions C166_order_partial.
(** With the same number of columns every element keeps its place. *)
Theorem C166_same_columns : forall el m t rows i j,
  is_table el m t -> 0 < rows -> rows * t_cols t * el <= alloc_max -> 0 <= i < rows -> i < t_rows t -> 0 <= j < t_cols t ->
  exists m', mat_resize false m rows (t_cols t) = Ok (m', Success) /\ mstep false m' (OGet i j) = Ok (m', AElem (Some (t_at t i j))).
Proof.
  intros el m t rows i j T Hr Hb Hi Hi' Hj. pose proof T as (Tr & Tc & He & Tb & G).
  destruct (C166_order_partial el m t rows (t_cols t) i j T Hr Tc Hb Hi Hj) as (m' & E & S). exists m'. split; [exact E|].
  replace (i * t_cols t + j <? t_rows t * t_cols t) with true in S by (symmetry; apply Z.ltb_lt; nia).
  replace ((i * t_cols t + j) / t_cols t) with i in S by (rewrite Z.div_add_l, Z.div_small by lia; lia).
  replace ((i * t_cols t + j) mod t_cols t) with j in S by (rewrite Z.add_comm, Z.mod_add, Z.mod_small by lia; lia). exact S.
Qed.
Print Assumptions C166_same_columns.
Example C166_example :
  mat_resize false (mk_mat (Some [Some 1; Some 2; Some 3; Some 4; Some 5; Some 6]) 2 3 1) 3 2 = Ok (mk_mat (Some [Some 1; Some 2; Some 3; Some 4; Some 5; Some 6]) 3 2 1, Success) /\
  mstep false (mk_mat (Some [Some 1; Some 2; Some 3; Some 4; Some 5; Some 6]) 3 2 1) (OGet 1 0) = Ok (mk_mat (Some [Some 1; Some 2; Some 3; Some 4; Some 5; Some 6]) 3 2 1, AElem (Some [Some 3])).
Proof. split; reflexivity. Qed.

(** C167: a place inside the matrix can be set, whatever the size asked for.  Refuted: the number of
    bytes is computed modulo 2^64, so a huge matrix is made without memory ... *)
Theorem C167_create_refuted :
  exists m, mat_create true 4294967296 4294967296 8 = Ok (Some m) /\ m_rows m = 4294967296 /\ m_cols m = 4294967296 /\
  mat_set true m (repeat (Some 1) 8) 0 0 = UB.
Proof. exists (mk_mat (Some []) 4294967296 4294967296 8). repeat split. Qed.
Print Assumptions C167_create_refuted.
(** ... and a resize that is answered with an error frees the matrix, which keeps its old size. *)
Theorem C167_resize_refuted :
  exists m m', mat_create false 1 1 8 = Ok (Some m) /\ mat_resize false m 4294967296 4294967296 = Ok (m', Error_allocation) /\
  m_rows m' = 1 /\ m_cols m' = 1 /\ mat_set false m' (repeat (Some 1) 8) 0 0 = UB.
Proof. do 2 eexists. split; [reflexivity|]. split; [reflexivity|]. repeat split. Qed.
Print Assumptions C167_resize_refuted.
(** If the number of bytes is below 2^64 a matrix is made or refused, and no sequence of calls is undefined. *)
Theorem C167_safe_partial : forall dbg rows cols el l,
  0 <= rows -> 0 <= cols -> 0 < el -> rows * cols * el < two64 -> Forall (good el) l ->
  match mat_create dbg rows cols el with
  | Ok (Some m) => (rows <> 0 /\ cols <> 0 /\ rows * cols * el <= alloc_max) /\ mrun dbg m l <> UB /\ mrun dbg m l <> NoFuel
  | Ok None => dbg = false /\ (rows = 0 \/ cols = 0 \/ alloc_max < rows * cols * el)
  | Abort => dbg = true /\ (rows = 0 \/ cols = 0 \/ alloc_max < rows * cols * el)
  | _ => False
  end.
Proof.
  intros dbg rows cols el l Hr Hc He W F.
  assert ((rows = 0 \/ cols = 0 \/ alloc_max < rows * cols * el) \/ (0 < rows /\ 0 < cols /\ rows * cols * el <= alloc_max)) as [B|(Pr & Pc & B)] by lia.
  - assert (mat_create dbg rows cols el = if dbg then Abort else Ok None) as E.
    { unfold mat_create. replace ((rows =? 0) || (cols =? 0) || (alloc_max <? bytes rows cols el)) with true; [now destruct dbg|]. symmetry.
      destruct (rows =? 0) eqn:R0; [reflexivity|]. destruct (cols =? 0) eqn:C0; [reflexivity|]. cbn [orb]. apply Z.ltb_lt.
      assert (bytes rows cols el = rows * cols * el) as ->; [|lia]. unfold bytes. assert (0 < rows * cols) by nia. assert (rows * cols <= rows * cols * el) by nia. rewrite (w64_small (rows * cols)) by lia. apply w64_small. nia. }
    rewrite E. destruct dbg; now split.
  - destruct (create_run dbg rows cols el l Pr Pc He B F) as (m & -> & R). split; [lia|].
    destruct (trun dbg el _ l) as [[t al]|]; [destruct R as (m' & ->); split; discriminate|rewrite R; split; discriminate].
Qed.
Print Assumptions C167_safe_partial.
Example C167_example : mat_create false 16777216 16777217 1 = Ok None /\ mat_create true 0 5 1 = Abort.
Proof. split; reflexivity. Qed.

(** C168: a number stored with the function of its type is read back by the function of its type and
    no other element changes; a wrong type is refused.  Refuted for reading: a type wider than the
    elements reads beyond the matrix. *)
Theorem C168_type_refuted :
  exists m, mat_create true 1 1 1 = Ok (Some m) /\ mat_set_t true I64 m 5 0 0 = Abort /\ mat_get_t true I64 m 0 0 = UB.
Proof. eexists. split; [reflexivity|]. split; reflexivity. Qed.
Print Assumptions C168_type_refuted.
Theorem C168_typed_partial : forall dbg ty m t x i j,
  is_table (width ty) m t -> typed ty x -> 0 <= i < t_rows t -> 0 <= j < t_cols t ->
  exists m', mat_set_t dbg ty m x i j = Ok (m', Success) /\ mat_get_t dbg ty m' i j = Ok x /\
  forall i' j', 0 <= i' < t_rows t -> 0 <= j' < t_cols t -> (i', j') <> (i, j) -> mat_get_t dbg ty m' i' j' = mat_get_t dbg ty m i' j'.
Proof.
  intros dbg ty m t x i j T Ty Hi Hj. pose proof T as (Hr & Hc & He & Hb & G).
  assert (m_el m = width ty) as Em by (destruct G as (b & -> & _); reflexivity).
  assert (forall a b, in_bounds m a b = inb t a b) as IB by (intros a b; destruct G as (bb & -> & _); reflexivity).
  unfold mat_set_t. rewrite Em, Z.eqb_refl. cbn [negb].
  pose proof (set_grid (t_rows t) (t_cols t) (width ty) Hr Hc He Hb dbg m (t_at t) (map Some (enc ty x)) i j G ltac:(lia) ltac:(lia) ltac:(rewrite zlen_map; apply enc_len)) as S.
  rewrite IB in S. replace (inb t i j) with true in S by (unfold inb; lia). destruct S as (m' & E & G'). exists m'. split; [exact E|].
  assert (forall mm gg a b, grid_of (t_rows t) (t_cols t) (width ty) mm gg -> 0 <= a < t_rows t -> 0 <= b < t_cols t ->
    mat_get_t dbg ty mm a b = match all_init (gg a b) with Some l => Ok (dec ty l) | None => UB end) as K.
  { intros mm gg a b Gm Ha Hb'. pose proof (get_grid (t_rows t) (t_cols t) (width ty) Hr Hc He Hb dbg mm gg a b Gm ltac:(lia) ltac:(lia)) as S.
    replace (in_bounds mm a b) with true in S by (destruct Gm as (bb & -> & _); unfold in_bounds; cbn; lia). destruct S as (o & bb & S1 & S2 & S3 & S4).
    unfold mat_get_t. rewrite S1. cbn [bind]. rewrite S2. unfold deref. replace (o mod width ty =? 0) with true by (symmetry; apply Z.eqb_eq; subst o; apply Z_mod_mult). cbn [negb]. rewrite S3. reflexivity. }
  split.
  - rewrite (K m' _ i j G' Hi Hj). unfold put_at. rewrite !Z.eqb_refl. cbn [andb]. rewrite all_init_some. now rewrite dec_enc.
  - intros i' j' Hi' Hj' N. rewrite (K m' _ i' j' G' Hi' Hj'), (K m _ i' j' G Hi' Hj'). unfold put_at.
    replace ((i' =? i) && (j' =? j)) with false; [reflexivity|]. symmetry. apply andb_false_iff. destruct (Z.eq_dec i' i) as [->|]; [right|left; lia]. apply Z.eqb_neq. intros ->. now apply N.
Qed.
Print Assumptions C168_typed_partial.
(** A number of another type is refused: the matrix does not change. *)
Theorem C168_other_type : forall ty m x i j, m_el m <> width ty ->
  mat_set_t false ty m x i j = Ok (m, Error_type) /\ mat_set_t true ty m x i j = Abort.
Proof. intros ty m x i j N. unfold mat_set_t. replace (m_el m =? width ty) with false by lia. now split. Qed.
Print Assumptions C168_other_type.
Example C168_example :
  match mat_create false 2 2 2 with
  | Ok (Some m) => match mat_set_t false I16 m (-300) 1 0 with
                   | Ok (m, s) => s = Success /\ mat_get_t false I16 m 1 0 = Ok (-300) /\ mat_get_t false I16 m 1 1 = Ok 0 /\ mat_set_t false I8 m 1 0 0 = Ok (m, Error_type)
                   | _ => False
                   end
  | _ => False
  end.
Proof. vm_compute. repeat split. Qed.
