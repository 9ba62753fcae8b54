(** Sequences of operations on matrices. *)
From Verif Require Import Base BaseFacts StrModel NumModel VecModel TypedModel TypedProofs MatModel MatProofs.

Inductive mop :=
| OSet (v : list Z) (i j : Z)
| OGet (i j : Z)
| OClear
| OApply (f : list cell -> Z -> Z -> list cell)
| OResize (rows cols : Z)
| OCopy
| OSize.
Inductive ans := AStatus (s : status) | AElem (e : option (list cell)) | ASize (rows cols n : Z) | ADone.

(** One call; after [OCopy] the program goes on with the copy. *)
Definition mstep (dbg : bool) (m : mat) (o : mop) : res (mat * ans) :=
  match o with
  | OSet v i j => let* r := mat_set dbg m (map Some v) i j in Ok (fst r, AStatus (snd r))
  | OGet i j =>
      let* o := mat_get dbg m i j in
      match o, m_blk m with
      | Some o, Some b => let* e := bread b o (m_el m) in Ok (m, AElem (Some e))
      | Some _, None => UB
      | None, _ => Ok (m, AElem None)
      end
  | OClear => let* m := mat_clear m in Ok (m, AStatus Success)
  | OApply f => let* m := mat_apply f m in Ok (m, ADone)
  | OResize rows cols => let* r := mat_resize dbg m rows cols in Ok (fst r, AStatus (snd r))
  | OCopy => let* r := mat_dup dbg m in match r with Some m => Ok (m, ADone) | None => UB end
  | OSize => Ok (m, ASize (m_rows m) (m_cols m) (mat_size m))
  end.
Fixpoint mrun (dbg : bool) (m : mat) (l : list mop) : res (mat * list ans) :=
  match l with
  | [] => Ok (m, [])
  | o :: l => let* r := mstep dbg m o in let* q := mrun dbg (fst r) l in Ok (fst q, snd r :: snd q)
  end.

(** A table of elements, and the same operations on it. *)
Record table := mk_table { t_rows : Z; t_cols : Z; t_at : Z -> Z -> list cell }.
Definition inb (t : table) (i j : Z) : bool := (i <? t_rows t) && (j <? t_cols t).
Definition zeros (el : Z) : list cell := repeat (Some 0) (Z.to_nat el).
Definition unset (el : Z) : list cell := repeat None (Z.to_nat el).
(** Resizing keeps the elements in the order of rows: the k-th element stays the k-th. *)
Definition renumber (el : Z) (t : table) (rows cols : Z) : table :=
  mk_table rows cols (fun i j => let k := i * cols + j in if k <? t_rows t * t_cols t then t_at t (k / t_cols t) (k mod t_cols t) else unset el).
(** [None]: the program ends. *)
Definition refuse {A} (dbg : bool) (x : A) : option A := if dbg then None else Some x.
Definition tstep (dbg : bool) (el : Z) (t : table) (o : mop) : option (table * ans) :=
  match o with
  | OSet v i j =>
      if inb t i j then Some (mk_table (t_rows t) (t_cols t) (fun i' j' => if (i' =? i) && (j' =? j) then map Some v else t_at t i' j'), AStatus Success)
      else refuse dbg (t, AStatus Error_bounds)
  | OGet i j => if inb t i j then Some (t, AElem (Some (t_at t i j))) else refuse dbg (t, AElem None)
  | OClear => Some (mk_table (t_rows t) (t_cols t) (fun _ _ => zeros el), AStatus Success)
  | OApply f => Some (mk_table (t_rows t) (t_cols t) (fun i j => f (t_at t i j) i j), ADone)
  | OResize rows cols =>
      if (rows =? 0) || (cols =? 0) then refuse dbg (t, AStatus Error_size)
      else if (t_rows t =? rows) && (t_cols t =? cols) then Some (t, AStatus Success)
      else if alloc_max <? rows * cols * el then refuse dbg (t, AStatus Error_allocation)
      else Some (renumber el t rows cols, AStatus Success)
  | OCopy => Some (t, ADone)
  | OSize => Some (t, ASize (t_rows t) (t_cols t) (t_rows t * t_cols t))
  end.
Fixpoint trun (dbg : bool) (el : Z) (t : table) (l : list mop) : option (table * list ans) :=
  match l with
  | [] => Some (t, [])
  | o :: l => match tstep dbg el t o with
              | None => None
              | Some (t, a) => match trun dbg el t l with None => None | Some (t, al) => Some (t, a :: al) end
              end
  end.
(** The arguments: elements of the right size, functions that stay in their element, sizes whose
    number of bytes is below 2^64. *)
Definition good (el : Z) (o : mop) : Prop :=
  match o with
  | OSet v i j => zlen v = el /\ 0 <= i /\ 0 <= j
  | OGet i j => 0 <= i /\ 0 <= j
  | OApply f => forall c i j, zlen (f c i j) = zlen c
  | OResize rows cols => 0 <= rows /\ 0 <= cols /\ rows * cols * el < two64
  | _ => True
  end.

Definition is_table (el : Z) (m : mat) (t : table) : Prop :=
  0 < t_rows t /\ 0 < t_cols t /\ 0 < el /\ t_rows t * t_cols t * el <= alloc_max /\ grid_of (t_rows t) (t_cols t) el m (t_at t).

Lemma read_unset n o el : 0 <= o -> 0 <= el -> o + el <= Z.of_nat n -> bread (repeat None n) o el = Ok (unset el).
Proof.
  intros H1 H2 H3. replace (repeat None n) with (repeat (@None Z) (Z.to_nat o) ++ repeat None (Z.to_nat el) ++ repeat None (n - Z.to_nat o - Z.to_nat el)).
  - apply bread_app; unfold unset; rewrite zlen_repeat; lia.
  - rewrite <- !repeat_app. f_equal. lia.
Qed.
Lemma read_first b n o el : 0 <= o -> 0 <= el -> o + el <= zlen b -> o + el <= Z.of_nat n -> bread (firstn n b ++ repeat None (n - length b)) o el = bread b o el.
Proof.
  intros H1 H2 H3 H4. rewrite bread_left by (rewrite ?zlen_firstn; lia). rewrite <- (firstn_skipn n b) at 2. symmetry. apply bread_left; rewrite ?zlen_firstn; lia.
Qed.
Lemma resize_table dbg el m t rows cols : is_table el m t -> 0 < rows -> 0 < cols -> rows * cols * el < two64 ->
  (t_rows t =? rows) && (t_cols t =? cols) = false ->
  if alloc_max <? rows * cols * el then mat_resize dbg m rows cols = if dbg then Abort else Ok (m, Error_allocation)
  else exists m', mat_resize dbg m rows cols = Ok (m', Success) /\ is_table el m' (renumber el t rows cols).
Proof.
  intros (Hr & Hc & He & Hb & b & -> & L & G) Pr Pc W D. unfold mat_resize. cbn [m_rows m_cols m_el m_blk].
  replace ((rows =? 0) || (cols =? 0)) with false by lia. rewrite D.
  assert (bytes rows cols el = rows * cols * el) as ->.
  { unfold bytes. assert (0 < rows * cols) by nia. assert (rows * cols <= rows * cols * el) by nia. rewrite (w64_small (rows * cols)) by lia. apply w64_small. nia. }
  assert (0 < rows * cols * el) by nia. replace (rows * cols * el =? 0) with false by lia. destruct (alloc_max <? rows * cols * el) eqn:A; [now destruct dbg|].
  eexists. split; [reflexivity|]. split; [cbn; lia|]. split; [cbn; lia|]. split; [lia|]. split; [cbn; lia|]. cbn [renumber t_rows t_cols t_at]. eexists. split; [reflexivity|]. split.
  - rewrite zlen_app, zlen_firstn, zlen_repeat. unfold zlen in *. lia.
  - intros i j [Hi Hj]. cbv zeta. set (k := i * cols + j). assert (0 <= k) by (unfold k; nia). assert (k + 1 <= rows * cols) by (unfold k; nia).
    assert (k * el + el <= rows * cols * el) by nia. destruct (k <? t_rows t * t_cols t) eqn:K.
    + assert (k * el + el <= t_rows t * t_cols t * el) by nia. rewrite read_first by (try lia; nia).
      rewrite <- (G (k / t_cols t) (k mod t_cols t)).
      * f_equal. f_equal. pose proof (Z.div_mod k (t_cols t) ltac:(lia)). lia.
      * pose proof (Z.mod_pos_bound k (t_cols t) Hc). split; [|lia]. split; [apply Z.div_pos; lia|]. apply Z.div_lt_upper_bound; nia.
    + assert (t_rows t * t_cols t * el <= k * el) by nia. assert (zlen (firstn (Z.to_nat (rows * cols * el)) b) = t_rows t * t_cols t * el) as Z1 by (rewrite zlen_firstn; nia).
      rewrite bread_right by lia. rewrite Z1. apply read_unset; [lia|lia|]. unfold zlen in L. lia.
Qed.
Lemma copy_table dbg el m t : is_table el m t -> mat_dup dbg m = Ok (Some m).
Proof.
  intros (Hr & Hc & He & Hb & b & -> & L & G). unfold mat_dup, mat_from. cbn [m_blk m_rows m_cols m_el]. unfold mat_create. rewrite (bytes_eq _ _ _ Hr Hc He Hb).
  replace ((t_rows t =? 0) || (t_cols t =? 0) || (alloc_max <? t_rows t * t_cols t * el)) with false by lia. cbn [bind m_blk].
  assert (bread b 0 (t_rows t * t_cols t * el) = Ok b) as ->. { rewrite <- (app_nil_r b) at 1. change (b ++ []) with ([] ++ b ++ []). now apply bread_app. }
  cbn [bind]. set (z := repeat (Some 0) _). assert (bwrite z 0 b = Ok b) as ->; [|reflexivity].
  change z with ([] ++ z) at 1. rewrite <- (app_nil_r z). rewrite (bwrite_app [] z []); [cbn [app]; now rewrite app_nil_r|reflexivity|]. unfold z. rewrite zlen_repeat. nia.
Qed.
Lemma step_table dbg el m t o : is_table el m t -> good el o ->
  match tstep dbg el t o with
  | None => mstep dbg m o = Abort
  | Some (t', a) => exists m', mstep dbg m o = Ok (m', a) /\ is_table el m' t'
  end.
Proof.
  intros T Go. pose proof T as (Hr & Hc & He & Hb & G). assert (forall i j, in_bounds m i j = inb t i j) as IB by (intros i j; destruct G as (b & -> & _); reflexivity).
  destruct o as [v i j|i j| |f|rows cols| |]; cbn [good] in Go; cbn [mstep tstep].
  - destruct Go as (Lv & Hi & Hj). pose proof (set_grid (t_rows t) (t_cols t) el Hr Hc He Hb dbg m (t_at t) (map Some v) i j G Hi Hj ltac:(now rewrite zlen_map)) as S. rewrite IB in S. destruct (inb t i j).
    + destruct S as (m' & -> & G'). cbn [bind fst snd]. exists m'. split; [reflexivity|]. now repeat split.
    + rewrite S. destruct dbg; [reflexivity|]. cbn [refuse bind fst snd]. exists m. now split.
  - destruct Go as (Hi & Hj). pose proof (get_grid (t_rows t) (t_cols t) el Hr Hc He Hb dbg m (t_at t) i j G Hi Hj) as S. rewrite IB in S. destruct (inb t i j).
    + destruct S as (o & b & -> & Eb & R & _). cbn [bind]. rewrite Eb. assert (m_el m = el) as -> by (destruct G as (b' & -> & _); reflexivity). rewrite R. cbn [bind]. exists m. now split.
    + rewrite S. destruct dbg; [reflexivity|]. cbn [refuse bind]. exists m. now split.
  - destruct (clear_grid (t_rows t) (t_cols t) el Hr Hc He Hb m (t_at t) G) as (m' & -> & G'). cbn [bind]. exists m'. split; [reflexivity|]. now repeat split.
  - destruct (apply_grid (t_rows t) (t_cols t) el Hr Hc He Hb f Go m (t_at t) G) as (m' & -> & G'). cbn [bind]. exists m'. split; [reflexivity|]. now repeat split.
  - destruct Go as (P1 & P2 & P3). destruct ((rows =? 0) || (cols =? 0)) eqn:Z1.
    + unfold mat_resize. rewrite Z1. destruct dbg; [reflexivity|]. cbn. exists m. now split.
    + destruct ((t_rows t =? rows) && (t_cols t =? cols)) eqn:Z2.
      * unfold mat_resize. rewrite Z1. assert ((m_rows m =? rows) && (m_cols m =? cols) = true) as -> by (destruct G as (b & -> & _); exact Z2). cbn. exists m. now split.
      * pose proof (resize_table dbg el m t rows cols T ltac:(lia) ltac:(lia) P3 Z2) as R. destruct (alloc_max <? rows * cols * el).
        -- rewrite R. destruct dbg; [reflexivity|]. cbn. exists m. now split.
        -- destruct R as (m' & -> & T'). cbn [bind fst snd]. exists m'. now split.
  - rewrite (copy_table dbg el m t T). cbn [bind]. exists m. now split.
  - exists m. split; [|exact T]. unfold mat_size. destruct G as (b & -> & _). cbn [m_rows m_cols]. rewrite w64_small; [reflexivity|]. unfold two64, alloc_max in *. nia.
Qed.
Lemma run_table dbg el l : forall m t, is_table el m t -> Forall (good el) l ->
  match trun dbg el t l with
  | None => mrun dbg m l = Abort
  | Some (t', al) => exists m', mrun dbg m l = Ok (m', al) /\ is_table el m' t'
  end.
Proof.
  induction l as [|o l IH]; intros m t T F; cbn [trun mrun]; [exists m; now split|]. inversion F as [|? ? Go Fl]. subst.
  pose proof (step_table dbg el m t o T Go) as S. destruct (tstep dbg el t o) as [[t1 a]|]; [|now rewrite S]. destruct S as (m1 & -> & T1). cbn [bind fst snd].
  specialize (IH m1 t1 T1 Fl). destruct (trun dbg el t1 l) as [[t2 al]|]; [|now rewrite IH]. destruct IH as (m2 & -> & T2). cbn [bind fst snd]. exists m2. now split.
Qed.
Lemma create_run dbg rows cols el l : 0 < rows -> 0 < cols -> 0 < el -> rows * cols * el <= alloc_max -> Forall (good el) l ->
  exists m, mat_create dbg rows cols el = Ok (Some m) /\
  match trun dbg el (mk_table rows cols (fun _ _ => zeros el)) l with
  | None => mrun dbg m l = Abort
  | Some (_, al) => exists m', mrun dbg m l = Ok (m', al)
  end.
Proof.
  intros Hr Hc He Hb F. destruct (create_grid rows cols el Hr Hc He Hb dbg) as (m & E & G). exists m. split; [exact E|].
  pose proof (run_table dbg el l m (mk_table rows cols (fun _ _ => zeros el)) ltac:(now repeat split) F) as R.
  destruct (trun _ _ _ l) as [[t' al]|]; [|exact R]. destruct R as (m' & R & _). now exists m'.
Qed.
