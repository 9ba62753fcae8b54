(** A vector used as a matrix: vt_vec_create, vt_vec_resize, then the typed get and set with
    vt_index_2d_to_1d (docs/wiki/page2.md "Imitating 2d arrays", tests/src/test_vec.c:96-120). *)
From Verif Require Import Base BaseFacts VecModel VecSpec VecProofs SpanModel TypedModel TypedSpec TypedProofs.
Local Open Scope Z_scope.

(** The program: calls with row and column. *)
Inductive gop := GSet (x i j : Z) | GGet (i j : Z).
Definition gplace (o : gop) : Z * Z := match o with GSet _ i j | GGet i j => (i, j) end.
(** vt_vec_create(r*c, sizeof(T)), vt_vec_resize(r*c), vec.c:7-40, 114-132. *)
Definition grid_create (dbg : bool) (t : ctype) (r c : Z) : res arr :=
  let* v := vec_create dbg (r * c) (width t) in vec_resize dbg v (r * c).
(** vt_vec_setT, vt_vec_getT with vt_index_2d_to_1d, vec.c:186-280, 320-420; common.c:149-151. *)
Definition gstep (dbg : bool) (t : ctype) (c : Z) (v : arr) (o : gop) : res (arr * option Z) :=
  match o with
  | GSet x i j => let* v := vec_set_t dbg t v x (index_2d_to_1d i j c) in Ok (v, None)
  | GGet i j => let* x := vec_get_t dbg t v (index_2d_to_1d i j c) in Ok (v, Some x)
  end.
Fixpoint grun (dbg : bool) (t : ctype) (c : Z) (v : arr) (ops : list gop) : res (arr * list (option Z)) :=
  match ops with
  | [] => Ok (v, [])
  | o :: ops => let* r := gstep dbg t c v o in let* q := grun dbg t c (fst r) ops in Ok (fst q, snd r :: snd q)
  end.

(** What is expected: a function of row and column. *)
Definition change (g : Z -> Z -> Z) (x i j : Z) : Z -> Z -> Z := fun a b => if (a =? i) && (b =? j) then x else g a b.
Fixpoint expected (g : Z -> Z -> Z) (ops : list gop) : list (option Z) :=
  match ops with
  | [] => []
  | GSet x i j :: ops => None :: expected (change g x i j) ops
  | GGet i j :: ops => Some (g i j) :: expected g ops
  end.

(** A list of numbers with one replaced. *)
Definition upd (xs : list Z) (k : nat) (x : Z) : list Z := firstn k xs ++ x :: skipn (S k) xs.

Definition grep (t : ctype) (r c : Z) (v : arr) (g : Z -> Z -> Z) : Prop :=
  exists xs cap, vrep (width t) (map (enc t) xs) cap v /\ Forall (typed t) xs /\ zlen xs = r * c /\
  forall i j, 0 <= i < r -> 0 <= j < c -> nth (Z.to_nat (c * i + j)) xs 0 = g i j.

Lemma place_bound r c i j : 0 <= i < r -> 0 <= j < c -> 0 <= c * i + j < r * c.
Proof. intros. nia. Qed.

Lemma idx_ok r c i j : 0 <= i < r -> 0 <= j < c -> r * c <= alloc_max -> index_2d_to_1d i j c = c * i + j.
Proof.
  intros Hi Hj B. pose proof (place_bound r c i j Hi Hj). unfold index_2d_to_1d. rewrite (w64_small (c * i)) by (unfold two64, alloc_max in *; nia).
  apply w64_small. unfold two64, alloc_max in *. lia.
Qed.

Lemma gset_ok dbg t r c v g x i j : grep t r c v g -> r * c <= alloc_max -> typed t x -> 0 <= i < r -> 0 <= j < c ->
  exists v', vec_set_t dbg t v x (index_2d_to_1d i j c) = Ok v' /\ grep t r c v' (change g x i j).
Proof.
  intros (xs & cap & R & F & L & G) B Tx Hi Hj. pose proof (place_bound r c i j Hi Hj) as P. rewrite (idx_ok r c i j Hi Hj B). unfold vec_set_t.
  destruct (vec_set_rep dbg _ _ _ _ (enc t x) (c * i + j) R (enc_len t x) ltac:(rewrite zlen_map; lia)) as (v' & E & R' & _).
  exists v'. split; [exact E|]. exists (upd xs (Z.to_nat (c * i + j)) x), cap.
  assert (exists p y s, xs = p ++ y :: s /\ zlen p = c * i + j) as (p & y & s & Ex & Lp).
  { destruct (split_elem xs (c * i + j) ltac:(lia)) as (p & y & s & -> & Hp). now exists p, y, s. }
  assert (upd xs (Z.to_nat (c * i + j)) x = p ++ x :: s) as Eu.
  { unfold upd. subst xs. rewrite firstn_mid, skipn_mid_S by assumption. reflexivity. }
  split; [|split; [|split]].
  - enough (map (enc t) (upd xs (Z.to_nat (c * i + j)) x) = seq_update (map (enc t) xs) (Z.to_nat (c * i + j)) (enc t x)) as -> by exact R'.
    unfold seq_update, upd. now rewrite map_app, map_cons, firstn_map, skipn_map.
  - rewrite Eu. subst xs. apply Forall_app in F as [F1 F2]. inversion F2; subst. apply Forall_app. split; [assumption|]. now constructor.
  - rewrite Eu. rewrite <- L, Ex, !zlen_app, !zlen_cons. reflexivity.
  - intros a b Ha Hb. rewrite Eu. unfold change. pose proof (place_bound r c a b Ha Hb) as P'. specialize (G a b Ha Hb).
    destruct ((a =? i) && (b =? j)) eqn:D.
    + assert (a = i) as -> by lia. assert (b = j) as -> by lia. rewrite <- Lp. unfold zlen. rewrite Nat2Z.id, app_nth2, Nat.sub_diag by lia. reflexivity.
    + assert (c * a + b <> c * i + j) as N.
      { intros K. assert (a = i). { assert (a < i \/ i < a \/ a = i) as [X|[X|X]] by lia; [|  |exact X]; exfalso; nia. } subst. assert (b = j) by lia. lia. }
      rewrite <- G, Ex. unfold zlen in Lp. destruct (Z.ltb_spec (c * a + b) (c * i + j)) as [Q|Q].
      * rewrite !app_nth1 by lia. reflexivity.
      * rewrite !app_nth2 by lia. replace (Z.to_nat (c * a + b) - List.length p)%nat with (S (Z.to_nat (c * a + b) - List.length p - 1)) by lia. reflexivity.
Qed.

Lemma gget_ok dbg t r c v g i j : grep t r c v g -> r * c <= alloc_max -> 0 <= i < r -> 0 <= j < c ->
  vec_get_t dbg t v (index_2d_to_1d i j c) = Ok (g i j).
Proof.
  intros (xs & cap & R & F & L & G) B Hi Hj. pose proof (place_bound r c i j Hi Hj) as P. rewrite (idx_ok r c i j Hi Hj B). rewrite <- (G i j Hi Hj).
  set (k := c * i + j) in *. clearbody k.
  pose proof (vec_get_rep dbg _ _ _ _ k R ltac:(rewrite zlen_map; lia)) as (x & Nx & Gx).
  assert (nth_error (map (enc t) xs) (Z.to_nat k) = Some (enc t (nth (Z.to_nat k) xs 0))) as Nx'.
  { rewrite nth_error_map. rewrite (nth_error_nth' xs 0) by (unfold zlen in *; lia). reflexivity. }
  rewrite Nx in Nx'. injection Nx' as ->.
  assert (tstep dbg t v (TGet k) = Ok (v, Some (nth (Z.to_nat k) xs 0))) as T.
  { apply (tstep_vstep dbg t (map (enc t) xs) cap v (TGet k) v (OElem (map Some (enc t (nth (Z.to_nat k) xs 0)))) _ R).
    - cbn [tr vstep]. rewrite Gx. reflexivity.
    - eexists. split; [|split; reflexivity]. apply (proj1 (Forall_forall _ _) F). apply nth_In. unfold zlen in *. lia. }
  cbn [tstep] in T. destruct (vec_get_t dbg t v k); cbn [bind] in T; try discriminate. now injection T as ->.
Qed.

Lemma typed0 t : typed t 0.
Proof. destruct t; unfold typed; cbn; lia. Qed.

Lemma enc0 t : enc t 0 = repeat 0 (Z.to_nat (width t)).
Proof. destruct t; reflexivity. Qed.

Lemma concat_repeat (x : Z) m n : concat (repeat (repeat x m) n) = repeat x (n * m).
Proof. induction n as [|n IH]; cbn [repeat concat]; [reflexivity|]. rewrite IH. cbn [Nat.mul]. now rewrite repeat_app. Qed.

Lemma map_rep {A B} (f : A -> B) x n : map f (repeat x n) = repeat (f x) n.
Proof. induction n; cbn; congruence. Qed.

Lemma grid_create_ok dbg t r c : 0 < r -> 0 < c -> r * c * width t <= alloc_max ->
  exists v, grid_create dbg t r c = Ok v /\ grep t r c v (fun _ _ => 0).
Proof.
  intros Hr Hc B. pose proof (width_pos t) as W. assert (0 < r * c) as P by nia.
  unfold grid_create, vec_create. rewrite !dassert_true by lia. cbn [bind]. rewrite (w64_mul (r * c) (r * c) (width t)) by lia. rewrite c_calloc_ok by nia. cbn [bind].
  unfold vec_resize. rewrite dassert_true by lia. cbn [bind a_cap]. rewrite Z.eqb_refl. eexists. split; [reflexivity|].
  exists (repeat 0 (Z.to_nat (r * c))), (r * c). split; [|split; [|split]].
  - constructor; cbn; auto; try lia.
    + exists []. rewrite app_nil_r, map_rep, enc0, concat_repeat, map_rep. f_equal. nia.
    + apply uniform_enc.
    + rewrite zlen_map. unfold zlen. rewrite repeat_length. lia.
    + unfold zlen. rewrite repeat_length. nia.
    + rewrite zlen_map. unfold zlen. rewrite repeat_length. lia.
  - apply Forall_forall. intros x Hx. apply repeat_spec in Hx as ->. apply typed0.
  - unfold zlen. rewrite repeat_length. lia.
  - intros i j Hi Hj. apply nth_repeat.
Qed.

Definition gtyped (t : ctype) (r c : Z) (o : gop) : Prop :=
  (0 <= fst (gplace o) < r /\ 0 <= snd (gplace o) < c) /\ match o with GSet x _ _ => typed t x | _ => True end.

Lemma grun_ok dbg t r c : r * c <= alloc_max -> forall ops v g, grep t r c v g -> Forall (gtyped t r c) ops ->
  exists v', grun dbg t c v ops = Ok (v', expected g ops).
Proof.
  intros B. induction ops as [|o ops IH]; intros v g G F; [now exists v|]. inversion F as [|? ? [[P1 P2] A] F']; subst.
  destruct o as [x i j|i j]; cbn [gplace fst snd] in P1, P2.
  - destruct (gset_ok dbg t r c v g x i j G B A P1 P2) as (v' & E & G'). destruct (IH v' _ G' F') as (v2 & E2).
    exists v2. cbn [grun gstep]. rewrite E. cbn [bind fst snd]. rewrite E2. reflexivity.
  - destruct (IH v g G F') as (v2 & E2). exists v2. cbn [grun gstep]. rewrite (gget_ok dbg t r c v g i j G B P1 P2). cbn [bind fst snd]. rewrite E2. reflexivity.
Qed.

Lemma grid_run dbg t r c ops : 0 < r -> 0 < c -> r * c * width t <= alloc_max -> Forall (gtyped t r c) ops ->
  exists v v', grid_create dbg t r c = Ok v /\ vec_len v = r * c /\ grun dbg t c v ops = Ok (v', expected (fun _ _ => 0) ops).
Proof.
  intros Hr Hc B F. destruct (grid_create_ok dbg t r c Hr Hc B) as (v & E & G). pose proof (width_pos t).
  destruct (grun_ok dbg t r c ltac:(nia) ops v _ G F) as (v' & E'). exists v, v'. split; [exact E|]. split; [|exact E'].
  destruct G as (xs & cap & R & _ & L & _). rewrite <- L. destruct R as [_ _ Hl _ _ _ _ _ _ _]. unfold vec_len. rewrite Hl. now rewrite zlen_map.
Qed.

(** A row beyond the last is noticed in debug builds. *)
Lemma grid_row t r c ops i j v v' outs : 0 < r -> 0 < c -> r * c * width t <= alloc_max -> Forall (gtyped t r c) ops ->
  grid_create true t r c = Ok v -> grun true t c v ops = Ok (v', outs) -> r <= i -> 0 <= j < c -> c * i + j < two64 ->
  vec_get_t true t v' (index_2d_to_1d i j c) = Abort /\ forall x, vec_set_t true t v' x (index_2d_to_1d i j c) = Abort.
Proof.
  intros Hr Hc B F E Er Hi Hj W. destruct (grid_create_ok true t r c Hr Hc B) as (v0 & E0 & G). rewrite E in E0. injection E0 as <-. pose proof (width_pos t) as Wp.
  assert (forall ops v g v' outs, grep t r c v g -> Forall (gtyped t r c) ops -> grun true t c v ops = Ok (v', outs) -> exists g', grep t r c v' g') as K.
  { clear v v' ops outs E Er G F. induction ops as [|o ops IH]; intros v g v' outs G F E; [injection E as <- <-; now exists g|].
    inversion F as [|? ? [[P1 P2] A] F']; subst. destruct o as [x a b|a b]; cbn [gplace fst snd grun gstep] in *.
    - destruct (gset_ok true t r c v g x a b G ltac:(nia) A P1 P2) as (v1 & E1 & G1). rewrite E1 in E. cbn [bind fst snd] in E.
      destruct (grun true t c v1 ops) as [[v2 o2]| | |] eqn:E2; cbn [bind] in E; try discriminate. injection E as <- <-. exact (IH _ _ _ _ G1 F' E2).
    - rewrite (gget_ok true t r c v g a b G ltac:(nia) P1 P2) in E. cbn [bind fst snd] in E.
      destruct (grun true t c v ops) as [[v2 o2]| | |] eqn:E2; cbn [bind] in E; try discriminate. injection E as <- <-. exact (IH _ _ _ _ G F' E2). }
  destruct (K ops v _ v' outs G F Er) as (g' & xs & cap & R & Ft & L & _).
  assert (index_2d_to_1d i j c = c * i + j) as ->. { unfold index_2d_to_1d. rewrite (w64_small (c * i)) by nia. apply w64_small. nia. }
  assert (a_len v' = r * c) as Hl by (destruct R as [_ _ Hl _ _ _ _ _ _ _]; rewrite Hl, zlen_map; exact L).
  assert (r * c <= c * i + j) as Q by nia.
  split.
  - unfold vec_get_t, vec_get_ptr, dassert. replace (c * i + j <? a_len v') with false by lia. reflexivity.
  - intros x. unfold vec_set_t, vec_set, dassert. replace (c * i + j <? a_len v') with false by lia. reflexivity.
Qed.
