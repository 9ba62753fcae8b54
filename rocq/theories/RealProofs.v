(** Proofs about RealModel.v. *)
From Verif Require Import Base BaseFacts VecModel VecSpec VecProofs SpanModel TypedModel TypedSpec TypedProofs RealModel.

(** A number of 80 bits, a padding of 48. *)
Definition num80 (x : Z) : Prop := 0 <= x < 2 ^ 80.
Definition pad48 (p : Z) : Prop := 0 <= p < 2 ^ 48.
(** The numbers passed in a call. *)
Definition args80 (o : top) : Prop :=
  match o with
  | TPushBack x | TPushFront x | TInsert x _ | TSet x _ | TFind x => num80 x
  | _ => True
  end.
Definition not_find (o : top) : Prop := match o with TFind _ => False | _ => True end.

Lemma real_val_rep x p : num80 x -> real_val (real_rep x p) = x.
Proof.
  unfold num80, real_val, real_rep. intros H. rewrite Z.mul_comm, Z.mod_add by lia. apply Z.mod_small. exact H.
Qed.
Lemma real_rep_typed x p : num80 x -> pad48 p -> typed REAL (real_rep x p).
Proof. unfold num80, pad48, typed, real_rep. cbn [signed width]. change (8 * 16) with 128. lia. Qed.
Lemma with_pad_typed o p : args80 o -> pad48 p -> args_typed REAL (with_pad o p).
Proof. destruct o; cbn; intros; try exact I; apply real_rep_typed; assumption. Qed.

Lemma nth_map0 (xs : list Z) n : nth n (map real_val xs) 0 = real_val (nth n xs 0).
Proof. exact (map_nth real_val xs 0 n). Qed.
Lemma last_map0 (xs : list Z) : last (map real_val xs) 0 = real_val (last xs 0).
Proof. induction xs as [|a [|b xs] IH]; [reflexivity|reflexivity|exact IH]. Qed.
Lemma zlen_map {A B} (f : A -> B) l : zlen (map f l) = zlen l.
Proof. unfold zlen. now rewrite map_length. Qed.

Lemma first_index_map p x xs : Forall (fun r => exists y, num80 y /\ r = real_rep y p) xs -> num80 x ->
  first_index xs (real_rep x p) = first_index (map real_val xs) x.
Proof.
  intros F Hx. induction F as [|r xs (y & Hy & ->) _ IH]; [reflexivity|].
  cbn [first_index map]. rewrite real_val_rep by assumption. rewrite IH.
  replace (real_rep y p =? real_rep x p) with (y =? x); [reflexivity|]. unfold real_rep. lia.
Qed.

Lemma lstep_real xs o pad ys' out : args80 o ->
  (not_find o \/ Forall (fun r => exists y, num80 y /\ r = real_rep y pad) xs) ->
  lstep (map real_val xs) o = Some (ys', out) ->
  exists xs' out', lstep xs (with_pad o pad) = Some (xs', out') /\ ys' = map real_val xs' /\ out = real_out o out'.
Proof.
  intros A NF. destruct o; cbn [lstep with_pad real_out args80] in *; rewrite ?zlen_map, ?nth_map0, ?last_map0;
    repeat match goal with |- context [if ?c then _ else _] => destruct c end; intros [= <- <-];
    do 2 eexists; (split; [reflexivity|]); cbn [option_map];
    rewrite ?map_app, ?map_cons, ?firstn_map, ?skipn_map, ?map_removelast, ?real_val_rep by assumption; auto.
  - split; [|reflexivity]. f_equal. now rewrite map_app.
  - destruct NF as [[]|NF]. split; [reflexivity|]. f_equal. symmetry. now apply first_index_map.
Qed.

Lemma Forall_removelast {A} (Q : A -> Prop) l : Forall Q l -> Forall Q (removelast l).
Proof. induction 1 as [|a l Ha F IH]; [constructor|]. destruct l; [constructor|]. constructor; assumption. Qed.
Lemma Forall_last {A} (Q : A -> Prop) l d : Forall Q l -> l <> [] -> Q (last l d).
Proof. induction 1 as [|a l Ha F IH]; [congruence|]. intros _. destruct l; [exact Ha|]. apply IH. discriminate. Qed.
Lemma Forall_firstn {A} (Q : A -> Prop) n l : Forall Q l -> Forall Q (firstn n l).
Proof. intros F. rewrite <- (firstn_skipn n l) in F. apply Forall_app in F. tauto. Qed.
Lemma Forall_skipn {A} (Q : A -> Prop) n l : Forall Q l -> Forall Q (skipn n l).
Proof. intros F. rewrite <- (firstn_skipn n l) in F. apply Forall_app in F. tauto. Qed.

Definition same_pad (p r : Z) : Prop := exists y, num80 y /\ r = real_rep y p.
Lemma lstep_same p xs o xs' out : args80 o -> Forall (same_pad p) xs -> lstep xs (with_pad o p) = Some (xs', out) ->
  Forall (same_pad p) xs'.
Proof.
  intros A F. assert (N : forall x, num80 x -> same_pad p (real_rep x p)) by (intros x Hx; exists x; auto).
  destruct o; cbn [lstep with_pad args80] in *;
    repeat match goal with |- context [if ?c then _ else _] => destruct c eqn:? end; intros [= <- <-];
    repeat first [apply Forall_removelast | apply Forall_app; split | apply Forall_firstn | apply Forall_skipn
                 | apply Forall_cons | apply N | assumption | constructor].
  apply Forall_last; [assumption|]. intros ->. unfold zlen in *. cbn in *. lia.
Qed.

Fixpoint outs_real (ops : list (top * Z)) (l : list (option Z)) : list (option Z) :=
  match ops, l with
  | q :: ops', r :: l' => real_out (fst q) r :: outs_real ops' l'
  | _, _ => []
  end.
Definition padded (q : top * Z) : top := with_pad (fst q) (snd q).
Definition args_real (q : top * Z) : Prop := args80 (fst q) /\ pad48 (snd q).

Lemma rrun_trun dbg ops : forall v v' l, trun dbg REAL v (map padded ops) = Ok (v', l) ->
  rrun dbg v ops = Ok (v', outs_real ops l).
Proof.
  induction ops as [|[o p] ops IH]; intros v v' l; cbn [map trun rrun outs_real].
  - intros [= <- <-]. reflexivity.
  - unfold rstep. change (padded (o, p)) with (with_pad o p). intros H.
    apply bind_ok in H as ([w r] & E1 & H). apply bind_ok in H as ([w' r'] & E2 & [= <- <-]).
    cbn [fst snd] in *. rewrite E1. cbn [bind fst snd]. rewrite (IH _ _ _ E2). reflexivity.
Qed.

Lemma lrun_real (P : list Z -> Prop) (ok : top * Z -> Prop) :
  (forall q xs, ok q -> P xs -> not_find (fst q) \/ Forall (same_pad (snd q)) xs) ->
  (forall q xs xs' out, ok q -> P xs -> lstep xs (padded q) = Some (xs', out) -> P xs') ->
  forall ops xs ys outs, P xs -> Forall args_real ops -> Forall ok ops ->
  lrun (map real_val xs) (map fst ops) = Some (ys, outs) ->
  exists xs' l, lrun xs (map padded ops) = Some (xs', l) /\ ys = map real_val xs' /\ outs = outs_real ops l.
Proof.
  intros H1 H2. induction ops as [|[o p] ops IH]; intros xs ys outs HP FA FO; cbn [map lrun fst].
  - intros [= <- <-]. exists xs, []. auto.
  - destruct (lstep (map real_val xs) o) as [[ys1 o1]|] eqn:E1; [|discriminate].
    destruct (lrun ys1 (map fst ops)) as [[ys2 l2]|] eqn:E2; [|discriminate]. intros [= <- <-].
    inversion FA as [|? ? [A _] FA']; inversion FO as [|? ? O FO']; subst.
    destruct (lstep_real xs o p ys1 o1 A (H1 _ _ O HP) E1) as (xs1 & r1 & L1 & -> & ->).
    change (padded (o, p)) with (with_pad o p). rewrite L1.
    destruct (IH xs1 ys2 l2 (H2 _ _ _ _ O HP L1) FA' FO' E2) as (xs2 & l & L2 & -> & ->).
    rewrite L2. exists xs2, (r1 :: l). auto.
Qed.

Lemma real_refines dbg n ops ys outs : 0 < n -> 48 * (n + zlen ops) <= alloc_max ->
  Forall args_real ops -> (Forall (fun q => not_find (fst q)) ops \/ exists p, Forall (fun q => snd q = p) ops) ->
  lrun [] (map fst ops) = Some (ys, outs) ->
  exists v0 v, vec_create dbg n 16 = Ok v0 /\ rrun dbg v0 ops = Ok (v, outs) /\ vec_len v = zlen ys /\
    forall i, 0 <= i < zlen ys -> vec_get_r dbg v i = Ok (nth (Z.to_nat i) ys 0).
Proof.
  intros Hn HB FA NF L.
  assert (exists xs l, lrun [] (map padded ops) = Some (xs, l) /\ ys = map real_val xs /\ outs = outs_real ops l) as (xs & l & L' & -> & ->).
  { destruct NF as [NF|[p NF]].
    - apply (lrun_real (fun _ => True) (fun q => not_find (fst q))) with (xs := []); auto.
    - apply (lrun_real (Forall (same_pad p)) (fun q => args80 (fst q) /\ snd q = p)) with (xs := []); auto.
      + intros [o q] xs [_ E]. cbn in *. subst q. auto.
      + intros [o q] xs xs' out [A E] F. cbn in *. subst q. now apply lstep_same.
      + rewrite Forall_forall in *. intros q Hq. split; [apply FA, Hq|apply NF, Hq]. }
  destruct (typed_refines dbg REAL n (map padded ops) xs l Hn) as (v0 & v & E0 & E1 & E2 & E3).
  - rewrite zlen_map. cbn [width]. lia.
  - apply Forall_map. rewrite Forall_forall in *. intros q Hq. destruct (FA q Hq). now apply with_pad_typed.
  - exact L'.
  - exists v0, v. split; [exact E0|]. split; [now apply rrun_trun|]. rewrite zlen_map. split; [exact E2|].
    intros i Hi. unfold vec_get_r. rewrite (E3 i Hi). cbn [bind]. now rewrite nth_map0.
Qed.

(** ** Spans *)
Definition reals (l : list (Z * Z)) : list Z := concat (map (fun q => enc REAL (real_rep (fst q) (snd q))) l).
Lemma span_get_real dbg pre l post i : Forall (fun q => num80 (fst q) /\ pad48 (snd q)) l -> zlen pre mod 16 = 0 ->
  zlen l * 16 < two64 -> 0 <= i < zlen l ->
  span_get_r dbg (pre ++ map Some (reals l) ++ post) (mk_span (zlen pre) (zlen l) 16) i = Ok (fst (nth (Z.to_nat i) l (0, 0))).
Proof.
  intros F A B Hi. unfold span_get_r, reals. rewrite <- (map_map (fun q => real_rep (fst q) (snd q)) (enc REAL)).
  set (xs := map (fun q => real_rep (fst q) (snd q)) l).
  assert (Z : zlen xs = zlen l) by apply zlen_map.
  rewrite <- Z in *. change 16 with (width REAL).
  rewrite (span_get_typed dbg REAL pre xs post i); [|apply Forall_map; eapply Forall_impl; [|exact F]; intros q []; now apply real_rep_typed|exact A|exact B|exact Hi].
  cbn [bind]. f_equal. unfold xs. change 0 with ((fun q => real_rep (fst q) (snd q)) (0, 0)) at 1. rewrite map_nth.
  apply real_val_rep. rewrite Forall_forall in F. apply F, nth_In. unfold zlen in *. lia.
Qed.
Lemma span_set_real dbg pre p q s post x pad : zlen (p ++ q :: s) * 16 < two64 ->
  span_set_r dbg (pre ++ map Some (reals (p ++ q :: s)) ++ post) (mk_span (zlen pre) (zlen (p ++ q :: s)) 16) x pad (zlen p) =
  Ok (pre ++ map Some (reals (p ++ (x, pad) :: s)) ++ post).
Proof.
  intros B. unfold span_set_r, reals. rewrite <- !(map_map (fun q => real_rep (fst q) (snd q)) (enc REAL)).
  set (f := fun q : Z * Z => real_rep (fst q) (snd q)). 
  assert (R : forall a b c, map f (a ++ b :: c) = map f a ++ f b :: map f c) by (intros; now rewrite map_app). rewrite !R.
  pose proof (span_set_typed dbg REAL pre (map f p) (f q) (map f s) post (real_rep x pad)) as H.
  rewrite !zlen_app, !zlen_cons, !zlen_map in *. apply H. exact B.
Qed.

Lemma le_bytes_add n m : forall x y, 0 <= x < 256 ^ Z.of_nat n ->
  le_bytes (n + m) (x + 256 ^ Z.of_nat n * y) = le_bytes n x ++ le_bytes m y.
Proof.
  induction n as [|n IH]; intros x y Hx.
  - cbn [Nat.add le_bytes app]. f_equal. cbn in *. lia.
  - rewrite Nat2Z.inj_succ, Z.pow_succ_r in * by lia. cbn [Nat.add le_bytes app].
    replace (x + 256 * 256 ^ Z.of_nat n * y) with (x + (256 ^ Z.of_nat n * y) * 256) by ring.
    rewrite Z.mod_add, Z.div_add by lia. f_equal. apply IH.
    split; [apply Z.div_pos; lia|apply Z.div_lt_upper_bound; lia].
Qed.
Lemma reals_one x pad : num80 x -> pad48 pad -> reals [(x, pad)] = le_bytes 10 x ++ le_bytes 6 pad.
Proof.
  intros Hx _. unfold reals. cbn [map concat fst snd]. rewrite app_nil_r.
  exact (le_bytes_add 10 6 x pad Hx).
Qed.
