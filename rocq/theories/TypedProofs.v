(** Proofs about typed vectors and spans. *)
From Verif Require Import Base BaseFacts StrProofs VecModel VecSpec VecProofs VecProofs2 SpanModel TypedModel TypedSpec.

Lemma width_pos t : 0 < width t.
Proof. destruct t; cbn; lia. Qed.

Lemma le_bytes_len n : forall v, zlen (le_bytes n v) = Z.of_nat n.
Proof. induction n as [|n IH]; intros v; cbn [le_bytes]; [reflexivity|]. zl. rewrite IH. lia. Qed.

Lemma le_val_bytes n : forall v, le_val (le_bytes n v) = v mod 256 ^ Z.of_nat n.
Proof.
  induction n as [|n IH]; intros v.
  - cbn. rewrite Z.mod_1_r. reflexivity.
  - cbn [le_bytes le_val]. rewrite IH, Nat2Z.inj_succ, Z.pow_succ_r by lia.
    rewrite Z.rem_mul_r by (try apply Z.pow_nonzero; lia). reflexivity.
Qed.

Lemma enc_len t v : zlen (enc t v) = width t.
Proof. unfold enc. rewrite le_bytes_len. pose proof (width_pos t). lia. Qed.

Lemma pow256 w : 0 <= w -> 256 ^ w = 2 ^ (8 * w).
Proof. intros H. change 256 with (2 ^ 8). rewrite <- Z.pow_mul_r by lia. reflexivity. Qed.

Lemma dec_enc t x : typed t x -> dec t (enc t x) = x.
Proof.
  intros H. unfold dec, enc. rewrite le_val_bytes, Z2Nat.id, pow256 by (pose proof (width_pos t); lia).
  unfold typed in H. pose proof (width_pos t) as W.
  assert (E : 2 ^ (8 * width t) = 2 * 2 ^ (8 * width t - 1)).
  { rewrite <- Z.pow_succ_r by lia. f_equal. lia. }
  destruct (signed t); cbn [andb].
  - destruct (Z_lt_le_dec x 0).
    + replace (x mod 2 ^ (8 * width t)) with (x + 2 ^ (8 * width t)).
      * replace (2 ^ (8 * width t - 1) <=? x + 2 ^ (8 * width t)) with true by lia. lia.
      * symmetry. rewrite <- (Z.mod_small (x + 2 ^ (8 * width t)) (2 ^ (8 * width t))) by lia.
        rewrite <- (Z_mod_plus_full x 1), Z.mul_1_l. reflexivity.
    + rewrite Z.mod_small by lia.
      replace (2 ^ (8 * width t - 1) <=? x) with false by lia. reflexivity.
  - rewrite Z.mod_small by lia. reflexivity.
Qed.

Lemma enc_inj t x y : typed t x -> typed t y -> enc t x = enc t y -> x = y.
Proof. intros Hx Hy E. rewrite <- (dec_enc t x Hx), E. apply dec_enc; assumption. Qed.

Lemma all_init_some l : all_init (map Some l) = Some l.
Proof. induction l as [|c l IH]; cbn; [reflexivity|]. rewrite IH. reflexivity. Qed.

Lemma deref_enc t b off x : off mod width t = 0 -> bread b off (width t) = Ok (map Some (enc t x)) ->
  typed t x -> deref t b off = Ok x.
Proof.
  intros Ha Hr Hx. unfold deref. rewrite Ha. cbn. rewrite Hr. cbn [bind].
  rewrite all_init_some, dec_enc by assumption. reflexivity.
Qed.

(** * Lists *)

Lemma uniform_enc t xs : uniform (width t) (map (enc t) xs).
Proof. induction xs; constructor; auto. apply enc_len. Qed.

Lemma Forall_firstn {A} (P : A -> Prop) n l : Forall P l -> Forall P (firstn n l).
Proof. intros H; revert n; induction H; intros [|n]; cbn; constructor; auto. Qed.

Lemma Forall_skipn {A} (P : A -> Prop) n l : Forall P l -> Forall P (skipn n l).
Proof. intros H; revert n; induction H; intros [|n]; cbn; auto. Qed.

Lemma Forall_removelast {A} (P : A -> Prop) l : Forall P l -> Forall P (removelast l).
Proof.
  intros H. destruct (snoc_case l) as [->|(k & x & ->)]; [constructor|].
  rewrite removelast_snoc. apply Forall_app in H. tauto.
Qed.

Lemma map_removelast {A B} (f : A -> B) l : map f (removelast l) = removelast (map f l).
Proof.
  destruct (snoc_case l) as [->|(k & x & ->)]; [reflexivity|].
  rewrite map_app. cbn. rewrite !removelast_snoc. reflexivity.
Qed.

Lemma map_last {A B} (f : A -> B) l d e : l <> [] -> last (map f l) e = f (last l d).
Proof.
  intros H. destruct (snoc_case l) as [->|(k & x & ->)]; [congruence|].
  rewrite map_app. cbn. rewrite !last_last. reflexivity.
Qed.

Lemma first_index_spec t xs x : Forall (typed t) xs -> typed t x ->
  first_index xs x =
  match seq_find (map (enc t) xs) (enc t x) with Some k => Z.of_nat k | None => -1 end.
Proof.
  intros H Hx. induction H as [|y xs Hy H IH]; cbn [first_index seq_find map]; [reflexivity|].
  destruct (list_eq_dec Z.eq_dec (enc t y) (enc t x)) as [E|E].
  - apply enc_inj in E; auto. subst. rewrite Z.eqb_refl. reflexivity.
  - replace (y =? x) with false by (symmetry; apply Z.eqb_neq; congruence).
    rewrite IH. destruct (seq_find (map (enc t) xs) (enc t x)).
    + cbv zeta. replace (Z.of_nat n <? 0) with false by lia. lia.
    + reflexivity.
Qed.

Lemma fits_ok es c : 0 < c * es -> c * es <= alloc_max -> fits es c = true.
Proof. unfold fits. intros. apply andb_true_iff. split; lia. Qed.

(** * Calls *)

Definition tr (t : ctype) (o : top) : vop :=
  match o with
  | TPushBack x => PushBack (enc t x)
  | TPushFront x => PushFront (enc t x)
  | TInsert x i => Insert (enc t x) i
  | TSet x i => SetAt (enc t x) i
  | TGet i => Get i
  | TPopGet => PopGet
  | TPop => Pop
  | TRemove i rs => Remove i rs
  | TFind x => Find (enc t x)
  | TClear => Clear
  | TShrink => Shrink
  | TLen => Len
  end.

(** The byte-level output of a call against the number of the typed one. *)
Definition out_rel (t : ctype) (o : vout) (r : option Z) : Prop :=
  match o with
  | ONone => r = None
  | OElem c => exists x, typed t x /\ c = map Some (enc t x) /\ r = Some x
  | ONull => r = Some 0
  | OInt z => r = Some z
  end.

Lemma lstep_sstep t xs cap o xs' out B : Forall (typed t) xs -> args_typed t o ->
  0 < cap -> zlen xs <= B -> cap <= 3 * B -> zlen xs <= cap -> 3 * (B + 1) * width t <= alloc_max ->
  lstep xs o = Some (xs', out) ->
  exists cap' vout, sstep (width t) (map (enc t) xs, cap) (tr t o) = Some ((map (enc t) xs', cap'), vout) /\
    out_rel t vout out /\ Forall (typed t) xs' /\
    0 < cap' /\ zlen xs' <= B + 1 /\ cap' <= 3 * (B + 1) /\ zlen xs' <= cap'.
Proof.
  intros Hx Ha Hc HB HcB Hle Hm E. pose proof (width_pos t) as W.
  assert (Hel : forall x, elem_ok (width t) (enc t x) = true)
    by (intros; unfold elem_ok; rewrite enc_len; apply Z.eqb_refl).
  assert (Hzl : zlen (map (enc t) xs) = zlen xs) by (zl; reflexivity).
  assert (Hg : grown (zlen xs) cap <= 3 * (B + 1) /\ zlen xs + 1 <= grown (zlen xs) cap /\ 0 < grown (zlen xs) cap).
  { unfold grown. destruct (cap =? zlen xs) eqn:G; lia. }
  assert (Hfit : fits (width t) (grown (zlen xs) cap) = true).
  { apply fits_ok; nia. }
  assert (Hmi : forall i, (0 <=? i) && (i <? zlen xs) = true -> 0 <= i < zlen xs) by (intros; lia).
  destruct o as [x|x|x i|x i|i| | |i rs|x| | |]; cbn [lstep sstep tr args_typed] in *; rewrite ?Hzl.
  - injection E as <- <-. rewrite Hel, Hfit. cbn [andb].
    do 2 eexists. split; [rewrite map_app; reflexivity|]. cbn [out_rel]. split; [reflexivity|].
    split; [apply Forall_app; auto|]. zl. lia.
  - injection E as <- <-. rewrite Hel, Hfit. cbn [andb].
    do 2 eexists. split; [reflexivity|]. cbn [out_rel]. split; [reflexivity|].
    split; [auto|]. zl. lia.
  - destruct ((0 <=? i) && (i <? zlen xs)) eqn:R; [|discriminate]. injection E as <- <-.
    rewrite Hel. unfold in_range. rewrite R, Hfit. cbn [andb]. apply Hmi in R.
    do 2 eexists. split; [unfold seq_insert; rewrite map_app; cbn [map]; rewrite firstn_map, <- (skipn_map (enc t)); reflexivity|].
    cbn [out_rel]. split; [reflexivity|].
    split; [apply Forall_app; split; [apply Forall_firstn; auto|constructor; auto; apply Forall_skipn; auto]|].
    destruct (split_elem xs i R) as (p & y & s & -> & Hpl).
    rewrite firstn_mid, skipn_mid by lia. revert HB Hle Hg; zl; lia.
  - destruct ((0 <=? i) && (i <? zlen xs)) eqn:R; [|discriminate]. injection E as <- <-.
    rewrite Hel. unfold in_range. rewrite R. cbn [andb]. apply Hmi in R.
    do 2 eexists. split; [unfold seq_update; rewrite map_app, firstn_map; cbn [map]; rewrite <- (skipn_map (enc t));
      rewrite Z2Nat.inj_add, Nat.add_1_r by lia; reflexivity|].
    cbn [out_rel]. split; [reflexivity|].
    split; [apply Forall_app; split; [apply Forall_firstn; auto|constructor; auto; apply Forall_skipn; auto]|].
    destruct (split_elem xs i R) as (p & y & s & -> & Hpl).
    rewrite Z2Nat.inj_add, Nat.add_1_r by lia.
    rewrite firstn_mid, skipn_mid_S by lia. revert HB Hle Hg; zl; lia.
  - destruct ((0 <=? i) && (i <? zlen xs)) eqn:R; [|discriminate]. injection E as <- <-. apply Hmi in R.
    destruct (split_elem xs i R) as (p & y & s & -> & Hpl).
    rewrite map_app. cbn [map]. rewrite nth_error_app2 by (rewrite map_length; unfold zlen in Hpl; lia).
    rewrite map_length. replace (Z.to_nat i - length p)%nat with O by (unfold zlen in Hpl; lia).
    cbn [nth_error]. replace (0 <=? i) with true by lia.
    do 2 eexists. split; [reflexivity|]. split.
    + cbn [out_rel]. exists y. split; [|split; [reflexivity|]].
      * apply Forall_app in Hx as [_ Hx]. inversion Hx; auto.
      * f_equal. rewrite app_nth2 by (unfold zlen in Hpl; lia).
        replace (Z.to_nat i - length p)%nat with O by (unfold zlen in Hpl; lia). reflexivity.
    + split; auto. lia.
  - injection E as <- <-. do 2 eexists. split; [rewrite map_removelast; reflexivity|].
    destruct (snoc_case xs) as [->|(k & x & ->)].
    + cbn. repeat split; auto; lia.
    + assert (N : map (enc t) (k ++ [x]) <> []) by (rewrite map_app; destruct k; discriminate).
      destruct (map (enc t) (k ++ [x])) eqn:M; [congruence|]. rewrite <- M.
      rewrite (map_last (enc t) (k ++ [x]) 0) by (destruct k; discriminate). rewrite last_last.
      split.
      * cbn [out_rel]. exists x. split; [|auto]. apply Forall_app in Hx as [_ Hx]. inversion Hx; auto.
      * split; [apply Forall_removelast; auto|]. rewrite removelast_snoc. revert HB Hle; zl; lia.
  - injection E as <- <-. do 2 eexists. split; [rewrite map_removelast; reflexivity|].
    split; [reflexivity|]. split; [apply Forall_removelast; auto|].
    destruct (snoc_case xs) as [->|(k & x & ->)]; [cbn in *; lia|].
    rewrite removelast_snoc. revert HB Hle; zl; lia.
  - destruct ((0 <=? i) && (i <? zlen xs)) eqn:R; [|discriminate]. unfold in_range at 1. rewrite R.
    apply Hmi in R. destruct (split_elem xs i R) as (p & y & s & -> & Hpl).
    rewrite Z2Nat.inj_add, Nat.add_1_r in E by lia.
    rewrite (firstn_mid p _ i), (skipn_mid_S p y s i) in E by lia.
    apply Forall_app in Hx as [Hx1 Hx2]. inversion Hx2 as [|? ? Hy Hs]; subst.
    destruct (rs =? 0) eqn:R0.
    + injection E as <- <-. replace rs with 0 by lia. cbn [in_range andb].
      do 2 eexists. split.
      { unfold seq_delete. rewrite map_app. cbn [map].
        rewrite (firstn_mid (map (enc t) p)), (skipn_mid_S (map (enc t) p)) by (zl; reflexivity).
        rewrite map_app. reflexivity. }
      split; [reflexivity|]. split; [apply Forall_app; auto|]. revert HB Hle; zl; lia.
    + destruct (rs =? 1) eqn:R1; [|discriminate]. injection E as <- <-. replace rs with 1 by lia.
      cbn [in_range andb Z.eqb]. do 2 eexists. split.
      { rewrite to_nat_zlen, map_app. cbn [map]. rewrite <- (map_length (enc t) p).
        destruct (snoc_case s) as [->|(k & z & ->)].
        - rewrite seq_delete_fast_last.
          replace (last (p ++ [y]) 0) with y by (symmetry; apply last_last).
          rewrite removelast_snoc. reflexivity.
        - rewrite map_app. cbn [map]. rewrite seq_delete_fast_mid.
          replace (last (p ++ y :: k ++ [z]) 0) with z
            by (change (p ++ y :: k ++ [z]) with (p ++ (y :: k) ++ [z]); rewrite app_assoc; symmetry; apply last_last).
          change (p ++ z :: k ++ [z]) with (p ++ (z :: k) ++ [z]).
          rewrite app_assoc, removelast_snoc, map_app. reflexivity. }
      split; [reflexivity|].
      destruct (snoc_case s) as [->|(k & z & ->)].
      * replace (last (p ++ [y]) 0) with y by (symmetry; apply last_last).
        rewrite removelast_snoc. split; [auto|]. revert HB Hle; zl; lia.
      * replace (last (p ++ y :: k ++ [z]) 0) with z
          by (change (p ++ y :: k ++ [z]) with (p ++ (y :: k) ++ [z]); rewrite app_assoc; symmetry; apply last_last).
        change (p ++ z :: k ++ [z]) with (p ++ (z :: k) ++ [z]).
        rewrite app_assoc, removelast_snoc. apply Forall_app in Hs as [Hk Hz]. inversion Hz; subst.
        split; [apply Forall_app; auto|]. revert HB Hle; zl; lia.
  - injection E as <- <-. rewrite Hel. do 2 eexists. split; [reflexivity|]. cbn [out_rel].
    split; [f_equal; apply first_index_spec; auto|]. split; auto. lia.
  - injection E as <- <-. do 2 eexists. split; [reflexivity|]. split; [reflexivity|]. split; [auto|].
    change (zlen []) with 0. pose proof (zlen_nonneg xs). lia.
  - destruct (0 <? zlen xs) eqn:R; [|discriminate]. injection E as <- <-.
    do 2 eexists. split; [reflexivity|]. split; [reflexivity|]. split; auto. lia.
  - injection E as <- <-. do 2 eexists. split; [reflexivity|]. split; [reflexivity|]. split; auto. lia.
Qed.

(** The typed call is the byte-level one, but for reading the result. *)
Lemma tstep_vstep dbg t xs cap v o v' vo out : vrep (width t) xs cap v ->
  vstep dbg v (tr t o) = Ok (v', vo) -> out_rel t vo out ->
  tstep dbg t v o = Ok (v', out).
Proof.
  intros H E R. destruct H as [[tl Hb] Hu Hl Hc He Hp Hs Hm Hle Hcp].
  destruct o as [x|x|x i|x i|i| | |i rs|x| | |]; cbn [tstep tr vstep] in *.
  - unfold vec_push_back_t. apply bind_ok in E as (v1 & -> & E). cbn [bind]. injection E as <- <-.
    cbn in R. subst. reflexivity.
  - unfold vec_push_front_t. apply bind_ok in E as (v1 & -> & E). cbn [bind]. injection E as <- <-.
    cbn in R. subst. reflexivity.
  - unfold vec_insert_t. apply bind_ok in E as (v1 & -> & E). cbn [bind]. injection E as <- <-.
    cbn in R. subst. reflexivity.
  - unfold vec_set_t. apply bind_ok in E as (v1 & -> & E). cbn [bind]. injection E as <- <-.
    cbn in R. subst. reflexivity.
  - apply bind_ok in E as (c & E1 & E). injection E as <- <-. destruct R as (x & Hx & -> & ->).
    unfold vec_get_t. unfold vec_get in E1. apply bind_ok in E1 as (off & E2 & E1). rewrite E2. cbn [bind].
    rewrite He in E1.
    assert (off mod width t = 0).
    { unfold vec_get_ptr, array_get in E2. apply bind_ok in E2 as (u1 & _ & E2).
      apply bind_ok in E2 as (u2 & _ & E2). injection E2 as <-. rewrite He. unfold w64, two64.
      destruct t; cbn [width]; rewrite ?Z.mod_1_r, ?Z.mul_1_r; auto;
        change 18446744073709551616 with (2 * (2 * (2 * 2305843009213693952))) || idtac;
        Z.to_euclidean_division_equations; lia. }
    rewrite (deref_enc t _ off x) by assumption. reflexivity.
  - unfold vec_pop_get_t. destruct (vec_pop_get v) as [v1 [off|]] eqn:P.
    + apply bind_ok in E as (c & E1 & E). injection E as <- <-. destruct R as (x & Hx & -> & ->).
      assert (A1 : a_es v1 = width t /\ off mod width t = 0).
      { unfold vec_pop_get in P. destruct (0 <? a_len v); [|discriminate]. injection P as <- <-.
        cbn. split; [auto|]. rewrite He. unfold w64, two64.
        destruct t; cbn [width]; rewrite ?Z.mod_1_r, ?Z.mul_1_r; auto;
          Z.to_euclidean_division_equations; lia. }
      destruct A1 as [A1 A2]. rewrite A1 in E1.
      rewrite (deref_enc t _ off x) by assumption. reflexivity.
    + injection E as <- <-. cbn in R. subst. reflexivity.
  - injection E as <- <-. cbn in R. subst. reflexivity.
  - apply bind_ok in E as (v1 & -> & E). cbn [bind]. injection E as <- <-.
    cbn in R. subst. reflexivity.
  - apply bind_ok in E as (v1 & E1 & E). injection E as <- <-. cbn in R. subst.
    unfold vec_can_find_t. rewrite He, Z.ltb_irrefl. cbn [andb].
    rewrite firstn_all2 by (pose proof (enc_len t x); unfold zlen in *; lia).
    rewrite E1. reflexivity.
  - injection E as <- <-. cbn in R. subst. reflexivity.
  - apply bind_ok in E as (v1 & -> & E). cbn [bind]. injection E as <- <-.
    cbn in R. subst. reflexivity.
  - injection E as <- <-. cbn in R. subst. reflexivity.
Qed.

Lemma trun_rep dbg t ops : forall xs cap v B xs' outs, vrep (width t) (map (enc t) xs) cap v ->
  Forall (typed t) xs -> Forall (args_typed t) ops ->
  zlen xs <= B -> cap <= 3 * B -> 3 * (B + zlen ops) * width t <= alloc_max ->
  lrun xs ops = Some (xs', outs) ->
  exists v' cap', trun dbg t v ops = Ok (v', outs) /\ vrep (width t) (map (enc t) xs') cap' v' /\ Forall (typed t) xs'.
Proof.
  induction ops as [|o ops IH]; intros xs cap v B xs' outs H Hx Ha HB HcB Hm E; cbn [lrun trun] in *.
  - injection E as <- <-. eauto.
  - destruct (lstep xs o) as [[xs1 out]|] eqn:E1; [|discriminate].
    destruct (lrun xs1 ops) as [[xs2 outs2]|] eqn:E2; [|discriminate]. injection E as <- <-.
    inversion Ha as [|? ? Ha1 Ha2]; subst. rewrite zlen_cons in Hm.
    pose proof (width_pos t). pose proof (zlen_nonneg ops).
    destruct (lstep_sstep t xs cap o xs1 out B) as (cap1 & vo & Es & R & Hx1 & Hc1 & HB1 & HcB1 & Hle1); auto.
    { destruct H; auto. } { destruct H. rewrite zlen_map in *. lia. } { nia. }
    destruct (vstep_rep dbg _ _ _ v _ _ _ _ H Es) as (v1 & Ev & Hv1 & _).
    rewrite (tstep_vstep dbg t _ cap v o v1 vo out H Ev R). cbn [bind fst snd].
    destruct (IH xs1 cap1 v1 (B + 1) xs2 outs2 Hv1 Hx1 Ha2) as (v2 & cap2 & -> & Hv2 & Hx2); auto; try lia.
    cbn [bind fst snd]. eauto.
Qed.

(** Every sequence of typed calls behaves as on a list of numbers. *)
Lemma typed_refines dbg t n ops xs outs : 0 < n -> 3 * (n + zlen ops) * width t <= alloc_max ->
  Forall (args_typed t) ops -> lrun [] ops = Some (xs, outs) ->
  exists v0 v, vec_create dbg n (width t) = Ok v0 /\ trun dbg t v0 ops = Ok (v, outs) /\
    vec_len v = zlen xs /\
    forall i, 0 <= i < zlen xs -> vec_get_t dbg t v i = Ok (nth (Z.to_nat i) xs 0).
Proof.
  intros Hn Hm Ha E. pose proof (width_pos t) as W. pose proof (zlen_nonneg ops).
  destruct (vec_create_rep dbg n (width t)) as (v0 & Hv0 & H0); [lia|lia|nia|].
  destruct (trun_rep dbg t ops [] n v0 n xs outs) as (v & cap & Ev & Hv & Hx); auto; try lia.
  { rewrite zlen_nil. lia. }
  exists v0, v. split; [auto|]. split; [auto|]. split.
  { unfold vec_len. rewrite (vr_len _ _ _ _ Hv). zl. reflexivity. }
  intros i Hi. destruct (vec_get_rep dbg _ _ _ _ i Hv) as (c & Hc & Hg); [zl; lia|].
  assert (Et : tstep dbg t v (TGet i) = Ok (v, Some (nth (Z.to_nat i) xs 0))).
  { apply (tstep_vstep dbg t (map (enc t) xs) cap v (TGet i) v (OElem (map Some c))); auto.
    - cbn [tr vstep]. rewrite Hg. reflexivity.
    - cbn. exists (nth (Z.to_nat i) xs 0).
      rewrite nth_error_map in Hc. destruct (nth_error xs (Z.to_nat i)) as [x|] eqn:Ex; [|discriminate].
      injection Hc as <-. rewrite (nth_error_nth _ _ 0 Ex). split; [|auto].
      apply nth_error_In in Ex. rewrite Forall_forall in Hx. auto. }
  cbn [tstep] in Et. destruct (vec_get_t dbg t v i); cbn [bind] in Et; congruence.
Qed.

(** * Spans *)

(** A span over memory holding the numbers [xs] of type [t], at an aligned address. *)
Lemma span_get_typed dbg t pre xs post i : Forall (typed t) xs -> zlen pre mod width t = 0 ->
  zlen xs * width t < two64 -> 0 <= i < zlen xs ->
  span_get_t dbg t (pre ++ map Some (concat (map (enc t) xs)) ++ post)
    (mk_span (zlen pre) (zlen xs) (width t)) i = Ok (nth (Z.to_nat i) xs 0).
Proof.
  intros Hx Ha Hm Hi. pose proof (width_pos t) as W.
  unfold span_get_t. cbn [s_len s_off s_es]. rewrite !dassert_true by lia. cbn [bind].
  rewrite w64_small by nia.
  destruct (split_elem xs i Hi) as (p & x & s & -> & Hpl).
  apply Forall_app in Hx as [_ Hx]. inversion Hx; subst.
  rewrite to_nat_zlen, app_nth2, Nat.sub_diag by lia. cbn [nth].
  apply deref_enc; auto.
  - rewrite Z.mod_add by lia. auto.
  - rewrite map_app. cbn [map]. rewrite concat_mid, <- !app_assoc, app_assoc.
    apply bread_app.
    + zl. rewrite (zlen_concat (width t)) by apply uniform_enc. zl. lia.
    + zl. symmetry; apply enc_len.
Qed.

Lemma span_set_typed dbg t pre p x s post y : zlen (p ++ x :: s) * width t < two64 ->
  span_set_t dbg t (pre ++ map Some (concat (map (enc t) (p ++ x :: s))) ++ post)
    (mk_span (zlen pre) (zlen (p ++ x :: s)) (width t)) y (zlen p) =
  Ok (pre ++ map Some (concat (map (enc t) (p ++ y :: s))) ++ post).
Proof.
  intros Hm. unfold span_set_t, span_set. cbn [s_len s_off s_es]. pose proof (width_pos t) as W.
  assert (zlen (p ++ x :: s) = zlen p + 1 + zlen s) by (zl; lia). pose proof (zlen_nonneg s). pose proof (zlen_nonneg p).
  rewrite !dassert_true by lia. cbn [bind].
  rewrite ext_read by apply enc_len. cbn [bind]. rewrite w64_small by nia.
  rewrite !map_app. cbn [map]. rewrite !concat_mid, <- !app_assoc, (app_assoc pre), (app_assoc pre).
  apply bwrite_app.
  - zl. rewrite (zlen_concat (width t)) by apply uniform_enc. zl. lia.
  - zl. rewrite !enc_len. reflexivity.
Qed.

(** * Element size and type differ *)

Lemma enc_firstn t x n : 0 <= n <= width t -> zlen (firstn (Z.to_nat n) (enc t x)) = n.
Proof. intros H. pose proof (enc_len t x). unfold zlen in *. rewrite firstn_length. lia. Qed.

(** A type wider than the elements: the low bytes are stored. *)
Lemma push_narrow dbg t es xs cap v x : vrep es xs cap v -> es <= width t ->
  grown (zlen xs) cap * es <= alloc_max ->
  exists v', vec_push_back_t dbg t v x = Ok v' /\
    vrep es (xs ++ [firstn (Z.to_nat es) (enc t x)]) (grown (zlen xs) cap) v'.
Proof.
  intros H He Hm. assert (P : 0 < es) by (destruct H; auto).
  destruct (vec_push_back_rep dbg es xs cap v (firstn (Z.to_nat es) (enc t x)) H) as (v' & Ev & Hv & _);
    [apply enc_firstn; lia|lia|].
  exists v'. split; [|auto]. unfold vec_push_back_t. rewrite <- Ev. unfold vec_push_back.
  destruct (vec_grow dbg v) as [g| | |] eqn:G; cbn [bind]; auto.
  assert (Eg : a_es (fst g) = es).
  { destruct (vec_grow_rep dbg es xs cap v H Hm) as (w & m & Eg & Hw & _). rewrite G in Eg.
    injection Eg as ->. destruct Hw; auto. }
  rewrite Eg. unfold copy_val.
  replace (bread (map Some (enc t x)) 0 es) with (bread (map Some (firstn (Z.to_nat es) (enc t x))) 0 es); auto.
  rewrite ext_read by (apply enc_firstn; lia).
  rewrite <- (firstn_skipn (Z.to_nat es) (enc t x)) at 2. rewrite map_app.
  symmetry. pose proof (bread_app [] (map Some (firstn (Z.to_nat es) (enc t x)))
    (map Some (skipn (Z.to_nat es) (enc t x))) 0 es) as B. cbn [app] in B. apply B.
  - reflexivity.
  - rewrite zlen_map. symmetry. apply enc_firstn. lia.
Qed.
