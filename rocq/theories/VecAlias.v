(** Passing a pointer to one of the vector's own elements as the value. *)
From Verif Require Import Base BaseFacts VecModel VecSpec VecProofs VecProofs2.
From Coq Require Import ZifyBool ZifyNat.

Lemma bmove_below b dst src n b' o m : bmove b dst src n = Ok b' -> 0 <= o -> 0 <= m -> o + m <= dst ->
  bread b' o m = bread b o m.
Proof.
  unfold bmove. destruct (n =? 0); [intros [= ->]; reflexivity|].
  intros H Ho Hm Hd. apply bind_ok in H as (d & Hr & Hw).
  unfold bwrite in Hw. destruct ((0 <=? dst) && (dst + zlen d <=? zlen b)) eqn:E; [|discriminate].
  injection Hw as <-. unfold bread. pose proof (zlen_nonneg d).
  assert (length (firstn (Z.to_nat dst) b) = Z.to_nat dst) as L by (rewrite firstn_length; unfold zlen in *; lia).
  replace ((0 <=? o) && (0 <=? m) && (o + m <=? zlen b)) with true by lia.
  replace (_ && _) with true.
  2:{ rewrite !zlen_app, zlen_firstn, zlen_skipn. unfold zlen in *. lia. }
  f_equal. apply firstn_skipn_prefix; unfold zlen in *; lia.
Qed.

Lemma copy_own b off o es x : bread b o es = Ok (map Some x) -> zlen x = es ->
  off = o \/ off + es <= o \/ o + es <= off ->
  copy_val b false off (Own o) es = copy_val b false off (Ext x) es.
Proof.
  intros Hr Hx Hd. unfold copy_val, bcopy_in. rewrite Hr, ext_read by assumption. cbn [bind].
  destruct (Z.eqb_spec off o); [reflexivity|].
  replace ((off <? o + es) && (o <? off + es)) with false by lia. reflexivity.
Qed.

Lemma rep_read es p x s cap v : vrep es (p ++ x :: s) cap v ->
  bread (a_blk v) (zlen p * es) es = Ok (map Some x) /\ zlen x = es.
Proof.
  intros [[tl Hb] Hu Hl Hc He Hp Hs Hm Hle Hcp].
  apply uniform_app in Hu as [Hu1 Hu2]. apply uniform_cons in Hu2 as [Hx Hu2].
  split; [|exact Hx]. rewrite Hb, concat_mid, <- !app_assoc. apply bread_app.
  - rewrite zlen_map, (zlen_concat es p Hu1). reflexivity.
  - rewrite zlen_map. lia.
Qed.

Lemma own_ptr dbg es p x s cap v : vrep es (p ++ x :: s) cap v ->
  vec_get_ptr dbg v (zlen p) = Ok (zlen p * es).
Proof.
  intros [[tl Hb] Hu Hl Hc He Hp Hs Hm Hle Hcp]. unfold vec_get_ptr, array_get.
  autorewrite with zlen in *. pose proof (zlen_nonneg p). pose proof (zlen_nonneg s).
  rewrite !dassert_true by lia. cbn [bind]. rewrite He, (w64_mul (zlen p) cap es) by lia. reflexivity.
Qed.

Lemma vec_set_own dbg es p x s cap v i : vrep es (p ++ x :: s) cap v -> 0 <= i < zlen (p ++ x :: s) ->
  exists o w, vec_get_ptr dbg v (zlen p) = Ok o /\ vec_set dbg v (Own o) i = Ok w /\
              vrep es (seq_update (p ++ x :: s) (Z.to_nat i) x) cap w.
Proof.
  intros H Hi. exists (zlen p * es).
  destruct (rep_read _ _ _ _ _ _ H) as [Hr Hx].
  destruct (vec_set_rep dbg es _ cap v x i H Hx Hi) as (w & Hw & Hrep & _).
  exists w. split; [eapply own_ptr; exact H|]. split; [|exact Hrep]. rewrite <- Hw.
  pose proof H as [[tl Hb] Hu Hl Hc He Hp Hs Hm Hle Hcp].
  unfold vec_set, array_set. rewrite He, (w64_mul i cap es) by lia.
  rewrite (copy_own _ _ _ _ x Hr Hx); [reflexivity|].
  destruct (Z.eq_dec i (zlen p)) as [->|N]; [auto|right].
  destruct (Z.lt_ge_cases i (zlen p)); [left|right]; nia.
Qed.

Lemma vec_push_own dbg es p x s cap v : vrep es (p ++ x :: s) cap v -> zlen (p ++ x :: s) < cap ->
  exists o w, vec_get_ptr dbg v (zlen p) = Ok o /\ vec_push_back dbg v (Own o) = Ok w /\
              vrep es ((p ++ x :: s) ++ [x]) cap w.
Proof.
  intros H Hlt. exists (zlen p * es).
  destruct (rep_read _ _ _ _ _ _ H) as [Hr Hx].
  assert (grown (zlen (p ++ x :: s)) cap = cap) as Hg by (unfold grown; replace (_ =? _) with false by lia; reflexivity).
  destruct (vec_push_back_rep dbg es _ cap v x H Hx) as (w & Hw & Hrep & _).
  { rewrite Hg. apply H. }
  rewrite Hg in Hrep.
  exists w. split; [eapply own_ptr; exact H|]. split; [|exact Hrep]. rewrite <- Hw.
  pose proof H as [[tl Hb] Hu Hl Hc He Hp Hs Hm Hle Hcp].
  assert (vec_grow dbg v = Ok (v, false)) as G.
  { unfold vec_grow, vec_has_space. rewrite Hc, Hl. pose proof (zlen_nonneg (p ++ x :: s)).
    rewrite (w64_le _ cap es) by lia. replace (_ =? 0) with false by lia. reflexivity. }
  unfold vec_push_back. rewrite G. cbn [bind fst snd].
  pose proof (zlen_nonneg (p ++ x :: s)).
  rewrite Hl, He, (w64_mul (zlen (p ++ x :: s)) cap es) by lia.
  rewrite (copy_own _ _ _ _ x Hr Hx); [reflexivity|].
  right. right. autorewrite with zlen. pose proof (zlen_nonneg s). nia.
Qed.

Lemma vec_push_own_full dbg es xs cap v o : vrep es xs cap v -> zlen xs = cap -> cap * 3 * es <= alloc_max ->
  vec_push_back dbg v (Own o) = UB.
Proof.
  intros H Hf Hm. destruct (vec_grow_rep dbg es xs cap v H) as (v' & m & Hg & _).
  { unfold grown. replace (cap =? zlen xs) with true by lia. exact Hm. }
  assert (m = true) as ->.
  { unfold vec_grow, vec_has_space in Hg.
    rewrite (vr_cap _ _ _ _ H), (vr_len _ _ _ _ H), Hf, Z.sub_diag in Hg.
    change (w64 0 =? 0) with true in Hg. cbv iota in Hg.
    apply bind_ok in Hg as (a & _ & Ha). congruence. }
  unfold vec_push_back. rewrite Hg. reflexivity.
Qed.

Lemma vec_insert_own dbg es p x s cap v i : vrep es (p ++ x :: s) cap v -> zlen (p ++ x :: s) < cap ->
  zlen p <= i < zlen (p ++ x :: s) ->
  exists o w, vec_get_ptr dbg v (zlen p) = Ok o /\ vec_insert dbg v (Own o) i = Ok w /\
              vrep es (seq_insert (p ++ x :: s) (Z.to_nat i) x) cap w.
Proof.
  intros H Hlt Hi. exists (zlen p * es).
  destruct (rep_read _ _ _ _ _ _ H) as [Hr Hx].
  assert (grown (zlen (p ++ x :: s)) cap = cap) as Hg by (unfold grown; replace (_ =? _) with false by lia; reflexivity).
  pose proof (zlen_nonneg p) as Hpn.
  destruct (vec_insert_rep dbg es _ cap v x i H Hx) as (w & Hw & Hrep & _); [lia|rewrite Hg; apply H|].
  rewrite Hg in Hrep.
  exists w. split; [eapply own_ptr; exact H|]. split; [|exact Hrep]. rewrite <- Hw.
  pose proof H as [[tl Hb] Hu Hl Hc He Hp Hs Hm Hle Hcp].
  assert (vec_grow dbg v = Ok (v, false)) as G.
  { unfold vec_grow, vec_has_space. rewrite Hc, Hl.
    rewrite (w64_le _ cap es) by lia. replace (_ =? 0) with false by lia. reflexivity. }
  unfold vec_insert in *. rewrite G in *. rewrite Hl in *.
  rewrite dassert_true in * by lia. cbn [bind fst snd] in *.
  apply bind_ok in Hw as (b & Hb1 & Hw). rewrite Hb1. cbn [bind].
  rewrite He in *. rewrite (w64_mul i cap es) in * by lia.
  rewrite (w64_le (i + 1) cap es), (w64_mul (i + 1) cap es) in Hb1 by lia.
  rewrite (copy_own b (i * es) (zlen p * es) es x); [reflexivity| |exact Hx|].
  - rewrite (bmove_below _ _ _ _ _ _ _ Hb1) by nia. exact Hr.
  - destruct (Z.eq_dec i (zlen p)) as [->|N]; [auto|right; right; nia].
Qed.

(** Inserting in front of the element the pointer refers to stores the element
    before it instead (here: element 2 at position 1 stores element 1). *)
Definition alias_vec : res arr :=
  let* v := vec_create true 4 1 in
  let* v := vec_push_back true v (Ext [10]) in
  let* v := vec_push_back true v (Ext [20]) in
  vec_push_back true v (Ext [30]).

Lemma vec_insert_own_wrong :
  exists v o w, alias_vec = Ok v /\ vec_get_ptr true v 2 = Ok o /\ vec_get true v 2 = Ok [Some 30] /\
    vec_insert true v (Own o) 1 = Ok w /\ vec_get true w 1 = Ok [Some 20].
Proof. do 3 eexists. run_steps. Qed.
