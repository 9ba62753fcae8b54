(** C180: blocks the allocator does not own. *)
From Coq Require Import Permutation Lia.
From Verif Require Import Base BaseFacts HeapModel AllocModel AllocSpec AllocProofs AllocMain PropsAlloc.

Lemma find_total k : forall t q i, find_loop k t q i = UB \/ exists r, find_loop k t q i = Ok r.
Proof.
  induction k as [|k IH]; intros t q i; cbn [find_loop]; [right; eexists; reflexivity|].
  assert (tab_get t i = UB \/ exists e, tab_get t i = Ok e) as [->|(e & ->)].
  { unfold tab_get. destruct (0 <=? i); [|now left]. destruct (nth_error t (Z.to_nat i)) as [[e|]|]; [right; now exists e|now left..]. }
  - now left.
  - cbn [bind]. destruct (fst e =? q); [right; eexists; reflexivity|apply IH].
Qed.
Lemma remove_total dbg a q : q <> 0 -> obj_list_remove dbg a q = UB \/ exists r, obj_list_remove dbg a q = Ok r.
Proof.
  intros Q. unfold obj_list_remove, obj_list_find. rewrite !dassert_true by (apply negb_true_iff, Z.eqb_neq; auto). cbn [bind].
  destruct (0 <? tlen a); [|right; eexists; reflexivity].
  destruct (find_total (Z.to_nat (tlen a)) (tab a) q 0) as [->|(i & ->)]; [now left|]. cbn [bind].
  destruct (i <? 0); [right; eexists; reflexivity|].
  assert (forall t i, tab_get t i = UB \/ exists e, tab_get t i = Ok e) as G.
  { intros t j. unfold tab_get. destruct (0 <=? j); [|now left]. destruct (nth_error t (Z.to_nat j)) as [[e|]|]; [right; now exists e|now left..]. }
  destruct (G (tab a) i) as [->|(e & ->)]; [now left|]. cbn [bind].
  destruct (negb (i =? s64 (tlen a - 1))); cbn [bind]; [|right; eexists; reflexivity].
  destruct (G (tab a) (w64 (tlen a - 1))) as [->|(l & ->)]; [now left|]. cbn [bind].
  unfold tab_set. destruct ((0 <=? i) && (i <? zlen (tab a))); [right; eexists; reflexivity|now left].
Qed.
Lemma dead_free dbg s a q : q <> 0 -> hlookup (s_heap s) q = None -> mallocator_free dbg s a q = UB.
Proof.
  intros Q H. unfold mallocator_free. rewrite dassert_true by (apply negb_true_iff, Z.eqb_neq; auto). cbn [bind].
  destruct (remove_total dbg a q Q) as [->|(r & ->)]; [reflexivity|]. cbn [bind]. unfold sys_free. apply Z.eqb_neq in Q. now rewrite Q, H.
Qed.
Lemma dead_realloc dbg p s a q n : q <> 0 -> 0 < n -> hlookup (s_heap s) q = None -> mallocator_realloc dbg p s a q n = UB.
Proof.
  intros Q N H. unfold mallocator_realloc. rewrite dassert_true by (apply negb_true_iff, Z.eqb_neq; auto). cbn [bind]. rewrite dassert_true by (apply Z.ltb_lt; lia). cbn [bind].
  destruct (remove_total dbg a q Q) as [->|(r & ->)]; [reflexivity|]. cbn [bind]. unfold sys_realloc. rewrite dassert_true by (apply Z.ltb_lt; lia). cbn [bind]. now rewrite H.
Qed.

(** ** C180 Blocks the allocator does not own are refused *)
(** False: after every sequence of calls, a block that was freed and is freed or reallocated again
    reaches the C library, which is undefined, although the allocator knows which blocks are live; the
    same for every other address that is no block. *)
Theorem C180_twice_refuted : forall dbg p h0 ops, valid_policy p -> start_heap h0 -> zlen ops <= call_limit ->
  exists s a c, session dbg p h0 ops = Ok (s, a, c) /\
  forall q n, In (q, n) (blocks c) ->
    exists s' a', mallocator_free dbg s a q = Ok (s', a') /\ mallocator_free dbg s' a' q = UB /\
      forall m, 0 < m -> mallocator_realloc dbg p s' a' q m = UB.
Proof.
  intros dbg p h0 ops V W B. destruct (session_good dbg p h0 ops V W B) as [s [a [c [T [E G]]]]]. exists s, a, c. split; [exact E|].
  intros q n I. destruct (In_nth_error _ _ I) as (j & Hj). pose proof (zlen_nonneg ops).
  destruct (free_good dbg h0 _ s a c T j q n G ltac:(lia) Hj) as [s' [a' [T' [E' [_ [D _]]]]]]. exists s', a'. split; [exact E'|].
  assert (q <> 0) as Q. { pose proof (g_inv _ _ _ _ _ _ G) as J. assert (In (q, n) T) as IT by (eapply Permutation_in; [apply Permutation_sym, G|exact I]).
    destruct (i_sizes _ _ _ _ _ J _ _ IT) as [_ [b [L _]]]. intros ->. apply (proj2 (i_wf _ _ _ _ _ J)). eapply hlookup_some_in; eauto. }
  split; [now apply dead_free|]. intros m M. now apply dead_realloc.
Qed.
Print Assumptions C180_twice_refuted.
Theorem C180_no_block_refuted : forall dbg p s a q n, q <> 0 -> 0 < n -> hlookup (s_heap s) q = None ->
  mallocator_free dbg s a q = UB /\ mallocator_realloc dbg p s a q n = UB.
Proof. intros dbg p s a q n Q N H. split; [now apply dead_free|now apply dead_realloc]. Qed.
Print Assumptions C180_no_block_refuted.

(** A block of another owner is taken over by vt_mallocator_realloc: recorded, counted with its whole
    new size (as if nothing had been allocated for it before), its contents kept, all else unchanged
    (vt_mallocator_free of such a block: C78). *)
Lemma inv_adopt h0 s a T q b : wf_heap h0 -> inv h0 s a [] T -> hlookup h0 q = Some b -> 0 < zlen b <= alloc_max ->
  inv (hremove h0 q) s a [(q, zlen b)] T.
Proof.
  intros W0 [W SH ND SE TA SI FR NW] HB Lb. cbn [app] in *.
  assert (NO : ~ In q (owned a T)) by (intros X; apply NW in X; congruence).
  constructor; auto; cbn [app].
  - unfold owned in *. cbn [map fst]. inversion ND as [|? ? N1 ND1]. inversion ND1 as [|? ? N2 ND2]. subst.
    constructor; [|constructor; [|constructor; [|exact ND2]]].
    + intros [X|[X|X]]; [apply N1; left; auto|subst; apply NO; left; auto|apply N1; right; auto].
    + intros [X|X]; [subst; apply NO; right; left; auto|auto].
    + intros X. apply NO. right. right. exact X.
  - intros x n [X|X]; [|now apply SI]. injection X as <- <-. split; [exact Lb|]. exists b. split; [|reflexivity]. rewrite (FR q NO). exact HB.
  - intros x X. rewrite hremove_other by (intros ->; apply X; right; right; left; reflexivity). apply FR. intros Y. apply X.
    destruct Y as [Y|[Y|Y]]; [left|right; left|right; right; right]; auto.
  - intros x [X|[X|[X|X]]].
    + rewrite hremove_other; [apply NW; left; auto|]. intros Y. apply NO. left. congruence.
    + rewrite hremove_other; [apply NW; right; left; auto|]. intros Y. apply NO. right. left. congruence.
    + cbn in X. subst x. apply hremove_same, W0.
    + rewrite hremove_other; [apply NW; right; right; auto|]. intros ->. apply NO. right. right. exact X.
Qed.
Theorem C180_adopted : forall dbg p h0 ops q b n, valid_policy p -> start_heap h0 -> zlen ops <= call_limit ->
  hlookup h0 q = Some b -> 0 < zlen b <= alloc_max -> 0 < n <= alloc_max ->
  exists s a c s' a' q', session dbg p h0 ops = Ok (s, a, c) /\ mallocator_realloc dbg p s a q n = Ok (s', a', q') /\
    tracked a' = tracked a ++ [Some (q', n)] /\ c_bytes a' = w64 (c_bytes a + n) /\ c_reallocs a' = w64 (c_reallocs a + 1) /\
    c_allocs a' = c_allocs a /\ c_frees a' = c_frees a /\ c_freed a' = c_freed a /\
    hlookup (s_heap s') q' = Some (firstn (Z.to_nat n) b ++ repeat None (Z.to_nat n - length b)%nat) /\
    forall x m bx, In (x, m) (blocks c) -> hlookup (s_heap s) x = Some bx -> hlookup (s_heap s') x = Some bx.
Proof.
  intros dbg p h0 ops q b n V W B HB Lb N. destruct (session_good dbg p h0 ops V W B) as [s [a [c [T [E G]]]]].
  destruct G as [I P GL GC A1 A2 A3 A4 A5]. pose proof I as [WF SH ND SE TA SI FR NW]. cbn [app] in *.
  assert (Q0 : q <> 0) by (intros ->; apply (proj2 W); eapply hlookup_some_in; eauto).
  assert (NO : ~ In q (owned a T)) by (intros X; apply NW in X; congruence).
  pose proof (zlen_nonneg ops). unfold call_limit in B.
  exists s, a, c. unfold mallocator_realloc. rewrite dassert_true by (apply negb_true_iff, Z.eqb_neq; auto). cbn [bind].
  rewrite dassert_true by (apply Z.ltb_lt; lia). cbn [bind].
  rewrite (remove_absent dbg a T q SH Q0) by (intros X; apply NO; right; right; auto). cbn [bind fst snd].
  pose proof (inv_adopt h0 s a T q b W I HB Lb) as I1.
  destruct (realloc_inv dbg p _ s a [] T q (zlen b) n V I1 N) as [s2 [q' [E2 [I2 [Q' [b' [B1 B2]]]]]]]. rewrite E2. cbn [bind fst snd].
  destruct (add_inv dbg p _ s2 a [] T q' n V I2 Q') as [s3 [a3 [E3 [I3 [C3 [CC3 H3]]]]]]; [unfold obj_size, alloc_max in *; lia|]. rewrite E3. cbn [bind fst snd].
  injection C3 as F1 F2 F3 F4 F5.
  assert (b' = b) as -> by (rewrite (FR q NO) in B1; congruence).
  rewrite s64_small by (unfold alloc_max in *; lia).
  exists s3. eexists. exists q'. split; [exact E|]. split; [reflexivity|].
  cbn [c_allocs c_reallocs c_frees c_bytes c_freed]. unfold tracked. cbn [tab tlen].
  assert (0 <= c_freed a < two64) as RF by (rewrite A5; unfold w64; apply Z.mod_pos_bound; reflexivity).
  split.
  { pose proof (i_shape _ _ _ _ _ I3) as (J3 & S31 & S32 & _). destruct SH as (J & S1 & S2 & _). rewrite S31, S32, S1, S2, !to_nat_zlen.
    rewrite <- (map_length Some (T ++ [(q', n)])), <- (map_length Some T), !firstn_exact. now rewrite map_app. }
  rewrite F1, F2, F3, F4, F5, Z.sub_0_r. replace (n <? 0) with false by (symmetry; apply Z.ltb_ge; lia). rewrite Z.sub_0_r, (w64_small (c_freed a)) by exact RF.
  split; [reflexivity|]. split; [reflexivity|]. split; [reflexivity|]. split; [reflexivity|]. split; [reflexivity|]. split; [apply H3; [left; auto|exact B2]|].
  intros x m bx X Y. assert (X1 : In (x, m) T) by (eapply Permutation_in; [apply Permutation_sym; exact P|exact X]).
  assert (X2 : In x (map fst T)) by (apply in_map_iff; exists (x, m); auto).
  apply H3; [right; auto|].
  assert (x <> q) by (intros ->; apply NO; right; right; exact X2).
  assert (x <> q') by (intros ->; apply (owned_user _ _ _ _ _ _ I2); auto).
  unfold sys_realloc in E2. rewrite dassert_true in E2 by (apply Z.ltb_lt; lia). cbn [bind] in E2.
  rewrite B1, c_realloc_ok in E2 by auto. cbn [bind] in E2. apply enforce_inv in E2. injection E2 as <- EQ.
  rewrite EQ. cbn. rewrite (proj2 (Z.eqb_neq q' x)) by auto. rewrite hremove_other; auto.
Qed.
Print Assumptions C180_adopted.

Example C180_example :
  exists s a c s' a', session true bump ex_heap [AAlloc 3; AAlloc 4] = Ok (s, a, c) /\ blocks c = [(9, 4); (8, 3)] /\
    mallocator_free true s a 8 = Ok (s', a') /\ mallocator_free true s' a' 8 = UB /\ mallocator_realloc true bump s' a' 8 5 = UB /\
    exists s2 a2, mallocator_realloc true bump s' a' 5 3 = Ok (s2, a2, 5) /\ hlookup (s_heap s2) 5 = Some [Some 1; Some 2; None] /\
      c_bytes a2 = 7 /\ tracked a2 = [Some (9, 4); Some (5, 3)].
Proof. do 5 eexists. split; [vm_compute; reflexivity|]. split; [vm_compute; reflexivity|]. split; [vm_compute; reflexivity|]. split; [vm_compute; reflexivity|]. split; [vm_compute; reflexivity|]. do 2 eexists. split; [vm_compute; reflexivity|]. split; [vm_compute; reflexivity|]. split; vm_compute; reflexivity. Qed.
