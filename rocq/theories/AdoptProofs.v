(** Blocks that the tracking allocator did not hand out itself and that are reallocated
    through it (a string made by vt_str_take_ownership that grows). *)
From Coq Require Import Permutation.
From Verif Require Import Base BaseFacts HeapModel AllocModel AllocSpec AllocProofs AllocMain.

(** The client afterwards: it holds the new block. *)
Definition adopted (c : client) (q n : Z) : client :=
  mk_client ((q, n) :: blocks c) (n_allocs c) (n_reallocs c + 1) (n_frees c) (released c).

Lemma adopt_inv h0 s a T q b : start_heap h0 -> inv h0 s a [] T -> hlookup h0 q = Some b -> 0 < zlen b <= alloc_max ->
  inv (hremove h0 q) s a [(q, zlen b)] T.
Proof.
  intros W I HB LB. pose proof I as [WF SH ND SE TA SI FR NW]. cbn [app] in *.
  assert (NO : ~ In q (owned a T)) by (intros X; apply NW in X; congruence).
  assert (OW : forall x, In x (owned a ([(q, zlen b)] ++ T)) <-> x = q \/ In x (owned a T)).
  { intros x. unfold owned. cbn. intuition congruence. }
  constructor; auto.
  - unfold owned in *. cbn [app map fst]. inversion ND as [|? ? N1 ND1]; subst. inversion ND1 as [|? ? N2 ND2]; subst. cbn [In] in *.
    constructor; [|constructor; [|constructor; auto]]; cbn [In]; intuition congruence.
  - intros x m [X|X].
    + injection X as <- <-. split; auto. exists b. split; auto. rewrite (FR q NO). auto.
    + apply SI. exact X.
  - intros x X. rewrite OW in X. rewrite hremove_other by tauto. apply FR. tauto.
  - intros x X. rewrite OW in X. destruct X as [->|X]; [apply hremove_same, W|].
    destruct (Z.eq_dec x q) as [->|N]; [tauto|]. rewrite hremove_other by auto. auto.
Qed.

Lemma adopt_good dbg p h0 k s a c T q b n : valid_policy p -> start_heap h0 -> good h0 k s a c T -> 0 <= k <= call_limit ->
  hlookup h0 q = Some b -> 0 < zlen b <= alloc_max -> sane n = true ->
  exists s' a' q' T', mallocator_realloc dbg p s a q n = Ok (s', a', q')
    /\ good (hremove h0 q) (k + 1) s' a' (adopted c q' n) T'
    /\ hlookup (s_heap s') q' = Some (overlay b n)
    /\ kept (s_heap s) (s_heap s') (blocks c).
Proof.
  intros V W G K HB LB SN. apply sane_spec in SN. destruct G as [I P GL GC A1 A2 A3 A4 A5].
  unfold call_limit in K.
  assert (P0 : q <> 0) by (intros ->; apply (proj2 W); eapply hlookup_some_in; eauto).
  assert (NO : ~ In q (owned a T)) by (intros X; apply (i_new _ _ _ _ _ I) in X; congruence).
  pose proof (adopt_inv h0 s a T q b W I HB LB) as I1.
  unfold mallocator_realloc.
  rewrite dassert_true by (apply negb_true_iff, Z.eqb_neq; auto). cbn [bind].
  rewrite dassert_true by (apply Z.ltb_lt; lia). cbn [bind].
  rewrite (remove_absent dbg a T q (i_shape _ _ _ _ _ I) P0) by (intros X; apply NO; right; right; auto).
  cbn [bind fst snd].
  destruct (realloc_inv dbg p _ s a [] T q (zlen b) n V I1 SN) as [s2 [q' [E2 [I2 [Q0 [b' [B1 B2]]]]]]].
  rewrite (i_frame _ _ _ _ _ I q NO), HB in B1. injection B1 as <-.
  rewrite E2. cbn [bind fst snd].
  destruct (add_inv dbg p _ s2 a [] T q' n V I2 Q0) as [s3 [a3 [E3 [I3 [C3 [CC3 H3]]]]]].
  { unfold obj_size, alloc_max in *. lia. }
  rewrite E3. cbn [bind fst snd]. injection C3 as F1 F2 F3 F4 F5.
  rewrite s64_small by lia.
  eexists s3, _, q', (T ++ [(q', n)]). split; [reflexivity|]. split; [|split].
  - constructor; cbn [adopted blocks n_allocs n_reallocs n_frees released c_allocs c_reallocs c_frees c_bytes c_freed tcap].
    + eapply inv_ext; [..|exact I3]; reflexivity.
    + eapply Permutation_trans; [apply Permutation_sym, Permutation_cons_append|]. now constructor.
    + autorewrite with zlen. lia.
    + lia.
    + congruence.
    + rewrite F2, A2. apply w64_add.
    + congruence.
    + rewrite F4, A4, w64_add, total_cons. cbn [snd]. f_equal. lia.
    + rewrite F5, A5, w64_sub. replace (n - 0 <? 0) with false by (symmetry; apply Z.ltb_ge; lia). now rewrite Z.sub_0_r.
  - apply H3; [left; auto|auto].
  - intros x m bb X Y. assert (X1 : In (x, m) T).
    { eapply Permutation_in; [apply Permutation_sym; exact P|exact X]. }
    assert (X2 : In x (map fst T)) by (apply in_map_iff; exists (x, m); auto).
    apply H3; [right; auto|].
    assert (x <> q) by (intros ->; apply (owned_user _ _ _ _ _ _ I1); auto).
    assert (x <> q') by (intros ->; apply (owned_user _ _ _ _ _ _ I2); auto).
    unfold sys_realloc in E2. rewrite dassert_true in E2 by (apply Z.ltb_lt; lia). cbn [bind] in E2.
    rewrite (i_frame _ _ _ _ _ I q NO), HB, c_realloc_ok in E2 by auto. cbn [bind] in E2. apply enforce_inv in E2. injection E2 as <- EQ.
    rewrite EQ. cbn. rewrite (proj2 (Z.eqb_neq q' x)) by auto. rewrite hremove_other; auto.
Qed.

Lemma adopt_exact dbg p h0 ops ops' q b n : valid_policy p -> start_heap h0 -> zlen ops + zlen ops' < call_limit ->
  hlookup h0 q = Some b -> 0 < zlen b <= alloc_max -> sane n = true ->
  exists s a c s1 a1 q1 s2 a2 c2 s3,
    session dbg p h0 ops = Ok (s, a, c) /\
    mallocator_realloc dbg p s a q n = Ok (s1, a1, q1) /\
    hlookup (s_heap s1) q1 = Some (overlay b n) /\ kept (s_heap s) (s_heap s1) (blocks c) /\
    client_run dbg p (s1, a1, adopted c q1 n) ops' = Ok (s2, a2, c2) /\
    (c_allocs a2 = w64 (n_allocs c2) /\ c_reallocs a2 = w64 (n_reallocs c2) /\ c_frees a2 = w64 (n_frees c2) /\
     c_bytes a2 = w64 (AllocSpec.total (blocks c2)) /\ c_freed a2 = w64 (released c2)) /\
    mallocator_destroy s2 a2 = Ok s3 /\ hlookup (s_heap s3) q = None /\
    (forall x, x <> q -> hlookup (s_heap s3) x = hlookup h0 x).
Proof.
  intros V W B HB LB SN. pose proof (zlen_nonneg ops). pose proof (zlen_nonneg ops').
  destruct (session_good dbg p h0 ops V W) as [s [a [c [T [E G]]]]]; [lia|].
  destruct (adopt_good dbg p h0 (zlen ops) s a c T q b n V W G) as [s1 [a1 [q1 [T1 [E1 [G1 [C1 K1]]]]]]]; auto; [lia|].
  destruct (run_good dbg p _ ops' V (zlen ops + 1) s1 a1 _ T1 G1) as [s2 [a2 [c2 [T2 [E2 G2]]]]]; [lia..|].
  destruct (destroy_good _ _ _ _ _ _ G2) as [s3 [E3 D3]].
  exists s, a, c, s1, a1, q1, s2, a2, c2, s3.
  do 5 (split; [assumption|]). split; [destruct G2; auto 7|]. split; [exact E3|]. split.
  - rewrite D3. apply hremove_same, W.
  - intros x X. rewrite D3. now apply hremove_other.
Qed.
