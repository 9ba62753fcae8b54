(** The allocator against its client. *)
From Coq Require Import Permutation.
From Verif Require Import Base BaseFacts HeapModel AllocModel AllocSpec AllocProofs.

Lemma total_cons e l : total (e :: l) = snd e + total l.
Proof. reflexivity. Qed.

Lemma total_perm l l' : Permutation l l' -> total l = total l'.
Proof. unfold total. induction 1 as [|? ? ? ? IH| |? ? ? ? IH1 ? IH2]; cbn [fold_right]; lia. Qed.

Lemma nth_error_perm {A} (l : list A) k e : nth_error l k = Some e -> Permutation l (e :: drop l k).
Proof.
  intros H. apply nth_error_split in H. destruct H as [l1 [l2 [-> <-]]]. unfold drop.
  rewrite firstn_exact. replace (S (length l1)) with (length (l1 ++ [e])) by (rewrite app_length; cbn; lia).
  replace (l1 ++ e :: l2) with ((l1 ++ [e]) ++ l2) by now rewrite <- app_assoc.
  rewrite skipn_exact. rewrite <- app_assoc. cbn [app]. apply Permutation_sym, Permutation_middle.
Qed.

Lemma w64_add a b : w64 (w64 a + b) = w64 (a + b).
Proof. unfold w64. apply Zplus_mod_idemp_l. Qed.
Lemma w64_sub a b : w64 (w64 a - b) = w64 (a - b).
Proof. unfold w64. apply Zminus_mod_idemp_l. Qed.

Lemma s64_small z : - alloc_max <= z <= alloc_max -> s64 z = z.
Proof.
  intros H. unfold s64, w64, alloc_max in *. change two64 with 18446744073709551616 in *.
  change (18446744073709551616 / 2) with 9223372036854775808.
  destruct (Z_lt_le_dec z 0).
  - rewrite <- (Z.mod_add z 1) by lia. rewrite Z.mod_small by lia.
    rewrite (proj2 (Z.ltb_ge _ _)) by lia. lia.
  - rewrite Z.mod_small by lia. rewrite (proj2 (Z.ltb_lt _ _)) by lia. lia.
Qed.

(** The state of allocator and client after any calls. *)
Record good (h0 : heap) (k : Z) (s : sys) (a : alc) (c : client) (T : list (Z * Z)) : Prop := {
  g_inv : inv h0 s a [] T;
  g_perm : Permutation T (blocks c);
  g_len : zlen T <= k;
  g_cap : tcap a <= 16 + 2 * k;
  g_allocs : c_allocs a = w64 (n_allocs c);
  g_reallocs : c_reallocs a = w64 (n_reallocs c);
  g_frees : c_frees a = w64 (n_frees c);
  g_bytes : c_bytes a = w64 (total (blocks c));
  g_freed : c_freed a = w64 (released c)
}.

Lemma create_good dbg p h0 n : valid_policy p -> wf_heap h0 ->
  exists s a, mallocator_create dbg p (mk_sys h0 n) = Ok (s, a) /\ good h0 0 s a client0 [].
Proof.
  intros V W. unfold mallocator_create, sys_calloc. cbn [s_clock s_heap].
  rewrite c_calloc_ok by (unfold alc_size, alloc_max; lia). cbn [bind fst snd s_clock s_heap].
  destruct (V n (addrs h0)) as [A0 AF]. set (q := choose p n (addrs h0)) in *.
  rewrite enforce_true by now apply nonzero. cbn [bind fst snd s_clock s_heap].
  rewrite c_calloc_ok by (vm_compute; split; congruence). cbn [bind fst snd].
  set (h1 := (q, repeat (Some 0) (Z.to_nat alc_size)) :: h0).
  destruct (V (S n) (addrs h1)) as [B0 BF]. set (r := choose p (S n) (addrs h1)) in *.
  rewrite enforce_true by now apply nonzero. cbn [bind fst snd].
  assert (W1 : wf_heap h1) by (apply wf_cons; auto).
  assert (RQ : r <> q) by (intros X; apply BF; left; auto).
  assert (RF : ~ In r (addrs h0)) by (intros X; apply BF; right; auto).
  eexists _, _. split; [reflexivity|].
  constructor; cbn [blocks client0 n_allocs n_reallocs n_frees released total fold_right c_allocs c_reallocs c_frees c_bytes c_freed tcap]; try reflexivity; try lia.
  constructor; cbn [s_heap app].
  - apply wf_cons; auto.
  - exists (repeat (Some (0, 0)) 16). cbn [tab tlen tcap]. repeat split; try reflexivity; try lia.
  - unfold owned. cbn. constructor; [|constructor; auto using NoDup_nil]. intros [X|[]]. auto.
  - cbn [self]. exists (repeat (Some 0) (Z.to_nat alc_size)). split; [|reflexivity].
    cbn. rewrite (proj2 (Z.eqb_neq _ _) RQ), Z.eqb_refl. reflexivity.
  - cbn [tptr tcap]. eexists. split; [cbn; rewrite Z.eqb_refl; reflexivity|]. reflexivity.
  - intros x m [].
  - unfold owned. cbn. intros x X. destruct (r =? x) eqn:E1.
    + apply Z.eqb_eq in E1. exfalso. auto.
    + destruct (q =? x) eqn:E2; auto. apply Z.eqb_eq in E2. exfalso. auto.
  - unfold owned. cbn. intros x [X|[X|[]]]; subst; now apply hlookup_none.
Qed.

Definition call_limit : Z := 1099511627776.   (* 2^40 *)

Lemma sane_spec n : sane n = true -> 0 < n <= alloc_max.
Proof. unfold sane. rewrite andb_true_iff, Z.ltb_lt, Z.leb_le. auto. Qed.

(** Other blocks keep their contents. *)
Definition kept (h h' : heap) (l : list (Z * Z)) : Prop :=
  forall x n b, In (x, n) l -> hlookup h x = Some b -> hlookup h' x = Some b.

Lemma alloc_good dbg p h0 k s a c T n : valid_policy p -> good h0 k s a c T -> 0 <= k <= call_limit -> sane n = true ->
  exists s' a' q T', mallocator_alloc dbg p s a n = Ok (s', a', q)
    /\ good h0 (k + 1) s' a' (mk_client ((q, n) :: blocks c) (n_allocs c + 1) (n_reallocs c) (n_frees c) (released c)) T'
    /\ hlookup (s_heap s') q = Some (repeat (Some 0) (Z.to_nat n))
    /\ kept (s_heap s) (s_heap s') (blocks c).
Proof.
  intros V G K SN. apply sane_spec in SN. destruct G as [I P GL GC A1 A2 A3 A4 A5].
  unfold call_limit in K. unfold mallocator_alloc. rewrite dassert_true by (apply Z.ltb_lt; lia). cbn [bind].
  destruct (calloc_inv dbg p h0 s a [] T n V I SN) as [s1 [q [E1 [I1 Q0]]]]. rewrite E1. cbn [bind fst snd].
  destruct (add_inv dbg p h0 s1 a [] T q n V I1 Q0) as [s2 [a2 [E2 [I2 [C2 [CC2 H2]]]]]].
  { unfold obj_size, alloc_max in *. lia. }
  rewrite E2. cbn [bind fst snd].
  injection C2 as B1 B2 B3 B4 B5.
  assert (L1 : hlookup (s_heap s1) q = Some (repeat (Some 0) (Z.to_nat n))
            /\ forall x, x <> q -> hlookup (s_heap s1) x = hlookup (s_heap s) x).
  { unfold sys_calloc in E1. rewrite c_calloc_ok in E1 by auto. cbn [bind] in E1. apply enforce_inv in E1. injection E1 as <- <-.
    cbn [s_heap]. split; [cbn; now rewrite Z.eqb_refl|]. intros x X. cbn.
    destruct (_ =? x) eqn:F; auto. apply Z.eqb_eq in F. congruence. }
  destruct L1 as [L1 L2].
  eexists s2, _, q, (T ++ [(q, n)]). split; [reflexivity|]. split; [|split].
  - constructor; cbn [blocks n_allocs n_reallocs n_frees released c_allocs c_reallocs c_frees c_bytes c_freed tcap].
    + eapply inv_ext; [..|exact I2]; reflexivity.
    + eapply Permutation_trans; [apply Permutation_sym, Permutation_cons_append|]. now constructor.
    + autorewrite with zlen. lia.
    + lia.
    + rewrite B1, A1. apply w64_add.
    + congruence.
    + congruence.
    + rewrite B4, A4, w64_add, total_cons. cbn [snd]. f_equal. lia.
    + congruence.
  - apply H2; [left; auto|exact L1].
  - intros x m b X Y. apply H2.
    + right. apply in_map_iff. exists (x, m). split; auto. eapply Permutation_in; [apply Permutation_sym; exact P|exact X].
    + rewrite L2; auto. intros ->.
      assert (X' : In (q, m) T) by (eapply Permutation_in; [apply Permutation_sym; exact P|exact X]).
      pose proof (i_nodup _ _ _ _ _ I1) as ND. unfold owned in ND. cbn [app map fst] in ND.
      inversion ND as [|? ? _ ND1]. inversion ND1 as [|? ? _ ND2]. inversion ND2 as [|? ? NI _]. apply NI.
      apply in_map_iff. exists (q, m). auto.
Qed.

Lemma owned_user h0 s a q n T : inv h0 s a [(q, n)] T -> ~ In q (map fst T).
Proof.
  intros I. pose proof (i_nodup _ _ _ _ _ I) as ND. unfold owned in ND. cbn [app map fst] in ND.
  inversion ND as [|? ? _ ND1]. inversion ND1 as [|? ? _ ND2]. inversion ND2 as [|? ? NI _]. auto.
Qed.

Lemma realloc_good dbg p h0 k s a c T j ptr old n : valid_policy p -> good h0 k s a c T -> 0 <= k <= call_limit ->
  sane n = true -> nth_error (blocks c) j = Some (ptr, old) ->
  exists s' a' q T', mallocator_realloc dbg p s a ptr n = Ok (s', a', q)
    /\ good h0 (k + 1) s' a' (mk_client ((q, n) :: drop (blocks c) j) (n_allocs c) (n_reallocs c + 1) (n_frees c)
                                  (released c + Z.max 0 (old - n))) T'
    /\ (exists b, hlookup (s_heap s) ptr = Some b /\ zlen b = old
        /\ hlookup (s_heap s') q = Some (firstn (Z.to_nat n) b ++ repeat None (Z.to_nat n - length b)%nat))
    /\ kept (s_heap s) (s_heap s') (drop (blocks c) j).
Proof.
  intros V G K SN NTH. apply sane_spec in SN. destruct G as [I P GL GC A1 A2 A3 A4 A5].
  unfold call_limit in K.
  assert (IN : In (ptr, old) T).
  { eapply Permutation_in; [apply Permutation_sym; exact P|]. eapply nth_error_In; eauto. }
  destruct (i_sizes _ _ _ _ _ I _ _ IN) as [OS [b0 [B0 Bl]]].
  assert (P0 : ptr <> 0). { intros ->. apply (proj2 (i_wf _ _ _ _ _ I)). eapply hlookup_some_in; eauto. }
  unfold mallocator_realloc.
  rewrite dassert_true by (apply negb_true_iff, Z.eqb_neq; auto). cbn [bind].
  rewrite dassert_true by (apply Z.ltb_lt; lia). cbn [bind].
  destruct (remove_inv dbg h0 s a [] T ptr old I IN) as [a1 [T1 [E1 [I1 [P1 [C1 [CC1 _]]]]]]].
  { unfold alloc_max in *. lia. }
  rewrite E1. cbn [bind fst snd].
  destruct (realloc_inv dbg p h0 s a1 [] T1 ptr old n V I1 SN) as [s2 [q [E2 [I2 [Q0 [b [B1 B2]]]]]]].
  rewrite E2. cbn [bind fst snd].
  destruct (add_inv dbg p h0 s2 a1 [] T1 q n V I2 Q0) as [s3 [a3 [E3 [I3 [C3 [CC3 H3]]]]]].
  { rewrite CC1. unfold obj_size, alloc_max in *. lia. }
  rewrite E3. cbn [bind fst snd].
  injection C1 as D1 D2 D3 D4 D5. injection C3 as F1 F2 F3 F4 F5.
  pose proof (nth_error_perm _ _ _ NTH) as PD.
  assert (PT : Permutation T1 (drop (blocks c) j)).
  { eapply Permutation_cons_inv with (a := (ptr, old)).
    eapply Permutation_trans; [apply Permutation_sym; exact P1|]. eapply Permutation_trans; [exact P|exact PD]. }
  pose proof (total_perm _ _ PD) as TP. rewrite total_cons in TP. cbn [snd] in TP.
  assert (ZL : zlen T = 1 + zlen T1). { apply Permutation_length in P1. unfold zlen. cbn in P1. lia. }
  rewrite s64_small by lia.
  eexists s3, _, q, (T1 ++ [(q, n)]). split; [reflexivity|]. split; [|split].
  - constructor; cbn [blocks n_allocs n_reallocs n_frees released c_allocs c_reallocs c_frees c_bytes c_freed tcap].
    + eapply inv_ext; [..|exact I3]; reflexivity.
    + eapply Permutation_trans; [apply Permutation_sym, Permutation_cons_append|]. now constructor.
    + autorewrite with zlen. lia.
    + lia.
    + congruence.
    + rewrite F2, D2, A2. apply w64_add.
    + congruence.
    + rewrite F4, D4, A4, w64_add, total_cons. cbn [snd]. f_equal. lia.
    + rewrite F5, D5, A5, w64_sub. f_equal. destruct (n - old <? 0) eqn:E; [apply Z.ltb_lt in E|apply Z.ltb_ge in E]; lia.
  - exists b. split; auto. split; [congruence|]. apply H3; [left; auto|auto].
  - intros x m bb X Y. assert (X1 : In (x, m) T1).
    { eapply Permutation_in; [apply Permutation_sym; exact PT|exact X]. }
    assert (X2 : In x (map fst T1)) by (apply in_map_iff; exists (x, m); auto).
    apply H3; [right; auto|].
    assert (x <> ptr) by (intros ->; apply (owned_user _ _ _ _ _ _ I1); auto).
    assert (x <> q) by (intros ->; apply (owned_user _ _ _ _ _ _ I2); auto).
    unfold sys_realloc in E2. rewrite dassert_true in E2 by (apply Z.ltb_lt; lia). cbn [bind] in E2.
    rewrite B1, c_realloc_ok in E2 by auto. cbn [bind] in E2. apply enforce_inv in E2. injection E2 as <- EQ.
    rewrite EQ. cbn. rewrite (proj2 (Z.eqb_neq q x)) by auto. rewrite hremove_other; auto.
Qed.

Lemma free_good dbg h0 k s a c T j ptr old : good h0 k s a c T -> 0 <= k <= call_limit ->
  nth_error (blocks c) j = Some (ptr, old) ->
  exists s' a' T', mallocator_free dbg s a ptr = Ok (s', a')
    /\ good h0 (k + 1) s' a' (mk_client (drop (blocks c) j) (n_allocs c) (n_reallocs c) (n_frees c + 1)
                                  (released c + old)) T'
    /\ hlookup (s_heap s') ptr = None
    /\ kept (s_heap s) (s_heap s') (drop (blocks c) j).
Proof.
  intros G K NTH. destruct G as [I P GL GC A1 A2 A3 A4 A5]. unfold call_limit in K.
  assert (IN : In (ptr, old) T).
  { eapply Permutation_in; [apply Permutation_sym; exact P|]. eapply nth_error_In; eauto. }
  destruct (i_sizes _ _ _ _ _ I _ _ IN) as [OS [b0 [B0 Bl]]].
  assert (P0 : ptr <> 0). { intros ->. apply (proj2 (i_wf _ _ _ _ _ I)). eapply hlookup_some_in; eauto. }
  unfold mallocator_free. rewrite dassert_true by (apply negb_true_iff, Z.eqb_neq; auto). cbn [bind].
  destruct (remove_inv dbg h0 s a [] T ptr old I IN) as [a1 [T1 [E1 [I1 [P1 [C1 [CC1 _]]]]]]].
  { unfold alloc_max in *. lia. }
  rewrite E1. cbn [bind fst snd]. rewrite (proj2 (Z.ltb_lt 0 old)) by lia.
  destruct (free_inv h0 s a1 [] T1 ptr old I1) as [s2 [E2 [I2 H2]]]. rewrite E2. cbn [bind].
  injection C1 as D1 D2 D3 D4 D5. pose proof (nth_error_perm _ _ _ NTH) as PD.
  assert (PT : Permutation T1 (drop (blocks c) j)).
  { eapply Permutation_cons_inv with (a := (ptr, old)).
    eapply Permutation_trans; [apply Permutation_sym; exact P1|]. eapply Permutation_trans; [exact P|exact PD]. }
  pose proof (total_perm _ _ PD) as TP. rewrite total_cons in TP. cbn [snd] in TP.
  assert (ZL : zlen T = 1 + zlen T1). { apply Permutation_length in P1. unfold zlen. cbn in P1. lia. }
  eexists s2, _, T1. split; [reflexivity|]. split; [|split; [exact H2|]].
  - constructor; cbn [blocks n_allocs n_reallocs n_frees released c_allocs c_reallocs c_frees c_bytes c_freed tcap].
    + eapply inv_ext; [..|exact I2]; reflexivity.
    + exact PT.
    + lia.
    + lia.
    + congruence.
    + congruence.
    + rewrite D3, A3. apply w64_add.
    + rewrite D4, A4, w64_sub. f_equal. lia.
    + rewrite D5, A5. apply w64_add.
  - intros x m bb X Y. assert (X1 : In (x, m) T1).
    { eapply Permutation_in; [apply Permutation_sym; exact PT|exact X]. }
    assert (X2 : In x (map fst T1)) by (apply in_map_iff; exists (x, m); auto).
    assert (x <> ptr) by (intros ->; apply (owned_user _ _ _ _ _ _ I1); auto).
    unfold sys_free in E2. rewrite (proj2 (Z.eqb_neq _ _) P0), B0 in E2. injection E2 as <-. cbn [s_heap].
    rewrite hremove_other; auto.
Qed.

Lemma good_le h0 k k' s a c T : good h0 k s a c T -> k <= k' -> good h0 k' s a c T.
Proof. intros [] L. constructor; auto; lia. Qed.

Lemma step_good dbg p h0 k s a c T o : valid_policy p -> good h0 k s a c T -> 0 <= k <= call_limit ->
  exists s' a' c' T', client_step dbg p (s, a, c) o = Ok (s', a', c') /\ good h0 (k + 1) s' a' c' T'.
Proof.
  intros V G K. destruct o as [n|j n|j]; cbn [client_step].
  - destruct (sane n) eqn:SN.
    + destruct (alloc_good dbg p h0 k s a c T n V G K SN) as [s' [a' [q [T' [E [G' _]]]]]].
      rewrite E. cbn [bind]. eauto 6.
    + exists s, a, c, T. split; auto. eapply good_le; eauto. lia.
  - destruct (nth_error (blocks c) j) as [[ptr old]|] eqn:NTH.
    2: { exists s, a, c, T. split; auto. eapply good_le; eauto. lia. }
    destruct (sane n) eqn:SN.
    2: { exists s, a, c, T. split; auto. eapply good_le; eauto. lia. }
    destruct (realloc_good dbg p h0 k s a c T j ptr old n V G K SN NTH) as [s' [a' [q [T' [E [G' _]]]]]].
    rewrite E. cbn [bind]. eauto 6.
  - destruct (nth_error (blocks c) j) as [[ptr old]|] eqn:NTH.
    2: { exists s, a, c, T. split; auto. eapply good_le; eauto. lia. }
    destruct (free_good dbg h0 k s a c T j ptr old G K NTH) as [s' [a' [T' [E [G' _]]]]].
    rewrite E. cbn [bind fst snd]. eauto 6.
Qed.

Lemma run_good dbg p h0 ops : valid_policy p -> forall k s a c T, good h0 k s a c T -> 0 <= k ->
  k + zlen ops <= call_limit ->
  exists s' a' c' T', client_run dbg p (s, a, c) ops = Ok (s', a', c') /\ good h0 (k + zlen ops) s' a' c' T'.
Proof.
  intros V. induction ops as [|o ops IH]; intros k s a c T G K B; cbn [client_run].
  - rewrite zlen_nil, Z.add_0_r. eauto 6.
  - rewrite zlen_cons in *. pose proof (zlen_nonneg ops).
    destruct (step_good dbg p h0 k s a c T o V G) as [s1 [a1 [c1 [T1 [E G1]]]]]; [lia|].
    rewrite E. cbn [bind]. destruct (IH (k + 1) s1 a1 c1 T1 G1) as [s' [a' [c' [T' [E' G']]]]]; [lia|lia|].
    replace (k + (1 + zlen ops)) with (k + 1 + zlen ops) by lia. eauto 6.
Qed.

(** * Destroy *)

Lemma destroy_loop_ok a T2 : forall T1 s J, wf_heap (s_heap s) ->
  NoDup (owned a T2) ->
  (forall q, In q (map fst T2) -> In q (addrs (s_heap s))) ->
  exists s', destroy_loop (length T2) s (map Some (T1 ++ T2) ++ J) (zlen T1) = Ok s'
    /\ wf_heap (s_heap s')
    /\ (forall q, In q (map fst T2) -> hlookup (s_heap s') q = None)
    /\ (forall x, ~ In x (map fst T2) -> hlookup (s_heap s') x = hlookup (s_heap s) x).
Proof.
  induction T2 as [|[q n] T2 IH]; intros T1 s J W ND L; cbn [length destroy_loop].
  - exists s. split; [auto|]. split; [auto|]. split; [intros q []|auto].
  - unfold zlen at 1. erewrite tab_get_app. 2: { rewrite nth_error_app2, Nat.sub_diag by lia. reflexivity. }
    cbn [bind fst].
    assert (LQ : In q (addrs (s_heap s))) by (apply L; left; auto).
    assert (Q0 : q <> 0) by (intros ->; apply (proj2 W); auto).
    unfold sys_free. rewrite (proj2 (Z.eqb_neq _ _) Q0).
    destruct (hlookup (s_heap s) q) as [b|] eqn:HB; [|exfalso; apply hlookup_in in LQ; auto].
    cbn [bind]. unfold owned in ND. cbn [map fst] in ND.
    assert (D2 : NoDup (owned a T2) /\ ~ In q (map fst T2)).
    { split.
      - assert (NoDup (q :: owned a T2)) as X. { eapply Permutation_NoDup; [|exact ND]. unfold owned.
          eapply Permutation_trans; [constructor; apply perm_swap|]. apply perm_swap. }
        inversion X; auto.
      - inversion ND as [|? ? _ ND1]. inversion ND1 as [|? ? _ ND2]. inversion ND2; auto. }
    destruct D2 as [D2 D3].
    destruct (IH (T1 ++ [(q, n)]) (mk_sys (hremove (s_heap s) q) (s_clock s)) J) as [s' [E [W' [H1 H2]]]].
    + cbn. now apply wf_hremove.
    + auto.
    + cbn. intros x X. apply hlookup_in. rewrite hremove_other. { apply hlookup_in, L. right. auto. }
      intros ->. auto.
    + rewrite <- app_assoc in E. cbn [app] in E. autorewrite with zlen in E.
      replace (zlen T1 + 1) with (zlen T1 + (1 + 0)) by lia. rewrite E. exists s'. split; auto. split; auto.
      cbn [s_heap] in H2. split.
      * cbn [map fst]. intros x [X|X]; auto. subst x. rewrite H2 by auto. apply hremove_same, W.
      * cbn [map fst]. intros x X. rewrite H2 by (intros Y; apply X; right; auto).
        apply hremove_other. intros ->. apply X. left. auto.
Qed.

(** Blocks obtained without the allocator ([E]) stay. *)
Lemma destroy_inv h0 s a E T : inv h0 s a E T ->
  exists s', mallocator_destroy s a = Ok s' /\ (forall x, ~ In x (map fst E) -> hlookup (s_heap s') x = hlookup h0 x)
    /\ (forall x, In x (map fst E) -> hlookup (s_heap s') x = hlookup (s_heap s) x).
Proof.
  intros [W SH ND0 SE TA SI FR NW]. destruct SH as [J [S1 [S2 [S3 S4]]]].
  assert (ND : NoDup (owned a T) /\ forall x, In x (map fst E) -> ~ In x (owned a T)).
  { assert (P : Permutation (owned a (E ++ T)) (map fst E ++ owned a T)).
    { unfold owned. rewrite map_app. eapply Permutation_trans; [constructor; apply Permutation_middle|]. apply Permutation_middle. }
    pose proof (Permutation_NoDup P ND0) as ND1. split; [eapply NoDup_app_r; exact ND1|].
    intros x X Y. apply in_split in X. destruct X as (e1 & e2 & X). rewrite X in ND1. rewrite <- app_assoc in ND1. cbn [app] in ND1.
    apply NoDup_remove_2 in ND1. apply ND1. apply in_or_app. right. apply in_or_app. auto. }
  destruct ND as [ND DJ].
  unfold mallocator_destroy. rewrite S1, S2, to_nat_zlen.
  destruct (destroy_loop_ok a T [] s J W ND) as [s1 [E1 [W1 [H1 H2]]]].
  { intros q X. apply in_map_iff in X. destruct X as [[x n] [X1 X2]]. cbn in X1. subst.
    destruct (SI q n) as [_ [b [B1 _]]]; [apply in_or_app; auto|]. eapply hlookup_some_in; eauto. }
  cbn [app] in E1. change (zlen (@nil (Z * Z))) with 0 in E1. rewrite E1. cbn [bind].
  unfold owned in ND. inversion ND as [|? ? N1 ND1]. inversion ND1 as [|? ? N2 ND2]. subst.
  destruct TA as [tb [TB1 TB2]]. destruct SE as [sb [SB1 SB2]].
  assert (TN : tptr a <> self a) by (intros X; apply N1; left; auto).
  assert (T1 : hlookup (s_heap s1) (tptr a) = Some tb) by (rewrite H2; auto).
  assert (T2 : hlookup (s_heap s1) (self a) = Some sb) by (rewrite H2; auto; intros X; apply N1; right; auto).
  assert (Z1 : tptr a <> 0) by (intros X; apply (proj2 W); rewrite <- X; eapply hlookup_some_in; eauto).
  assert (Z2 : self a <> 0) by (intros X; apply (proj2 W); rewrite <- X; eapply hlookup_some_in; eauto).
  unfold sys_free at 1. rewrite (proj2 (Z.eqb_neq _ _) Z1), T1. cbn [bind].
  unfold sys_free. rewrite (proj2 (Z.eqb_neq _ _) Z2). cbn [s_heap].
  rewrite hremove_other by auto. rewrite T2. eexists. split; [reflexivity|]. cbn [s_heap].
  assert (W2 : wf_heap (hremove (s_heap s1) (tptr a))) by now apply wf_hremove.
  split.
  - intros x XE. assert (INO : forall y, In y (self a :: tptr a :: map fst T) -> In y (owned a (E ++ T))).
    { intros y [Y|[Y|Y]]; [left; auto|right; left; auto|]. right. right. rewrite map_app. apply in_or_app. auto. }
    destruct (Z.eq_dec x (self a)) as [->|X1].
    { rewrite hremove_same by apply W2. symmetry. apply NW, INO. left. auto. }
    rewrite hremove_other by auto. destruct (Z.eq_dec x (tptr a)) as [->|X2].
    { rewrite hremove_same by apply W1. symmetry. apply NW, INO. right. left. auto. }
    rewrite hremove_other by auto.
    destruct (in_dec Z.eq_dec x (map fst T)) as [X3|X3].
    + rewrite H1 by auto. symmetry. apply NW, INO. right. right. auto.
    + rewrite H2 by auto. apply FR. intros [Y|[Y|Y]]; auto. rewrite map_app in Y. apply in_app_or in Y. tauto.
  - intros x XE. apply DJ in XE.
    rewrite !hremove_other, H2; auto; intros X; apply XE; unfold owned; cbn; auto.
Qed.

Lemma destroy_good h0 k s a c T : good h0 k s a c T ->
  exists s', mallocator_destroy s a = Ok s' /\ forall x, hlookup (s_heap s') x = hlookup h0 x.
Proof.
  intros G. destruct (destroy_inv _ _ _ _ _ (g_inv _ _ _ _ _ _ G)) as (s' & E & H & _). exists s'. auto.
Qed.

(** * Statements used by the property file *)

Definition start_heap (h : heap) : Prop := NoDup (addrs h) /\ ~ In 0 (addrs h).

(** Creating an allocator in the heap [h0] and using it. *)
Definition session (dbg : bool) (p : policy) (h0 : heap) (ops : list aop) : res (sys * alc * client) :=
  let* r := mallocator_create dbg p (mk_sys h0 0) in
  client_run dbg p (fst r, snd r, client0) ops.

Lemma session_good dbg p h0 ops : valid_policy p -> start_heap h0 -> zlen ops <= call_limit ->
  exists s a c T, session dbg p h0 ops = Ok (s, a, c) /\ good h0 (zlen ops) s a c T.
Proof.
  intros V W B. destruct (create_good dbg p h0 0 V W) as [s0 [a0 [E0 G0]]]. unfold session. rewrite E0. cbn [bind fst snd].
  apply (run_good dbg p h0 ops V 0 s0 a0 client0 [] G0); lia.
Qed.

Lemma stats_exact dbg p h0 ops : valid_policy p -> start_heap h0 -> zlen ops <= call_limit ->
  exists s a c, session dbg p h0 ops = Ok (s, a, c) /\
    c_allocs a = w64 (n_allocs c) /\ c_reallocs a = w64 (n_reallocs c) /\ c_frees a = w64 (n_frees c) /\
    c_bytes a = w64 (total (blocks c)) /\ c_freed a = w64 (released c).
Proof.
  intros V W B. destruct (session_good dbg p h0 ops V W B) as [s [a [c [T [E G]]]]].
  exists s, a, c. destruct G. auto 7.
Qed.

Lemma tracked_exact dbg p h0 ops : valid_policy p -> start_heap h0 -> zlen ops <= call_limit ->
  exists s a c T, session dbg p h0 ops = Ok (s, a, c) /\
    tracked a = map Some T /\ Permutation T (blocks c) /\ NoDup (map fst (blocks c)) /\
    tlen a <= tcap a /\ (exists tb, hlookup (s_heap s) (tptr a) = Some tb /\ zlen tb = tcap a * obj_size) /\
    (forall q n, In (q, n) (blocks c) -> q <> 0 /\ hlookup h0 q = None /\
       exists b, hlookup (s_heap s) q = Some b /\ zlen b = n) /\
    (forall x, hlookup h0 x <> None -> hlookup (s_heap s) x = hlookup h0 x).
Proof.
  intros V W B. destruct (session_good dbg p h0 ops V W B) as [s [a [c [T [E G]]]]].
  exists s, a, c, T. split; auto. destruct G as [I P _ _ _ _ _ _ _].
  pose proof I as [WF SH ND SE TA SI FR NW]. destruct SH as [J [S1 [S2 [S3 S4]]]]. cbn [app] in *.
  split. { unfold tracked. rewrite S1, S2, to_nat_zlen. rewrite <- (map_length Some T). apply firstn_exact. }
  split; auto. split.
  { eapply Permutation_NoDup; [apply Permutation_map; exact P|].
    inversion ND as [|? ? _ ND1]. inversion ND1. auto. }
  split. { rewrite S2, S3, S1. autorewrite with zlen. pose proof (zlen_nonneg J). lia. }
  split; auto. split.
  - intros q n IN. assert (IT : In (q, n) T) by (eapply Permutation_in; [apply Permutation_sym; exact P|exact IN]).
    destruct (SI _ _ IT) as [S [b [B1 B2]]]. split.
    { intros ->. apply (proj2 WF). eapply hlookup_some_in; eauto. }
    split. { apply NW. right. right. apply in_map_iff. exists (q, n). auto. }
    exists b. auto.
  - intros x X. apply FR. intros Y. apply NW in Y. congruence.
Qed.

Lemma destroy_exact dbg p h0 ops : valid_policy p -> start_heap h0 -> zlen ops <= call_limit ->
  exists s a c s', session dbg p h0 ops = Ok (s, a, c) /\ mallocator_destroy s a = Ok s' /\
    forall x, hlookup (s_heap s') x = hlookup h0 x.
Proof.
  intros V W B. destruct (session_good dbg p h0 ops V W B) as [s [a [c [T [E G]]]]].
  destruct (destroy_good _ _ _ _ _ _ G) as [s' [E' H]]. exists s, a, c, s'. auto.
Qed.

Definition overlay (b : blk) (n : Z) : blk :=
  firstn (Z.to_nat n) b ++ repeat None (Z.to_nat n - length b)%nat.

(** A call does to the client's memory what it says. *)
Definition contents_ok (h h' : heap) (c : client) (o : aop) (c' : client) : Prop :=
  match o with
  | AAlloc n => sane n = true -> exists q, blocks c' = (q, n) :: blocks c
                /\ hlookup h' q = Some (repeat (Some 0) (Z.to_nat n)) /\ kept h h' (blocks c)
  | ARealloc k n => forall ptr old, nth_error (blocks c) k = Some (ptr, old) -> sane n = true ->
      exists q b, blocks c' = (q, n) :: drop (blocks c) k /\ hlookup h ptr = Some b /\ zlen b = old
                /\ hlookup h' q = Some (overlay b n) /\ kept h h' (drop (blocks c) k)
  | AFree k => forall ptr old, nth_error (blocks c) k = Some (ptr, old) ->
      blocks c' = drop (blocks c) k /\ hlookup h' ptr = None /\ kept h h' (drop (blocks c) k)
  end.

Lemma contents_kept dbg p h0 ops o : valid_policy p -> start_heap h0 -> zlen ops < call_limit ->
  exists s a c s' a' c', session dbg p h0 ops = Ok (s, a, c) /\ client_step dbg p (s, a, c) o = Ok (s', a', c') /\
    contents_ok (s_heap s) (s_heap s') c o c'.
Proof.
  intros V W B. destruct (session_good dbg p h0 ops V W) as [s [a [c [T [E G]]]]]; [lia|].
  pose proof (zlen_nonneg ops). assert (K : 0 <= zlen ops <= call_limit) by lia.
  destruct o as [n|j n|j]; cbn [client_step contents_ok].
  - destruct (sane n) eqn:SN.
    + destruct (alloc_good dbg p h0 _ s a c T n V G K SN) as [s' [a' [q [T' [E' [G' [H1 H2]]]]]]].
      exists s, a, c. do 3 eexists. split; [exact E|]. rewrite E'. cbn [bind]. split; [reflexivity|]. cbn [blocks].
      intros _. exists q. auto.
    + exists s, a, c, s, a, c. split; [exact E|]. split; [reflexivity|]. congruence.
  - destruct (nth_error (blocks c) j) as [[ptr old]|] eqn:NTH.
    2: { exists s, a, c, s, a, c. split; [exact E|]. rewrite NTH. split; [reflexivity|]. congruence. }
    destruct (sane n) eqn:SN.
    2: { exists s, a, c, s, a, c. split; [exact E|]. rewrite NTH. split; [reflexivity|]. congruence. }
    destruct (realloc_good dbg p h0 _ s a c T j ptr old n V G K SN NTH) as [s' [a' [q [T' [E' [G' [[b [H1 [H2 H3]]] H4]]]]]]].
    exists s, a, c. do 3 eexists. split; [exact E|]. rewrite NTH, E'. cbn [bind]. split; [reflexivity|].
    intros ptr' old' X _. injection X as <- <-. exists q, b. auto 6.
  - destruct (nth_error (blocks c) j) as [[ptr old]|] eqn:NTH.
    2: { exists s, a, c, s, a, c. split; [exact E|]. rewrite NTH. split; [reflexivity|]. congruence. }
    destruct (free_good dbg h0 _ s a c T j ptr old G K NTH) as [s' [a' [T' [E' [G' [H1 H2]]]]]].
    exists s, a, c. do 3 eexists. split; [exact E|]. rewrite NTH, E'. cbn [bind fst snd]. split; [reflexivity|].
    intros ptr' old' X. injection X as <- <-. auto.
Qed.

(** A block the allocator never handed out: released without being counted. *)
Lemma free_foreign dbg p h0 ops q b : valid_policy p -> start_heap h0 -> zlen ops <= call_limit ->
  hlookup h0 q = Some b ->
  exists s a c s', session dbg p h0 ops = Ok (s, a, c) /\ mallocator_free dbg s a q = Ok (s', a) /\
    hlookup (s_heap s') q = None /\ forall x, x <> q -> hlookup (s_heap s') x = hlookup (s_heap s) x.
Proof.
  intros V W B HB. destruct (session_good dbg p h0 ops V W B) as [s [a [c [T [E G]]]]].
  pose proof (g_inv _ _ _ _ _ _ G) as I. pose proof I as [WF SH ND SE TA SI FR NW]. cbn [app] in *.
  assert (Q0 : q <> 0) by (intros ->; apply (proj2 W); eapply hlookup_some_in; eauto).
  assert (NO : ~ In q (owned a T)) by (intros X; apply NW in X; congruence).
  exists s, a, c. unfold mallocator_free. rewrite dassert_true by (apply negb_true_iff, Z.eqb_neq; auto). cbn [bind].
  rewrite (remove_absent dbg a T q SH Q0) by (intros X; apply NO; right; right; auto).
  cbn [bind fst snd]. change (0 <? 0) with false. cbn match. unfold sys_free. rewrite (proj2 (Z.eqb_neq _ _) Q0), (FR q NO), HB.
  eexists. split; [exact E|]. split; [reflexivity|]. cbn [s_heap]. split.
  - apply hremove_same, WF.
  - intros x X. now apply hremove_other.
Qed.
