(** The memory behind several containers. *)
From Coq Require Import Permutation.
From Verif Require Import Base BaseFacts HeapModel AllocModel AllocSpec AllocProofs AllocMain StrModel ContModel ContSpec.

Notation tag := (Z * bool)%type.
Definition sel (u : bool) (F : list tag) : list Z := map fst (filter (fun e => Bool.eqb (snd e) u) F).

(** [F]: the addresses the containers hold, [true] = obtained through the allocator. *)
Definition minv (h0 : heap) (k : Z) (m : mem) (F : list tag) : Prop :=
  exists E T, inv h0 (m_sys m) (m_alc m) E T /\ Permutation (map fst E) (sel false F)
    /\ Permutation (map fst T) (sel true F) /\ zlen T <= k /\ tcap (m_alc m) <= 16 + 2 * k
    /\ c_bytes (m_alc m) = w64 (total T).

Definition keeps (m m' : mem) (F : list tag) : Prop :=
  forall x, In x (map fst F) -> hlookup (m_heap m') x = hlookup (m_heap m) x.

Lemma sel_perm u F F' : Permutation F F' -> Permutation (sel u F) (sel u F').
Proof.
  intros P. unfold sel. apply Permutation_map. induction P as [|x l l' P IH|x y l|l l' l'' P1 IH1 P2 IH2]; cbn.
  - auto.
  - destruct (Bool.eqb (snd x) u); auto.
  - destruct (Bool.eqb (snd x) u), (Bool.eqb (snd y) u); auto. constructor.
  - eapply Permutation_trans; eauto.
Qed.

Lemma sel_cons u a v F : sel u ((a, v) :: F) = if Bool.eqb v u then a :: sel u F else sel u F.
Proof. unfold sel. cbn [filter snd]. now destruct (Bool.eqb v u). Qed.

Lemma sel_split F : Permutation (map fst F) (sel false F ++ sel true F).
Proof.
  induction F as [|[a v] F IH]; [auto|]. rewrite !sel_cons. cbn [map fst]. destruct v; cbn [Bool.eqb].
  - eapply Permutation_trans; [constructor; exact IH|]. apply Permutation_middle.
  - constructor. exact IH.
Qed.

Lemma minv_perm h0 k m F F' : Permutation F F' -> minv h0 k m F -> minv h0 k m F'.
Proof.
  intros P (E & T & I & PE & PT & R). exists E, T. split; [auto|].
  split; [eapply Permutation_trans; [exact PE|apply sel_perm, P]|].
  split; [eapply Permutation_trans; [exact PT|apply sel_perm, P]|auto].
Qed.

Lemma minv_le h0 k k' m F : minv h0 k m F -> k <= k' -> minv h0 k' m F.
Proof. intros (E & T & I & PE & PT & A & B & C) L. exists E, T. repeat (split; [solve [auto|lia]|]). auto. Qed.

Lemma sys_eta s : mk_sys (s_heap s) (s_clock s) = s.
Proof. now destruct s. Qed.

Lemma inv_permE h0 s a E E' T : Permutation E E' -> inv h0 s a E T -> inv h0 s a E' T.
Proof.
  intros P [W SH ND SE TA SI FR NW].
  assert (P1 : Permutation (owned a (E ++ T)) (owned a (E' ++ T))).
  { unfold owned. do 2 constructor. apply Permutation_map. now apply Permutation_app_tail. }
  constructor; auto.
  - eapply Permutation_NoDup; eauto.
  - intros q n X. apply SI. eapply Permutation_in; [apply Permutation_sym, Permutation_app_tail; exact P|exact X].
  - intros x X. apply FR. intros Y. apply X. eapply Permutation_in; eauto.
  - intros x X. apply NW. eapply Permutation_in; [apply Permutation_sym|]; eauto.
Qed.

Lemma inv_users h0 s a E T : inv h0 s a E T -> NoDup (map fst (E ++ T)).
Proof. intros I. pose proof (i_nodup _ _ _ _ _ I) as N. unfold owned in N. inversion N as [|? ? _ N1]. inversion N1. auto. Qed.

Lemma minv_nodup h0 k m F : minv h0 k m F -> NoDup (map fst F).
Proof.
  intros (E & T & I & PE & PT & _). apply inv_users in I. rewrite map_app in I.
  eapply Permutation_NoDup; [|exact I].
  apply Permutation_sym. eapply Permutation_trans; [apply sel_split|].
  apply Permutation_app; apply Permutation_sym; auto.
Qed.

Lemma minv_in h0 k m F x u : minv h0 k m F -> In (x, u) F ->
  exists E T n, inv h0 (m_sys m) (m_alc m) E T /\ Permutation (map fst E) (sel false F)
    /\ Permutation (map fst T) (sel true F) /\ zlen T <= k /\ tcap (m_alc m) <= 16 + 2 * k
    /\ c_bytes (m_alc m) = w64 (total T) /\ In (x, n) (if u then T else E).
Proof.
  intros (E & T & I & PE & PT & A & B & C) X.
  assert (Y : In x (sel u F)).
  { unfold sel. apply in_map_iff. exists (x, u). split; auto. apply filter_In. split; auto. cbn. apply Bool.eqb_reflx. }
  assert (Z : In x (map fst (if u then T else E))).
  { destruct u; eapply Permutation_in; try exact Y; apply Permutation_sym; auto. }
  apply in_map_iff in Z. destruct Z as ([y n] & Z1 & Z2). cbn in Z1. subst y. exists E, T, n. auto 9.
Qed.

Lemma minv_block h0 k m F x u : minv h0 k m F -> In (x, u) F ->
  exists b, hlookup (m_heap m) x = Some b /\ 0 < zlen b <= alloc_max /\ x <> 0.
Proof.
  intros M X. destruct (minv_in _ _ _ _ _ _ M X) as (E & T & n & I & _ & _ & _ & _ & _ & Y).
  assert (Z : In (x, n) (E ++ T)) by (apply in_or_app; destruct u; auto).
  destruct (i_sizes _ _ _ _ _ I _ _ Z) as [B [b [L <-]]]. exists b. split; [exact L|]. split; [exact B|].
  intros ->. apply (proj2 (i_wf _ _ _ _ _ I)). eapply hlookup_some_in; eauto.
Qed.

Lemma tags_users (E T : list (Z * Z)) F x : Permutation (map fst E) (sel false F) -> Permutation (map fst T) (sel true F) ->
  In x (map fst F) -> In x (map fst (E ++ T)).
Proof.
  intros PE PT X. rewrite map_app. eapply Permutation_in; [|exact X].
  eapply Permutation_trans; [apply sel_split|]. apply Permutation_app; apply Permutation_sym; auto.
Qed.

Lemma live_of h0 s a E T x : inv h0 s a E T -> In x (map fst (E ++ T)) -> exists b, hlookup (s_heap s) x = Some b.
Proof.
  intros I X. apply in_map_iff in X. destruct X as ([y n] & X1 & X2). cbn in X1. subst y.
  destruct (i_sizes _ _ _ _ _ I _ _ X2) as [_ [b [L _]]]. eauto.
Qed.

(** Memory is obtained. *)
Lemma alloc_m dbg p h0 k m F u n : valid_policy p -> minv h0 k m F -> 0 <= k <= call_limit -> 0 < n <= alloc_max ->
  exists m' q, m_alloc dbg p m u n = Ok (m', q) /\ minv h0 (k + 1) m' ((q, u) :: F)
    /\ hlookup (m_heap m') q = Some (repeat (Some 0) (Z.to_nat n)) /\ keeps m m' F.
Proof.
  intros V (E & T & I & PE & PT & KL & KC & KB) K N. unfold call_limit in K. unfold m_alloc.
  destruct (calloc_inv dbg p h0 (m_sys m) (m_alc m) E T n V I N) as [s1 [q [E1 [I1 Q0]]]].
  assert (L : hlookup (s_heap s1) q = Some (repeat (Some 0) (Z.to_nat n))
            /\ forall x, x <> q -> hlookup (s_heap s1) x = hlookup (m_heap m) x).
  { unfold sys_calloc in E1. rewrite c_calloc_ok in E1 by auto. cbn [bind] in E1. apply enforce_inv in E1. injection E1 as <- <-.
    cbn [s_heap]. split; [cbn; now rewrite Z.eqb_refl|]. intros x X. cbn.
    destruct (_ =? x) eqn:F0; auto. apply Z.eqb_eq in F0. congruence. }
  destruct L as [L1 L2].
  assert (NQ : forall x, In x (map fst (E ++ T)) -> x <> q).
  { intros x X ->. pose proof (inv_users _ _ _ _ _ I1) as ND. cbn [app map fst] in ND. inversion ND; auto. }
  destruct u.
  - unfold mallocator_alloc. rewrite dassert_true by (apply Z.ltb_lt; lia). cbn [bind].
    rewrite E1. cbn [bind fst snd].
    destruct (add_inv dbg p h0 s1 (m_alc m) E T q n V I1 Q0) as [s2 [a2 [E2 [I2 [C2 [CC2 H2]]]]]].
    { unfold obj_size, alloc_max in *. lia. }
    rewrite E2. cbn [bind fst snd]. injection C2 as B1 B2 B3 B4 B5.
    eexists _, q. split; [reflexivity|]. split; [|split].
    + exists E, (T ++ [(q, n)]). unfold m_sys, m_alc.
      split; [eapply inv_ext; [..|exact I2]; reflexivity|]. rewrite !sel_cons. cbn [Bool.eqb].
      split; [auto|]. split; [rewrite map_app; cbn [map fst]; eapply Permutation_trans;
        [apply Permutation_sym, Permutation_cons_append|now constructor]|].
      autorewrite with zlen. cbn [tcap c_bytes]. split; [lia|]. split; [lia|].
      rewrite B4, KB, w64_add. f_equal. rewrite (total_perm (T ++ [(q, n)]) ((q, n) :: T)). { rewrite total_cons. cbn [snd]. lia. }
      apply Permutation_sym, Permutation_cons_append.
    + unfold m_heap, m_sys. apply H2; [left; auto|exact L1].
    + intros x X. pose proof (tags_users _ _ _ _ PE PT X) as X'. destruct (live_of _ _ _ _ _ _ I X') as [b HB].
      unfold m_heap, m_sys. cbn [m_sys]. rewrite (H2 x b); [symmetry; exact HB|right; exact X'|].
      rewrite L2; auto.
  - rewrite E1. cbn [bind fst snd]. eexists _, q. split; [reflexivity|]. split; [|split].
    + exists ((q, n) :: E), T. cbn [m_sys m_alc]. split; [exact I1|]. rewrite !sel_cons. cbn [Bool.eqb map fst].
      split; [now constructor|]. split; [auto|]. split; [lia|]. split; [lia|auto].
    + exact L1.
    + intros x X. apply L2. apply NQ. eapply tags_users; eauto.
Qed.

Lemma in_perm_drop {A} (l : list A) e : In e l -> exists l', Permutation l (e :: l').
Proof. intros H. apply in_split in H. destruct H as (l1 & l2 & ->). exists (l1 ++ l2). apply Permutation_sym, Permutation_middle. Qed.

Lemma perm_map_cons (l : list (Z * Z)) x n l' P : Permutation l ((x, n) :: l') -> Permutation (map fst l) (x :: P) ->
  Permutation (map fst l') P.
Proof.
  intros A B. apply (Permutation_map fst) in A. cbn [map fst] in A. eapply Permutation_cons_inv with (a := x).
  eapply Permutation_trans; [apply Permutation_sym; exact A|exact B].
Qed.

Lemma realloc_m dbg p h0 k m F F1 u ptr n : valid_policy p -> minv h0 k m F -> 0 <= k <= call_limit ->
  Permutation F ((ptr, u) :: F1) -> 0 < n <= alloc_max ->
  exists m' q b, m_realloc dbg p m u ptr n = Ok (m', q) /\ minv h0 (k + 1) m' ((q, u) :: F1)
    /\ hlookup (m_heap m) ptr = Some b
    /\ hlookup (m_heap m') q = Some (firstn (Z.to_nat n) b ++ repeat None (Z.to_nat n - length b)%nat)
    /\ keeps m m' F1.
Proof.
  intros V M K PF N. apply (minv_perm _ _ _ _ _ PF) in M.
  destruct (minv_in _ _ _ _ ptr u M (or_introl eq_refl)) as (E & T & old & I & PE & PT & KL & KC & KB & IN).
  destruct (minv_block _ _ _ _ ptr u M (or_introl eq_refl)) as (b0 & HB0 & LB0 & P0).
  pose proof (minv_nodup _ _ _ _ M) as NDF. cbn [map fst] in NDF. inversion NDF as [|? ? NF _]. subst.
  unfold call_limit in K. unfold m_realloc. rewrite !sel_cons in *. destruct u; cbn [Bool.eqb] in *.
  - unfold mallocator_realloc.
    rewrite dassert_true by (apply negb_true_iff, Z.eqb_neq; auto). cbn [bind].
    rewrite dassert_true by (apply Z.ltb_lt; lia). cbn [bind].
    destruct (remove_inv dbg h0 (m_sys m) (m_alc m) E T ptr old I IN) as [a1 [T1 [E1 [I1 [P1 [C1 [CC1 _]]]]]]].
    { unfold alloc_max in *. lia. }
    rewrite E1. cbn [bind fst snd].
    destruct (realloc_inv dbg p h0 (m_sys m) a1 E T1 ptr old n V I1 N) as [s2 [q [E2 [I2 [Q0 [b [B1 B2]]]]]]].
    rewrite E2. cbn [bind fst snd].
    destruct (add_inv dbg p h0 s2 a1 E T1 q n V I2 Q0) as [s3 [a3 [E3 [I3 [C3 [CC3 H3]]]]]].
    { rewrite CC1. unfold obj_size, alloc_max in *. lia. }
    rewrite E3. cbn [bind fst snd].
    injection C1 as D1 D2 D3 D4 D5. injection C3 as F1' F2' F3' F4' F5'.
    assert (ZL : zlen T = 1 + zlen T1). { apply Permutation_length in P1. unfold zlen. cbn in P1. lia. }
    destruct (i_sizes _ _ _ _ _ I ptr old (in_or_app _ _ _ (or_intror IN))) as [OS [b' [HB' LB']]].
    rewrite s64_small by lia.
    pose proof (perm_map_cons _ _ _ _ _ P1 PT) as PT1.
    eexists _, q, b. split; [reflexivity|]. split; [|split; [exact B1|split]].
    + exists E, (T1 ++ [(q, n)]). cbn [m_sys m_alc].
      split; [eapply inv_ext; [..|exact I3]; reflexivity|]. rewrite !sel_cons. cbn [Bool.eqb].
      split; [auto|]. split; [rewrite map_app; cbn [map fst]; eapply Permutation_trans;
        [apply Permutation_sym, Permutation_cons_append|now constructor]|].
      autorewrite with zlen. cbn [tcap c_bytes]. split; [lia|]. split; [lia|].
      rewrite F4', D4, KB, w64_add. f_equal. rewrite (total_perm (T1 ++ [(q, n)]) ((q, n) :: T1)).
      2: { apply Permutation_sym, Permutation_cons_append. }
      rewrite (total_perm _ _ P1), !total_cons. cbn [snd]. lia.
    + unfold m_heap. cbn [m_sys]. apply H3; [left; auto|exact B2].
    + intros x X. assert (X' : In x (map fst (E ++ T1))).
      { eapply (tags_users E T1 F1); auto. }
      assert (x <> ptr) by (intros ->; auto).
      assert (x <> q).
      { intros ->. pose proof (inv_users _ _ _ _ _ I2) as ND. cbn [app map fst] in ND. inversion ND; auto. }
      assert (SAME : hlookup (s_heap s2) x = hlookup (m_heap m) x).
      { unfold sys_realloc in E2. rewrite dassert_true in E2 by (apply Z.ltb_lt; lia). cbn [bind] in E2.
        rewrite B1, c_realloc_ok in E2 by auto. cbn [bind] in E2. apply enforce_inv in E2. injection E2 as <- EQ.
        rewrite EQ. cbn. rewrite (proj2 (Z.eqb_neq q x)) by auto. rewrite hremove_other; auto. }
      destruct (live_of _ _ _ _ _ _ I2 (or_intror X')) as [bx HX].
      unfold m_heap at 1. cbn [m_sys]. rewrite (H3 x bx); [|right; exact X'|exact HX]. congruence.
  - apply in_perm_drop in IN. destruct IN as [E1 P1].
    pose proof (inv_permE _ _ _ _ _ _ P1 I) as I1.
    destruct (realloc_inv dbg p h0 (m_sys m) (m_alc m) E1 T ptr old n V I1 N) as [s2 [q [E2 [I2 [Q0 [b [B1 B2]]]]]]].
    rewrite E2. cbn [bind fst snd]. pose proof (perm_map_cons _ _ _ _ _ P1 PE) as PE1.
    eexists _, q, b. split; [reflexivity|]. split; [|split; [exact B1|split; [exact B2|]]].
    + exists ((q, n) :: E1), T. cbn [m_sys m_alc]. split; [exact I2|]. rewrite !sel_cons. cbn [Bool.eqb map fst].
      split; [now constructor|]. split; [auto|]. split; [lia|]. split; [lia|auto].
    + intros x X. assert (X' : In x (map fst (E1 ++ T))).
      { eapply (tags_users E1 T F1); auto. }
      assert (x <> ptr) by (intros ->; auto).
      assert (x <> q).
      { intros ->. pose proof (inv_users _ _ _ _ _ I2) as ND. cbn [app map fst] in ND. inversion ND; auto. }
      unfold sys_realloc in E2. rewrite dassert_true in E2 by (apply Z.ltb_lt; lia). cbn [bind] in E2.
      rewrite B1, c_realloc_ok in E2 by auto. cbn [bind] in E2. apply enforce_inv in E2. injection E2 as <- EQ.
      rewrite EQ. cbn. rewrite (proj2 (Z.eqb_neq q x)) by auto. rewrite hremove_other; auto.
Qed.

Lemma free_m dbg h0 k m F F1 u ptr : minv h0 k m F -> 0 <= k <= call_limit -> Permutation F ((ptr, u) :: F1) ->
  exists m', m_free dbg m u ptr = Ok m' /\ minv h0 (k + 1) m' F1 /\ hlookup (m_heap m') ptr = None /\ keeps m m' F1.
Proof.
  intros M K PF. apply (minv_perm _ _ _ _ _ PF) in M.
  destruct (minv_in _ _ _ _ ptr u M (or_introl eq_refl)) as (E & T & old & I & PE & PT & KL & KC & KB & IN).
  destruct (minv_block _ _ _ _ ptr u M (or_introl eq_refl)) as (b0 & HB0 & LB0 & P0).
  pose proof (minv_nodup _ _ _ _ M) as NDF. cbn [map fst] in NDF. inversion NDF as [|? ? NF _]. subst.
  unfold call_limit in K. unfold m_free. rewrite !sel_cons in *.
  assert (HS : forall s2, sys_free (m_sys m) ptr = Ok s2 -> forall x, x <> ptr -> hlookup (s_heap s2) x = hlookup (m_heap m) x).
  { intros s2 X x Y. unfold sys_free in X. fold (m_heap m) in X. rewrite (proj2 (Z.eqb_neq _ _) P0), HB0 in X.
    injection X as <-. cbn [s_heap]. now apply hremove_other. }
  destruct u; cbn [Bool.eqb] in *.
  - unfold mallocator_free. rewrite dassert_true by (apply negb_true_iff, Z.eqb_neq; auto). cbn [bind].
    destruct (remove_inv dbg h0 (m_sys m) (m_alc m) E T ptr old I IN) as [a1 [T1 [E1 [I1 [P1 [C1 [CC1 _]]]]]]].
    { unfold alloc_max in *. lia. }
    rewrite E1. cbn [bind fst snd].
    destruct (i_sizes _ _ _ _ _ I ptr old (in_or_app _ _ _ (or_intror IN))) as [OS _].
    rewrite (proj2 (Z.ltb_lt 0 old)) by lia.
    destruct (free_inv h0 (m_sys m) a1 E T1 ptr old I1) as [s2 [E2 [I2 H2]]]. rewrite E2. cbn [bind fst snd].
    injection C1 as D1 D2 D3 D4 D5.
    assert (ZL : zlen T = 1 + zlen T1). { apply Permutation_length in P1. unfold zlen. cbn in P1. lia. }
    pose proof (perm_map_cons _ _ _ _ _ P1 PT) as PT1.
    eexists. split; [reflexivity|]. split; [|split; [exact H2|]].
    + exists E, T1. cbn [m_sys m_alc].
      split; [eapply inv_ext; [..|exact I2]; reflexivity|]. split; [auto|]. split; [auto|].
      cbn [tcap c_bytes]. split; [lia|]. split; [lia|].
      rewrite D4, KB, w64_sub, (total_perm _ _ P1), total_cons. cbn [snd]. f_equal. lia.
    + intros x X. apply (HS _ E2). intros ->. auto.
  - apply in_perm_drop in IN. destruct IN as [E1 P1].
    pose proof (inv_permE _ _ _ _ _ _ P1 I) as I1.
    destruct (free_inv h0 (m_sys m) (m_alc m) E1 T ptr old I1) as [s2 [E2 [I2 H2]]].
    rewrite E2. cbn [bind fst snd]. pose proof (perm_map_cons _ _ _ _ _ P1 PE) as PE1.
    eexists. split; [reflexivity|]. split; [|split; [exact H2|]].
    + exists E1, T. cbn [m_sys m_alc]. split; [exact I2|]. split; [auto|]. split; [auto|]. split; [lia|]. split; [lia|auto].
    + intros x X. apply (HS _ E2). intros ->. auto.
Qed.

Lemma store_m h0 k m F ptr u b b' : minv h0 k m F -> In (ptr, u) F -> hlookup (m_heap m) ptr = Some b -> zlen b' = zlen b ->
  minv h0 k (m_store m ptr b') F /\ hlookup (m_heap (m_store m ptr b')) ptr = Some b'
    /\ forall x, x <> ptr -> hlookup (m_heap (m_store m ptr b')) x = hlookup (m_heap m) x.
Proof.
  intros M IN HB LB. destruct (minv_in _ _ _ _ ptr u M IN) as (E & T & old & I & PE & PT & KL & KC & KB & IT).
  assert (IO : In (ptr, old) (E ++ T)) by (apply in_or_app; destruct u; auto).
  assert (IP : In ptr (map fst (E ++ T))) by (apply in_map_iff; exists (ptr, old); auto).
  split; [|split].
  - exists E, T. split; [|auto 9]. pose proof I as [W SH ND SE TA SI FR NW].
    assert (O : forall x, x <> ptr -> hlookup (hstore (s_heap (m_sys m)) ptr b') x = hlookup (s_heap (m_sys m)) x)
      by (intros; now apply hstore_other).
    unfold owned in ND. inversion ND as [|? ? N1 ND1]. inversion ND1 as [|? ? N2 ND2]. subst.
    constructor; cbn [m_store m_sys m_alc s_heap]; unfold m_heap; auto.
    + destruct W as [W1 W2]. split; rewrite hstore_addrs; auto.
    + destruct SE as [c [X Y]]. exists c. split; auto. rewrite O; auto. intros Z. apply N1. right. rewrite Z. auto.
    + destruct TA as [c [X Y]]. exists c. split; auto. rewrite O; auto. intros Z. apply N2. rewrite Z. auto.
    + intros x n X. destruct (SI _ _ X) as [S1 [c [S2 S3]]]. split; auto.
      destruct (Z.eq_dec x ptr) as [->|NE].
      * exists b'. split; [apply hstore_same; eapply hlookup_some_in; eauto|]. unfold m_heap in HB. congruence.
      * exists c. rewrite O by auto. auto.
    + intros x X. rewrite O. { now apply FR. } intros ->. apply X. right. right. auto.
  - cbn. apply hstore_same. eapply hlookup_some_in; eauto.
  - intros x X. cbn. now apply hstore_other.
Qed.
