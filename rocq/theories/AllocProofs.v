(** Proofs about the heap and the tracking allocator. *)
From Coq Require Import Permutation.
From Verif Require Import Base BaseFacts HeapModel AllocModel AllocSpec.

(** * The heap *)

Definition wf_heap (h : heap) : Prop := NoDup (addrs h) /\ ~ In 0 (addrs h).

Lemma hlookup_in h a : hlookup h a <> None <-> In a (addrs h).
Proof.
  induction h as [|[x b] h IH]; cbn.
  - split; [congruence|tauto].
  - destruct (x =? a) eqn:E.
    + apply Z.eqb_eq in E. subst. split; [auto|congruence].
    + apply Z.eqb_neq in E. rewrite IH. split; [auto|]. intros [H|H]; [congruence|auto].
Qed.

Lemma hlookup_some_in h a b : hlookup h a = Some b -> In a (addrs h).
Proof. intros H. apply hlookup_in. congruence. Qed.

Lemma hlookup_none h a : ~ In a (addrs h) -> hlookup h a = None.
Proof. intros H. destruct (hlookup h a) eqn:E; auto. exfalso. apply H, hlookup_in. congruence. Qed.

Lemma hremove_other h a x : x <> a -> hlookup (hremove h a) x = hlookup h x.
Proof.
  intros N. induction h as [|[y b] h IH]; cbn; auto.
  destruct (y =? a) eqn:E.
  - apply Z.eqb_eq in E. subst. destruct (a =? x) eqn:F; auto. apply Z.eqb_eq in F. congruence.
  - cbn. destruct (y =? x); auto.
Qed.

Lemma addrs_hremove_incl h a x : In x (addrs (hremove h a)) -> In x (addrs h).
Proof.
  induction h as [|[y b] h IH]; cbn; auto.
  destruct (y =? a) eqn:E; cbn; auto. intros [H|H]; auto.
Qed.

Lemma addrs_hremove_not h a : NoDup (addrs h) -> ~ In a (addrs (hremove h a)).
Proof.
  induction h as [|[y b] h IH]; cbn; auto.
  intros D. inversion D; subst. destruct (y =? a) eqn:E.
  - apply Z.eqb_eq in E. subst. auto.
  - apply Z.eqb_neq in E. cbn. intros [H|H]; [congruence|]. now apply IH.
Qed.

Lemma nodup_hremove h a : NoDup (addrs h) -> NoDup (addrs (hremove h a)).
Proof.
  induction h as [|[y b] h IH]; cbn; auto.
  intros D. inversion D; subst. destruct (y =? a) eqn:E; auto.
  cbn. constructor; auto. intros H. apply H1. now apply addrs_hremove_incl in H.
Qed.

Lemma hremove_same h a : NoDup (addrs h) -> hlookup (hremove h a) a = None.
Proof. intros D. apply hlookup_none. now apply addrs_hremove_not. Qed.

Lemma wf_hremove h a : wf_heap h -> wf_heap (hremove h a).
Proof.
  intros [D Z0]. split; [now apply nodup_hremove|].
  intros H. apply Z0. eapply addrs_hremove_incl; eauto.
Qed.

Lemma wf_cons h a b : wf_heap h -> a <> 0 -> ~ In a (addrs h) -> wf_heap ((a, b) :: h).
Proof.
  intros [D Z0] N I. split; cbn.
  - constructor; auto.
  - intros [H|H]; [congruence|auto].
Qed.

Lemma hstore_addrs h a c : addrs (hstore h a c) = addrs h.
Proof. induction h as [|[y b] h IH]; cbn; auto. destruct (y =? a); cbn; f_equal; auto. Qed.

Lemma hstore_other h a c x : x <> a -> hlookup (hstore h a c) x = hlookup h x.
Proof.
  intros N. induction h as [|[y b] h IH]; cbn; auto.
  destruct (y =? a) eqn:E; cbn; destruct (y =? x) eqn:F; auto.
  apply Z.eqb_eq in E, F. congruence.
Qed.

Lemma hstore_same h a c : In a (addrs h) -> hlookup (hstore h a c) a = Some c.
Proof.
  induction h as [|[y b] h IH]; cbn; [tauto|].
  destruct (y =? a) eqn:E; cbn; rewrite E; auto.
  apply Z.eqb_neq in E. intros [H|H]; [congruence|auto].
Qed.

(** * The object list *)

Definition shape (a : alc) (T : list (Z * Z)) : Prop :=
  exists J, tab a = map Some T ++ J /\ tlen a = zlen T /\ tcap a = zlen (tab a) /\ 16 <= tcap a.

(** Facts about the whole state.  [E]: blocks handed out that are momentarily not
    in the list, [T]: the entries of the list. *)
Definition sizes_ok (h : heap) (l : list (Z * Z)) : Prop :=
  forall q n, In (q, n) l -> 0 < n <= alloc_max /\ exists b, hlookup h q = Some b /\ zlen b = n.

Definition owned (a : alc) (l : list (Z * Z)) : list Z := self a :: tptr a :: map fst l.

Record inv (h0 : heap) (s : sys) (a : alc) (E T : list (Z * Z)) : Prop := {
  i_wf : wf_heap (s_heap s);
  i_shape : shape a T;
  i_nodup : NoDup (owned a (E ++ T));
  i_self : exists b, hlookup (s_heap s) (self a) = Some b /\ zlen b = alc_size;
  i_tab : exists b, hlookup (s_heap s) (tptr a) = Some b /\ zlen b = tcap a * obj_size;
  i_sizes : sizes_ok (s_heap s) (E ++ T);
  i_frame : forall x, ~ In x (owned a (E ++ T)) -> hlookup (s_heap s) x = hlookup h0 x;
  i_new : forall x, In x (owned a (E ++ T)) -> hlookup h0 x = None
}.

Lemma owned_live h0 s a E T x : inv h0 s a E T -> In x (owned a (E ++ T)) -> In x (addrs (s_heap s)).
Proof.
  intros I [H|[H|H]].
  - destruct (i_self _ _ _ _ _ I) as [b [L _]]. subst. eapply hlookup_some_in; eauto.
  - destruct (i_tab _ _ _ _ _ I) as [b [L _]]. subst. eapply hlookup_some_in; eauto.
  - apply in_map_iff in H. destruct H as [[q n] [F H]]. cbn in F. subst.
    destruct (i_sizes _ _ _ _ _ I _ _ H) as [_ [b [L _]]]. eapply hlookup_some_in; eauto.
Qed.

Lemma fresh_not_owned h0 s a E T x : inv h0 s a E T -> ~ In x (addrs (s_heap s)) ->
  ~ In x (owned a (E ++ T)) /\ hlookup h0 x = None.
Proof.
  intros I F. assert (~ In x (owned a (E ++ T))) as N by (intros H; apply F; eapply owned_live; eauto).
  split; auto. rewrite <- (i_frame _ _ _ _ _ I x N). now apply hlookup_none.
Qed.

(** calloc of a user block. *)
Lemma enforce_inv {A} c (k : res A) x : (let* _ := enforce c in k) = Ok x -> k = Ok x.
Proof. destruct c; [auto|discriminate]. Qed.
Lemma nonzero a : a <> 0 -> negb (a =? 0) = true.
Proof. intros H. apply Z.eqb_neq in H. now rewrite H. Qed.

Lemma calloc_inv dbg p h0 s a E T n : valid_policy p -> inv h0 s a E T -> 0 < n <= alloc_max ->
  exists s' q, sys_calloc dbg p s n = Ok (s', q) /\ inv h0 s' a ((q, n) :: E) T /\ q <> 0.
Proof.
  intros V I N. unfold sys_calloc. rewrite c_calloc_ok by auto. cbn [bind].
  destruct (V (s_clock s) (addrs (s_heap s))) as [Q0 QF].
  set (q := choose p (s_clock s) (addrs (s_heap s))) in *.
  destruct (fresh_not_owned _ _ _ _ _ _ I QF) as [QO Q1].
  rewrite enforce_true by now apply nonzero. cbn [bind].
  eexists _, q. split; [reflexivity|]. split; [|auto].
  assert (L : forall x, x <> q -> hlookup ((q, repeat (Some 0) (Z.to_nat n)) :: s_heap s) x = hlookup (s_heap s) x).
  { intros x X. cbn. destruct (q =? x) eqn:EQ; auto. apply Z.eqb_eq in EQ. congruence. }
  destruct I as [W SH ND SE TA SI FR NW]. cbn [app] in *.
  constructor; cbn [s_heap app] in *; auto.
  - apply wf_cons; auto.
  - unfold owned in *. cbn [map fst]. eapply Permutation_NoDup.
    2: { constructor; [exact QO|exact ND]. }
    eapply Permutation_trans; [apply perm_swap|]. constructor. apply perm_swap.
  - destruct SE as [b [SE1 SE2]]. exists b. split; auto. rewrite L; auto. intros X. apply QO. left. auto.
  - destruct TA as [b [SE1 SE2]]. exists b. split; auto. rewrite L; auto. intros X. apply QO. right. left. auto.
  - intros x m [X|X].
    + injection X as <- <-. split; auto. exists (repeat (Some 0) (Z.to_nat n)).
      split; [cbn; now rewrite Z.eqb_refl|]. autorewrite with zlen. lia.
    + destruct (SI _ _ X) as [S1 [b [S2 S3]]]. split; auto. exists b. split; auto. rewrite L; auto.
      intros Y. apply QO. right. right. rewrite <- Y. apply in_map_iff. exists (x, m). auto.
  - intros x X. rewrite L. 2: { intros Y. apply X. right. right. left. auto. }
    apply FR. intros Y. apply X. destruct Y as [Y|[Y|Y]]; [left|right; left|right; right; right]; auto.
  - intros x [X|[X|[X|X]]]; [apply NW; left|apply NW; right; left|cbn in X; subst; auto|apply NW; right; right]; auto.
Qed.

Lemma free_inv h0 s a E T q n : inv h0 s a ((q, n) :: E) T ->
  exists s', sys_free s q = Ok s' /\ inv h0 s' a E T /\ hlookup (s_heap s') q = None.
Proof.
  intros I. pose proof I as [W SH ND SE TA SI FR NW]. cbn [app] in *.
  destruct (SI q n (or_introl eq_refl)) as [N [b [B1 B2]]].
  assert (Q0 : q <> 0). { intros ->. apply (proj2 W). eapply hlookup_some_in; eauto. }
  unfold sys_free. rewrite (proj2 (Z.eqb_neq _ _) Q0), B1. eexists. split; [reflexivity|].
  assert (Dq : ~ In q (owned a (E ++ T))).
  { assert (NoDup (q :: owned a (E ++ T))) as D. { eapply Permutation_NoDup; [|exact ND]. unfold owned. cbn [map fst].
    eapply Permutation_trans; [constructor; apply perm_swap|]. apply perm_swap. }
    inversion D; auto. }
  assert (DT : NoDup (owned a (E ++ T))).
  { assert (NoDup (q :: owned a (E ++ T))) as D. { eapply Permutation_NoDup; [|exact ND]. unfold owned. cbn [map fst].
    eapply Permutation_trans; [constructor; apply perm_swap|]. apply perm_swap. }
    inversion D; auto. }
  split. 2: { cbn. apply hremove_same, W. }
  constructor; cbn [s_heap app] in *; auto.
  - now apply wf_hremove.
  - destruct SE as [c [SE1 SE2]]. exists c. split; auto. rewrite hremove_other; auto.
    intros X. apply Dq. left. auto.
  - destruct TA as [c [SE1 SE2]]. exists c. split; auto. rewrite hremove_other; auto.
    intros X. apply Dq. right. left. auto.
  - intros x m X. destruct (SI x m (or_intror X)) as [S1 [c [S2 S3]]]. split; auto. exists c. split; auto.
    rewrite hremove_other; auto. intros Y. apply Dq. right. right. apply in_map_iff. exists (x, m). auto.
  - intros x X. destruct (Z.eq_dec x q) as [->|Y].
    + rewrite hremove_same by apply W. symmetry. apply NW. right. right. left. auto.
    + rewrite hremove_other by auto. apply FR. intros [Z|[Z|[Z|Z]]].
      * apply X. left. auto.
      * apply X. right. left. auto.
      * cbn in Z. congruence.
      * apply X. right. right. auto.
  - intros x [X|[X|X]]; apply NW; [left|right; left|right; right; right]; auto.
Qed.

Lemma realloc_inv dbg p h0 s a E T q n m : valid_policy p -> inv h0 s a ((q, n) :: E) T -> 0 < m <= alloc_max ->
  exists s' q', sys_realloc dbg p s q m = Ok (s', q') /\ inv h0 s' a ((q', m) :: E) T /\ q' <> 0
    /\ exists b, hlookup (s_heap s) q = Some b
        /\ hlookup (s_heap s') q' = Some (firstn (Z.to_nat m) b ++ repeat None (Z.to_nat m - length b)%nat).
Proof.
  intros V I M. pose proof I as [W SH ND SE TA SI FR NW]. cbn [app] in *.
  destruct (SI q n (or_introl eq_refl)) as [N [b [B1 B2]]].
  assert (Q0 : q <> 0). { intros ->. apply (proj2 W). eapply hlookup_some_in; eauto. }
  unfold sys_realloc. rewrite dassert_true by (apply Z.ltb_lt; lia). cbn [bind].
  rewrite B1, c_realloc_ok by auto. cbn [bind].
  assert (Dq : NoDup (q :: owned a (E ++ T))).
  { eapply Permutation_NoDup; [|exact ND]. unfold owned. cbn [map fst].
    eapply Permutation_trans; [constructor; apply perm_swap|]. apply perm_swap. }
  inversion Dq as [|? ? Dq1 DT]; subst.
  set (q' := if stay p (s_clock s) then q else choose p (s_clock s) (addrs (s_heap s))).
  assert (Q' : q' <> 0 /\ ~ In q' (addrs (hremove (s_heap s) q)) /\ ~ In q' (owned a (E ++ T)) /\ hlookup h0 q' = None).
  { unfold q'. destruct (stay p (s_clock s)).
    - split; auto. split; [now apply addrs_hremove_not, W|]. split; auto. apply NW. right. right. left. auto.
    - destruct (V (s_clock s) (addrs (s_heap s))) as [C0 CF].
      destruct (fresh_not_owned _ _ _ _ _ _ I CF) as [C1 C2].
      split; auto. split; [intros X; apply CF; now apply addrs_hremove_incl in X|]. split; auto.
      intros X. apply C1. destruct X as [X|[X|X]]; [left|right; left|right; right; right]; auto. }
  destruct Q' as [Q1 [Q2 [Q3 Q4]]].
  set (b' := firstn (Z.to_nat m) b ++ repeat None (Z.to_nat m - length b)%nat).
  rewrite enforce_true by now apply nonzero. cbn [bind].
  eexists _, q'. split; [reflexivity|].
  assert (L : forall x, x <> q -> x <> q' -> hlookup ((q', b') :: hremove (s_heap s) q) x = hlookup (s_heap s) x).
  { intros x X Y. cbn. destruct (q' =? x) eqn:EQ; [apply Z.eqb_eq in EQ; congruence|]. now apply hremove_other. }
  assert (LO : forall x, In x (owned a (E ++ T)) -> x <> q /\ x <> q').
  { intros x X. split; intros ->; auto. }
  split; [|split; [auto|]].
  2: { exists b. split; auto. cbn. now rewrite Z.eqb_refl. }
  constructor; cbn [s_heap app] in *; auto.
  - apply wf_cons; auto. now apply wf_hremove.
  - eapply Permutation_NoDup.
    2: { constructor; [exact Q3|exact DT]. }
    unfold owned. cbn [map fst]. eapply Permutation_trans; [apply perm_swap|]. constructor. apply perm_swap.
  - destruct SE as [c [SE1 SE2]]. exists c. split; auto. rewrite L; auto; apply LO; left; auto.
  - destruct TA as [c [SE1 SE2]]. exists c. split; auto. rewrite L; auto; apply LO; right; left; auto.
  - intros x k [X|X].
    + injection X as <- <-. split; auto. exists b'. split; [cbn; now rewrite Z.eqb_refl|].
      unfold b'. autorewrite with zlen. unfold zlen in *. lia.
    + destruct (SI x k (or_intror X)) as [S1 [c [S2 S3]]]. split; auto. exists c. split; auto.
      assert (In x (owned a (E ++ T))) by (right; right; apply in_map_iff; exists (x, k); auto).
      rewrite L; auto; apply LO; auto.
  - intros x X. assert (X1 : x <> q'). { intros ->. apply X. right. right. left. auto. }
    destruct (Z.eq_dec x q) as [->|Y].
    + cbn. destruct (q' =? q) eqn:EQ; [apply Z.eqb_eq in EQ; congruence|].
      rewrite hremove_same by apply W. symmetry. apply NW. right. right. left. auto.
    + rewrite L by auto. apply FR. intros [Z|[Z|[Z|Z]]].
      * apply X. left. auto.
      * apply X. right. left. auto.
      * cbn in Z. congruence.
      * apply X. right. right. right. auto.
  - intros x [X|[X|[X|X]]]; [apply NW; left|apply NW; right; left|cbn in X; subst; auto|apply NW; right; right; right]; auto.
Qed.

(** Only the parts of the record that [inv] mentions matter. *)
Lemma inv_ext h0 s a a' E T : tab a' = tab a -> tptr a' = tptr a -> tlen a' = tlen a -> tcap a' = tcap a ->
  self a' = self a -> inv h0 s a E T -> inv h0 s a' E T.
Proof.
  intros A B C D F [W SH ND SE TA SI FR NW].
  constructor; unfold owned, shape in *; rewrite ?A, ?B, ?C, ?D, ?F; auto.
Qed.

Lemma tab_get_app T J i e : nth_error T i = Some e -> tab_get (map Some T ++ J) (Z.of_nat i) = Ok e.
Proof.
  intros H. unfold tab_get. rewrite (proj2 (Z.leb_le _ _)) by lia. rewrite Nat2Z.id.
  rewrite nth_error_app1. 2: { rewrite map_length. apply nth_error_Some. congruence. }
  rewrite (map_nth_error Some _ _ H). reflexivity.
Qed.

Lemma tab_set_mid P x S e i : i = zlen P -> tab_set (P ++ x :: S) i e = Ok (P ++ Some e :: S).
Proof.
  intros ->. unfold tab_set. rewrite (proj2 (Z.leb_le _ _)) by apply zlen_nonneg.
  rewrite (proj2 (Z.ltb_lt _ _)). 2: { autorewrite with zlen. pose proof (zlen_nonneg S). lia. }
  cbn [andb]. rewrite to_nat_zlen, firstn_exact. repeat f_equal.
  rewrite <- (Nat.add_1_r (length P)). replace (length P + 1)%nat with (length (P ++ [x])) by (rewrite app_length; cbn; lia).
  replace (P ++ x :: S) with ((P ++ [x]) ++ S) by now rewrite <- app_assoc. apply skipn_exact.
Qed.

(** The list is full: it is reallocated with twice the capacity. *)
Lemma resize_inv dbg p h0 s a E T : valid_policy p -> inv h0 s a E T -> tcap a = zlen T ->
  2 * tcap a * obj_size <= alloc_max ->
  exists s' a', obj_list_resize dbg p s a (w64 (2 * tcap a)) = Ok (s', a') /\ inv h0 s' a' E T
    /\ (c_allocs a', c_reallocs a', c_frees a', c_bytes a', c_freed a')
       = (c_allocs a, c_reallocs a, c_frees a, c_bytes a, c_freed a)
    /\ tcap a' = 2 * tcap a /\ tab a' = map Some T ++ repeat None (length T) /\ tlen a' = zlen T
    /\ (forall x b, In x (map fst (E ++ T)) -> hlookup (s_heap s) x = Some b -> hlookup (s_heap s') x = Some b).
Proof.
  intros V I CE CAP. pose proof I as [W SH ND SE TA SI FR NW]. destruct SH as [J [S1 [S2 [S3 S4]]]].
  pose proof (zlen_nonneg T). assert (alloc_max < two64) by reflexivity. unfold obj_size in CAP.
  assert (J = []). { apply zlen_0. rewrite S3, S1 in CE. autorewrite with zlen in CE. lia. }
  subst J. rewrite app_nil_r in S1.
  unfold obj_list_resize. rewrite (w64_small (2 * tcap a)) by lia.
  rewrite dassert_true by (apply Z.ltb_lt; lia). cbn [bind]. unfold obj_size.
  rewrite (w64_small (2 * tcap a * 16)) by lia.
  unfold sys_realloc. rewrite dassert_true by (apply Z.ltb_lt; lia). cbn [bind].
  destruct TA as [tb [TB1 TB2]]. rewrite TB1, c_realloc_ok by lia. cbn [bind fst snd].
  rewrite Z.div_mul by lia.
  set (b' := firstn (Z.to_nat (2 * tcap a * 16)) tb ++ repeat None (Z.to_nat (2 * tcap a * 16) - length tb)%nat).
  set (q' := if stay p (s_clock s) then tptr a else choose p (s_clock s) (addrs (s_heap s))).
  assert (D1 : NoDup (tptr a :: self a :: map fst (E ++ T))).
  { eapply Permutation_NoDup; [apply perm_swap|exact ND]. }
  inversion D1 as [|? ? DT DS]; subst.
  assert (T0 : tptr a <> 0). { intros X. apply (proj2 W). rewrite <- X. eapply hlookup_some_in; eauto. }
  assert (Q' : q' <> 0 /\ ~ In q' (addrs (hremove (s_heap s) (tptr a))) /\ ~ In q' (self a :: map fst (E ++ T)) /\ hlookup h0 q' = None).
  { unfold q'. destruct (stay p (s_clock s)).
    - split; auto. split; [now apply addrs_hremove_not, W|]. split; auto. apply NW. right. left. auto.
    - destruct (V (s_clock s) (addrs (s_heap s))) as [C0 CF].
      destruct (fresh_not_owned _ _ _ _ _ _ I CF) as [C1 C2].
      split; auto. split; [intros X; apply CF; now apply addrs_hremove_incl in X|]. split; auto.
      intros X. apply C1. destruct X as [X|X]; [left|right; right]; auto. }
  destruct Q' as [Q1 [Q2 [Q3 Q4]]].
  rewrite enforce_true by now apply nonzero. cbn [bind fst snd].
  assert (L : forall x, x <> tptr a -> x <> q' -> hlookup ((q', b') :: hremove (s_heap s) (tptr a)) x = hlookup (s_heap s) x).
  { intros x X Y. cbn. destruct (q' =? x) eqn:F; [apply Z.eqb_eq in F; congruence|]. now apply hremove_other. }
  assert (LO : forall x, In x (self a :: map fst (E ++ T)) -> x <> tptr a /\ x <> q').
  { intros x X. split; intros ->; auto. }
  assert (TT : firstn (Z.to_nat (2 * tcap a)) (tab a) ++ repeat None (Z.to_nat (2 * tcap a) - length (tab a))%nat
               = map Some T ++ repeat None (length T)).
  { rewrite S1, firstn_ge by (rewrite map_length; unfold zlen in CE; lia). f_equal. f_equal. rewrite map_length.
    unfold zlen in CE. lia. }
  eexists _, _. split; [reflexivity|]. rewrite TT.
  split.
  2: { split; [reflexivity|]. split; [reflexivity|]. split; [reflexivity|]. split; [exact S2|].
       cbn [s_heap]. intros x b X Y. rewrite L; auto; apply LO; right; auto. }
  constructor; unfold set_tab; cbn [s_heap tab tptr tlen tcap self] in *.
  - apply wf_cons; auto. now apply wf_hremove.
  - exists (repeat None (length T)). cbn [tab tlen tcap]. split; [reflexivity|]. split; [exact S2|].
    split; [|lia]. autorewrite with zlen. fold (zlen T). lia.
  - unfold owned. cbn [self tptr]. eapply Permutation_NoDup; [apply perm_swap|]. constructor; auto.
  - destruct SE as [c [SE1 SE2]]. exists c. split; auto. rewrite L; auto; apply LO; left; auto.
  - exists b'. split; [cbn; now rewrite Z.eqb_refl|]. unfold b', obj_size in *. autorewrite with zlen. unfold zlen in *. lia.
  - intros x k X. destruct (SI x k X) as [Y1 [c [Y2 Y3]]]. split; auto. exists c. split; auto.
    assert (In x (self a :: map fst (E ++ T))) by (right; apply in_map_iff; exists (x, k); auto).
    rewrite L; auto; apply LO; auto.
  - unfold owned. cbn [self tptr]. intros x X.
    assert (X1 : x <> q'). { intros ->. apply X. right. left. auto. }
    destruct (Z.eq_dec x (tptr a)) as [->|Y].
    + cbn. destruct (q' =? tptr a) eqn:F; [apply Z.eqb_eq in F; congruence|].
      rewrite hremove_same by apply W. symmetry. apply NW. right. left. auto.
    + rewrite L by auto. apply FR. intros [Z|[Z|Z]].
      * apply X. left. auto.
      * congruence.
      * apply X. right. right. auto.
  - unfold owned. cbn [self tptr]. intros x [X|[X|X]].
    + apply NW. left. auto.
    + subst. auto.
    + apply NW. right. right. auto.
Qed.

(** obj_list_add: the momentarily missing block gets into the list. *)
Lemma add_inv dbg p h0 s a E T q n : valid_policy p -> inv h0 s a ((q, n) :: E) T -> q <> 0 ->
  2 * tcap a * obj_size <= alloc_max ->
  exists s' a', obj_list_add dbg p s a (q, n) = Ok (s', a') /\ inv h0 s' a' E (T ++ [(q, n)])
    /\ (c_allocs a', c_reallocs a', c_frees a', c_bytes a', c_freed a')
       = (c_allocs a, c_reallocs a, c_frees a, c_bytes a, c_freed a)
    /\ tcap a' <= Z.max (tcap a) (2 * zlen T)
    /\ (forall x b, In x (q :: map fst (E ++ T)) -> hlookup (s_heap s) x = Some b -> hlookup (s_heap s') x = Some b).
Proof.
  intros V I Q0 CAP. unfold obj_list_add. cbn [fst].
  rewrite dassert_true by (apply negb_true_iff, Z.eqb_neq; auto). cbn [bind].
  pose proof I as [W SH ND SE TA SI FR NW]. destruct SH as [J [S1 [S2 [S3 S4]]]].
  assert (CT : tcap a = zlen T + zlen J) by (rewrite S3, S1; autorewrite with zlen; lia).
  pose proof (zlen_nonneg T). pose proof (zlen_nonneg J).
  assert (alloc_max < two64) by reflexivity. unfold obj_size in *.
  unfold obj_list_has_space. rewrite w64_small by lia.
  (* the final store into a list with room *)
  assert (K : forall s1 a1 j J1, inv h0 s1 a1 ((q, n) :: E) T -> tab a1 = map Some T ++ j :: J1 -> tlen a1 = zlen T ->
    (c_allocs a1, c_reallocs a1, c_frees a1, c_bytes a1, c_freed a1)
       = (c_allocs a, c_reallocs a, c_frees a, c_bytes a, c_freed a) -> tcap a1 <= Z.max (tcap a) (2 * zlen T) ->
    (forall x b, In x (q :: map fst (E ++ T)) -> hlookup (s_heap s) x = Some b -> hlookup (s_heap s1) x = Some b) ->
    exists s' a', (let* t := tab_set (tab a1) (tlen a1) (q, n) in
        Ok (s1, set_tab a1 t (tptr a1) (w64 (tlen a1 + 1)) (tcap a1))) = Ok (s', a')
      /\ inv h0 s' a' E (T ++ [(q, n)])
    /\ (c_allocs a', c_reallocs a', c_frees a', c_bytes a', c_freed a')
       = (c_allocs a, c_reallocs a, c_frees a, c_bytes a, c_freed a)
    /\ tcap a' <= Z.max (tcap a) (2 * zlen T)
    /\ (forall x b, In x (q :: map fst (E ++ T)) -> hlookup (s_heap s) x = Some b -> hlookup (s_heap s') x = Some b)).
  { intros s1 a1 j J1 I1 T1 L1 C1 CC HH. rewrite T1, L1.
    rewrite tab_set_mid by (autorewrite with zlen; reflexivity). cbn [bind].
    eexists s1, _. split; [reflexivity|]. split; [|split; [exact C1|split; [exact CC|exact HH]]].
    destruct I1 as [W' SH' ND' SE' TA' SI' FR' NW'].
    assert (P : Permutation (owned a1 (((q, n) :: E) ++ T)) (owned a1 (E ++ T ++ [(q, n)]))).
    { unfold owned. do 2 constructor. apply Permutation_map. cbn [app]. rewrite app_assoc. apply Permutation_cons_append. }
    assert (P2 : forall x, In x (((q, n) :: E) ++ T) <-> In x (E ++ T ++ [(q, n)])).
    { intros x. cbn [app]. rewrite !in_app_iff. cbn. rewrite in_app_iff. tauto. }
    constructor; auto.
    - destruct SH' as [J' [Y1 [Y2 [Y3 Y4]]]]. exists J1. cbn [set_tab tab tlen tcap].
      rewrite map_app, <- app_assoc. cbn [map app]. split; [reflexivity|].
      split. { rewrite w64_small by (rewrite ?CT in *; lia). autorewrite with zlen. lia. }
      split; auto. rewrite Y3, T1. autorewrite with zlen. lia.
    - eapply Permutation_NoDup; [exact P|exact ND'].
    - intros x k X. apply SI'. now apply P2.
    - intros x X. apply FR'. intros Y. apply X. eapply Permutation_in; [exact P|exact Y].
    - intros x X. apply NW'. eapply Permutation_in; [apply Permutation_sym; exact P|exact X]. }
  destruct (tcap a - tlen a =? 0) eqn:FULL; cbn [negb].
  2: { cbn [bind fst snd]. destruct J as [|j J1].
       { exfalso. apply Z.eqb_neq in FULL. autorewrite with zlen in CT. lia. }
       apply (K s a j J1); auto. lia. }
  apply Z.eqb_eq in FULL.
  destruct (resize_inv dbg p h0 s a ((q, n) :: E) T V I) as [s1 [a1 [R1 [R2 [R3 [R4 [R5 [R6 R7]]]]]]]]; [lia|unfold obj_size; lia|].
  rewrite R1. cbn [bind fst snd]. destruct T as [|t0 T0].
  { exfalso. rewrite zlen_nil in *. lia. }
  cbn [length repeat] in R5.
  apply (K s1 a1 None (repeat None (length T0))); auto. lia.
Qed.

(** * Looking up and removing *)

Lemma find_loop_spec T1 p n T2 J : ~ In p (map fst T1) ->
  forall P k, (length T1 < k)%nat ->
  find_loop k (map Some (P ++ T1 ++ (p, n) :: T2) ++ J) p (zlen P) = Ok (zlen P + zlen T1).
Proof.
  induction T1 as [|[x m] T1 IH]; intros N P k K; destruct k as [|k]; cbn [length] in K; try lia; cbn [find_loop].
  - unfold zlen at 1. erewrite tab_get_app. 2: { rewrite nth_error_app2, Nat.sub_diag by lia. reflexivity. }
    cbn [bind fst]. rewrite Z.eqb_refl. autorewrite with zlen. f_equal. lia.
  - unfold zlen at 1. erewrite tab_get_app. 2: { rewrite nth_error_app2, Nat.sub_diag by lia. reflexivity. }
    cbn [bind fst]. destruct (x =? p) eqn:E.
    { apply Z.eqb_eq in E. exfalso. apply N. left. auto. }
    specialize (IH (fun h => N (or_intror h)) (P ++ [(x, m)]) k).
    rewrite <- !app_assoc in IH. cbn [app] in IH. autorewrite with zlen in *.
    replace (zlen P + 1) with (zlen P + (1 + 0)) by lia. cbn [app]. rewrite IH by lia. f_equal. lia.
Qed.

Lemma find_loop_none T p J : ~ In p (map fst T) ->
  forall P k, k = length T -> find_loop k (map Some (P ++ T) ++ J) p (zlen P) = Ok (-1).
Proof.
  induction T as [|[x m] T1 IH]; intros N P k ->; cbn [find_loop length]; auto.
  unfold zlen at 1. erewrite tab_get_app. 2: { rewrite nth_error_app2, Nat.sub_diag by lia. reflexivity. }
  cbn [bind fst]. destruct (x =? p) eqn:E.
  { apply Z.eqb_eq in E. exfalso. apply N. left. auto. }
  specialize (IH (fun h => N (or_intror h)) (P ++ [(x, m)]) _ eq_refl).
  rewrite <- !app_assoc in IH. cbn [app] in IH. autorewrite with zlen in *.
  replace (zlen P + 1) with (zlen P + (1 + 0)) by lia. cbn [app]. exact IH.
Qed.

Lemma NoDup_app_r {A} (l l' : list A) : NoDup (l ++ l') -> NoDup l'.
Proof. induction l as [|x l IH]; cbn; auto. intros H. inversion H; auto. Qed.

Lemma remove_inv dbg h0 s a E T q n : inv h0 s a E T -> In (q, n) T -> zlen T < alloc_max ->
  exists a' T', obj_list_remove dbg a q = Ok (a', n) /\ inv h0 s a' ((q, n) :: E) T'
    /\ Permutation T ((q, n) :: T')
    /\ (c_allocs a', c_reallocs a', c_frees a', c_bytes a', c_freed a')
       = (c_allocs a, c_reallocs a, c_frees a, c_bytes a, c_freed a) /\ tcap a' = tcap a /\ tptr a' = tptr a /\ self a' = self a.
Proof.
  intros I IN B. pose proof I as [W SH ND SE TA SI FR NW]. destruct SH as [J [S1 [S2 [S3 S4]]]].
  cbn [app] in *.
  assert (Q0 : q <> 0). { intros X. subst. destruct (SI _ _ (in_or_app _ _ _ (or_intror IN))) as [_ [b [L _]]]. apply (proj2 W). eapply hlookup_some_in; eauto. }
  unfold obj_list_remove, obj_list_find.
  rewrite !dassert_true by (apply negb_true_iff, Z.eqb_neq; auto). cbn [bind].
  pose proof (zlen_nonneg T). assert (0 < zlen T). { destruct T; [easy|]. rewrite zlen_cons. pose proof (zlen_nonneg T). lia. }
  rewrite S2, (proj2 (Z.ltb_lt _ _)) by lia.
  apply in_split in IN. destruct IN as [T1 [T2 ->]].
  assert (DN : NoDup (map fst (T1 ++ (q, n) :: T2))) 
  by (inversion ND as [|? ? ? ND']; inversion ND' as [|? ? ? ND2]; rewrite map_app in ND2; now apply NoDup_app_r in ND2).
  rewrite map_app in DN. cbn [map fst] in DN. apply NoDup_remove_2 in DN.
  assert (N1 : ~ In q (map fst T1)) by (intros X; apply DN, in_or_app; auto).
  rewrite S1. change 0 with (zlen (@nil (Z * Z))) at 1.
  pose proof (find_loop_spec T1 q n T2 J N1 [] (Z.to_nat (zlen (T1 ++ (q, n) :: T2)))) as F. cbn [app] in F.
  rewrite F by (rewrite to_nat_zlen, app_length; cbn [length]; lia). cbn [bind]. rewrite zlen_nil, Z.add_0_l.
  pose proof (zlen_nonneg T1). pose proof (zlen_nonneg T2).
  rewrite (proj2 (Z.ltb_ge _ _)) by lia.
  assert (G : tab_get (map Some (T1 ++ (q, n) :: T2) ++ J) (zlen T1) = Ok (q, n)).
  { unfold zlen. apply tab_get_app. rewrite nth_error_app2, Nat.sub_diag by lia. reflexivity. }
  rewrite G. cbn [bind snd]. assert (alloc_max < two64 / 2) by reflexivity. assert (two64 / 2 < two64) by reflexivity.
  autorewrite with zlen in *.
  unfold s64. rewrite w64_small by lia. rewrite (proj2 (Z.ltb_lt _ _)) by lia.
  assert (FIN : forall T' J', Permutation (T1 ++ (q, n) :: T2) ((q, n) :: T') ->
    let a' := set_tab a (map Some T' ++ J') (tptr a) (zlen T1 + (1 + zlen T2) - 1) (tcap a) in
    zlen (map Some T' ++ J') = tcap a -> zlen T' = zlen T1 + zlen T2 ->
    inv h0 s a' ((q, n) :: E) T').
  { intros T' J' P0 a' LT LT'.
    assert (P : Permutation (E ++ T1 ++ (q, n) :: T2) (((q, n) :: E) ++ T')).
    { cbn [app]. eapply Permutation_trans; [apply Permutation_app_head; exact P0|]. apply Permutation_sym, Permutation_middle. }
    constructor; auto.
    - exists J'. unfold a', set_tab. cbn [tab tlen tcap]. split; [reflexivity|]. split; [lia|]. split; [|auto]. lia.
    - unfold owned in *. cbn [app]. unfold a', set_tab. cbn [self tptr]. eapply Permutation_NoDup; [|exact ND].
      do 2 constructor. now apply Permutation_map.
    - intros x k X. apply SI. eapply Permutation_in; [apply Permutation_sym; exact P|exact X].
    - intros x X. apply FR. intros Y. apply X. eapply Permutation_in; [|exact Y].
      unfold owned, a', set_tab. cbn [self tptr app]. do 2 constructor. now apply Permutation_map.
    - intros x X. apply NW. eapply Permutation_in; [|exact X].
      unfold owned, a', set_tab. cbn [self tptr app]. do 2 constructor. apply Permutation_map. now apply Permutation_sym. }
  assert (CT : tcap a = zlen T1 + (1 + zlen T2) + zlen J).
  { rewrite S3, S1. autorewrite with zlen. lia. }
  destruct (zlen T1 =? zlen T1 + (1 + zlen T2) - 1) eqn:LAST; cbn [negb bind].
  - apply Z.eqb_eq in LAST. assert (T2 = []) by (apply zlen_0; lia). subst T2.
    rewrite map_app, <- app_assoc. cbn [map app].
    eexists _, T1. split; [reflexivity|]. split; [|split; [|repeat split]].
    + apply FIN; autorewrite with zlen in *; try lia. apply Permutation_sym, Permutation_cons_append.
    + apply Permutation_sym, Permutation_cons_append.
  - apply Z.eqb_neq in LAST. destruct T2 as [|t T2'] using rev_ind; [rewrite zlen_nil in *; lia|]. clear IHT2'.
    assert (G2 : tab_get (map Some (T1 ++ (q, n) :: T2' ++ [t]) ++ J) (zlen T1 + (1 + zlen (T2' ++ [t])) - 1) = Ok t).
    { replace (zlen T1 + (1 + zlen (T2' ++ [t])) - 1) with (Z.of_nat (length (T1 ++ (q, n) :: T2')))
        by (rewrite app_length; autorewrite with zlen; unfold zlen; cbn [length]; lia).
      apply tab_get_app. replace (T1 ++ (q, n) :: T2' ++ [t]) with ((T1 ++ (q, n) :: T2') ++ [t]) by now rewrite <- app_assoc.
      rewrite nth_error_app2, Nat.sub_diag by lia. reflexivity. }
    rewrite G2. cbn [bind].
    assert (E2 : map Some (T1 ++ (q, n) :: T2' ++ [t]) ++ J = map Some T1 ++ Some (q, n) :: (map Some T2' ++ Some t :: J)).
    { rewrite map_app. cbn [map]. rewrite map_app. cbn [map]. rewrite <- !app_assoc. cbn [app]. now rewrite <- app_assoc. }
    rewrite E2, tab_set_mid by (autorewrite with zlen; reflexivity). cbn [bind].
    assert (P : Permutation (T1 ++ (q, n) :: T2' ++ [t]) ((q, n) :: T1 ++ t :: T2')).
    { eapply Permutation_trans; [apply Permutation_sym, Permutation_middle|]. constructor.
      apply Permutation_app_head. apply Permutation_sym, Permutation_cons_append. }
    eexists _, (T1 ++ t :: T2'). split; [reflexivity|].
    replace (map Some T1 ++ Some t :: map Some T2' ++ Some t :: J)
      with (map Some (T1 ++ t :: T2') ++ Some t :: J) by (rewrite map_app, <- app_assoc; reflexivity).
    split; [|split; [exact P|repeat split]].
    apply FIN; auto; autorewrite with zlen in *; lia.
Qed.

(** A pointer that is not in the list: nothing is recorded. *)
Lemma remove_absent dbg a T q : shape a T -> q <> 0 -> ~ In q (map fst T) -> obj_list_remove dbg a q = Ok (a, 0).
Proof.
  intros [J [S1 [S2 [S3 S4]]]] Q N. unfold obj_list_remove, obj_list_find.
  rewrite !dassert_true by (apply negb_true_iff, Z.eqb_neq; auto). cbn [bind].
  destruct (0 <? tlen a); auto. rewrite S1, S2.
  pose proof (find_loop_none T q J N [] _ eq_refl) as F. cbn [app] in F. change (zlen (@nil (Z * Z))) with 0 in F.
  rewrite to_nat_zlen, F. reflexivity.
Qed.
