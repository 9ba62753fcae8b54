(** Lemmas about RenameModel.v. *)
From Verif Require Import Base BaseFacts StrSpec FsModel PathModel FsSpec FsProofs FsMain MoreProofs RenameModel.

Lemma below_none p q : below p q = None <-> forall r, q <> p ++ r.
Proof.
  destruct (below p q) as [r|] eqn:E.
  - apply below_spec in E. split; [discriminate|]. intros H. now apply H in E.
  - split; [|reflexivity]. intros _ r H. apply below_spec in H. congruence.
Qed.
Lemma below_app p r : below p (p ++ r) = Some r.
Proof. now apply below_spec. Qed.

Lemma entry_place_inv fs cwd z q : plain z -> entry_place fs cwd z = Some q ->
  exists ns n, names z = ns ++ [n] /\ okname n /\ q = target cwd z /\ q = (start cwd z ++ ns) ++ [n] /\ lookup fs (start cwd z ++ ns) = Some EDir.
Proof.
  intros P H. pose proof (plain_comps _ P) as F. unfold entry_place in H. destruct z as [|c z]; [discriminate|].
  destruct (rev_comps (c :: z)) as [|n r] eqn:Er; [discriminate|].
  assert (names (c :: z) <> []) as Hne.
  { intros E. unfold rev_comps in Er. assert (Forall (fun x => x = []) (rev (comps (c :: z)))) as A.
    { apply Forall_rev. apply Forall_forall. intros x Hx. destruct x as [|a x]; [reflexivity|]. exfalso.
      assert (In (a :: x) (names (c :: z))) as K. { apply filter_In. split; [exact Hx|]. now apply nonempty_spec. }
      rewrite E in K. exact K. }
    revert Er A. generalize (rev (comps (c :: z))). induction l as [|x l IH]; [discriminate|]. intros Er A. inversion A; subst. cbn [drop_nil] in Er. auto. }
  destruct (exists_last Hne) as (ns & m & E). destruct (drop_nil_rev _ _ _ E) as (r' & E1 & E2 & E3 & E4).
  unfold rev_comps in Er. rewrite E1 in Er. injection Er as <- <-.
  destruct (special m); [discriminate|]. destruct (walk fs (start cwd (c :: z)) (rev r')) as [q0|] eqn:Ew; [|discriminate].
  apply walk_inv in Ew; [|apply E3, F]. rewrite E2 in Ew. subst q0.
  destruct (lookup fs (start cwd (c :: z) ++ ns)) as [[|]|] eqn:L; try discriminate. injection H as <-.
  exists ns, m. split; [exact E|]. split.
  { pose proof (filter_ok _ F) as G. unfold names in E. rewrite E in G. apply Forall_app in G. destruct G as [_ G]. now inversion G. }
  split; [unfold target; rewrite E; now rewrite app_assoc|]. split; [reflexivity|exact L].
Qed.
Lemma entry_place_ok fs cwd z ns n : wf fs -> plain z -> names z = ns ++ [n] -> lookup fs (start cwd z ++ ns) = Some EDir ->
  entry_place fs cwd z = Some (target cwd z).
Proof.
  intros W P E L. pose proof (plain_comps _ P) as F. destruct (drop_nil_rev _ _ _ E) as (r & E1 & E2 & E3 & E4).
  assert (okname n) as On. { pose proof (filter_ok _ F) as G. unfold names in E. rewrite E in G. apply Forall_app in G. destruct G as [_ G]. now inversion G. }
  unfold entry_place, target. destruct z as [|c z]; [destruct ns; discriminate|]. unfold rev_comps. rewrite E1, special_name by assumption.
  rewrite (walk_dir fs W (rev r)); [|apply E3, F|now rewrite E2]. rewrite E2, L, E, <- app_assoc. reflexivity.
Qed.

Lemma app_prefix {A} (r r' : list A) : forall p q, p ++ r = q ++ r' -> (exists s, p = q ++ s) \/ (exists s, q = p ++ s).
Proof.
  induction p as [|a p IH]; intros q E; [right; eexists; reflexivity|]. destruct q as [|b q]; [left; eexists; reflexivity|].
  injection E as -> E. destruct (IH _ E) as [[s ->]|[s ->]]; [left|right]; exists s; reflexivity.
Qed.
Lemma ext_some {A} (a b : option A) : (forall x, a = Some x <-> b = Some x) -> a = b.
Proof.
  intros H. destruct a as [x|]; [symmetry; now apply H|]. destruct b as [y|]; [|reflexivity]. now apply H.
Qed.

Section Move.
  Variables (fs : fsys) (p q d : path) (n : name).
  Hypothesis W : wf fs.
  Hypothesis Hp : p <> [].
  Hypothesis Ep : lookup fs p <> None.
  Hypothesis Eq : q = d ++ [n].
  Hypothesis On : okname n.
  Hypothesis Ld : lookup fs d = Some EDir.
  Hypothesis Hpq : forall r, q <> p ++ r.
  Hypothesis Free : forall r, r <> [] -> lookup fs (q ++ r) = None.

  Let f (ke : path * entry) := match below p (fst ke) with Some r => (q ++ r, snd ke) | None => ke end.

  Lemma q_ne : q <> [].
  Proof. rewrite Eq. destruct d; discriminate. Qed.
  Lemma p_not_below_q r : p <> q ++ r.
  Proof.
    intros H. destruct r as [|x r].
    - rewrite app_nil_r in H. apply (Hpq []). rewrite app_nil_r. auto.
    - apply Ep. rewrite H. apply Free. discriminate.
  Qed.

  Lemma in_move x e : In (x, e) (fs_move fs p q) <->
    (exists r, x = q ++ r /\ In (p ++ r, e) fs) \/ (below p x = None /\ x <> q /\ In (x, e) fs).
  Proof.
    unfold fs_move. rewrite in_map_iff. split.
    - intros ([k e'] & H & K). apply remove_keys in K as [K Kq]. cbn [fst snd] in H. destruct (below p k) as [r|] eqn:B.
      + injection H as <- <-. apply below_spec in B. subst k. left. eauto.
      + injection H as <- <-. right. auto.
    - intros [(r & -> & K)|(B & Nq & K)].
      + exists (p ++ r, e). cbn [fst snd]. rewrite below_app. split; [reflexivity|]. apply remove_keys. split; [exact K|].
        intros H. apply (Hpq r). auto.
      + exists (x, e). cbn [fst]. rewrite B. split; [reflexivity|]. apply remove_keys. auto.
  Qed.

  Lemma move_nodup : NoDup (map fst (fs_move fs p q)).
  Proof.
    unfold fs_move. rewrite map_map.
    assert (forall l, NoDup (map fst l) -> (forall k e, In (k, e) l -> In (k, e) fs /\ k <> q) ->
            NoDup (map (fun x : path * entry => fst (f x)) l)) as A.
    { induction l as [|[k e] l IH]; intros N H; cbn [map]; [constructor|]. cbn [map fst] in N. inversion N as [|? ? N1 N2]; subst.
      constructor; [|apply IH; [exact N2|]; intros; apply H; now right].
      intros K. apply in_map_iff in K. destruct K as ([k' e'] & K & K').
      destruct (H k e (or_introl eq_refl)) as [I1 Q1]. destruct (H k' e' (or_intror K')) as [I2 Q2].
      assert (NB : forall k0 e0 r, In (k0, e0) fs -> k0 <> d ++ [n] -> k0 <> (d ++ [n]) ++ r).
      { intros k0 e0 r I0 Q0 ->. destruct r as [|y r]; [rewrite app_nil_r in Q0; auto|].
        assert ((d ++ [n]) ++ y :: r <> []) by (destruct d; discriminate).
        apply (lookup_in fs) in I0; auto. rewrite Free in I0 by discriminate. discriminate. }
      assert (k' <> k) by (intros ->; apply N1; apply in_map_iff; exists (k, e'); auto).
      unfold f in K. cbn [fst snd] in K.
      destruct (below p k) as [r|] eqn:B; destruct (below p k') as [r'|] eqn:B'; cbn [fst] in K.
      - apply below_spec in B, B'. apply app_inv_head in K. congruence.
      - eapply NB; [exact I2|exact Q2|exact K].
      - symmetry in K. eapply NB; [exact I1|exact Q1|exact K].
      - auto. }
    apply (A (remove_key fs q)); [apply remove_nodup, W|]. intros k e H. apply remove_keys in H. auto.
  Qed.

  Lemma lookup_move x e : x <> [] -> lookup (fs_move fs p q) x = Some e <-> In (x, e) (fs_move fs p q).
  Proof.
    intros Hx. destruct x as [|a x]; [contradiction|]. cbn [lookup]. split; [apply assoc_in|apply in_assoc, move_nodup].
  Qed.
  Lemma move_new r : lookup (fs_move fs p q) (q ++ r) = lookup fs (p ++ r).
  Proof.
    assert (q ++ r <> []) by (intros H; apply app_eq_nil in H; apply q_ne; tauto).
    assert (p ++ r <> []) by (intros H'; apply app_eq_nil in H'; tauto).
    apply ext_some. intros e. rewrite lookup_move by assumption. rewrite (lookup_in fs) by assumption. rewrite in_move. split.
    - intros [(r' & E & I)|(B & Nq & I)]; [apply app_inv_head in E; now subst|]. exfalso.
      destruct r as [|x r]; [rewrite app_nil_r in Nq; auto|]. apply (lookup_in fs) in I; auto. rewrite Free in I; discriminate.
    - intros I. left. eauto.
  Qed.
  Lemma move_old r : lookup (fs_move fs p q) (p ++ r) = None.
  Proof.
    assert (p ++ r <> []) by (intros H'; apply app_eq_nil in H'; tauto).
    destruct (lookup (fs_move fs p q) (p ++ r)) as [e|] eqn:E; [|reflexivity]. exfalso.
    apply lookup_move in E; [|assumption]. apply in_move in E. destruct E as [(r' & E & I)|(B & _)].
    - (* p ++ r = q ++ r': one is below the other *)
      assert (C : (exists s, p = q ++ s) \/ (exists s, q = p ++ s)).
      { eapply app_prefix. exact E. }
      destruct C as [[s C]|[s C]]; [now apply p_not_below_q in C|now apply Hpq in C].
    - apply below_none with (r := r) in B. auto.
  Qed.
  Lemma move_other x : below p x = None -> below q x = None -> lookup (fs_move fs p q) x = lookup fs x.
  Proof.
    intros Bp Bq. destruct x as [|a x]; [reflexivity|]. apply ext_some. intros e.
    rewrite lookup_move by discriminate. rewrite (lookup_in fs) by (try assumption; discriminate). rewrite in_move. split.
    - intros [(r & E & _)|(_ & _ & I)]; [|exact I]. exfalso. now apply (proj1 (below_none q (a :: x)) Bq r) in E.
    - intros I. right. split; [exact Bp|]. split; [|exact I]. intros E. apply (proj1 (below_none q (a :: x)) Bq []). now rewrite app_nil_r.
  Qed.

  Lemma move_parent : lookup (fs_move fs p q) d = Some EDir.
  Proof.
    destruct (below p d) as [r|] eqn:B.
    - apply below_spec in B. exfalso. apply (Hpq (r ++ [n])). rewrite Eq, B, app_assoc. reflexivity.
    - rewrite move_other; [exact Ld|exact B|]. apply below_none. intros r H. rewrite Eq in H. apply (f_equal (@length _)) in H.
      rewrite !app_length in H. cbn in H. lia.
  Qed.

  Lemma move_wf : wf (fs_move fs p q).
  Proof.
    assert (Dn : Forall okname d) by (apply (wf_names fs d W); congruence).
    constructor; [exact move_nodup|]. intros x e H. apply in_move in H. destruct H as [(r & -> & I)|(B & Nq & I)].
    - assert (p ++ r <> []) by (intros H'; apply app_eq_nil in H'; tauto).
      assert (L : lookup fs (p ++ r) <> None) by (apply (lookup_in fs) in I; auto; congruence).
      pose proof (wf_names _ _ W L) as F. apply Forall_app in F as [_ Fr].
      destruct r as [|y r] using rev_ind.
      + exists d, n. rewrite app_nil_r. split; [exact Eq|]. split; [rewrite Eq; apply Forall_app; auto|exact move_parent].
      + exists (q ++ r), y. split; [now rewrite app_assoc|]. split.
        * apply Forall_app. split; [rewrite Eq; apply Forall_app; auto|exact Fr].
        * rewrite move_new. rewrite app_assoc in L. apply (wf_parent fs _ y W L).
    - destruct (w_key fs W _ _ I) as (x' & m & -> & F & L). exists x', m. split; [reflexivity|]. split; [exact F|].
      assert (B' : below p x' = None).
      { apply below_none. intros r ->. apply (proj1 (below_none p _) B (r ++ [m])). now rewrite app_assoc. }
      rewrite move_other; [exact L|exact B'|]. apply below_none. intros r ->.
      assert (L2 : lookup fs ((q ++ r) ++ [m]) <> None).
      { apply (lookup_in fs) in I; auto; [congruence|]. destruct (q ++ r); discriminate. }
      rewrite <- app_assoc in L2. apply L2. apply Free. destruct r; discriminate.
  Qed.
End Move.

(** Below a file, and below an empty directory, there is nothing. *)
Lemma free_below fs q : wf fs -> (lookup fs q = Some EDir -> children fs q = []) -> forall r, r <> [] -> lookup fs (q ++ r) = None.
Proof.
  intros W H r Hr. destruct (lookup fs (q ++ r)) as [e|] eqn:E; [|reflexivity]. exfalso.
  assert (L : lookup fs (q ++ r) <> None) by congruence. pose proof (wf_prefix _ _ _ W L Hr) as D. specialize (H D).
  destruct r as [|x r]; [contradiction|]. assert (L1 : lookup fs (q ++ [x]) <> None).
  { destruct r as [|y r]; [exact L|]. change (q ++ x :: y :: r) with (q ++ [x] ++ y :: r) in L. rewrite app_assoc in L.
    rewrite (wf_prefix _ _ _ W L) by discriminate. discriminate. }
  apply children_spec in L1; [|exact W]. rewrite H in L1. contradiction.
Qed.

Lemma rename_effect lk fs cwd z1 z2 fs' b : wf fs -> plain z2 -> path_rename lk fs cwd z1 z2 = (fs', b) ->
  (b = false -> fs' = fs) /\
  (b = true -> exists p, resolve fs cwd z1 = Some p /\ p <> [] /\ lookup fs p <> None /\
     let q := target cwd z2 in
     wf fs' /\ (p = q -> fs' = fs) /\
     (p <> q ->
       (forall r, lookup fs' (q ++ r) = lookup fs (p ++ r)) /\ (forall r, lookup fs' (p ++ r) = None) /\
       (forall x, (forall r, x <> p ++ r) -> (forall r, x <> q ++ r) -> lookup fs' x = lookup fs x) /\
       (lookup fs q = None \/ (lookup fs p = Some EDir /\ lookup fs q = Some EDir /\ forall n, lookup fs (q ++ [n]) = None) \/
        (exists c c', lookup fs p = Some (EFile c) /\ lookup fs q = Some (EFile c'))))).
Proof.
  intros W P2 H. unfold path_rename in H.
  destruct (path_exists fs cwd z1) eqn:EX; cbn [negb] in H; [|injection H as <- <-; split; [reflexivity|discriminate]].
  unfold fs_rename in H. destruct (resolve fs cwd z1) as [p|] eqn:R; [|injection H as <- <-; split; [reflexivity|discriminate]].
  destruct (rev_comps z1) as [|c r0]; [injection H as <- <-; split; [reflexivity|discriminate]|].
  destruct (entry_place fs cwd z2) as [q|] eqn:P; [|injection H as <- <-; split; [reflexivity|discriminate]].
  destruct (entry_place_inv _ _ _ _ P2 P) as (ns & n & EN & On & Eq & Eq' & Ld). rewrite <- Eq.
  destruct (special c); [injection H as <- <-; split; [reflexivity|discriminate]|].
  destruct (path_dec p []) as [|Hp]; [injection H as <- <-; split; [reflexivity|discriminate]|].
  assert (K : forall (Np : p <> q) (Hpq : lookup fs p <> None) (NB : forall r, q <> p ++ r) (C : lookup fs q = Some EDir -> children fs q = [])
     (OR : lookup fs q = None \/ (lookup fs p = Some EDir /\ lookup fs q = Some EDir /\ forall n, lookup fs (q ++ [n]) = None) \/
        (exists c c', lookup fs p = Some (EFile c) /\ lookup fs q = Some (EFile c'))),
     exists p0, Some p = Some p0 /\ p0 <> [] /\ lookup fs p0 <> None /\
     wf (fs_move fs p q) /\ (p0 = q -> fs_move fs p q = fs) /\
     (p0 <> q ->
       (forall r, lookup (fs_move fs p q) (q ++ r) = lookup fs (p0 ++ r)) /\ (forall r, lookup (fs_move fs p q) (p0 ++ r) = None) /\
       (forall x, (forall r, x <> p0 ++ r) -> (forall r, x <> q ++ r) -> lookup (fs_move fs p q) x = lookup fs x) /\
       (lookup fs q = None \/ (lookup fs p0 = Some EDir /\ lookup fs q = Some EDir /\ forall n, lookup fs (q ++ [n]) = None) \/
        (exists c c', lookup fs p0 = Some (EFile c) /\ lookup fs q = Some (EFile c'))))).
  { intros. pose proof (free_below fs q W C) as FB. exists p. split; [reflexivity|]. split; [exact Hp|]. split; [exact Hpq|].
    split; [eapply move_wf; eauto|]. split; [congruence|]. intros _.
    split; [intros r; eapply move_new; eauto|]. split; [intros r; eapply move_old; eauto|]. split; [|exact OR].
    intros x X1 X2. eapply move_other; eauto; now apply below_none. }
  assert (S : forall (Hpq : lookup fs p <> None), p = q -> exists p0, Some p = Some p0 /\ p0 <> [] /\ lookup fs p0 <> None /\
     wf fs /\ (p0 = q -> fs = fs) /\
     (p0 <> q ->
       (forall r, lookup fs (q ++ r) = lookup fs (p0 ++ r)) /\ (forall r, lookup fs (p0 ++ r) = None) /\
       (forall x, (forall r, x <> p0 ++ r) -> (forall r, x <> q ++ r) -> lookup fs x = lookup fs x) /\
       (lookup fs q = None \/ (lookup fs p0 = Some EDir /\ lookup fs q = Some EDir /\ forall n, lookup fs (q ++ [n]) = None) \/
        (exists c c', lookup fs p0 = Some (EFile c) /\ lookup fs q = Some (EFile c'))))).
  { intros Hl E. exists p. repeat (split; [first [reflexivity|assumption]|]). intros N. congruence. }
  cbn zeta.
  destruct (lookup fs p) as [[|c1]|] eqn:L; [| |injection H as <- <-; split; [reflexivity|discriminate]].
  - destruct (path_dec p q) as [E|Npq]; [injection H as <- <-; split; [discriminate|]; intros _; apply S; congruence|].
    destruct (below p q) as [|] eqn:B; [injection H as <- <-; split; [reflexivity|discriminate]|].
    pose proof (proj1 (below_none p q) B) as NB.
    destruct (lookup fs q) as [[|c2]|] eqn:Lq.
    + destruct (children fs q) as [|] eqn:C; [|injection H as <- <-; split; [reflexivity|discriminate]].
      destruct (lk p || lk q); [injection H as <- <-; split; [reflexivity|discriminate]|].
      injection H as <- <-. split; [discriminate|]. intros _. apply K; auto; try congruence.
      right; left. split; [reflexivity|]. split; [reflexivity|]. intros m. apply (free_below fs q W); [congruence|discriminate].
    + injection H as <- <-; split; [reflexivity|discriminate].
    + destruct (lk p); [injection H as <- <-; split; [reflexivity|discriminate]|].
      injection H as <- <-. split; [discriminate|]. intros _. apply K; auto; congruence.
  - destruct (ends_in_slash z2); [injection H as <- <-; split; [reflexivity|discriminate]|].
    destruct (path_dec p q) as [E|Npq]; [injection H as <- <-; split; [discriminate|]; intros _; apply S; congruence|].
    assert (NB : forall r, q <> p ++ r).
    { intros r E. destruct r as [|x r]; [rewrite app_nil_r in E; auto|]. rewrite Eq' in E.
      (* the directory of q would be at or below the file p *)
      assert (exists s, start cwd z2 ++ ns = p ++ s) as [s Es].
      { exists (removelast (x :: r)). apply (f_equal (@removelast _)) in E. rewrite removelast_last in E. rewrite E.
        apply removelast_app. discriminate. }
      assert (lookup fs (p ++ s) <> None) as L2 by (rewrite <- Es; congruence).
      destruct s as [|y s]; [rewrite app_nil_r in Es; rewrite Es in Ld; congruence|].
      apply (wf_prefix fs p) in L2; [congruence|exact W|discriminate]. }
    destruct (lookup fs q) as [[|c2]|] eqn:Lq.
    + injection H as <- <-; split; [reflexivity|discriminate].
    + destruct (lk p || lk q); [injection H as <- <-; split; [reflexivity|discriminate]|].
      injection H as <- <-. split; [discriminate|]. intros _. apply K; auto; try congruence. right; right; eauto.
    + destruct (lk p); [injection H as <- <-; split; [reflexivity|discriminate]|].
      injection H as <- <-. split; [discriminate|]. intros _. apply K; auto; congruence.
Qed.

Lemma stat_resolve fs cwd z e : wf fs -> plain z -> names z <> [] -> denoted fs cwd z = Some e ->
  resolve fs cwd z = Some (target cwd z) /\ lookup fs (target cwd z) = Some e.
Proof.
  intros W P Hn D. pose proof (stat_plain fs cwd z W P Hn) as S. fold (denoted fs cwd z) in S. rewrite D in S.
  unfold fs_stat in S. destruct (resolve fs cwd z) as [p|] eqn:R; [|discriminate].
  destruct (resolve_inv _ _ _ _ P R) as [_ ->]. auto.
Qed.

Lemma last_name_ok z : plain z -> names z <> [] -> exists c r, rev_comps z = c :: r /\ special c = false.
Proof.
  intros P Hn. destruct (exists_last Hn) as (ns & n & E). destruct (drop_nil_rev _ _ _ E) as (r & E1 & _).
  exists n, r. split; [exact E1|]. apply special_name.
  pose proof (filter_ok _ (plain_comps _ P)) as G. fold (names z) in G. rewrite E in G. apply Forall_app in G as [_ G]. now inversion G.
Qed.

Lemma rename_success lk fs cwd z1 z2 e ns n : wf fs -> plain z1 -> plain z2 -> names z1 <> [] -> denoted fs cwd z1 = Some e ->
  names z2 = ns ++ [n] -> lookup fs (start cwd z2 ++ ns) = Some EDir ->
  (e = EDir \/ last z2 0 <> 47) ->
  let p := target cwd z1 in let q := target cwd z2 in
  (forall r, r <> [] -> q <> p ++ r) ->
  p = q \/ (lk p = false /\ (lookup fs q = None \/ lk q = false /\
     ((e <> EDir /\ exists c, lookup fs q = Some (EFile c)) \/
      (e = EDir /\ lookup fs q = Some EDir /\ forall m, lookup fs (q ++ [m]) = None)))) ->
  snd (path_rename lk fs cwd z1 z2) = true.
Proof.
  intros W P1 P2 N1 D E2 L2 TS p q NB C. destruct (stat_resolve _ _ _ _ W P1 N1 D) as [R L]. fold p in R, L.
  assert (EX : path_exists fs cwd z1 = true) by (apply (queries_ok fs cwd z1 W P1 N1); congruence).
  destruct (last_name_ok z1 P1 N1) as (c0 & r0 & RC & SP).
  unfold path_rename, fs_rename. rewrite EX, R, RC, (entry_place_ok fs cwd z2 ns n W P2 E2 L2), SP. cbn [negb]. fold q.
  assert (Hp : p <> []). { intros X. unfold p, target in X. apply app_eq_nil in X. tauto. }
  destruct (path_dec p []) as [|_]; [contradiction|]. rewrite L.
  assert (CH : (forall m, lookup fs (q ++ [m]) = None) -> children fs q = []).
  { intros X. destruct (children fs q) as [|m l] eqn:Y; [reflexivity|]. exfalso.
    assert (In m (children fs q)) as I by (rewrite Y; now left). apply children_spec in I; auto. }
  destruct e as [|c1].
  - destruct (path_dec p q) as [|Npq]; [reflexivity|].
    destruct (below p q) as [r|] eqn:B.
    { apply below_spec in B. destruct r as [|x r]; [rewrite app_nil_r in B; congruence|]. exfalso. eapply NB; [|exact B]. discriminate. }
    destruct C as [|(Lp & [C|(Lq & [[X _]|(_ & Q & M)])])]; [contradiction| |congruence|].
    + rewrite C, Lp. reflexivity.
    + rewrite Q, (CH M), Lp, Lq. reflexivity.
  - destruct TS as [|TS]; [discriminate|]. unfold ends_in_slash. replace (last z2 0 =? 47) with false by lia.
    destruct (path_dec p q) as [|Npq]; [reflexivity|].
    destruct C as [|(Lp & [C|(Lq & [[_ [c2 Q]]|(X & _)])])]; [contradiction| | |discriminate].
    + rewrite C, Lp. reflexivity.
    + rewrite Q, Lp, Lq. reflexivity.
Qed.

Lemma rename_seen lk fs cwd z1 z2 fs' : wf fs -> plain z1 -> plain z2 -> path_rename lk fs cwd z1 z2 = (fs', true) ->
  target cwd z1 <> target cwd z2 ->
  fs_stat fs' cwd z1 = None /\ fs_stat fs' cwd z2 = fs_stat fs cwd z1.
Proof.
  intros W P1 P2 H N. pose proof (rename_effect _ _ _ _ _ _ _ W P2 H) as [_ E].
  destruct (E eq_refl) as (p & R & Hp & L & W' & _ & M). clear E.
  pose proof (resolve_inv _ _ _ _ P1 R) as [Hz ->]. destruct (M N) as (M1 & M2 & M3 & _). clear M.
  assert (T2 : target cwd z2 <> [] /\ names z2 <> [] /\ (forall c, lookup fs (target cwd z1) = Some (EFile c) -> last z2 0 <> 47) /\ names z1 <> []).
  { unfold path_rename in H. destruct (negb (path_exists fs cwd z1)); [discriminate|]. unfold fs_rename in H. rewrite R in H.
    destruct (rev_comps z1) as [|c r0] eqn:RC; [discriminate|].
    destruct (entry_place fs cwd z2) as [q|] eqn:P; [|discriminate].
    destruct (entry_place_inv _ _ _ _ P2 P) as (ns & n & EN & On & Eq & Eq' & Ld).
    split; [rewrite <- Eq, Eq'; destruct (start cwd z2 ++ ns); discriminate|]. split; [rewrite EN; destruct ns; discriminate|].
    split.
    - intros c1 Lc. destruct (special c); [discriminate|]. destruct (path_dec (target cwd z1) []); [discriminate|].
      rewrite Lc in H. unfold ends_in_slash in H. destruct (last z2 0 =? 47) eqn:X; [discriminate|]. lia.
    - intros X. unfold rev_comps in RC.
      assert (Forall (fun x => x = []) (rev (comps z1))) as A.
      { apply Forall_rev. apply Forall_forall. intros x Hx. destruct x as [|a x]; [reflexivity|]. exfalso.
        assert (In (a :: x) (names z1)) as K. { apply filter_In. split; [exact Hx|]. now apply nonempty_spec. }
        rewrite X in K. exact K. }
      revert RC A. generalize (rev (comps z1)). induction l as [|x l IH]; [discriminate|]. intros Er A. inversion A; subst. cbn [drop_nil] in Er. auto. }
  destruct T2 as (T2 & N2 & TS & N1).
  assert (X1 : fs_stat fs cwd z1 = lookup fs (target cwd z1)) by (unfold fs_stat; now rewrite R).
  rewrite X1. rewrite !stat_plain by assumption.
  pose proof (M2 []) as Y. pose proof (M1 []) as Z. rewrite app_nil_r in Y. rewrite (app_nil_r (target cwd z2)), (app_nil_r (target cwd z1)) in Z. rewrite Y, Z. split; [reflexivity|].
  destruct (lookup fs (target cwd z1)) as [[|c]|]; [reflexivity| |reflexivity].
  specialize (TS c eq_refl). replace (last z2 0 =? 47) with false by lia. reflexivity.
Qed.

Lemma rename_back fs cwd z1 z2 fs1 : wf fs -> plain z1 -> plain z2 -> lookup fs (target cwd z2) = None ->
  path_rename (fun _ => false) fs cwd z1 z2 = (fs1, true) ->
  exists fs2, path_rename (fun _ => false) fs1 cwd z2 z1 = (fs2, true) /\ forall x, lookup fs2 x = lookup fs x.
Proof.
  intros W P1 P2 Lq H. pose proof (rename_effect _ _ _ _ _ _ _ W P2 H) as [_ E].
  destruct (E eq_refl) as (p & R & Hp & L & W1 & _ & M). clear E.
  pose proof (resolve_inv _ _ _ _ P1 R) as [Hz ->].
  assert (N : target cwd z1 <> target cwd z2) by congruence.
  destruct (rename_seen _ _ _ _ _ _ W P1 P2 H N) as [S1 S2].
  destruct (M N) as (M1 & M2 & M3 & _). clear M.
  set (p := target cwd z1) in *. set (q := target cwd z2) in *.
  assert (Fq : forall r, lookup fs (q ++ r) = None).
  { intros [|x r]; [rewrite app_nil_r; exact Lq|]. apply free_below; [exact W|congruence|discriminate]. }
  assert (NB : forall r, p <> q ++ r) by (intros r X; apply L; rewrite X; apply Fq).
  assert (Names : names z1 <> [] /\ names z2 <> []).
  { unfold path_rename in H. destruct (negb (path_exists fs cwd z1)); [discriminate|]. unfold fs_rename in H. rewrite R in H.
    destruct (rev_comps z1) as [|c r0] eqn:RC; [discriminate|].
    destruct (entry_place fs cwd z2) as [q'|] eqn:P; [|discriminate].
    destruct (entry_place_inv _ _ _ _ P2 P) as (ns & n & EN & _).
    split; [|rewrite EN; destruct ns; discriminate].
    intros X. unfold rev_comps in RC.
    assert (Forall (fun x => x = []) (rev (comps z1))) as A.
    { apply Forall_rev. apply Forall_forall. intros x Hx. destruct x as [|a x]; [reflexivity|]. exfalso.
      assert (In (a :: x) (names z1)) as K. { apply filter_In. split; [exact Hx|]. now apply nonempty_spec. }
      rewrite X in K. exact K. }
    revert RC A. generalize (rev (comps z1)). induction l as [|x l IH]; [discriminate|]. intros Er A. inversion A; subst. cbn [drop_nil] in Er. auto. }
  destruct Names as [N1 N2]. destruct (exists_last N1) as (ns & n & En).
  assert (Ep : p = (start cwd z1 ++ ns) ++ [n]) by (unfold p, target; rewrite En; now rewrite app_assoc).
  assert (Ld : lookup fs (start cwd z1 ++ ns) = Some EDir) by (rewrite Ep in L; apply (wf_parent fs _ n W L)).
  assert (D2 : exists e, denoted fs1 cwd z2 = Some e /\ (e = EDir \/ last z1 0 <> 47)).
  { rewrite stat_plain in S2 by assumption. fold (denoted fs1 cwd z2) in S2. rewrite stat_plain in S2 by assumption. fold p in S2.
    destruct (lookup fs p) as [[|c]|] eqn:Lp; [exists EDir; auto| |congruence].
    destruct (last z1 0 =? 47) eqn:TS.
    - exfalso. pose proof (stat_plain fs cwd z1 W P1 N1) as X. fold p in X. rewrite Lp, TS in X. unfold fs_stat in X. rewrite R in X. fold p in X. congruence.
    - exists (EFile c). split; [exact S2|]. right. lia. }
  destruct D2 as (e & D2 & TS).
  assert (SS : snd (path_rename (fun _ => false) fs1 cwd z2 z1) = true).
  { eapply rename_success with (e := e) (ns := ns) (n := n); auto.
    - rewrite M3; [exact Ld| |].
      + intros r X. assert (length (start cwd z1 ++ ns) = length (p ++ r)) as Y by congruence. rewrite Ep in Y. rewrite !app_length in Y. cbn in Y. lia.
      + intros r X. rewrite X, Fq in Ld. discriminate.
    - right. split; [reflexivity|]. left. pose proof (M2 []) as Y. now rewrite app_nil_r in Y. }
  destruct (path_rename (fun _ => false) fs1 cwd z2 z1) as [fs2 b] eqn:H2. cbn [snd] in SS. subst b.
  exists fs2. split; [reflexivity|].
  pose proof (rename_effect _ _ _ _ _ _ _ W1 P1 H2) as [_ E].
  destruct (E eq_refl) as (q' & R' & Hq & L' & W2 & _ & M). clear E.
  pose proof (resolve_inv _ _ _ _ P2 R') as [_ ->]. change (target cwd z2) with q in M, L', Hq. change (target cwd z1) with p in M.
  destruct M as (K1 & K2 & K3 & _); [congruence|].
  intros x. destruct (below p x) as [r|] eqn:B.
  { apply below_spec in B. subst x. rewrite K1, M1. reflexivity. }
  destruct (below q x) as [r|] eqn:B2.
  { apply below_spec in B2. subst x. rewrite K2, Fq. reflexivity. }
  pose proof (proj1 (below_none p x) B). pose proof (proj1 (below_none q x) B2). rewrite K3 by assumption. apply M3; assumption.
Qed.
