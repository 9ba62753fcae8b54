(** Proofs about recursive removal with symbolic links. *)
From Verif Require Import Base BaseFacts StrModel NumModel FsModel PathModel FsSpec FsProofs FsMain2 SymModel.

Lemma sassoc_remove fs p q : sassoc (sremove_key fs p) q = if path_dec q p then None else sassoc fs q.
Proof.
  induction fs as [|[r e] fs IH]; [now destruct (path_dec q p)|]. cbn [sremove_key filter fst]. destruct (path_dec r p) as [->|N]; cbn [sassoc].
  - fold (sremove_key fs p). rewrite IH. destruct (path_dec q p) as [->|M]; [reflexivity|]. destruct (path_dec p q); [now subst|reflexivity].
  - fold (sremove_key fs p). rewrite IH. destruct (path_dec r q) as [->|M]; [destruct (path_dec q p); [contradiction|reflexivity]|reflexivity].
Qed.
Lemma slookup_remove fs p q : slookup (sremove_key fs p) q = match q with [] => Some SDir | _ => if path_dec q p then None else slookup fs q end.
Proof. destruct q as [|a q]; [reflexivity|]. unfold slookup. apply sassoc_remove. Qed.

(** [fs'] is [fs] without some entries. *)
Definition fewer (fs' fs : sfs) : Prop := forall q e, slookup fs' q = Some e -> slookup fs q = Some e.
Lemma fewer_refl fs : fewer fs fs.
Proof. intros q e H. exact H. Qed.
Lemma fewer_remove fs' fs p : fewer fs' fs -> fewer (sremove_key fs' p) fs.
Proof. intros H q e. rewrite slookup_remove. destruct q as [|a q]; [intros E; exact E|]. destruct (path_dec (a :: q) p); [discriminate|]. apply H. Qed.

Lemma swalk_cons k fs cur c cs : swalk k fs cur (c :: cs) =
  match slookup fs cur with
  | Some SDir =>
      if name_dec c [] then swalk k fs cur cs
      else if name_dec c dot then swalk k fs cur cs
      else if name_dec c dotdot then swalk k fs (removelast cur) cs
      else match slookup fs (cur ++ [c]) with
           | Some (SLink t) => match k, t with O, _ | _, [] => None | S k', _ => swalk k' fs (start cur t) (comps t ++ cs) end
           | Some _ => swalk k fs (cur ++ [c]) cs
           | None => None
           end
  | _ => None
  end.
Proof. destruct k; reflexivity. Qed.
Lemma swalk_nil k fs cur : swalk k fs cur [] = Some (cur, k).
Proof. destruct k; reflexivity. Qed.
Lemma swalk_mono fs' fs : fewer fs' fs -> forall k cs cur r, swalk k fs' cur cs = Some r -> swalk k fs cur cs = Some r.
Proof.
  intros F. induction k as [|k IHk]; induction cs as [|c cs IH]; intros cur r; rewrite ?swalk_nil, ?swalk_cons; try (intros H; exact H).
  - destruct (slookup fs' cur) as [[]|] eqn:E; try discriminate. rewrite (F _ _ E).
    destruct (name_dec c []); [apply IH|]. destruct (name_dec c dot); [apply IH|]. destruct (name_dec c dotdot); [apply IH|].
    destruct (slookup fs' (cur ++ [c])) as [[]|] eqn:G; try discriminate; rewrite (F _ _ G); try apply IH.
  - destruct (slookup fs' cur) as [[]|] eqn:E; try discriminate. rewrite (F _ _ E).
    destruct (name_dec c []); [apply IH|]. destruct (name_dec c dot); [apply IH|]. destruct (name_dec c dotdot); [apply IH|].
    destruct (slookup fs' (cur ++ [c])) as [[| |t]|] eqn:G; try discriminate; rewrite (F _ _ G); try apply IH. destruct t; [discriminate|]. apply IHk.
Qed.
Lemma swalk_app fs k : forall cs cs' cur, swalk k fs cur (cs ++ cs') = match swalk k fs cur cs with Some (p, k') => swalk k' fs p cs' | None => None end.
Proof.
  induction k as [|k IHk]; induction cs as [|c cs IH]; intros cs' cur; cbn [app]; rewrite ?swalk_nil, ?swalk_cons; try reflexivity;
    (destruct (slookup fs cur) as [[]|]; try reflexivity); (destruct (name_dec c []); [apply IH|]); (destruct (name_dec c dot); [apply IH|]);
    (destruct (name_dec c dotdot); [apply IH|]); (destruct (slookup fs (cur ++ [c])) as [[| |t]|]; try apply IH; try reflexivity).
  destruct t; [reflexivity|]. now rewrite app_assoc, IHk.
Qed.

(** Proper names; every way down from [p] along [ns] passes directories. *)
Definition proper (n : name) : Prop := n <> [] /\ n <> dot /\ n <> dotdot /\ ~ In 47 n.
Fixpoint all_dirs (fs : sfs) (p : path) (ns : list name) : Prop :=
  match ns with [] => True | n :: ns => slookup fs (p ++ [n]) = Some SDir /\ all_dirs fs (p ++ [n]) ns end.
Lemma swalk_dirs fs k ns : forall p, slookup fs p = Some SDir -> Forall proper ns -> all_dirs fs p ns -> swalk k fs p ns = Some (p ++ ns, k) /\ slookup fs (p ++ ns) = Some SDir.
Proof.
  induction ns as [|n ns IH]; intros p D P A; [rewrite swalk_nil, app_nil_r; now split|].
  inversion P as [|? ? (N1 & N2 & N3 & _) P2]. subst. destruct A as [A1 A2]. rewrite swalk_cons, D, A1.
  destruct (name_dec n []); [contradiction|]. destruct (name_dec n dot); [contradiction|]. destruct (name_dec n dotdot); [contradiction|].
  destruct (IH (p ++ [n]) A1 P2 A2) as [W L]. rewrite W. now rewrite <- app_assoc in *.
Qed.
Lemma all_dirs_app fs ns ns' : forall p, all_dirs fs p (ns ++ ns') <-> all_dirs fs p ns /\ all_dirs fs (p ++ ns) ns'.
Proof. induction ns as [|n ns IH]; intros p; cbn [app all_dirs]; [rewrite app_nil_r; tauto|]. rewrite IH, <- app_assoc. cbn [app]. tauto. Qed.

(** The names in the file system are proper. *)
Definition names_ok (fs : sfs) : Prop := forall q e, In (q, e) fs -> Forall proper q.
(** No link at or below [p] leads to a directory. *)
Definition no_dir_links (fs : sfs) (p : path) : Prop :=
  forall q n t, slookup fs (p ++ q ++ [n]) = Some (SLink t) ->
  forall k r k', swalk k fs (start (p ++ q) t) (comps t) = Some (r, k') -> slookup fs r <> Some SDir.

Lemma below_text_app z ns n : below_text z (ns ++ [n]) = below_text z ns ++ 47 :: n.
Proof. unfold below_text. rewrite flat_map_app. cbn [flat_map]. now rewrite app_nil_r, app_assoc. Qed.
Lemma comps_below z ns : Forall proper ns -> comps (below_text z ns) = comps z ++ ns.
Proof.
  intros H. revert z. induction H as [|n ns (N1 & _ & _ & N4) _ IH]; intros z; [unfold below_text; cbn; now rewrite !app_nil_r|].
  rewrite below_text_cons, IH. change (z ++ sep ++ n) with (z ++ 47 :: n). rewrite comps_app, (comps_name n) by assumption. now rewrite <- app_assoc.
Qed.
Lemma below_nonempty z ns : z <> [] -> below_text z ns <> [].
Proof. unfold below_text. destruct z; [contradiction|discriminate]. Qed.
Lemma below_start cwd z ns : z <> [] -> start cwd (below_text z ns) = start cwd z.
Proof. intros H. unfold below_text. now apply start_app. Qed.

Lemma sname_eq fs cwd z c r : z <> [] -> rev_comps z = c :: r ->
  sname fs cwd z = if special c then None else
    match swalk max_links fs (start cwd z) (rev r) with
    | Some (p, _) => match slookup fs p with Some SDir => Some (p ++ [c]) | _ => None end
    | None => None
    end.
Proof. intros H R. unfold sname. destruct z; [contradiction|]. now rewrite R. Qed.

Section Inside.
  Variable fs : sfs. Variable cwd : path. Variable z : list Z. Variable p : path. Variable k0 : nat.
  Hypothesis Hz : z <> [].
  Hypothesis Hw : swalk max_links fs (start cwd z) (comps z) = Some (p, k0).
  Hypothesis Hp : slookup fs p = Some SDir.
  Hypothesis Hn : names_ok fs.
  Hypothesis Hl : no_dir_links fs p.

  (** A text that names an entry below [p] whose directories are real. *)
  Definition inside (st : list Z) : Prop :=
    exists ns n, st = below_text z (ns ++ [n]) /\ Forall proper (ns ++ [n]) /\ all_dirs fs p ns.

  Lemma walk_inside fs' ns r : fewer fs' fs -> Forall proper ns -> all_dirs fs p ns ->
    swalk max_links fs' (start cwd z) (comps z ++ ns) = Some r -> r = (p ++ ns, k0).
  Proof.
    intros F P A W. apply (swalk_mono fs' fs F) in W. rewrite swalk_app, Hw in W. destruct (swalk_dirs fs k0 ns p Hp P A) as [E _]. rewrite E in W. now injection W.
  Qed.
  Lemma name_inside fs' st q : fewer fs' fs -> inside st -> sname fs' cwd st = Some q -> exists r, r <> [] /\ q = p ++ r.
  Proof.
    intros F (ns & n & -> & P & A). pose proof P as P'. apply Forall_app in P' as [P1 P2]. inversion P2 as [|? ? (N1 & N2 & N3 & _) _]. subst.
    assert (rev_comps (below_text z (ns ++ [n])) = n :: rev (comps z ++ ns)) as R.
    { unfold rev_comps. rewrite comps_below by assumption. rewrite app_assoc, rev_app_distr. cbn [rev app drop_nil]. destruct n; [contradiction|reflexivity]. }
    rewrite (sname_eq _ _ _ _ _ (below_nonempty z (ns ++ [n]) Hz) R), below_start by assumption.
    destruct (special n); [discriminate|]. rewrite rev_involutive.
    destruct (swalk max_links fs' (start cwd z) (comps z ++ ns)) as [r|] eqn:W; [|discriminate]. apply (walk_inside fs' ns r F P1 A) in W. subst r.
    destruct (slookup fs' (p ++ ns)) as [[]|]; try discriminate. intros E. injection E as <-. exists (ns ++ [n]). split; [now destruct ns|now rewrite app_assoc].
  Qed.

  (** Nothing outside [p] has been touched. *)
  Definition kept (fs' : sfs) : Prop := fewer fs' fs /\ forall q, below p q = None -> slookup fs' q = slookup fs q.
  Lemma kept_remove fs' r : kept fs' -> kept (sremove_key fs' (p ++ r)).
  Proof.
    intros [F K]. split; [now apply fewer_remove|]. intros q B. rewrite slookup_remove. destruct q as [|a q]; [destruct p; [discriminate|reflexivity]|].
    destruct (path_dec (a :: q) (p ++ r)) as [E|_]; [|now apply K]. assert (below p (a :: q) = Some r) as X by (now apply below_spec). congruence.
  Qed.
  Lemma rmdir_kept fs' st : kept fs' -> inside st -> kept (fst (sp_rmdir fs' cwd st)).
  Proof.
    intros K I. unfold sp_rmdir. destruct (negb _); [assumption|]. unfold s_rmdir. destruct (sname fs' cwd st) as [q|] eqn:E; [|assumption].
    destruct (name_inside fs' st q (proj1 K) I E) as (r & _ & ->). destruct (slookup fs' (p ++ r)) as [[]|]; try assumption.
    destruct (schildren fs' (p ++ r)); [|assumption]. now apply kept_remove.
  Qed.
  Lemma remove_kept fs' st : kept fs' -> inside st -> kept (fst (sp_remove fs' cwd st)).
  Proof.
    intros K I. pose proof (rmdir_kept fs' st K I) as D. unfold sp_rmdir in D. unfold sp_remove. destruct (negb _); [assumption|].
    unfold s_remove. destruct (sname fs' cwd st) as [q|] eqn:E; [|assumption].
    destruct (name_inside fs' st q (proj1 K) I E) as (r & _ & ->). destruct (slookup fs' (p ++ r)) as [[]|]; try assumption;
      (destruct (last (comps st) []); [assumption|now apply kept_remove]).
  Qed.
  Lemma loop_kept l : Forall inside l -> forall fs', kept fs' -> kept (fst (sremove_loop fs' cwd l)).
  Proof.
    induction 1 as [|st l I _ IH]; intros fs' K; [assumption|]. cbn [sremove_loop]. destruct (sp_is_dir fs' cwd st).
    - pose proof (rmdir_kept fs' st K I) as D. destruct (sp_rmdir fs' cwd st) as [fs1 []]; [now apply IH|assumption].
    - pose proof (remove_kept fs' st K I) as D. destruct (sp_remove fs' cwd st) as [fs1 []]; [now apply IH|assumption].
  Qed.
  (** The last step: removing [p] itself. *)
  Lemma last_kept fs' : kept fs' -> kept (fst (sp_rmdir fs' cwd z)).
  Proof.
    intros K. unfold sp_rmdir. destruct (negb _); [assumption|]. unfold s_rmdir. destruct (sname fs' cwd z) as [q|] eqn:E; [|assumption].
    destruct (slookup fs' q) as [[]|] eqn:L; try assumption. destruct (schildren fs' q); [|assumption].
    assert (q = p ++ []) as ->; [|now apply kept_remove]. rewrite app_nil_r.
    destruct (rev_comps z) as [|c r] eqn:R; [unfold sname in E; destruct z; [discriminate|]; rewrite R in E; discriminate|]. rewrite (sname_eq _ _ _ _ _ Hz R) in E.
    destruct (special c) eqn:S; [discriminate|]. destruct (swalk max_links fs' (start cwd z) (rev r)) as [[x kx]|] eqn:W; [|discriminate].
    destruct (slookup fs' x) as [[]|] eqn:Lx; try discriminate. injection E as <-.
    assert (exists es, comps z = rev r ++ c :: es /\ Forall (eq []) es) as (es & C & Es).
    { unfold rev_comps in R. assert (forall l c r, drop_nil l = c :: r -> exists es, l = es ++ c :: r /\ Forall (eq []) es) as G.
      { clear. induction l as [|n l IH]; intros c r; [discriminate|]. destruct n as [|a n]; cbn [drop_nil].
        - intros H. destruct (IH _ _ H) as (es & -> & F). exists ([] :: es). split; [reflexivity|now constructor].
        - intros H. injection H as <- <-. exists []. now split. }
      destruct (G _ _ _ R) as (es & E & F). exists (rev es). split; [|now apply Forall_rev].
      rewrite <- (rev_involutive (comps z)), E, rev_app_distr. cbn [rev]. now rewrite <- app_assoc. }
    assert (c <> []) as Cn. { intros ->. clear -R. unfold rev_comps in R. revert R. generalize (rev (comps z)). induction l as [|[|] l IH]; cbn [drop_nil]; [discriminate|assumption|discriminate]. }
    assert (swalk max_links fs' (start cwd z) (comps z) = Some (x ++ [c], kx)) as W'.
    { rewrite C, swalk_app, W, swalk_cons, Lx, L. unfold special in S. destruct (name_dec c []); [contradiction|].
      destruct (name_dec c dot); [discriminate|]. destruct (name_dec c dotdot); [discriminate|].
      clear -Es L. induction Es as [|e es He _ IH]; [now rewrite swalk_nil|]. subst e. rewrite swalk_cons, L. exact IH. }
    apply (swalk_mono fs' fs (proj1 K)) in W'. rewrite Hw in W'. now injection W'.
  Qed.

  (** The listing names only such entries. *)
  Lemma child_in fs' q n : In n (schildren fs' q) -> exists e, In (q ++ [n], e) fs'.
  Proof.
    unfold schildren. rewrite in_flat_map. intros ((x & e) & I & H). cbn [fst] in H. destruct (below q x) as [[|a []]|] eqn:B; try contradiction.
    destruct H as [->|[]]. apply below_spec in B. subst x. now exists e.
  Qed.
  Lemma in_lookup fs' q e : In (q, e) fs' -> slookup fs' q <> None.
  Proof.
    intros H. destruct q as [|a q]; [discriminate|]. unfold slookup. induction fs' as [|[x f] fs' IH]; [contradiction|]. cbn [sassoc].
    destruct (path_dec x (a :: q)); [discriminate|]. destruct H as [E|H]; [injection E as -> ->; contradiction|now apply IH].
  Qed.
  Lemma resolve_below_dirs ns : Forall proper ns -> all_dirs fs p ns -> sresolve fs cwd (below_text z ns) = Some (p ++ ns).
  Proof.
    intros P A. unfold sresolve. pose proof (below_nonempty z ns Hz) as B. destruct (below_text z ns) as [|b bs] eqn:E; [contradiction|]. rewrite <- E.
    rewrite below_start, comps_below, swalk_app, Hw by assumption. destruct (swalk_dirs fs k0 ns p Hp P A) as [-> _]. reflexivity.
  Qed.
  Lemma is_dir_below ns n : Forall proper (ns ++ [n]) -> all_dirs fs p ns -> sp_is_dir fs cwd (below_text z (ns ++ [n])) = true -> slookup fs (p ++ ns ++ [n]) = Some SDir.
  Proof.
    intros P A. pose proof P as P'. apply Forall_app in P' as [P1 P2]. inversion P2 as [|? ? (N1 & N2 & N3 & _) _]. subst.
    unfold sp_is_dir, s_stat, sresolve. pose proof (below_nonempty z (ns ++ [n]) Hz) as B. destruct (below_text z (ns ++ [n])) as [|b bs] eqn:E; [contradiction|]. rewrite <- E.
    rewrite below_start, comps_below, swalk_app, Hw by assumption. destruct (swalk_dirs fs k0 ns p Hp P1 A) as [W D]. rewrite swalk_app, W, swalk_cons, D.
    destruct (name_dec n []); [contradiction|]. destruct (name_dec n dot); [contradiction|]. destruct (name_dec n dotdot); [contradiction|].
    rewrite <- app_assoc. destruct (slookup fs (p ++ ns ++ [n])) as [[| |t]|] eqn:G; [reflexivity|..].
    - rewrite swalk_nil. cbn [option_map fst]. rewrite ?G, <- ?app_assoc, ?G. discriminate.
    - destruct k0 as [|k1]; [discriminate|]. destruct t as [|t0 t]; [discriminate|]. rewrite app_nil_r.
      destruct (swalk k1 fs (start (p ++ ns) (t0 :: t)) (comps (t0 :: t))) as [[r kr]|] eqn:X; [|discriminate]. cbn [option_map fst].
      pose proof (Hl ns n (t0 :: t) G k1 r kr X). destruct (slookup fs r) as [[]|]; congruence.
    - discriminate.
  Qed.
  Lemma hidden_false n : hidden false n = false -> n <> dot /\ n <> dotdot.
  Proof.
    unfold hidden. cbn [andb orb]. intros H. split; intros ->; vm_compute in H; discriminate.
  Qed.
  Lemma list_inside f : (forall ns pl l, Forall proper ns -> all_dirs fs p ns -> Forall inside pl ->
      sdir_list_recurse f fs cwd pl (below_text z ns) = Ok (Some l) -> Forall inside l) ->
    forall ns names pl l, Forall proper ns -> all_dirs fs p ns -> (forall n, In n names -> hidden false n = false -> proper n) ->
    Forall inside pl -> slist_loop (sdir_list_recurse f fs cwd) fs cwd (below_text z ns) names pl = Ok (Some l) -> Forall inside l.
  Proof.
    intros Rec ns. induction names as [|n names IH]; intros pl l P A N I; cbn [slist_loop]; [intros E; injection E as <-; exact I|].
    assert (forall m, In m names -> hidden false m = false -> proper m) as N' by (intros m Hm; apply N; now right).
    destruct (hidden false n) eqn:H; [now apply IH|].
    assert (below_text z ns ++ sep ++ n = below_text z (ns ++ [n])) as -> by (now rewrite below_text_app).
    assert (Forall proper (ns ++ [n])) as P'. { apply Forall_app. split; [assumption|]. constructor; [|constructor]. apply N; [now left|assumption]. }
    assert (inside (below_text z (ns ++ [n]))) as In1 by (exists ns, n; now repeat split).
    destruct (sp_is_dir fs cwd (below_text z (ns ++ [n]))) eqn:D.
    - assert (all_dirs fs p (ns ++ [n])) as A'. { apply all_dirs_app. split; [assumption|]. cbn [all_dirs]. rewrite <- app_assoc. split; [now apply is_dir_below|exact Logic.I]. }
      destruct (sdir_list_recurse f fs cwd pl (below_text z (ns ++ [n]))) as [[pl'|]| | |] eqn:R; cbn [bind]; try discriminate.
      + apply IH; try assumption. apply Forall_app. split; [|now constructor]. now apply (Rec (ns ++ [n]) pl).
      + intros E. injection E as <-. exact I.
    - apply IH; try assumption. apply Forall_app. split; [assumption|now constructor].
  Qed.
  Lemma recurse_inside f : forall ns pl l, Forall proper ns -> all_dirs fs p ns -> Forall inside pl ->
    sdir_list_recurse f fs cwd pl (below_text z ns) = Ok (Some l) -> Forall inside l.
  Proof.
    induction f as [|f IH]; intros ns pl l P A I; [discriminate|]. cbn [sdir_list_recurse]. destruct (negb _); [discriminate|].
    unfold s_readdir. rewrite resolve_below_dirs by assumption. destruct (slookup fs (p ++ ns)) as [[]|] eqn:D; try discriminate.
    apply (list_inside f IH ns); try assumption. intros n [<-|[<-|C]] H; [vm_compute in H; discriminate|vm_compute in H; discriminate|].
    destruct (child_in fs (p ++ ns) n C) as (e & X). apply Hn in X. apply Forall_app in X as [_ X]. now inversion X.
  Qed.
  Lemma recursive_kept fuel fs' ok : sp_rmdir_recurse fuel fs cwd z = Ok (fs', ok) -> forall q, below p q = None -> slookup fs' q = slookup fs q.
  Proof.
    intros E. assert (kept fs') as [_ K]; [|exact K]. assert (kept fs) as K0 by (split; [apply fewer_refl|reflexivity]).
    unfold sp_rmdir_recurse in E. destruct (negb _); [now injection E as <- _|].
    pose proof (recurse_inside fuel [] []) as L. replace (below_text z []) with z in L by (unfold below_text; cbn; now rewrite app_nil_r).
    destruct (sdir_list_recurse fuel fs cwd [] z) as [[[|st l]|]| | |]; cbn [bind] in E; try discriminate.
    - pose proof (last_kept fs K0) as X. destruct (sp_rmdir fs cwd z). now injection E as -> ->.
    - specialize (L (st :: l) ltac:(constructor) Logic.I ltac:(constructor) eq_refl). pose proof (loop_kept (st :: l) L fs K0) as X.
      destruct (sremove_loop fs cwd (st :: l)) as [fs1 []]; cbn [fst] in X.
      + injection E as <- _. now apply last_kept.
      + now injection E as <- _.
    - pose proof (last_kept fs K0) as X. destruct (sp_rmdir fs cwd z). now injection E as -> ->.
  Qed.
End Inside.

(** Removing one link. *)
Lemma remove_link fs cwd z p t : sname fs cwd z = Some p -> slookup fs p = Some (SLink t) -> last (comps z) [] <> [] ->
  sp_remove fs cwd z = if sp_exists fs cwd z then (sremove_key fs p, true) else (fs, false).
Proof.
  intros N L T. unfold sp_remove, s_remove. rewrite N, L. destruct (sp_exists fs cwd z); [|reflexivity]. cbn [negb].
  destruct (last (comps z) []); [contradiction|reflexivity].
Qed.
