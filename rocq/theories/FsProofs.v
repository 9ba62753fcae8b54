(** Proofs about the file system functions of path.c. *)
From Verif Require Import Base BaseFacts StrModel StrModel2 StrSpec StrProofs StrProofs2 StrProofs3 StrMain FsModel PathModel FsSpec PathProofs.

(** * The map *)
Lemma assoc_in fs p e : assoc fs p = Some e -> In (p, e) fs.
Proof.
  induction fs as [|[q x] fs IH]; cbn [assoc]; [discriminate|]. destruct (path_dec q p) as [->|].
  - intros [= ->]. now left.
  - intros H. right. auto.
Qed.
Lemma in_assoc fs p e : NoDup (map fst fs) -> In (p, e) fs -> assoc fs p = Some e.
Proof.
  induction fs as [|[q x] fs IH]; cbn [assoc map fst]; intros N H; [contradiction|]. inversion N as [|? ? N1 N2]; subst.
  destruct H as [[= -> ->]|H].
  - destruct (path_dec p p); [reflexivity|contradiction].
  - destruct (path_dec q p) as [->|]; [|auto]. exfalso. apply N1. now apply (in_map fst) in H.
Qed.
Lemma assoc_app fs fs' p : assoc (fs ++ fs') p = match assoc fs p with Some e => Some e | None => assoc fs' p end.
Proof. induction fs as [|[q x] fs IH]; cbn [assoc app]; [reflexivity|]. now destruct (path_dec q p). Qed.
Lemma assoc_remove fs p q : assoc (remove_key fs p) q = if path_dec q p then None else assoc fs q.
Proof.
  unfold remove_key. induction fs as [|[x e] fs IH]; cbn [assoc filter fst]; [now destruct (path_dec q p)|].
  destruct (path_dec x p) as [->|N]; cbn [assoc].
  - rewrite IH. destruct (path_dec q p) as [->|]; [reflexivity|]. destruct (path_dec p q); [congruence|reflexivity].
  - rewrite IH. destruct (path_dec x q) as [->|]; [|reflexivity]. destruct (path_dec q p); [contradiction|reflexivity].
Qed.
Lemma lookup_remove fs p q : q <> [] -> lookup (remove_key fs p) q = if path_dec q p then None else lookup fs q.
Proof. destruct q; [contradiction|]. intros _. cbn [lookup]. apply assoc_remove. Qed.
Lemma lookup_store fs p e q : p <> [] -> lookup (store fs p e) q = if path_dec q p then Some e else lookup fs q.
Proof.
  intros Hp. destruct q as [|n q]; cbn [lookup].
  { destruct (path_dec [] p) as [<-|]; [contradiction|reflexivity]. }
  unfold store. rewrite assoc_app, assoc_remove. cbn [assoc].
  destruct (path_dec (n :: q) p) as [->|N]; [destruct (path_dec p p); [reflexivity|contradiction]|].
  destruct (assoc fs (n :: q)); [reflexivity|]. destruct (path_dec p (n :: q)); [congruence|reflexivity].
Qed.
Lemma remove_keys fs p x e : In (x, e) (remove_key fs p) <-> In (x, e) fs /\ x <> p.
Proof. unfold remove_key. rewrite filter_In. cbn [fst]. destruct (path_dec x p); intuition congruence. Qed.
Lemma remove_nodup fs p : NoDup (map fst fs) -> NoDup (map fst (remove_key fs p)).
Proof.
  unfold remove_key. induction fs as [|[x e] fs IH]; cbn [map filter fst]; intros N; [constructor|]. inversion N as [|? ? N1 N2]; subst.
  destruct (path_dec x p); [auto|]. cbn [map fst]. constructor; [|auto]. intros H. apply N1.
  apply in_map_iff in H. destruct H as ([y e'] & E & H). cbn [fst] in E. subst y. apply filter_In in H. destruct H as [H _]. now apply (in_map fst) in H.
Qed.

(** * Well-formedness *)
Lemma wf_lookup fs p e : wf fs -> lookup fs p = Some e -> p = [] \/ exists q n, p = q ++ [n] /\ Forall okname p /\ lookup fs q = Some EDir.
Proof.
  intros W H. destruct p as [|n p]; [now left|]. right. cbn [lookup] in H. apply assoc_in in H. exact (w_key fs W _ _ H).
Qed.
Lemma lookup_in fs p e : wf fs -> p <> [] -> lookup fs p = Some e <-> In (p, e) fs.
Proof.
  intros W Hp. destruct p as [|n p]; [contradiction|]. cbn [lookup]. split; [apply assoc_in|apply in_assoc, (w_nodup fs W)].
Qed.
Lemma wf_parent fs p n : wf fs -> lookup fs (p ++ [n]) <> None -> lookup fs p = Some EDir /\ okname n.
Proof.
  intros W H. destruct (lookup fs (p ++ [n])) as [e|] eqn:E; [|contradiction].
  destruct (wf_lookup _ _ _ W E) as [X|(q & m & X & F & L)]; [destruct p; discriminate|].
  apply app_inj_tail in X. destruct X as [-> ->]. split; [exact L|]. apply Forall_app in F. destruct F as [_ F]. now inversion F.
Qed.
Lemma wf_prefix fs p q : wf fs -> lookup fs (p ++ q) <> None -> q <> [] -> lookup fs p = Some EDir.
Proof.
  intros W. induction q as [|n q IH] using rev_ind; intros H Hq; [contradiction|].
  rewrite app_assoc in H. apply wf_parent in H as [H _]; [|exact W].
  destruct q as [|m q]; [now rewrite app_nil_r in H|]. apply IH; [congruence|discriminate].
Qed.
Lemma wf_names fs p : wf fs -> lookup fs p <> None -> Forall okname p.
Proof.
  intros W H. destruct (lookup fs p) as [e|] eqn:E; [|contradiction].
  destruct (wf_lookup _ _ _ W E) as [->|(q & n & _ & F & _)]; [constructor|exact F].
Qed.

Lemma wf_store fs q n e : wf fs -> lookup fs q = Some EDir -> Forall okname q -> okname n -> (lookup fs (q ++ [n]) <> None -> lookup fs (q ++ [n]) <> Some EDir \/ e = EDir) ->
  wf (store fs (q ++ [n]) e).
Proof.
  intros W L F On Hd. assert (q ++ [n] <> []) as Hne by (destruct q; discriminate). constructor.
  - unfold store. rewrite map_app. cbn [map fst].
    assert (forall l (x : path), NoDup l -> ~ In x l -> NoDup (l ++ [x])) as NA.
    { intros l x N H. apply NoDup_rev in N. rewrite <- (rev_involutive (l ++ [x])). apply NoDup_rev. rewrite rev_app_distr. cbn.
      constructor; [now rewrite <- in_rev|exact N]. }
    apply NA; [apply remove_nodup, W|]. intros H. apply in_map_iff in H. destruct H as ([x e'] & E & H). cbn [fst] in E. subst x.
    apply remove_keys in H. tauto.
  - intros p e' H. unfold store in H. apply in_app_or in H.
    assert (exists q0 n0, p = q0 ++ [n0] /\ Forall okname p /\ lookup fs q0 = Some EDir) as (q0 & n0 & E & F' & L').
    { destruct H as [H|[[= <- <-]|[]]].
      - apply remove_keys in H. exact (w_key fs W _ _ (proj1 H)).
      - exists q, n. split; [reflexivity|]. split; [|exact L]. apply Forall_app. split; [exact F|]. constructor; [exact On|constructor]. }
    exists q0, n0. split; [exact E|]. split; [exact F'|]. rewrite lookup_store by assumption.
    destruct (path_dec q0 (q ++ [n])) as [->|]; [|exact L'].
    destruct Hd as [Hd| ->]; [congruence| |reflexivity]. contradiction.
Qed.

Lemma below_spec p q r : below p q = Some r <-> q = p ++ r.
Proof.
  revert q. induction p as [|a p IH]; intros q; cbn [below app]; [intuition congruence|].
  destruct q as [|b q]; [intuition discriminate|]. destruct (name_dec a b) as [->|N].
  - rewrite IH. intuition congruence.
  - intuition congruence.
Qed.
Lemma children_spec fs p n : wf fs -> In n (children fs p) <-> lookup fs (p ++ [n]) <> None.
Proof.
  intros W. unfold children. rewrite in_flat_map. split.
  - intros ([x e] & H & K). cbn [fst] in K. destruct (below p x) as [[|m [|? ?]]|] eqn:E; try contradiction.
    destruct K as [->|[]]. apply below_spec in E. subst x. apply lookup_in in H; [congruence|exact W|destruct p; discriminate].
  - intros H. destruct (lookup fs (p ++ [n])) as [e|] eqn:E; [|contradiction].
    apply lookup_in in E; [|exact W|destruct p; discriminate]. exists (p ++ [n], e). split; [exact E|]. cbn [fst].
    pose proof (proj2 (below_spec p (p ++ [n]) [n]) eq_refl) as X. rewrite X. now left.
Qed.
Lemma children_nodup fs p : wf fs -> NoDup (children fs p).
Proof.
  intros W. pose proof (w_nodup fs W) as N. unfold children. clear W. induction fs as [|[x e] fs IH]; cbn [flat_map fst]; [constructor|].
  cbn [map fst] in N. inversion N as [|? ? N1 N2]; subst. specialize (IH N2).
  destruct (below p x) as [[|m [|? ?]]|] eqn:E; cbn [app]; try exact IH. constructor; [|exact IH].
  apply below_spec in E. subst x. intros H. apply in_flat_map in H. destruct H as ([y e'] & H & K). cbn [fst] in K.
  destruct (below p y) as [[|m' [|? ?]]|] eqn:E; try contradiction. destruct K as [->|[]]. apply below_spec in E. subst y.
  apply N1. now apply (in_map fst) in H.
Qed.

Lemma wf_remove fs p : wf fs -> children fs p = [] -> wf (remove_key fs p).
Proof.
  intros W C. constructor; [apply remove_nodup, W|]. intros x e H. apply remove_keys in H. destruct H as [H Hx].
  destruct (w_key fs W _ _ H) as (q & n & -> & F & L). exists q, n. split; [reflexivity|]. split; [exact F|].
  destruct q as [|m q]; [reflexivity|]. rewrite lookup_remove by discriminate. destruct (path_dec (m :: q) p) as [<-|]; [|exact L].
  exfalso. assert (In n (children fs (m :: q))) as K.
  { apply children_spec; [exact W|]. apply lookup_in in H; [congruence|exact W|discriminate]. }
  rewrite C in K. exact K.
Qed.

(** * Components *)
Lemma comps_cons z : exists x l, comps z = x :: l.
Proof. destruct z as [|c z]; cbn [comps]; [eauto|]. destruct (c =? 47); [eauto|]. destruct (comps z); eauto. Qed.
Lemma comps_app a b : comps (a ++ 47 :: b) = comps a ++ comps b.
Proof.
  induction a as [|c a IH]; cbn [app comps].
  - now replace (47 =? 47) with true by lia.
  - destruct (c =? 47); [now rewrite IH|]. rewrite IH. destruct (comps_cons a) as (x & l & ->). reflexivity.
Qed.
Lemma comps_name n : ~ In 47 n -> comps n = [n].
Proof.
  induction n as [|c n IH]; cbn [comps]; intros H; [reflexivity|].
  replace (c =? 47) with false by (symmetry; apply Z.eqb_neq; intros ->; apply H; now left).
  rewrite IH; [reflexivity|]. intros K. apply H. now right.
Qed.
Lemma comps_scan z : scan sep z (comps z).
Proof.
  induction z as [|c z IH]; cbn [comps].
  { apply scan_end. intros a b H. destruct a; discriminate. }
  destruct (c =? 47) eqn:E.
  - apply Z.eqb_eq in E. subst c. apply (scan_next sep [] z); [|exact IH]. intros a' b' _. zl. zlia.
  - destruct (comps_cons z) as (x & l & Ez). rewrite Ez in *. inversion IH as [t Hc|a b ps Hc Hs]; subst.
    + apply scan_end. intros a b H. destruct a as [|y a]; cbn in H; injection H as -> H; [lia|]. exact (Hc a b H).
    + apply (scan_next sep (c :: x) b); [|exact Hs]. intros a' b' H. destruct a' as [|y a]; cbn in H; injection H as -> H; [lia|].
      specialize (Hc a b' H). zl. lia.
Qed.
Lemma comps_join z : join_with sep (comps z) = z.
Proof. rewrite (scan_unique sep z (comps z)); [apply join_pieces|reflexivity|apply comps_scan]. Qed.
Lemma comps_chars z : oks z -> Forall (fun c => oks c /\ ~ In 47 c) (comps z).
Proof.
  induction z as [|c z IH]; intros O; cbn [comps].
  - constructor; [split; [constructor|intros []]|constructor].
  - inversion O as [|? ? Oc Oz]; subst. specialize (IH Oz). destruct (c =? 47) eqn:E.
    + constructor; [split; [constructor|intros []]|exact IH].
    + destruct (comps_cons z) as (x & l & Ez). rewrite Ez in *.
      inversion IH as [|? ? [Ox Hx] Hl]; subst. constructor; [|exact Hl]. split; [now constructor|]. cbn [In]. intros [->|K]; [lia|auto].
Qed.
Definition okcomp (c : name) : Prop := c = [] \/ okname c.
Lemma plain_comps z : plain z -> Forall okcomp (comps z).
Proof.
  intros (O & H1 & H2). pose proof (comps_chars z O) as F. rewrite Forall_forall in *. intros c Hc. specialize (F c Hc).
  destruct c as [|a c]; [now left|]. right. repeat split; try tauto; try discriminate; intros E; rewrite E in Hc; contradiction.
Qed.
Lemma nonempty_spec c : nonempty c = true <-> c <> [].
Proof. unfold nonempty. destruct c; zl; split; intros; try discriminate; try reflexivity; try contradiction. pose proof (zlen_nonneg c). lia. Qed.
Lemma nonempty_nil : nonempty [] = false.
Proof. reflexivity. Qed.
Lemma okname_nonempty n : okname n -> nonempty n = true.
Proof. intros H. apply nonempty_spec, H. Qed.
Lemma filter_ok cs : Forall okcomp cs -> Forall okname (filter nonempty cs).
Proof.
  intros F. rewrite Forall_forall in *. intros c H. apply filter_In in H. destruct H as [H K]. destruct (F c H) as [->|]; [discriminate|assumption].
Qed.

(** * Resolution *)
Lemma walk_app fs : forall a b cur, walk fs cur (a ++ b) = match walk fs cur a with Some p => walk fs p b | None => None end.
Proof.
  induction a as [|c a IH]; intros b cur; cbn [walk app]; [reflexivity|]. destruct (lookup fs cur) as [[|]|]; try reflexivity.
  destruct (name_dec c []); [apply IH|]. destruct (name_dec c dot); [apply IH|]. destruct (name_dec c dotdot); [apply IH|].
  destruct (lookup fs (cur ++ [c])); [apply IH|reflexivity].
Qed.
Lemma walk_name fs cur n : okname n -> lookup fs cur = Some EDir -> lookup fs (cur ++ [n]) <> None -> walk fs cur [n] = Some (cur ++ [n]).
Proof.
  intros (H1 & H2 & H3 & _) L H. cbn [walk]. rewrite L. destruct (name_dec n []); [contradiction|]. destruct (name_dec n dot); [contradiction|].
  destruct (name_dec n dotdot); [contradiction|]. destruct (lookup fs (cur ++ [n])); [reflexivity|contradiction].
Qed.
Lemma walk_step fs cur n cs : okname n -> walk fs cur (n :: cs) =
  match lookup fs cur with Some EDir => match lookup fs (cur ++ [n]) with Some _ => walk fs (cur ++ [n]) cs | None => None end | _ => None end.
Proof.
  intros (H1 & H2 & H3 & _). cbn [walk]. destruct (name_dec n []); [contradiction|]. destruct (name_dec n dot); [contradiction|].
  destruct (name_dec n dotdot); [contradiction|reflexivity].
Qed.
Lemma walk_nil fs cur cs : walk fs cur ([] :: cs) = match lookup fs cur with Some EDir => walk fs cur cs | _ => None end.
Proof. cbn [walk]. destruct (name_dec [] []); [reflexivity|contradiction]. Qed.

(** Components that are names or empty: the result is forced. *)
Lemma walk_inv fs : forall cs cur p, Forall okcomp cs -> walk fs cur cs = Some p -> p = cur ++ filter nonempty cs.
Proof.
  induction cs as [|c cs IH]; intros cur p F H; cbn [filter]; [cbn in H; rewrite app_nil_r; congruence|].
  inversion F as [|? ? Fc Fs]; subst. destruct Fc as [->|Oc].
  - rewrite walk_nil in H. rewrite nonempty_nil. destruct (lookup fs cur) as [[|]|]; try discriminate. auto.
  - rewrite walk_step in H by assumption. rewrite (okname_nonempty _ Oc).
    destruct (lookup fs cur) as [[|]|]; try discriminate. destruct (lookup fs (cur ++ [c])); try discriminate.
    rewrite (IH _ _ Fs H). now rewrite <- app_assoc.
Qed.
Lemma walk_dir fs : wf fs -> forall cs cur, Forall okcomp cs -> lookup fs (cur ++ filter nonempty cs) = Some EDir ->
  walk fs cur cs = Some (cur ++ filter nonempty cs).
Proof.
  intros W. induction cs as [|c cs IH]; intros cur F L; cbn [filter] in *; [now rewrite app_nil_r|].
  inversion F as [|? ? Fc Fs]; subst. destruct Fc as [->|Oc].
  - rewrite nonempty_nil in *. rewrite walk_nil.
    assert (lookup fs cur = Some EDir) as ->.
    { destruct (filter nonempty cs) eqn:E; [now rewrite app_nil_r in L|]. eapply wf_prefix; [exact W|rewrite L; discriminate|discriminate]. }
    auto.
  - rewrite (okname_nonempty _ Oc) in *. rewrite walk_step by assumption.
    rewrite (wf_prefix fs cur (c :: filter nonempty cs)) by (assumption || discriminate || congruence).
    change (c :: filter nonempty cs) with ([c] ++ filter nonempty cs) in *. rewrite app_assoc in *.
    assert (lookup fs (cur ++ [c]) = Some EDir) as ->; [|auto].
    destruct (filter nonempty cs) eqn:E; [now rewrite app_nil_r in L|]. eapply wf_prefix; [exact W|rewrite L; discriminate|discriminate].
Qed.
(** The last component may be a file. *)
Lemma walk_entry fs cs n cur : wf fs -> Forall okcomp cs -> okname n -> lookup fs (cur ++ filter nonempty cs ++ [n]) <> None ->
  walk fs cur (cs ++ [n]) = Some (cur ++ filter nonempty cs ++ [n]).
Proof.
  intros W F On L. rewrite app_assoc in L. pose proof (wf_parent _ _ _ W L) as [LD _].
  rewrite walk_app, walk_dir by assumption. rewrite walk_name by assumption. now rewrite app_assoc.
Qed.
Lemma walk_missing fs cs cur : wf fs -> Forall okcomp cs -> filter nonempty cs <> [] -> lookup fs (cur ++ filter nonempty cs) = None -> walk fs cur cs = None.
Proof.
  intros W. revert cur. induction cs as [|c cs IH]; intros cur F Hne L; cbn [filter] in *; [contradiction|].
  inversion F as [|? ? Fc Fs]; subst. destruct Fc as [->|Oc].
  - rewrite nonempty_nil in *. rewrite walk_nil. destruct (lookup fs cur) as [[|]|]; try reflexivity. auto.
  - rewrite (okname_nonempty _ Oc) in *. rewrite walk_step by assumption. destruct (lookup fs cur) as [[|]|]; try reflexivity.
    destruct (lookup fs (cur ++ [c])) eqn:E; [|reflexivity].
    change (c :: filter nonempty cs) with ([c] ++ filter nonempty cs) in *. rewrite app_assoc in L.
    destruct (filter nonempty cs) eqn:Ef; [rewrite app_nil_r in L; congruence|]. rewrite <- Ef in *. apply IH; [assumption|congruence|assumption].
Qed.

Lemma resolve_walk fs cwd z : z <> [] -> resolve fs cwd z = walk fs (start cwd z) (comps z).
Proof. destruct z; [contradiction|reflexivity]. Qed.
Lemma resolve_dir fs cwd z : wf fs -> plain z -> z <> [] -> lookup fs (target cwd z) = Some EDir -> resolve fs cwd z = Some (target cwd z).
Proof. intros W P Hz L. rewrite resolve_walk by assumption. apply walk_dir; [exact W|apply plain_comps, P|exact L]. Qed.
Lemma resolve_inv fs cwd z p : plain z -> resolve fs cwd z = Some p -> z <> [] /\ p = target cwd z.
Proof.
  intros P H. destruct z as [|c z]; [discriminate|]. split; [discriminate|]. rewrite resolve_walk in H by discriminate.
  apply (walk_inv _ _ _ _ (plain_comps _ P) H).
Qed.
Lemma resolve_missing fs cwd z : wf fs -> plain z -> names z <> [] -> lookup fs (target cwd z) = None -> resolve fs cwd z = None.
Proof. intros W P Hn L. destruct z as [|c z]; [reflexivity|]. rewrite resolve_walk by discriminate. apply walk_missing; try assumption. apply plain_comps, P. Qed.

Lemma start_app cwd z w : z <> [] -> start cwd (z ++ w) = start cwd z.
Proof. destruct z; [contradiction|reflexivity]. Qed.
(** Resolving below a directory text that resolves. *)
Lemma resolve_child fs cwd z n p : okname n -> resolve fs cwd z = Some p -> lookup fs p = Some EDir -> lookup fs (p ++ [n]) <> None ->
  resolve fs cwd (z ++ sep ++ n) = Some (p ++ [n]).
Proof.
  intros On H L K. assert (z <> []) as Hz by (intros ->; discriminate). rewrite resolve_walk in * by (try assumption; destruct z; discriminate).
  rewrite start_app by assumption. unfold sep. cbn [app]. rewrite comps_app, walk_app, H, (comps_name n) by apply On. now apply walk_name.
Qed.

Lemma names_app a b : names (a ++ 47 :: b) = names a ++ names b.
Proof. unfold names. now rewrite comps_app, filter_app. Qed.

(** * New entries *)
Lemma drop_nil_rev : forall cs ns n, filter nonempty cs = ns ++ [n] ->
  exists r, drop_nil (rev cs) = n :: r /\ filter nonempty (rev r) = ns /\ (forall P, Forall P cs -> Forall P (rev r)) /\ In n cs.
Proof.
  intros cs. induction cs as [|c cs IH] using rev_ind; intros ns n H; [destruct ns; discriminate|].
  rewrite filter_app in H. cbn [filter] in H. rewrite rev_app_distr. cbn [rev app]. destruct c as [|a c].
  - rewrite nonempty_nil in H. rewrite app_nil_r in H. destruct (IH _ _ H) as (r & E1 & E2 & E3 & E4). exists r. cbn [drop_nil].
    repeat split; try assumption; [|apply in_or_app; now left]. intros P F. apply E3. apply Forall_app in F. tauto.
  - rewrite (proj2 (nonempty_spec (a :: c))) in H by discriminate. apply app_inj_tail in H. destruct H as [H <-].
    exists (rev cs). cbn [drop_nil]. rewrite rev_involutive. repeat split; try assumption; [|apply in_or_app; right; now left].
    intros P F. apply Forall_app in F. tauto.
Qed.
Lemma special_name c : okname c -> special c = false.
Proof. intros (_ & H1 & H2 & _). unfold special. destruct (name_dec c dot); [contradiction|]. destruct (name_dec c dotdot); [contradiction|reflexivity]. Qed.

Lemma new_entry_ok fs cwd z ns n : wf fs -> plain z -> names z = ns ++ [n] -> lookup fs (start cwd z ++ ns) = Some EDir ->
  lookup fs (start cwd z ++ ns ++ [n]) = None -> new_entry fs cwd z = Some (start cwd z ++ ns ++ [n]).
Proof.
  intros W P E L K. pose proof (plain_comps _ P) as F. destruct (drop_nil_rev _ _ _ E) as (r & E1 & E2 & E3 & E4).
  assert (okname n) as On. { pose proof (filter_ok _ F) as G. unfold names in E. rewrite E in G. apply Forall_app in G. destruct G as [_ G]. now inversion G. }
  unfold new_entry. destruct z as [|c z]; [destruct ns; discriminate|]. unfold rev_comps. rewrite E1, special_name by assumption.
  rewrite (walk_dir fs W (rev r)); [|apply E3, F|now rewrite E2]. rewrite E2, L, <- app_assoc, K. reflexivity.
Qed.
Lemma new_entry_inv fs cwd z p : plain z -> new_entry fs cwd z = Some p ->
  exists ns n, names z = ns ++ [n] /\ p = target cwd z /\ lookup fs (start cwd z ++ ns) = Some EDir /\ lookup fs p = None.
Proof.
  intros P H. pose proof (plain_comps _ P) as F. unfold new_entry in H. destruct z as [|c z]; [discriminate|].
  destruct (rev_comps (c :: z)) as [|n r] eqn:Er; [discriminate|].
  assert (names (c :: z) <> []) as Hne.
  { intros E. unfold rev_comps in Er. assert (Forall (fun x => x = []) (rev (comps (c :: z)))) as A.
    { apply Forall_rev. apply Forall_forall. intros x Hx. destruct x as [|a x]; [reflexivity|]. exfalso.
      assert (In (a :: x) (names (c :: z))) as K. { apply filter_In. split; [exact Hx|]. now apply nonempty_spec. }
      rewrite E in K. exact K. }
    revert Er A. generalize (rev (comps (c :: z))). induction l as [|x l IH]; [discriminate|]. intros Er A. inversion A; subst. cbn [drop_nil] in Er. auto. }
  destruct (exists_last Hne) as (ns & m & E). destruct (drop_nil_rev _ _ _ E) as (r' & E1 & E2 & E3 & E4).
  unfold rev_comps in Er. rewrite E1 in Er. injection Er as <- <-.
  destruct (special m); [discriminate|]. destruct (walk fs (start cwd (c :: z)) (rev r')) as [q|] eqn:Ew; [|discriminate].
  apply walk_inv in Ew; [|apply E3, F]. rewrite E2 in Ew. subst q.
  destruct (lookup fs (start cwd (c :: z) ++ ns)) as [[|]|] eqn:L; try discriminate.
  destruct (lookup fs ((start cwd (c :: z) ++ ns) ++ [m])) eqn:K; [discriminate|]. injection H as <-.
  exists ns, m. split; [exact E|]. split; [unfold target; rewrite E; now rewrite app_assoc|]. split; assumption.
Qed.
