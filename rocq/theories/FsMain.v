(** Directory creation, listing, removal; file contents. *)
From Verif Require Import Base BaseFacts StrModel StrModel2 StrSpec StrProofs StrProofs2 StrProofs3 StrMain FsModel PathModel FsSpec PathProofs FsProofs.

(** * vt_path_mkdir *)
Lemma stat_spec fs cwd z e : plain z -> fs_stat fs cwd z = Some e -> lookup fs (target cwd z) = Some e.
Proof.
  intros P H. unfold fs_stat in H. destruct (resolve fs cwd z) as [p|] eqn:E; [|discriminate].
  apply resolve_inv in E as [_ ->]; assumption.
Qed.

Lemma mkdir_ok fs cwd z ns n : wf fs -> plain z -> names z = ns ++ [n] -> lookup fs (start cwd z ++ ns) = Some EDir ->
  (lookup fs (start cwd z ++ ns ++ [n]) = None \/ lookup fs (start cwd z ++ ns ++ [n]) = Some EDir) ->
  exists fs', path_mkdir fs cwd z = (fs', true) /\ wf fs' /\
    forall q, lookup fs' q = if path_dec q (start cwd z ++ ns ++ [n]) then Some EDir else lookup fs q.
Proof.
  intros W P E L K. assert (z <> []) as Hz by (intros ->; destruct ns; discriminate). unfold path_mkdir, path_exists, fs_stat.
  assert (target cwd z = start cwd z ++ ns ++ [n]) as Et by (unfold target; now rewrite E).
  assert (start cwd z ++ ns ++ [n] <> []) as Hne by (destruct (start cwd z), ns; discriminate).
  destruct K as [K|K].
  - rewrite resolve_missing; [|assumption..|rewrite E; destruct ns; discriminate|now rewrite Et].
    unfold fs_mkdir. rewrite (new_entry_ok fs cwd z ns n) by assumption.
    eexists. split; [reflexivity|]. split.
    + rewrite app_assoc. apply wf_store; try assumption.
      * apply wf_names with (fs := fs); [exact W|congruence].
      * pose proof (filter_ok _ (plain_comps _ P)) as G. unfold names in E. rewrite E in G. apply Forall_app in G. destruct G as [_ G]. now inversion G.
      * now right.
    + intros q. now apply lookup_store.
  - rewrite (resolve_dir fs cwd z W P Hz) by now rewrite Et. rewrite Et, K.
    eexists. split; [reflexivity|]. split; [exact W|]. intros q. destruct (path_dec q _) as [->|]; [exact K|reflexivity].
Qed.

(** * vt_path_mkdir_parents *)
Definition slashed (ns : list name) : text := flat_map (fun n => n ++ [47]) ns.
Definition pfx (abs : bool) : text := if abs then [47] else [].

Lemma slashed_comps ns : Forall okname ns -> comps (slashed ns) = ns ++ [[]].
Proof.
  unfold slashed. induction 1 as [|n ns On _ IH]; [reflexivity|]. cbn [flat_map]. rewrite <- app_assoc. cbn [app].
  rewrite comps_app, IH, comps_name by apply On. reflexivity.
Qed.
Lemma pfx_comps abs ns : Forall okname ns -> comps (pfx abs ++ slashed ns) = (if abs then [[]] else []) ++ ns ++ [[]].
Proof. intros F. destruct abs; cbn [pfx app]; [change (47 :: slashed ns) with ([] ++ 47 :: slashed ns); rewrite comps_app|]; rewrite slashed_comps by assumption; reflexivity. Qed.
Lemma ok_filter ns : Forall okname ns -> filter nonempty ns = ns.
Proof. induction 1 as [|n ns On _ IH]; [reflexivity|]. cbn [filter]. rewrite (okname_nonempty _ On). now f_equal. Qed.
Lemma pfx_names abs ns : Forall okname ns -> names (pfx abs ++ slashed ns) = ns.
Proof. intros F. unfold names. rewrite pfx_comps, !filter_app, (ok_filter ns) by assumption. destruct abs; cbn; now rewrite app_nil_r. Qed.
Lemma slashed_ok ns : Forall okname ns -> oks (slashed ns).
Proof.
  induction 1 as [|n ns On _ IH]; [constructor|]. unfold slashed. cbn [flat_map]. apply oks_app. split; [|exact IH].
  apply oks_app. split; [apply On|exact sep_ok].
Qed.
Lemma pfx_plain abs ns : Forall okname ns -> plain (pfx abs ++ slashed ns).
Proof.
  intros F. split; [apply oks_app; split; [destruct abs; [exact sep_ok|constructor]|now apply slashed_ok]|].
  rewrite pfx_comps by assumption. rewrite Forall_forall in F. unfold dot, dotdot.
  split; intros H; apply in_app_or in H; (destruct H as [H|H]; [destruct abs; cbn in H; intuition discriminate|]);
    apply in_app_or in H; (destruct H as [H|[H|[]]]; [|discriminate]); destruct (F _ H) as (_ & H1 & H2 & _); contradiction.
Qed.
Definition is_abs (z : text) : bool := match z with c :: _ => c =? 47 | [] => false end.
Lemma pfx_start ns cwd z : Forall okname ns -> ns <> [] -> start cwd (pfx (is_abs z) ++ slashed ns) = start cwd z.
Proof.
  intros F Hne. destruct ns as [|n ns]; [contradiction|]. inversion F as [|? ? On _]; subst. destruct On as (H1 & _ & _ & _ & H2).
  destruct n as [|d n]; [contradiction|].
  assert ((d =? 47) = false) as Hd by (apply Z.eqb_neq; intros ->; apply H2; now left).
  unfold start at 2. destruct z as [|c z]; cbn [is_abs pfx]; [cbn; now rewrite Hd|]. destruct (c =? 47); cbn; [reflexivity|now rewrite Hd].
Qed.
Lemma pfx_len z : zlen (pfx (is_abs z) ++ slashed (names z)) <= zlen z + 1.
Proof.
  assert (forall l, l <> [] -> zlen (slashed l) = zlen (join_with sep l) + 1) as A.
  { intros l. induction l as [|x l IH]; intros H; [contradiction|]. unfold slashed in *. cbn [flat_map]. destruct l as [|y l].
    - cbn. zl. lia.
    - rewrite join_cons by discriminate. rewrite zlen_app, IH by discriminate. rewrite !zlen_app, sep_len. zl. lia. }
  assert (forall l, zlen (slashed (filter nonempty l)) <= zlen (slashed l)) as B.
  { intros l. induction l as [|x l IH]; [cbn; lia|]. unfold slashed in *. cbn [flat_map filter]. destruct (nonempty x); cbn [flat_map]; rewrite ?zlen_app in *; zpos; lia. }
  pose proof (comps_join z) as J. destruct (comps_cons z) as (x & l & Ez).
  assert (zlen (slashed (comps z)) = zlen z + 1) as C by (rewrite A, J; [reflexivity|rewrite Ez; discriminate]).
  unfold names. destruct z as [|c z]; [cbn [is_abs pfx app comps filter]; rewrite nonempty_nil; cbn; zl; lia|]. cbn [is_abs]. destruct (c =? 47) eqn:Ec; cbn [pfx].
  - apply Z.eqb_eq in Ec. subst c. cbn [comps] in *. replace (47 =? 47) with true in * by lia. cbn [filter]. rewrite nonempty_nil.
    specialize (B (comps z)). unfold slashed in *. cbn [flat_map app] in *. rewrite !zlen_cons in *. lia.
  - cbn [app]. pose proof (B (comps (c :: z))). lia.
Qed.

Lemma app_self {A} (a b : list A) : a = a ++ b -> b = [].
Proof. intros H. rewrite <- (app_nil_r a) in H at 1. now apply app_inv_head in H. Qed.

Lemma mkdir_loop_ok dbg cwd z : forall ns2 ds ns1 sfull cap fs, let st := start cwd z in
  wf fs -> Forall okname (ns1 ++ ns2) -> Forall2 (fun p x => exists c, srep p c x) ns2 ds ->
  srep (pfx (is_abs z) ++ slashed ns1) cap sfull -> zlen (pfx (is_abs z) ++ slashed (ns1 ++ ns2)) + 1 <= alloc_max ->
  lookup fs (st ++ ns1) = Some EDir ->
  (forall a b, ns2 = a ++ b -> lookup fs (st ++ ns1 ++ a) = None \/ lookup fs (st ++ ns1 ++ a) = Some EDir) ->
  exists fs', mkdir_loop dbg cwd ds sfull fs = Ok fs' /\ wf fs' /\
    (forall a b, ns2 = a ++ b -> lookup fs' (st ++ ns1 ++ a) = Some EDir) /\
    (forall q, (forall a b, ns2 = a ++ b -> q <> st ++ ns1 ++ a) -> lookup fs' q = lookup fs q).
Proof.
  intros ns2. induction ns2 as [|n ns2 IH]; intros ds ns1 sfull cap fs st W F D R Hf L K; inversion D as [|? d ? ds' [cd Rd] D']; subst; cbn [mkdir_loop].
  - exists fs. split; [reflexivity|]. split; [exact W|]. split; [|reflexivity]. intros a b H. symmetry in H. apply app_eq_nil in H as [-> _].
    now rewrite app_nil_r.
  - assert (okname n /\ Forall okname ns2 /\ Forall okname ns1) as (On & F2 & F1).
    { apply Forall_app in F as [? F]. inversion F. tauto. }
    assert (0 < zlen n) as Hn0 by (destruct On as [H1 _]; destruct n; [congruence|]; rewrite zlen_cons; zlia).
    rewrite (z_ok _ _ _ Rd). cbn [bind].
    assert (zlen (slashed (ns1 ++ n :: ns2)) = zlen (slashed ns1) + zlen n + 1 + zlen (slashed ns2)) as Lt.
    { unfold slashed. rewrite flat_map_app. cbn [flat_map]. rewrite !zlen_app. zl. lia. }
    rewrite zlen_app, Lt in Hf. pose proof (zlen_nonneg (slashed ns2)).
    destruct (append_ok dbg _ cap sfull n R) as (s1 & E1 & R1); [apply On|exact Hn0|rewrite zlen_app; destruct R; lia|].
    rewrite E1. cbn [bind].
    destruct (append_ok dbg _ _ s1 sep R1 sep_ok) as (s2 & E2 & R2); [rewrite sep_len; lia|rewrite !zlen_app, ?sep_len; destruct R; lia|].
    rewrite E2. cbn [bind]. rewrite (z_ok _ _ _ R2). cbn [bind].
    assert (((pfx (is_abs z) ++ slashed ns1) ++ n) ++ sep = pfx (is_abs z) ++ slashed (ns1 ++ [n])) as Et.
    { unfold slashed, sep. rewrite flat_map_app. cbn [flat_map]. now rewrite app_nil_r, !app_assoc. }
    rewrite Et in *. set (zf := pfx (is_abs z) ++ slashed (ns1 ++ [n])) in *.
    assert (Forall okname (ns1 ++ [n])) as F' by (apply Forall_app; split; [assumption|constructor; [exact On|constructor]]).
    assert (start cwd zf = st) as Es by (apply pfx_start; [exact F'|destruct ns1; discriminate]).
    destruct (mkdir_ok fs cwd zf ns1 n W) as (fs1 & E3 & W1 & L1).
    { now apply pfx_plain. } { now apply pfx_names. } { now rewrite Es. } { rewrite Es. apply (K [n] ns2). reflexivity. }
    rewrite E3. cbn [fst]. rewrite Es in L1.
    match type of R2 with srep _ ?c _ => destruct (IH ds' (ns1 ++ [n]) s2 c fs1 W1) as (fs2 & E4 & W2 & A2 & B2) end.
    { rewrite <- app_assoc. exact F. } { exact D'. } { exact R2. }
    { rewrite <- app_assoc. cbn [app]. rewrite zlen_app, Lt. lia. }
    { fold st. rewrite L1. destruct (path_dec _ _); [reflexivity|contradiction]. }
    { intros a b ->. fold st. rewrite L1. destruct (path_dec _ _); [now right|]. rewrite <- app_assoc. apply (K (n :: a) b). reflexivity. }
    fold st in A2, B2. exists fs2. split; [exact E4|]. split; [exact W2|]. split.
    + intros a b Ha. destruct a as [|m a].
      * rewrite app_nil_r. rewrite B2.
        -- rewrite L1. destruct (path_dec _ _) as [E|_]; [|exact L]. reflexivity.
        -- intros a' b' _ E. apply app_inv_head in E. rewrite <- app_assoc in E. apply app_self in E. discriminate.
      * injection Ha as <- Ha. specialize (A2 a b Ha). rewrite <- app_assoc in A2. exact A2.
    + intros q Hq. rewrite B2.
      * rewrite L1. destruct (path_dec _ _) as [->|]; [|reflexivity]. exfalso. exact (Hq [n] ns2 eq_refl eq_refl).
      * intros a b -> E. apply (Hq (n :: a) b eq_refl). rewrite E, <- app_assoc. reflexivity.
Qed.

Lemma comps_double z l : comps z = l ++ [[]; []] -> z = sep \/ exists a, z = a ++ [47; 47].
Proof.
  intros H. rewrite <- (comps_join z), H. clear H. induction l as [|x l IH]; [now left|]. right. cbn [app].
  rewrite join_cons by (destruct l; discriminate). destruct IH as [->|[a ->]].
  - exists x. reflexivity.
  - exists (x ++ sep ++ a). now rewrite <- !app_assoc.
Qed.

Lemma mkdir_parents_ok dbg fs cwd z : let st := start cwd z in let ns := names z in
  wf fs -> plain z -> In 47 z -> ns <> [] -> (forall a, z <> a ++ [47; 47]) -> zlen z + 2 <= alloc_max ->
  lookup fs cwd = Some EDir ->
  (forall a b, ns = a ++ b -> lookup fs (st ++ a) = None \/ lookup fs (st ++ a) = Some EDir) ->
  exists fs', path_mkdir_parents dbg fs cwd z = Ok (fs', true) /\ wf fs' /\
    (forall a b, ns = a ++ b -> lookup fs' (st ++ a) = Some EDir) /\
    (forall q, (forall a b, ns = a ++ b -> q <> st ++ a) -> lookup fs' q = lookup fs q).
Proof.
  intros st ns W P Hin Hne Hdd Hf Hc K. assert (z <> []) as Hz by (intros ->; contradiction).
  assert (0 < zlen z) as Hz0 by (destruct z; [contradiction|zl; zlia]).
  unfold path_mkdir_parents. destruct (path_exists fs cwd z) eqn:Ex.
  - exists fs. split; [reflexivity|]. split; [exact W|]. split; [|reflexivity]. intros a b E.
    unfold path_exists in Ex. destruct (fs_stat fs cwd z) as [e|] eqn:S; [|discriminate]. apply stat_spec in S; [|exact P].
    assert (lookup fs (st ++ ns) = Some EDir) as Ld.
    { destruct (K ns [] (eq_sym (app_nil_r ns))) as [X|X]; [|exact X]. unfold target in S. fold st ns in S. congruence. }
    destruct b as [|m b]; [rewrite app_nil_r in E; now subst a|]. apply wf_prefix with (q := m :: b); [exact W| |discriminate].
    rewrite <- app_assoc, <- E, Ld. discriminate.
  - pose proof P as (O & _). destruct (create_ok dbg z O Hz0) as (s & E1 & R1); [lia|]. rewrite E1. cbn [bind].
    unfold str_len. rewrite (r_len _ _ _ R1). rewrite w64_small by zlia.
    destruct (create_capacity_ok dbg (zlen z + 1)) as (sf & E2 & R2); [lia|lia|]. rewrite E2. cbn [bind].
    assert (exists sf' cap', (match z with c :: _ => if c =? 47 then str_append dbg sf sep else Ok sf | [] => Ok sf end) = Ok sf' /\ srep (pfx (is_abs z) ++ slashed []) cap' sf') as (sf' & cap' & E3 & R3).
    { destruct z as [|c z]; [contradiction|]. cbn [is_abs]. destruct (c =? 47); cbn [pfx slashed flat_map app].
      - destruct (append_ok dbg [] _ sf sep R2 sep_ok) as (s' & E' & R'); [rewrite sep_len; lia|rewrite sep_len; zl; zlia|]. eauto.
      - eauto. }
    rewrite E3. cbn [bind].
    destruct (split_scan dbg z _ s sep (comps z) R1) as [_ Sp]; [rewrite sep_len; lia|apply comps_scan|]. unfold lf in Sp.
    assert (1 < zlen (comps z)) as Hl.
    { apply in_split in Hin as (a & b & Ez). rewrite Ez, comps_app, zlen_app. destruct (comps_cons a) as (? & ? & ->), (comps_cons b) as (? & ? & ->). zl. zlia. }
    destruct Sp as (ds & E4 & D); [exact Hl| |].
    { intros l E. apply comps_double in E as [->|[a E]]; [now apply Hne|exact (Hdd a E)]. }
    rewrite E4. cbn [bind].
    assert (Forall okname ns) as Fn by (apply filter_ok, plain_comps, P).
    destruct (mkdir_loop_ok dbg cwd z ns ds [] sf' cap' fs W) as (fs' & E5 & W' & A & B).
    + exact Fn.
    + fold (names z) in D. fold ns in D. clear -D. induction D; constructor; eauto.
    + exact R3.
    + cbn [app]. pose proof (pfx_len z). fold ns in H. lia.
    + rewrite app_nil_r. unfold start. destruct z as [|c z]; [exact Hc|]. destruct (c =? 47); [reflexivity|exact Hc].
    + exact K.
    + cbn [app] in *. rewrite E5. cbn [bind]. eauto.
Qed.

Lemma mkdir_parents_bare dbg fs cwd z : wf fs -> oks z -> 0 < zlen z -> ~ In 47 z -> zlen z + 2 <= alloc_max ->
  path_exists fs cwd z = false -> path_mkdir_parents dbg fs cwd z = Ok (fs, false).
Proof.
  intros W O Hz Hn Hf Ex. unfold path_mkdir_parents. rewrite Ex.
  destruct (create_ok dbg z O Hz) as (s & E1 & R1); [lia|]. rewrite E1. cbn [bind].
  unfold str_len. rewrite (r_len _ _ _ R1). rewrite w64_small by zlia.
  destruct (create_capacity_ok dbg (zlen z + 1)) as (sf & E2 & R2); [lia|lia|]. rewrite E2. cbn [bind].
  assert ((match z with c :: _ => if c =? 47 then str_append dbg sf sep else Ok sf | [] => Ok sf end) = Ok sf) as ->.
  { destruct z as [|c z]; [reflexivity|]. replace (c =? 47) with false; [reflexivity|]. symmetry. apply Z.eqb_neq. intros ->. apply Hn. now left. }
  cbn [bind]. destruct (split_scan dbg z _ s sep (comps z) R1) as [Sp _]; [rewrite sep_len; lia|apply comps_scan|]. unfold lf in Sp.
  rewrite Sp; [reflexivity|]. now rewrite comps_name.
Qed.
