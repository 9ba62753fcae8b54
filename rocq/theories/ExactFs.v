(** vt_path_mkdir_parents on every path, also with "." and ".." components. *)
From Coq Require Import Lia.
From Verif Require Import Base BaseFacts StrModel StrModel2 StrSpec StrProofs StrProofs2 StrProofs3 StrMain FsModel PathModel FsSpec PathProofs FsProofs FsMain ExactStr.

(** The place a list of components leads to from a directory, by the text alone. *)
Definition onward (p : path) (c : name) : path :=
  if name_dec c [] then p else if name_dec c dot then p else if name_dec c dotdot then removelast p else p ++ [c].
Definition dest (p : path) (cs : list name) : path := fold_left onward cs p.

Definition rawname (n : name) : Prop := n <> [] /\ oks n /\ ~ In 47 n.

Lemma dest_app p a b : dest p (a ++ b) = dest (dest p a) b.
Proof. apply fold_left_app. Qed.
Lemma dest_filter cs : forall p, dest p (filter nonempty cs) = dest p cs.
Proof.
  induction cs as [|c cs IH]; intros p; cbn [filter]; [reflexivity|]. destruct (nonempty c) eqn:E; cbn [dest fold_left]; [apply IH|].
  assert (c = []) as -> by (destruct c; [reflexivity|]; unfold nonempty in E; pose proof (zlen_nonneg c); rewrite zlen_cons in E; lia).
  cbn [onward]. destruct (name_dec [] []); [apply IH|contradiction].
Qed.
Lemma walk_inv fs cs : forall p q, walk fs p cs = Some q -> q = dest p cs /\ forall a c b, cs = a ++ c :: b -> lookup fs (dest p a) = Some EDir.
Proof.
  induction cs as [|c cs IH]; intros p q H; cbn [walk] in H.
  - injection H as ->. split; [reflexivity|]. intros a c b E. destruct a; discriminate.
  - destruct (lookup fs p) as [[|]|] eqn:L; try discriminate.
    assert (walk fs (onward p c) cs = Some q) as H'.
    { unfold onward. destruct (name_dec c []); [exact H|]. destruct (name_dec c dot); [exact H|]. destruct (name_dec c dotdot); [exact H|]. destruct (lookup fs (p ++ [c])); [exact H|discriminate]. }
    apply IH in H' as [-> D]. split; [reflexivity|]. intros a d b E. destruct a as [|x a]; [exact L|]. injection E as -> E. exact (D a d b E).
Qed.
Lemma walk_dest fs cs : forall p, (forall a b, cs = a ++ b -> lookup fs (dest p a) = Some EDir) -> walk fs p cs = Some (dest p cs).
Proof.
  induction cs as [|c cs IH]; intros p H; cbn [walk]; [reflexivity|].
  pose proof (H [] (c :: cs) eq_refl) as L. cbn [dest fold_left] in L. rewrite L.
  assert (walk fs (onward p c) cs = Some (dest (onward p c) cs)) as W. { apply IH. intros a b E. apply (H (c :: a) b). cbn [app]. now rewrite E. }
  pose proof (H [c] cs eq_refl) as Lc. cbn [dest fold_left] in Lc. unfold onward in W, Lc. cbn [dest fold_left]. unfold onward at 2.
  destruct (name_dec c []); [exact W|]. destruct (name_dec c dot); [exact W|]. destruct (name_dec c dotdot); [exact W|]. now rewrite Lc.
Qed.
Lemma filter_prefix cs : forall a m b, filter nonempty cs = a ++ m :: b -> exists a' b', cs = a' ++ m :: b' /\ filter nonempty a' = a.
Proof.
  induction cs as [|c cs IH]; intros a m b E; cbn [filter] in E; [destruct a; discriminate|]. destruct (nonempty c) eqn:N.
  - destruct a as [|x a]; injection E as -> E; [exists [], cs; now split|]. apply IH in E as (a' & b' & -> & Ea). exists (x :: a'), b'. split; [reflexivity|]. cbn [filter]. now rewrite N, Ea.
  - apply IH in E as (a' & b' & -> & Ea). exists (c :: a'), b'. split; [reflexivity|]. cbn [filter]. now rewrite N.
Qed.
Lemma raw_names z : oks z -> Forall rawname (names z).
Proof.
  intros O. pose proof (comps_chars z O) as F. rewrite Forall_forall in *. intros c H. apply filter_In in H as [H N]. apply nonempty_spec in N. destruct (F c H). now split.
Qed.
Lemma raw_slashed_comps ns : Forall rawname ns -> comps (slashed ns) = ns ++ [[]].
Proof.
  unfold slashed. induction 1 as [|n ns On _ IH]; [reflexivity|]. cbn [flat_map]. rewrite <- app_assoc. cbn [app]. rewrite comps_app, IH, comps_name by apply On. reflexivity.
Qed.
Lemma raw_pfx_comps abs ns : Forall rawname ns -> comps (pfx abs ++ slashed ns) = (if abs then [[]] else []) ++ ns ++ [[]].
Proof. intros F. destruct abs; cbn [pfx app]; [change (47 :: slashed ns) with ([] ++ 47 :: slashed ns); rewrite comps_app|]; rewrite raw_slashed_comps by assumption; reflexivity. Qed.
Lemma raw_pfx_start ns cwd z : Forall rawname ns -> ns <> [] -> start cwd (pfx (is_abs z) ++ slashed ns) = start cwd z.
Proof.
  intros F Hne. destruct ns as [|n ns]; [contradiction|]. inversion F as [|? ? On _]; subst. destruct On as (H1 & _ & H2). destruct n as [|d n]; [contradiction|].
  assert ((d =? 47) = false) as Hd by (apply Z.eqb_neq; intros ->; apply H2; now left).
  unfold start at 2. destruct z as [|c z]; cbn [is_abs pfx]; [cbn; now rewrite Hd|]. destruct (c =? 47); cbn; [reflexivity|now rewrite Hd].
Qed.
Lemma drop_slashes n r : n <> [] -> drop_nil (rev (r ++ [n] ++ [[]])) = n :: rev r.
Proof. intros N. rewrite app_assoc, rev_app_distr. cbn [rev app drop_nil]. rewrite rev_app_distr. cbn [rev app drop_nil]. destruct n; [contradiction|reflexivity]. Qed.
Lemma up_dir fs p : wf fs -> lookup fs p = Some EDir -> lookup fs (removelast p) = Some EDir.
Proof.
  intros W L. destruct p as [|n p] using rev_ind; [exact L|]. rewrite removelast_last. apply (wf_parent fs p n W). congruence.
Qed.

(** One step of the loop. *)
Lemma mkdir_step fs cwd z ns1 n : let st := start cwd z in let zf := pfx (is_abs z) ++ slashed (ns1 ++ [n]) in
  wf fs -> Forall rawname (ns1 ++ [n]) -> (forall a b, ns1 = a ++ b -> lookup fs (dest st a) = Some EDir) ->
  (lookup fs (dest st (ns1 ++ [n])) = None \/ lookup fs (dest st (ns1 ++ [n])) = Some EDir) ->
  exists fs', path_mkdir fs cwd zf = (fs', true) /\ wf fs' /\ forall q, lookup fs' q = if path_dec q (dest st (ns1 ++ [n])) then Some EDir else lookup fs q.
Proof.
  intros st zf W F D K. assert (rawname n) as (Nn & On & Nn47). { apply Forall_app in F as [_ F]. now inversion F. }
  assert (start cwd zf = st) as Es by (apply raw_pfx_start; [exact F|destruct ns1; discriminate]).
  assert (comps zf = (if is_abs z then [[]] else []) ++ ns1 ++ [n] ++ [[]]) as Ec by (unfold zf; rewrite raw_pfx_comps by exact F; now rewrite <- app_assoc).
  pose proof (D [] ns1 eq_refl) as L0. cbn [dest fold_left] in L0.
  assert (walk fs st ((if is_abs z then [[]] else []) ++ ns1) = Some (dest st ns1)) as Wk.
  { destruct (is_abs z); cbn [app]; [cbn [walk]; rewrite L0; destruct (name_dec [] []); [|contradiction]|]; apply walk_dest; exact D. }
  pose proof (D ns1 [] (eq_sym (app_nil_r ns1))) as Lc. set (cur := dest st ns1) in *.
  assert (zf <> []) as Hz. { intros E. rewrite E in Ec. cbn [comps] in Ec. destruct (is_abs z), ns1; try discriminate; destruct ns1; discriminate. }
  assert (resolve fs cwd zf = match walk fs cur [n; []] with Some p => Some p | None => None end) as Rs.
  { unfold resolve. destruct zf as [|c zf'] eqn:Ez; [contradiction|]. rewrite Es, Ec. rewrite app_assoc, walk_app, Wk. cbn [app]. now destruct (walk fs cur [n; []]). }
  rewrite dest_app in *. fold cur in K |- *. cbn [dest fold_left] in *. unfold path_mkdir, path_exists, fs_stat. rewrite Rs.
  assert (forall p, lookup fs p = Some EDir -> exists fs', (fs, true) = (fs', true) /\ wf fs' /\ forall q, lookup fs' q = if path_dec q p then Some EDir else lookup fs q) as Same.
  { intros p Lp. exists fs. split; [reflexivity|]. split; [exact W|]. intros q. destruct (path_dec q p) as [->|]; [exact Lp|reflexivity]. }
  unfold onward in *. destruct (name_dec n []) as [|_]; [contradiction|]. cbn [walk]. rewrite Lc. destruct (name_dec n []) as [|_]; [contradiction|].
  destruct (name_dec n dot) as [Ed|Nd].
  { rewrite ?Lc. destruct (name_dec [] []); [|contradiction]. cbn match. rewrite ?Lc. now apply Same. }
  destruct (name_dec n dotdot) as [Ed|Ndd].
  { pose proof (up_dir fs cur W Lc) as Lu. rewrite ?Lu. destruct (name_dec [] []); [|contradiction]. cbn match. rewrite ?Lu. now apply Same. }
  destruct K as [K|K].
  - rewrite K. cbn match. unfold fs_mkdir, new_entry, rev_comps. destruct zf as [|c zf'] eqn:Ez; [contradiction|]. rewrite Ec, app_assoc, drop_slashes by exact Nn.
    unfold special. destruct (name_dec n dot); [contradiction|]. destruct (name_dec n dotdot); [contradiction|]. rewrite Es, rev_involutive, Wk, Lc, K.
    eexists. split; [reflexivity|]. split.
    + apply wf_store; trivial; [apply wf_names with (fs := fs); [exact W|congruence]|repeat split; assumption|intros _; now right].
    + intros q. apply lookup_store. destruct cur; discriminate.
  - rewrite ?K. destruct (name_dec [] []); [|contradiction]. cbn match. rewrite ?K. now apply Same.
Qed.

Lemma mkdir_loop_dots dbg cwd z rest : forall ns2 ds ns1 sfull cap fs, let st := start cwd z in
  wf fs -> Forall rawname (ns1 ++ ns2) -> Forall2 (fun p x => exists c, srep p c x) ns2 ds ->
  srep (pfx (is_abs z) ++ slashed ns1) cap sfull -> zlen (pfx (is_abs z) ++ slashed (ns1 ++ ns2)) + 1 <= alloc_max ->
  (forall a b, ns1 = a ++ b -> lookup fs (dest st a) = Some EDir) ->
  (forall a b, ns2 = a ++ b -> lookup fs (dest st (ns1 ++ a)) = None \/ lookup fs (dest st (ns1 ++ a)) = Some EDir) ->
  exists fs' sfull' cap', mkdir_loop dbg cwd (ds ++ rest) sfull fs = mkdir_loop dbg cwd rest sfull' fs' /\ srep (pfx (is_abs z) ++ slashed (ns1 ++ ns2)) cap' sfull' /\ wf fs' /\
    (forall a b, ns1 ++ ns2 = a ++ b -> lookup fs' (dest st a) = Some EDir) /\
    (forall q, (forall a b, ns1 ++ ns2 = a ++ b -> q <> dest st a) -> lookup fs' q = lookup fs q).
Proof.
  intros ns2. induction ns2 as [|n ns2 IH]; intros ds ns1 sfull cap fs st W F D R Hf L K; inversion D as [|? d ? ds' [cd Rd] D']; subst; cbn [app mkdir_loop].
  - exists fs, sfull, cap. split; [reflexivity|]. rewrite app_nil_r. split; [exact R|]. split; [exact W|]. split; [|reflexivity]. intros a b H. exact (L a b H).
  - assert (rawname n /\ Forall rawname ns2 /\ Forall rawname ns1) as (On & F2 & F1). { apply Forall_app in F as [? F]. inversion F. tauto. }
    assert (0 < zlen n) as Hn0 by (destruct On as [H1 _]; destruct n; [congruence|]; rewrite zlen_cons; zlia).
    rewrite (z_ok _ _ _ Rd). cbn [bind].
    assert (zlen (slashed (ns1 ++ n :: ns2)) = zlen (slashed ns1) + zlen n + 1 + zlen (slashed ns2)) as Lt.
    { unfold slashed. rewrite flat_map_app. cbn [flat_map]. rewrite !zlen_app. zl. lia. }
    rewrite zlen_app, Lt in Hf. pose proof (zlen_nonneg (slashed ns2)).
    destruct (append_ok dbg _ cap sfull n R) as (s1 & E1 & R1); [apply On|exact Hn0|rewrite zlen_app; destruct R; lia|].
    rewrite E1. cbn [bind].
    destruct (append_ok dbg _ _ s1 sep R1 sep_ok) as (s2 & E2 & R2); [rewrite sep_len; lia|rewrite !zlen_app, ?sep_len; destruct R; lia|].
    rewrite E2. cbn [bind]. rewrite (z_ok _ _ _ R2). cbn [bind].
    assert (((pfx (is_abs z) ++ slashed ns1) ++ n) ++ sep = pfx (is_abs z) ++ slashed (ns1 ++ [n])) as Et.
    { unfold slashed, sep. rewrite flat_map_app. cbn [flat_map]. now rewrite app_nil_r, !app_assoc. }
    rewrite Et in *.
    assert (Forall rawname (ns1 ++ [n])) as F' by (apply Forall_app; split; [assumption|constructor; [exact On|constructor]]).
    destruct (mkdir_step fs cwd z ns1 n W F' L (K [n] ns2 eq_refl)) as (fs1 & E3 & W1 & L1). rewrite E3. cbn [fst].
    match type of R2 with srep _ ?c _ => destruct (IH ds' (ns1 ++ [n]) s2 c fs1 W1) as (fs2 & sf2 & cap2 & E4 & R4 & W2 & A2 & B2) end.
    { rewrite <- app_assoc. exact F. } { exact D'. } { exact R2. }
    { rewrite <- app_assoc. cbn [app]. rewrite zlen_app, Lt. lia. }
    { intros a b E. fold st. rewrite L1. destruct (path_dec _ _); [reflexivity|]. destruct b as [|m b] using rev_ind.
      - rewrite app_nil_r in E. subst a. fold st in n0. contradiction.
      - clear IHb. rewrite app_assoc in E. apply app_inj_tail in E as [E _]. exact (L a b E). }
    { intros a b ->. fold st. rewrite L1. destruct (path_dec _ _); [now right|]. rewrite <- app_assoc. apply (K (n :: a) b). reflexivity. }
    fold st in A2, B2. rewrite <- app_assoc in A2, B2, R4. cbn [app] in A2, B2, R4. exists fs2, sf2, cap2. split; [exact E4|]. split; [exact R4|]. split; [exact W2|]. split; [exact A2|].
    intros q Hq. rewrite B2 by exact Hq. rewrite L1. fold st. destruct (path_dec _ _) as [->|]; [|reflexivity]. exfalso. apply (Hq (ns1 ++ [n]) ns2); [now rewrite <- app_assoc|reflexivity].
Qed.

(** The beginning of the function, up to the loop. *)
Lemma mkdir_parents_loop dbg fs cwd z : oks z -> In 47 z -> names z <> [] -> (forall a, z <> a ++ [47; 47]) -> zlen z + 2 <= alloc_max -> path_exists fs cwd z = false ->
  exists sf cap ds, path_mkdir_parents dbg fs cwd z = (let* fs' := mkdir_loop dbg cwd ds sf fs in Ok (fs', true)) /\
    srep (pfx (is_abs z) ++ slashed []) cap sf /\ Forall2 (fun p x => exists c, srep p c x) (names z) ds.
Proof.
  intros O Hin Hne Hdd Hf Ex. assert (z <> []) as Hz by (intros ->; contradiction).
  assert (0 < zlen z) as Hz0 by (destruct z; [contradiction|zl; zlia]).
  unfold path_mkdir_parents. rewrite Ex. destruct (create_ok dbg z O Hz0) as (s & E1 & R1); [lia|]. rewrite E1. cbn [bind].
  unfold str_len. rewrite (r_len _ _ _ R1). rewrite w64_small by zlia.
  destruct (create_capacity_ok dbg (zlen z + 1)) as (sf & E2 & R2); [lia|lia|]. rewrite E2. cbn [bind].
  assert (exists sf' cap', (match z with c :: _ => if c =? 47 then str_append dbg sf sep else Ok sf | [] => Ok sf end) = Ok sf' /\ srep (pfx (is_abs z) ++ slashed []) cap' sf') as (sf' & cap' & E3 & R3).
  { destruct z as [|c z]; [contradiction|]. cbn [is_abs]. destruct (c =? 47); cbn [pfx slashed flat_map app].
    - destruct (append_ok dbg [] _ sf sep R2 sep_ok) as (s' & E' & R'); [rewrite sep_len; lia|rewrite sep_len; zl; zlia|]. eauto.
    - eauto. }
  rewrite E3. cbn [bind].
  destruct (split_scan dbg z _ s sep (comps z) R1) as [_ Sp]; [rewrite sep_len; lia|apply comps_scan|]. unfold lf in Sp.
  assert (1 < zlen (comps z)) as Hl.
  { apply in_split in Hin as (a & b & Ez). rewrite Ez, comps_app, zlen_app. destruct (comps_cons a) as (? & ? & ->), (comps_cons b) as (? & ? & ->). zl. zlia. }
  destruct Sp as (ds & E4 & D); [exact Hl| |].
  { intros l E. apply comps_double in E as [->|[a E]]; [now apply Hne|exact (Hdd a E)]. }
  rewrite E4. cbn [bind]. exists sf', cap', ds. split; [reflexivity|]. split; [exact R3|]. fold (names z) in D. clear -D. induction D; constructor; eauto.
Qed.

Lemma mkdir_parents_dots dbg fs cwd z : let st := start cwd z in let ns := names z in
  wf fs -> oks z -> In 47 z -> ns <> [] -> (forall a, z <> a ++ [47; 47]) -> zlen z + 2 <= alloc_max ->
  lookup fs cwd = Some EDir ->
  (forall a b, ns = a ++ b -> lookup fs (dest st a) = None \/ lookup fs (dest st a) = Some EDir) ->
  exists fs', path_mkdir_parents dbg fs cwd z = Ok (fs', true) /\ wf fs' /\
    (forall a b, ns = a ++ b -> lookup fs' (dest st a) = Some EDir) /\
    (forall q, (forall a b, ns = a ++ b -> q <> dest st a) -> lookup fs' q = lookup fs q).
Proof.
  intros st ns W O Hin Hne Hdd Hf Hc K. destruct (path_exists fs cwd z) eqn:Ex.
  - unfold path_mkdir_parents. rewrite Ex. exists fs. split; [reflexivity|]. split; [exact W|]. split; [|reflexivity]. intros a b E.
    unfold path_exists, fs_stat in Ex. destruct (resolve fs cwd z) as [p|] eqn:Rs; [|discriminate]. unfold resolve in Rs. destruct z as [|c z]; [discriminate|].
    apply walk_inv in Rs as [Ep Dp]. fold st in Ep, Dp.
    destruct b as [|m b].
    + rewrite app_nil_r in E. subst a. destruct (K ns [] (eq_sym (app_nil_r ns))) as [X|X]; [|exact X]. unfold ns, names in X. rewrite dest_filter, <- Ep in X. rewrite X in Ex. discriminate.
    + unfold ns, names in E. apply filter_prefix in E as (a' & b' & E & Ea). rewrite <- Ea, dest_filter. exact (Dp a' m b' E).
  - destruct (mkdir_parents_loop dbg fs cwd z O Hin Hne Hdd Hf Ex) as (sf & cap & ds & E & R & D). rewrite E.
    destruct (mkdir_loop_dots dbg cwd z [] ns ds [] sf cap fs W) as (fs' & sf5 & cap5 & E5 & _ & W' & A & B).
    + exact (raw_names z O).
    + exact D.
    + exact R.
    + cbn [app]. pose proof (pfx_len z). fold ns in H. lia.
    + intros a b Eq. symmetry in Eq. apply app_eq_nil in Eq as [-> _]. cbn [dest fold_left]. unfold start. destruct z as [|c z]; [exact Hc|]. destruct (c =? 47); [reflexivity|exact Hc].
    + exact K.
    + cbn [app] in *. rewrite app_nil_r in E5. rewrite E5. cbn [mkdir_loop bind]. eauto.
Qed.

(** A regular file in the way. *)
Lemma walk_file fs p cs w : lookup fs p = Some (EFile w) -> cs <> [] -> walk fs p cs = None.
Proof. intros L N. destruct cs; [contradiction|]. cbn [walk]. now rewrite L. Qed.
Lemma dest_file fs p n w : wf fs -> n <> [] -> lookup fs p = Some EDir -> lookup fs (onward p n) = Some (EFile w) -> n <> dot /\ n <> dotdot /\ onward p n = p ++ [n].
Proof.
  intros W N L H. unfold onward in *. destruct (name_dec n []); [contradiction|]. destruct (name_dec n dot); [congruence|]. destruct (name_dec n dotdot); [|tauto]. rewrite (up_dir fs p W L) in H. discriminate.
Qed.
Lemma mkdir_blocked fs cwd z ns1 n m w : let st := start cwd z in
  wf fs -> Forall rawname (ns1 ++ n :: m) -> (forall a b, ns1 = a ++ b -> lookup fs (dest st a) = Some EDir) ->
  lookup fs (dest st (ns1 ++ [n])) = Some (EFile w) -> path_mkdir fs cwd (pfx (is_abs z) ++ slashed (ns1 ++ n :: m)) = (fs, false).
Proof.
  intros st W F D K. set (zf := pfx (is_abs z) ++ slashed (ns1 ++ n :: m)).
  assert (start cwd zf = st) as Es by (apply raw_pfx_start; [exact F|destruct ns1; discriminate]).
  assert (comps zf = ((if is_abs z then [[]] else []) ++ ns1) ++ (n :: m) ++ [[]]) as Ec by (unfold zf; rewrite raw_pfx_comps by exact F; now rewrite <- !app_assoc).
  pose proof (D [] ns1 eq_refl) as L0. cbn [dest fold_left] in L0. set (pre := (if is_abs z then [[]] else []) ++ ns1) in *.
  assert (walk fs st pre = Some (dest st ns1)) as Wk.
  { unfold pre. destruct (is_abs z); cbn [app]; [cbn [walk]; rewrite L0; destruct (name_dec [] []); [|contradiction]|]; apply walk_dest; exact D. }
  pose proof (D ns1 [] (eq_sym (app_nil_r ns1))) as Lc. rewrite dest_app in K. set (cur := dest st ns1) in *. cbn [dest fold_left] in K.
  apply Forall_app in F as [F1 F2]. inversion F2 as [|? ? On Fm]; subst. destruct (dest_file fs cur n w W (proj1 On) Lc K) as (Nd & Ndd & Eo). rewrite Eo in K.
  assert (forall r, walk fs cur (n :: r) = walk fs (cur ++ [n]) r) as Wn.
  { intros r. cbn [walk]. rewrite Lc. destruct (name_dec n []); [destruct On; contradiction|]. destruct (name_dec n dot); [contradiction|]. destruct (name_dec n dotdot); [contradiction|]. now rewrite K. }
  assert (zf <> []) as Hz. { intros E. rewrite E in Ec. cbn [comps] in Ec. destruct pre as [|? [|]]; try discriminate; destruct m; discriminate. }
  unfold path_mkdir, path_exists, fs_stat. assert (resolve fs cwd zf = None) as ->.
  { unfold resolve. destruct zf as [|c zf'] eqn:Ez; [contradiction|]. rewrite Es, Ec, walk_app, Wk. cbn [app]. rewrite Wn, (walk_file fs _ _ w); [reflexivity|exact K|destruct m; discriminate]. }
  unfold fs_mkdir, new_entry, rev_comps. destruct zf as [|c zf'] eqn:Ez; [contradiction|]. rewrite Es, Ec. clear Ez Ec Hz Es.
  assert (exists r l, n :: m = r ++ [l]) as (r & l & Er). { destruct (exists_last (l := n :: m)) as (r & l & E); [discriminate|eauto]. }
  assert (rawname l) as Ol. { rewrite Forall_forall in F2. apply F2. rewrite Er. apply in_or_app. right. now left. }
  rewrite Er, <- app_assoc, app_assoc, drop_slashes by apply Ol. rewrite rev_involutive, walk_app, Wk. destruct (special l); [reflexivity|].
  destruct r as [|x r].
  - injection Er as -> ->. cbn [walk]. now rewrite Lc, K.
  - injection Er as <- _. rewrite Wn. destruct r as [|y r]; [cbn [walk]; now rewrite K|]. rewrite (walk_file fs _ _ w); [reflexivity|exact K|discriminate].
Qed.
Lemma mkdir_loop_blocked dbg cwd z ns1 n w : forall ns2 ds m sfull cap fs, let st := start cwd z in
  wf fs -> Forall rawname (ns1 ++ n :: m ++ ns2) -> Forall2 (fun p x => exists c, srep p c x) ns2 ds ->
  srep (pfx (is_abs z) ++ slashed (ns1 ++ n :: m)) cap sfull -> zlen (pfx (is_abs z) ++ slashed (ns1 ++ n :: m ++ ns2)) + 1 <= alloc_max ->
  (forall a b, ns1 = a ++ b -> lookup fs (dest st a) = Some EDir) -> lookup fs (dest st (ns1 ++ [n])) = Some (EFile w) ->
  mkdir_loop dbg cwd ds sfull fs = Ok fs.
Proof.
  induction ns2 as [|x ns2 IH]; intros ds m sfull cap fs st W F D R Hf L K; inversion D as [|? d ? ds' [cd Rd] D']; subst; cbn [mkdir_loop]; [reflexivity|].
  replace (ns1 ++ n :: m ++ x :: ns2) with ((ns1 ++ n :: m ++ [x]) ++ ns2) in F, Hf by (rewrite <- app_assoc; cbn [app]; now rewrite <- app_assoc).
  pose proof F as F0. apply Forall_app in F0 as [F1 F2].
  assert (rawname x) as Ox. { rewrite Forall_forall in F1. apply F1. apply in_or_app. right. right. apply in_or_app. right. now left. }
  assert (0 < zlen x) as Hn0 by (destruct Ox as [H1 _]; destruct x; [congruence|]; rewrite zlen_cons; zlia).
  rewrite (z_ok _ _ _ Rd). cbn [bind].
  assert (slashed (ns1 ++ n :: m ++ [x]) = slashed (ns1 ++ n :: m) ++ x ++ sep) as Lt.
  { unfold slashed, sep. rewrite app_comm_cons, app_assoc, flat_map_app. cbn [flat_map]. now rewrite app_nil_r. }
  assert (zlen (pfx (is_abs z)) + zlen (slashed (ns1 ++ n :: m)) + zlen x + 1 + 1 <= alloc_max) as Hf'.
  { unfold slashed in Hf at 1. rewrite flat_map_app in Hf. fold (slashed (ns1 ++ n :: m ++ [x])) in Hf. rewrite Lt, !zlen_app, sep_len in Hf. match type of Hf with context [zlen (flat_map ?g ns2)] => pose proof (zlen_nonneg (flat_map g ns2)) end. lia. }
  destruct (append_ok dbg _ cap sfull x R) as (s1 & E1 & R1); [apply Ox|exact Hn0|rewrite zlen_app; destruct R; lia|]. rewrite E1. cbn [bind].
  destruct (append_ok dbg _ _ s1 sep R1 sep_ok) as (s2 & E2 & R2); [rewrite sep_len; lia|rewrite !zlen_app, ?sep_len; destruct R; lia|]. rewrite E2. cbn [bind]. rewrite (z_ok _ _ _ R2). cbn [bind].
  assert (((pfx (is_abs z) ++ slashed (ns1 ++ n :: m)) ++ x) ++ sep = pfx (is_abs z) ++ slashed (ns1 ++ n :: m ++ [x])) as Et by (rewrite Lt; now rewrite !app_assoc).
  rewrite Et in *. rewrite (mkdir_blocked fs cwd z ns1 n (m ++ [x]) w) by assumption. cbn [fst]. match type of R2 with srep _ ?c _ => apply (IH ds' (m ++ [x]) s2 c fs W) end; try assumption.
  - rewrite <- app_assoc in F. cbn [app] in F. exact F.
  - rewrite <- app_assoc in Hf. cbn [app] in Hf. exact Hf.
Qed.
Lemma mkdir_parents_blocked dbg fs cwd z ns1 n ns2 w : let st := start cwd z in
  wf fs -> oks z -> In 47 z -> names z = ns1 ++ n :: ns2 -> (forall a, z <> a ++ [47; 47]) -> zlen z + 2 <= alloc_max ->
  lookup fs cwd = Some EDir ->
  (forall a b, ns1 = a ++ b -> lookup fs (dest st a) = None \/ lookup fs (dest st a) = Some EDir) -> lookup fs (dest st (ns1 ++ [n])) = Some (EFile w) ->
  exists fs', path_mkdir_parents dbg fs cwd z = Ok (fs', true) /\ wf fs' /\
    (forall a b, ns1 = a ++ b -> lookup fs' (dest st a) = Some EDir) /\
    (forall q, (forall a b, ns1 = a ++ b -> q <> dest st a) -> lookup fs' q = lookup fs q).
Proof.
  intros st W O Hin En Hdd Hf Hc K Kf. destruct (path_exists fs cwd z) eqn:Ex.
  - unfold path_mkdir_parents. rewrite Ex. exists fs. split; [reflexivity|]. split; [exact W|]. split; [|reflexivity]. intros a b E.
    unfold path_exists, fs_stat in Ex. destruct (resolve fs cwd z) as [p|] eqn:Rs; [|discriminate]. unfold resolve in Rs. destruct z as [|c z]; [discriminate|].
    apply walk_inv in Rs as [Ep Dp]. fold st in Ep, Dp. rewrite E, <- app_assoc in En. unfold names in En.
    destruct b as [|m b]; cbn [app] in En; apply filter_prefix in En as (a' & b' & En & Ea); rewrite <- Ea, dest_filter; exact (Dp _ _ _ En).
  - destruct (mkdir_parents_loop dbg fs cwd z O Hin ltac:(rewrite En; destruct ns1; discriminate) Hdd Hf Ex) as (sf & cap & ds & E & R & D). rewrite E.
    pose proof (raw_names z O) as F. rewrite En in F, D. apply Forall2_app_inv_l in D as (d1 & d2 & D1 & D2 & ->). pose proof (pfx_len z) as Pl. rewrite En in Pl.
    assert (zlen (pfx (is_abs z) ++ slashed ns1) <= zlen (pfx (is_abs z) ++ slashed (ns1 ++ n :: ns2))) as Le.
    { unfold slashed at 2. rewrite flat_map_app. fold (slashed ns1). rewrite !zlen_app. match goal with |- context [zlen (flat_map ?g ?l)] => pose proof (zlen_nonneg (flat_map g l)) end. lia. }
    destruct (mkdir_loop_dots dbg cwd z d2 ns1 d1 [] sf cap fs W) as (fs' & sf5 & cap5 & E5 & R5 & W' & A & B).
    + cbn [app]. apply Forall_app in F. tauto.
    + exact D1.
    + exact R.
    + cbn [app]. lia.
    + intros a b Eq. symmetry in Eq. apply app_eq_nil in Eq as [-> _]. cbn [dest fold_left]. unfold start. destruct z as [|c z]; [exact Hc|]. destruct (c =? 47); [reflexivity|exact Hc].
    + exact K.
    + cbn [app] in *. rewrite E5. fold st in A, B.
      assert (lookup fs' (dest st (ns1 ++ [n])) = Some (EFile w)) as Kf'.
      { rewrite B; [exact Kf|]. intros a b Eq Ed. pose proof (K a b Eq) as X. rewrite <- Ed, Kf in X. destruct X; discriminate. }
      inversion D2 as [|? d ? ds' [cd Rd] D']; subst. cbn [mkdir_loop]. rewrite (z_ok _ _ _ Rd). cbn [bind].
      assert (rawname n) as On. { apply Forall_app in F as [_ F]. now inversion F. }
      assert (0 < zlen n) as Hn0 by (destruct On as [H1 _]; destruct n; [congruence|]; rewrite zlen_cons; zlia).
      assert (zlen (pfx (is_abs z) ++ slashed (ns1 ++ n :: ns2)) = zlen (pfx (is_abs z) ++ slashed ns1) + zlen n + 1 + zlen (slashed ns2)) as Ll.
      { unfold slashed. rewrite flat_map_app. cbn [flat_map]. rewrite !zlen_app. zl. lia. }
      pose proof (zlen_nonneg (slashed ns2)).
      destruct (append_ok dbg _ cap5 sf5 n R5) as (s1 & E1 & R1); [apply On|exact Hn0|destruct R5; lia|]. rewrite E1. cbn [bind].
      destruct (append_ok dbg _ _ s1 sep R1 sep_ok) as (s2 & E2 & R2); [rewrite sep_len; lia|rewrite (zlen_app _ n), ?sep_len; destruct R5; lia|]. rewrite E2. cbn [bind]. rewrite (z_ok _ _ _ R2). cbn [bind].
      assert (((pfx (is_abs z) ++ slashed ns1) ++ n) ++ sep = pfx (is_abs z) ++ slashed (ns1 ++ [n])) as Et.
      { unfold slashed, sep. rewrite flat_map_app. cbn [flat_map]. now rewrite app_nil_r, !app_assoc. }
      rewrite Et in *. rewrite (mkdir_blocked fs' cwd z ns1 n [] w); trivial; [|apply Forall_app in F as [? _]; apply Forall_app; split; [assumption|constructor; [exact On|constructor]]].
      cbn [fst]. rewrite (mkdir_loop_blocked dbg cwd z ns1 n w ns2 ds' [] s2 _ fs' W' F D' R2); trivial; [|cbn [app]; lia]. cbn [bind]. exists fs'. tauto.
Qed.

(** A path that ends in two separators and does not exist. *)
Lemma create_fit dbg z : oks z -> 0 < zlen z -> zlen z + 1 <= alloc_max -> exists s, str_create dbg z = Ok s /\ srep z (zlen z) s /\ zlen (sb s) = zlen z + 1.
Proof.
  intros O H1 H2. destruct (create_ok dbg z O H1 H2) as (s & E & R). exists s. split; [exact E|]. split; [exact R|].
  unfold str_create in E. destruct (create_len_ok dbg (zlen z) H1 H2) as (s1 & E1 & R1 & L1). rewrite E1 in E. cbn [bind] in E.
  unfold str_set_n in E. assert (sl s1 = zlen z) as Ls by (rewrite (r_len _ _ _ R1); zl; lia). rewrite dassert_true in E by lia. rewrite enforce_true in E by lia. cbn [bind] in E.
  destruct (scopy_ok s1 0 z (zlen z) (r_view _ _ _ R1)) as (b' & E' & Lb & _); [lia|lia|lia|]. rewrite E' in E. cbn [bind] in E.
  destruct (sput_ok (mk_str b' (sl s1) (sc s1) false (ss s1)) (zlen z) 0) as (b2 & E2 & Lb2 & _); [reflexivity|cbn [sb]; lia|].
  rewrite E2 in E. cbn [bind set_len sb sl sc sv ss] in *. injection E as <-. unfold set_len. cbn [sb]. lia.
Qed.
Lemma mkdir_parents_double dbg fs cwd a : let z := a ++ [47; 47] in oks z -> zlen z + 2 <= alloc_max -> path_exists fs cwd z = false ->
  path_mkdir_parents dbg fs cwd z = UB.
Proof.
  intros z O Hf Ex. assert (zlen z = zlen a + 2) as Lz by (unfold z; zl; lia). pose proof (zlen_nonneg a).
  unfold path_mkdir_parents. rewrite Ex. destruct (create_fit dbg z O) as (s & E1 & R1 & X); [lia|lia|]. rewrite E1. cbn [bind].
  unfold str_len. rewrite (r_len _ _ _ R1). rewrite w64_small by zlia.
  destruct (create_capacity_ok dbg (zlen z + 1)) as (sf & E2 & R2); [lia|lia|]. rewrite E2. cbn [bind].
  assert (exists sf', (match z with c :: _ => if c =? 47 then str_append dbg sf sep else Ok sf | [] => Ok sf end) = Ok sf') as (sf' & E3).
  { destruct z as [|c z']; [eauto|]. destruct (c =? 47); [|eauto]. destruct (append_ok dbg [] _ sf sep R2 sep_ok) as (s' & E' & R'); [rewrite sep_len; lia|rewrite sep_len; zl; zlia|]. eauto. }
  rewrite E3. cbn [bind]. destruct (split_cases dbg z _ s sep R1) as (_ & _ & Sp). unfold lf in Sp. 
  assert (exists l, comps z = l ++ [[]; []]) as (l & El).
  { unfold z. change (a ++ [47; 47]) with (a ++ 47 :: [47]). rewrite comps_app. exists (comps a). reflexivity. }
  rewrite (Sp l); [reflexivity|rewrite sep_len; lia|rewrite <- El; apply comps_scan|exact X].
Qed.

(** Only separators: the root. *)
Lemma mkdir_parents_root dbg fs cwd z : In 47 z -> names z = [] -> path_mkdir_parents dbg fs cwd z = Ok (fs, true).
Proof.
  intros Hin En. unfold path_mkdir_parents. assert (path_exists fs cwd z = true) as ->; [|reflexivity].
  assert (start cwd z = []) as Es.
  { destruct z as [|c z]; [contradiction|]. cbn [start]. destruct (Z.eqb_spec c 47); [reflexivity|]. exfalso. unfold names in En. cbn [comps] in En.
    destruct (c =? 47) eqn:Ec; [lia|]. destruct (comps_cons z) as (x & l & E). rewrite E in En. cbn [filter] in En. destruct (nonempty (c :: x)) eqn:Q; [discriminate|]. unfold nonempty in Q. pose proof (zlen_nonneg x). rewrite zlen_cons in Q. lia. }
  unfold path_exists, fs_stat, resolve. destruct z as [|c z]; [contradiction|]. rewrite Es.
  rewrite walk_dest; [rewrite <- dest_filter; fold (names (c :: z)); rewrite En; reflexivity|].
  intros a b E. assert (filter nonempty a = []) as Ea. { unfold names in En. rewrite E, filter_app in En. now apply app_eq_nil in En. }
  rewrite <- dest_filter, Ea. reflexivity.
Qed.
