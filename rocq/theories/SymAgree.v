(** Without symbolic links the model with links is the model of PathModel.v. *)
From Verif Require Import Base BaseFacts StrModel NumModel FsModel PathModel FsSpec FsProofs FsMain2 SymModel SymProofs.

Definition emb1 (e : entry) : sentry := match e with EDir => SDir | EFile c => SFile c end.
Definition emb (fs : fsys) : sfs := map (fun qe => (fst qe, emb1 (snd qe))) fs.
Lemma emb_lookup fs p : slookup (emb fs) p = option_map emb1 (lookup fs p).
Proof.
  destruct p as [|a p]; [reflexivity|]. unfold slookup, lookup. induction fs as [|[q e] fs IH]; [reflexivity|]. cbn [emb map sassoc assoc fst snd].
  destruct (path_dec q (a :: p)); [reflexivity|exact IH].
Qed.
Lemma emb_remove fs p : sremove_key (emb fs) p = emb (remove_key fs p).
Proof.
  unfold sremove_key, remove_key, emb. induction fs as [|[q e] fs IH]; [reflexivity|]. cbn [map filter fst snd]. destruct (path_dec q p); [exact IH|]. cbn [map fst snd]. now f_equal.
Qed.
Lemma emb_children fs p : schildren (emb fs) p = children fs p.
Proof. unfold schildren, children, emb. induction fs as [|[q e] fs IH]; [reflexivity|]. cbn [map flat_map fst snd]. now rewrite IH. Qed.
Lemma emb_walk fs k cs : forall cur, swalk k (emb fs) cur cs = option_map (fun p => (p, k)) (walk fs cur cs).
Proof.
  induction cs as [|c cs IH]; intros cur; [now rewrite swalk_nil|]. rewrite swalk_cons. cbn [walk]. rewrite !emb_lookup.
  destruct (lookup fs cur) as [[]|]; cbn [option_map emb1]; try reflexivity. rewrite !IH. destruct (name_dec c []); [reflexivity|]. destruct (name_dec c dot); [reflexivity|]. destruct (name_dec c dotdot); [reflexivity|].
  destruct (lookup fs (cur ++ [c])) as [[]|]; reflexivity.
Qed.
Lemma emb_resolve fs cwd z : sresolve (emb fs) cwd z = resolve fs cwd z.
Proof. unfold sresolve, resolve. destruct z; [reflexivity|]. rewrite emb_walk. now destruct (walk fs _ _). Qed.
Lemma emb_stat fs cwd z : s_stat (emb fs) cwd z = option_map emb1 (fs_stat fs cwd z).
Proof. unfold s_stat, fs_stat. rewrite emb_resolve. destruct (resolve fs cwd z); [apply emb_lookup|reflexivity]. Qed.
Lemma emb_readdir fs cwd z : s_readdir (emb fs) cwd z = fs_readdir fs cwd z.
Proof. unfold s_readdir, fs_readdir. rewrite emb_resolve. destruct (resolve fs cwd z) as [p|]; [|reflexivity]. rewrite emb_lookup, emb_children. now destruct (lookup fs p) as [[]|]. Qed.
Lemma emb_exists fs cwd z : sp_exists (emb fs) cwd z = path_exists fs cwd z.
Proof. unfold sp_exists, path_exists. rewrite emb_stat. now destruct (fs_stat fs cwd z). Qed.
Lemma emb_is_dir fs cwd z : sp_is_dir (emb fs) cwd z = path_is_dir fs cwd z.
Proof. unfold sp_is_dir, path_is_dir. rewrite emb_stat. now destruct (fs_stat fs cwd z) as [[]|]. Qed.

Lemma rev_comps_split z c r : rev_comps z = c :: r -> exists es, comps z = rev r ++ c :: es /\ Forall (eq []) es /\ c <> [].
Proof.
  unfold rev_comps. assert (forall l c r, drop_nil l = c :: r -> exists es, l = es ++ c :: r /\ Forall (eq []) es /\ c <> []) as G.
  { clear. induction l as [|n l IH]; intros c r; [discriminate|]. destruct n as [|a n]; cbn [drop_nil].
    - intros H. destruct (IH _ _ H) as (es & -> & F & N). exists ([] :: es). split; [reflexivity|]. split; [now constructor|assumption].
    - intros H. injection H as <- <-. exists []. split; [reflexivity|]. split; [constructor|discriminate]. }
  intros R. destruct (G _ _ _ R) as (es & E & F & N). exists (rev es). split; [|split; [now apply Forall_rev|assumption]].
  rewrite <- (rev_involutive (comps z)), E, rev_app_distr. cbn [rev]. now rewrite <- app_assoc.
Qed.
Lemma walk_app2 fs cs cs' : forall cur, walk fs cur (cs ++ cs') = match walk fs cur cs with Some p => walk fs p cs' | None => None end.
Proof.
  induction cs as [|c cs IH]; intros cur; [reflexivity|]. cbn [app walk]. destruct (lookup fs cur) as [[]|]; try reflexivity. rewrite !IH.
  destruct (name_dec c []); [reflexivity|]. destruct (name_dec c dot); [reflexivity|]. destruct (name_dec c dotdot); [reflexivity|]. now destruct (lookup fs (cur ++ [c])).
Qed.
Lemma walk_nils fs es p : Forall (eq []) es -> walk fs p es = match es with [] => Some p | _ => match lookup fs p with Some EDir => Some p | _ => None end end.
Proof.
  induction 1 as [|e es <- _ IH]; [reflexivity|]. cbn [walk]. destruct (lookup fs p) as [[]|] eqn:L; try reflexivity. destruct (name_dec [] []); [|contradiction].
  rewrite IH. now destruct es.
Qed.
Lemma last_cons_nil (r es : list name) c : c <> [] -> Forall (eq []) es -> last (r ++ c :: es) [] = match es with [] => c | _ => [] end.
Proof.
  intros C E. rewrite (app_removelast_last (l := c :: es) []) by discriminate. rewrite app_assoc, last_last. destruct es as [|e es]; [reflexivity|].
  cbn [last]. inversion E as [|? ? H1 H2]. subst. clear -H2. revert H2. generalize es. clear. induction es as [|e es IH]; [reflexivity|]. intros H. inversion H. subst. destruct es; [reflexivity|]. now apply IH.
Qed.
Lemma lookup_child fs p c : lookup fs (p ++ [c]) <> None -> children fs p <> [].
Proof.
  intros H E. assert (In c (children fs p)) as X; [|rewrite E in X; contradiction]. unfold children. rewrite in_flat_map.
  assert (forall q, q <> [] -> lookup fs q <> None -> exists e, In (q, e) fs) as G.
  { clear. intros q Q H. destruct q as [|a q]; [contradiction|]. unfold lookup in H. induction fs as [|[x f] fs IH]; [contradiction|]. cbn [assoc] in H.
    destruct (path_dec x (a :: q)) as [->|N]; [exists f; now left|]. destruct (IH H) as [e I]. exists e. now right. }
  destruct (G (p ++ [c])) as [e I]; [now destruct p|assumption|]. exists (p ++ [c], e). split; [assumption|]. cbn [fst].
  replace (below p (p ++ [c])) with (Some [c]); [now left|]. symmetry. now apply below_spec.
Qed.

Notation none_locked := (fun _ : path => false).
(** What the two models remove. *)
Lemma emb_rmdir fs cwd z : s_rmdir (emb fs) cwd z = option_map emb (fs_rmdir none_locked fs cwd z).
Proof.
  unfold s_rmdir, fs_rmdir. destruct z as [|a z'] eqn:Ez; [reflexivity|]. rewrite <- Ez. assert (z <> []) as Hz by (now rewrite Ez). clear Ez a z'.
  assert (resolve fs cwd z = walk fs (start cwd z) (comps z)) as RS by (now destruct z). rewrite RS. clear RS.
  destruct (rev_comps z) as [|c r] eqn:R.
  - unfold sname. destruct z as [|a z']; [contradiction|]. rewrite R. destruct (walk fs _ _) as [[|n p]|]; try reflexivity.
    now destruct (lookup fs (n :: p)) as [[]|], (children fs (n :: p)).
  - rewrite (sname_eq _ _ _ _ _ Hz R), emb_walk. destruct (rev_comps_split z c r R) as (es & C & Es & Cn). rewrite C, walk_app2.
    unfold special. destruct (name_dec c dot) as [->|N1].
    { destruct (walk fs (start cwd z) (rev r)) as [p|]; [|reflexivity]. destruct (walk fs p _) as [[|n q]|]; try reflexivity.
      now destruct (lookup fs (n :: q)) as [[]|], (children fs (n :: q)). }
    destruct (name_dec c dotdot) as [->|N2].
    { destruct (walk fs (start cwd z) (rev r)) as [p|]; [|reflexivity]. cbn [walk]. destruct (lookup fs p) as [[]|] eqn:L; try reflexivity.
      destruct (name_dec dotdot []); [discriminate|]. destruct (name_dec dotdot dot); [discriminate|]. destruct (name_dec dotdot dotdot); [|contradiction].
      rewrite walk_nils by assumption. destruct p as [|x p]; [destruct es; reflexivity|].
      assert (children fs (removelast (x :: p)) <> []) as K.
      { apply (lookup_child fs _ (last (x :: p) [])). rewrite <- app_removelast_last by discriminate. congruence. }
      destruct es.
      - destruct (removelast (x :: p)) as [|y q]; [reflexivity|]. destruct (lookup fs (y :: q)) as [[]|], (children fs (y :: q)); try reflexivity. contradiction.
      - destruct (lookup fs (removelast (x :: p))) as [[]|] eqn:L2; try reflexivity.
        destruct (removelast (x :: p)) as [|y q]; [reflexivity|]. rewrite L2. destruct (children fs (y :: q)); [contradiction|reflexivity]. }
    destruct (walk fs (start cwd z) (rev r)) as [p|]; [|reflexivity]. cbn [option_map walk]. rewrite emb_lookup. destruct (lookup fs p) as [[]|]; try reflexivity. cbn [option_map emb1].
    destruct (name_dec c []); [contradiction|]. destruct (name_dec c dot); [contradiction|]. destruct (name_dec c dotdot); [contradiction|].
    rewrite emb_lookup, emb_children. destruct (lookup fs (p ++ [c])) as [e|] eqn:L; [|reflexivity]. cbn [option_map]. rewrite walk_nils by assumption.
    rewrite L. destruct e; cbn [emb1].
    + assert (match es with [] => Some (p ++ [c]) | _ => Some (p ++ [c]) end = Some (p ++ [c])) as -> by (now destruct es).
      destruct (p ++ [c]) as [|y q] eqn:X; [now destruct p|]. rewrite L. destruct (children fs (y :: q)); [|reflexivity]. cbn [option_map]. now rewrite emb_remove.
    + destruct es; [|reflexivity]. destruct (p ++ [c]) as [|y q]; [reflexivity|]. now rewrite L.
Qed.
Lemma emb_remove1 fs cwd z : wf fs -> s_remove (emb fs) cwd z = option_map emb (fs_remove none_locked fs cwd z).
Proof.
  intros WF. unfold s_remove, fs_remove. rewrite emb_rmdir. destruct z as [|a z'] eqn:Ez; [reflexivity|]. rewrite <- Ez. assert (z <> []) as Hz by (now rewrite Ez). clear Ez a z'.
  destruct (rev_comps z) as [|c r] eqn:R.
  - assert (sname (emb fs) cwd z = None) as -> by (unfold sname; destruct z; [contradiction|now rewrite R]).
    unfold fs_rmdir. destruct (resolve fs cwd z) as [p|] eqn:W; [|reflexivity].
    assert (lookup fs p = Some EDir \/ lookup fs p = None \/ exists x, lookup fs p = Some (EFile x)) as [L|[L|[x L]]] by (destruct (lookup fs p) as [[]|]; eauto); rewrite L.
    + destruct p as [|n p]; [reflexivity|]. rewrite ?L, ?R. now destruct (children fs (n :: p)).
    + reflexivity.
    + exfalso. unfold resolve in W. destruct z as [|a z']; [contradiction|]. unfold rev_comps in R. revert W. generalize (start cwd (a :: z')).
      assert (Forall (eq []) (comps (a :: z'))) as F.
      { apply Forall_rev in R || idtac. assert (forall l, drop_nil l = [] -> Forall (eq []) l) as G by (clear; induction l as [|[|] l IH]; cbn [drop_nil]; [constructor|intros; constructor; auto|discriminate]).
        rewrite <- rev_involutive. apply Forall_rev. now apply G. }
      intros st W. rewrite walk_nils in W by assumption. destruct (comps_cons (a :: z')) as (x1 & l1 & CC). rewrite CC in W. destruct (lookup fs st) as [[]|] eqn:Q; try discriminate. injection W as <-. congruence.
  - rewrite (sname_eq _ _ _ _ _ Hz R), emb_walk. destruct (rev_comps_split z c r R) as (es & C & Es & Cn).
    assert (resolve fs cwd z = match walk fs (start cwd z) (rev r) with Some p => walk fs p (c :: es) | None => None end) as RS.
    { unfold resolve. rewrite C, walk_app2. now destruct z. }
    unfold fs_rmdir. rewrite RS, R, C, last_cons_nil by assumption. destruct (walk fs (start cwd z) (rev r)) as [p|]; [|now destruct (special c)]. cbn [option_map walk].
    rewrite emb_lookup. unfold special.
    destruct (lookup fs p) as [[]|] eqn:L; cbn [option_map emb1]; try (destruct (name_dec c dot), (name_dec c dotdot); reflexivity).
    destruct (name_dec c []); [contradiction|]. destruct (name_dec c dot) as [->|N1].
    { rewrite walk_nils, L by assumption. assert (match es with [] => Some p | _ => Some p end = Some p) as -> by (now destruct es). rewrite L. destruct p as [|n1 p]; [reflexivity|]. rewrite ?L.
      destruct (children fs (n1 :: p)); [|reflexivity]. now destruct (name_dec dot dot). }
    destruct (name_dec c dotdot) as [->|N2].
    { rewrite walk_nils by assumption. destruct p as [|x p].
      - cbn [removelast lookup]. destruct es; reflexivity.
      - assert (children fs (removelast (x :: p)) <> []) as K.
        { apply (lookup_child fs _ (last (x :: p) [])). rewrite <- app_removelast_last by discriminate. congruence. }
        assert (lookup fs (removelast (x :: p)) = Some EDir) as LD.
        { apply (wf_parent fs _ (last (x :: p) []) WF). rewrite <- app_removelast_last by discriminate. congruence. }
        rewrite LD. assert (match es with [] => Some (removelast (x :: p)) | _ => Some (removelast (x :: p)) end = Some (removelast (x :: p))) as -> by (now destruct es).
        rewrite LD. destruct (removelast (x :: p)) as [|y q]; [reflexivity|]. rewrite ?LD. destruct (children fs (y :: q)); [contradiction|reflexivity]. }
    rewrite emb_lookup. destruct (lookup fs (p ++ [c])) as [e|] eqn:L2; [|reflexivity]. cbn [option_map]. rewrite walk_nils, L2 by assumption. destruct e; cbn [emb1].
    + assert (match es with [] => Some (p ++ [c]) | _ => Some (p ++ [c]) end = Some (p ++ [c])) as -> by (now destruct es). rewrite L2. reflexivity.
    + destruct es.
      * rewrite L2. cbn [option_map]. rewrite emb_remove. now destruct c.
      * reflexivity.
Qed.

Lemma emb_p_rmdir fs cwd z : sp_rmdir (emb fs) cwd z = (emb (fst (path_rmdir none_locked fs cwd z)), snd (path_rmdir none_locked fs cwd z)).
Proof. unfold sp_rmdir, path_rmdir. rewrite emb_exists, emb_rmdir. destruct (path_exists fs cwd z); [|reflexivity]. cbn [negb]. now destruct (fs_rmdir none_locked fs cwd z). Qed.
Lemma emb_p_remove fs cwd z : wf fs -> sp_remove (emb fs) cwd z = (emb (fst (path_remove none_locked fs cwd z)), snd (path_remove none_locked fs cwd z)).
Proof. intros W. unfold sp_remove, path_remove. rewrite emb_exists, emb_remove1 by assumption. destruct (path_exists fs cwd z); [|reflexivity]. cbn [negb]. now destruct (fs_remove none_locked fs cwd z). Qed.
Lemma wf_rmdir fs cwd z fs' : wf fs -> fs_rmdir none_locked fs cwd z = Some fs' -> wf fs'.
Proof.
  intros W. unfold fs_rmdir. destruct (resolve fs cwd z) as [[|n p]|]; try discriminate. destruct (lookup fs (n :: p)) as [[]|]; try discriminate.
  destruct (children fs (n :: p)) eqn:C; try discriminate. destruct (rev_comps z); try discriminate. destruct (name_dec _ dot); [discriminate|]. intros E. injection E as <-. now apply wf_remove.
Qed.
Lemma wf_p_rmdir fs cwd z : wf fs -> wf (fst (path_rmdir none_locked fs cwd z)).
Proof. intros W. unfold path_rmdir. destruct (negb _); [assumption|]. destruct (fs_rmdir none_locked fs cwd z) eqn:E; [|assumption]. now apply (wf_rmdir fs cwd z). Qed.
Lemma wf_p_remove fs cwd z : wf fs -> wf (fst (path_remove none_locked fs cwd z)).
Proof.
  intros W. unfold path_remove. destruct (negb _); [assumption|]. destruct (fs_remove none_locked fs cwd z) eqn:E; [|assumption]. unfold fs_remove in E.
  destruct (resolve fs cwd z) as [p|]; [|discriminate]. destruct (lookup fs p) as [[]|] eqn:L; try discriminate; [now apply (wf_rmdir fs cwd z)|].
  injection E as <-. apply wf_remove; [assumption|]. destruct (children fs p) as [|n l] eqn:C; [reflexivity|]. exfalso.
  assert (In n (children fs p)) as I by (rewrite C; now left). apply children_spec in I; [|assumption]. apply wf_parent in I as [I _]; [|assumption]. congruence.
Qed.
Lemma emb_loop rec rec' fs cwd z : (forall pl st, rec' pl st = rec pl st) -> forall names pl, slist_loop rec' (emb fs) cwd z names pl = list_loop rec fs cwd false z names pl.
Proof.
  intros R. induction names as [|n names IH]; intros pl; [reflexivity|]. cbn [slist_loop list_loop]. rewrite emb_is_dir, !IH. destruct (hidden false n); [reflexivity|].
  destruct (path_is_dir fs cwd _); [|reflexivity]. rewrite R. destruct (rec pl _) as [[l|]| | |]; cbn [bind]; try reflexivity. apply IH.
Qed.
Lemma emb_list fuel fs cwd : forall pl z, sdir_list_recurse fuel (emb fs) cwd pl z = dir_list_recurse fuel fs cwd false pl z.
Proof.
  induction fuel as [|f IH]; intros pl z; [reflexivity|]. cbn [sdir_list_recurse dir_list_recurse]. rewrite emb_exists, emb_readdir.
  destruct (negb _); [reflexivity|]. destruct (fs_readdir fs cwd z); [|reflexivity]. now apply emb_loop.
Qed.
Lemma emb_rloop cwd l : forall fs, wf fs -> sremove_loop (emb fs) cwd l = (emb (fst (remove_loop none_locked fs cwd l)), snd (remove_loop none_locked fs cwd l)).
Proof.
  induction l as [|z l IH]; intros fs W; [reflexivity|]. cbn [sremove_loop remove_loop]. rewrite emb_is_dir. destruct (path_is_dir fs cwd z).
  - rewrite emb_p_rmdir. pose proof (wf_p_rmdir fs cwd z W) as W'. destruct (path_rmdir none_locked fs cwd z) as [fs1 []]; [now apply IH|reflexivity].
  - rewrite emb_p_remove by assumption. pose proof (wf_p_remove fs cwd z W) as W'. destruct (path_remove none_locked fs cwd z) as [fs1 []]; [now apply IH|reflexivity].
Qed.
Lemma emb_rmdir_recurse fuel fs cwd z : wf fs ->
  sp_rmdir_recurse fuel (emb fs) cwd z = let* r := path_rmdir_recurse none_locked fuel fs cwd z in Ok (emb (fst r), snd r).
Proof.
  intros W. unfold sp_rmdir_recurse, path_rmdir_recurse. rewrite emb_exists, emb_list. destruct (negb _); [reflexivity|].
  destruct (dir_list_recurse fuel fs cwd false [] z) as [[[|st l]|]| | |]; cbn [bind]; try reflexivity; [now rewrite emb_p_rmdir| |now rewrite emb_p_rmdir].
  rewrite emb_rloop by assumption. destruct (remove_loop none_locked fs cwd (st :: l)) as [fs1 []]; cbn [fst snd bind]; [now rewrite emb_p_rmdir|reflexivity].
Qed.
