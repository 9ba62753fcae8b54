(** Properties of a program that is killed while it works on files and directories (C192-C195).  [killed]: CrashModel.v;
    [fop], [fstep], [frun], [ftexts]: FsTree.v; [wf], [plain], [names], [target]: FsSpec.v. *)
From Verif Require Import Base BaseFacts StrModel StrSpec FsModel PathModel FsSpec FsProofs FsMain FsMain2 RenameModel RenameProofs PropsPath WriteModel FsTree ExactFs CrashModel CrashProofs.
From Coq Require Import String.
Local Open Scope list_scope.

(** ** C192 A killed program leaves a proper tree *)
(** Whenever it is killed, in whatever sequence of calls with whatever path texts, every entry is in an existing directory
    and has a possible name. *)
Theorem C192_tree :
  forall dbg lk fuel cwd fs os f, wf fs -> Forall ftexts os -> killed dbg lk fuel cwd fs os f ->
    wf f /\ (forall d n, lookup f (d ++ [n]) <> None -> lookup f d = Some EDir /\ n <> [] /\ n <> dot /\ n <> dotdot /\ ~ In 47 n /\ ~ In 0 n).
Proof.
  intros dbg lk fuel cwd fs os f W F K. pose proof (killed_tree dbg lk fuel cwd os fs f W F K) as W'. split; [exact W'|].
  intros d n L. destruct (wf_parent f d n W' L) as [L' On]. split; [exact L'|]. destruct On as (A & B & C & O & S). repeat (split; [assumption|]).
  intros Z. unfold oks in O. rewrite Forall_forall in O. specialize (O 0 Z). unfold okc in O. lia.
Qed.
Print Assumptions C192_tree.
(** The calls before the one in which it is killed did all they do; that one did part of what its kind allows; the later ones
    nothing. *)
Theorem C192_effect :
  forall dbg lk fuel cwd fs os f, wf fs -> Forall ftexts os -> os <> [] -> killed dbg lk fuel cwd fs os f ->
  exists os1 o os2 fs1, os = os1 ++ o :: os2 /\ frun dbg lk fuel cwd fs os1 = Ok fs1 /\
    match o with
    | OMkdir _ | OMkdirParents _ => forall x, lookup f x = lookup fs1 x \/ (lookup fs1 x = None /\ lookup f x = Some EDir)
    | OWrite _ _ _ _ => exists p, (forall x, x <> p -> lookup f x = lookup fs1 x) /\
        (lookup f p = lookup fs1 p \/ (lookup fs1 p <> Some EDir /\ exists c, lookup f p = Some (EFile c)))
    | ORemove _ | ORmdir _ | ORmdirRecurse _ => forall x, lookup f x = lookup fs1 x \/ lookup f x = None
    | ORename _ _ => f = fs1 \/ exists b, fstep dbg lk fuel cwd fs1 o = Ok (f, b)
    end.
Proof.
  intros dbg lk fuel cwd fs os f W F N K. destruct (killed_split dbg lk fuel cwd os fs f N K) as (os1 & o & os2 & fs1 & -> & R & Kl).
  apply Forall_app in F as [F1 F2]. inversion F2 as [|? ? Fo _]; subst. pose proof (run_tree dbg lk fuel cwd os1 fs fs1 W F1 R) as W1.
  exists os1, o, os2, fs1. split; [reflexivity|]. split; [exact R|]. apply killed_one in Kl as (l & E & I).
  pose proof (proj2 (call_tree dbg lk fuel cwd fs1 o l f W1 Fo E I)) as X. destruct o; cbn [effect] in X; try exact X.
  - destruct X as (p & X & Y). exists p. tauto.
  - cbn [call_states] in E. injection E as <-. destruct I as [<-|[<-|[]]]; [now left|right]. cbn [fstep]. destruct (path_rename lk fs1 cwd z1 z2) as [g b]. now exists b.
Qed.
Print Assumptions C192_effect.
(** Not killed, it does what the calls do; and any sequence that works may be killed before, during and after. *)
Theorem C192_last :
  forall dbg lk fuel cwd fs os f, frun dbg lk fuel cwd fs os = Ok f -> killed dbg lk fuel cwd fs os fs /\ killed dbg lk fuel cwd fs os f.
Proof.
  intros dbg lk fuel cwd fs os f R. destruct (states_ok dbg lk fuel cwd os fs f R) as (l & E). destruct (states_last dbg lk fuel cwd os fs l E) as [N X].
  rewrite X in R. injection R as <-. split; exists l; split; try exact E.
  - destruct os as [|o os]; cbn [states] in E; [injection E as <-; now left|]. apply bind_ok in E as (k & Ek & E). apply bind_ok in E as (r & Er & E). injection E as <-.
    apply in_app_iff. left. destruct o; cbn [call_states] in Ek.
    1: injection Ek as <-; now left.
    2: injection Ek as <-; now left.
    2: injection Ek as <-; now left.
    2: injection Ek as <-; now left.
    3: injection Ek as <-; now left.
    + now apply parents_first in Ek.
    + now apply recurse_first in Ek.
  - destruct (exists_last N) as (l' & x & ->). rewrite last_last. apply in_app_iff. right. now left.
Qed.
Print Assumptions C192_last.

Example C192_example :
  match states true (fun _ => false) 9 [T "d"] fs0 [OMkdirParents (T "a/b/c"); OWrite (T "a/x") false true (T "hi"); ORename (T "../f") (T "a/b/g"); ORmdirRecurse (T "a")] with
  | Ok l => zlen l = 18 /\ existsb (fun f => match lookup f [T "d"; T "a"; T "x"] with Some (EFile c) => if list_eq_dec Z.eq_dec c (T "h") then true else false | _ => false end) l = true /\
      existsb (fun f => match lookup f [T "d"; T "a"; T "b"; T "g"], lookup f [T "d"; T "a"], lookup f [T "f"] with None, Some _, None => true | _, _, _ => false end) l = true
  | _ => False
  end.
Proof. vm_compute. repeat split. Qed.

(** ** C193 Interrupted writes *)
(** Full statement: killed while it writes a file, the file holds the old or the new text.  False: the old text is lost before
    the new one is there.  And an append that is made again leaves the piece of the first one in between. *)
Theorem C193_write_refuted :
  (exists f, killed true (fun _ => false) 9 [] fs0 [OWrite (T "f") false false (T "new text")] f /\
     lookup fs0 [T "f"] = Some (EFile (T "old")) /\ lookup f [T "f"] = Some (EFile [])) /\
  (exists f f', killed true (fun _ => false) 9 [] fs0 [OWrite (T "f") true true (T "line")] f /\ file_appendln f [] (T "f") (T "line") = (f', true) /\
     lookup f' [T "f"] = Some (EFile (T "oldliline" ++ [10]))).
Proof.
  split.
  - exists (store fs0 [T "f"] (EFile [])). split; [|split; vm_compute; reflexivity]. apply killed_one. eexists. split; [reflexivity|].
    apply (write_in fs0 [] (T "f") false false (T "new text") 0). vm_compute. reflexivity.
  - exists (store fs0 [T "f"] (EFile (T "oldli"))). eexists. split; [|split; vm_compute; reflexivity]. apply killed_one. eexists. split; [reflexivity|].
    apply (write_in fs0 [] (T "f") true true (T "line") 2). vm_compute. reflexivity.
Qed.
Print Assumptions C193_write_refuted.
(** What the file holds: as before the call, or the first characters of the text, behind the old ones when appending; every such beginning is
    possible.  Nothing else is touched.  (The path: to a file, or to no entry, in an existing directory.) *)
Theorem C193_write_partial :
  forall dbg lk fuel cwd fs z ns n (append ln : bool) (txt : list Z),
  let old := match lookup fs (target cwd z) with Some (EFile c) => if append then c else [] | _ => [] end in
  let new := txt ++ (if ln then [10] else []) in
  wf fs -> plain z -> (forall a, z <> a ++ [47]) -> names z = ns ++ [n] ->
  lookup fs (start cwd z ++ ns) = Some EDir -> lookup fs (target cwd z) <> Some EDir ->
  (forall f, killed dbg lk fuel cwd fs [OWrite z append ln txt] f ->
     (f = fs \/ exists k, lookup f (target cwd z) = Some (EFile (old ++ firstn k new))) /\ (forall q, q <> target cwd z -> lookup f q = lookup fs q)) /\
  (forall k, exists f, killed dbg lk fuel cwd fs [OWrite z append ln txt] f /\ lookup f (target cwd z) = Some (EFile (old ++ firstn k new))).
Proof.
  intros dbg lk fuel cwd fs z ns n append ln txt old new W P Hs E L K. split.
  - intros f Kl. destruct (killed_write dbg lk fuel cwd fs z ns n append ln txt f W P Hs E L K) as [H _]. destruct (H Kl) as (_ & [->|[k X]] & O); split; auto.
    right. exists k. unfold written in X. rewrite app_nil_r in X. exact X.
  - intros k. destruct (killed_write dbg lk fuel cwd fs z ns n append ln txt fs W P Hs E L K) as [_ H]. destruct (H k) as (f & Kl & X). exists f. split; [exact Kl|].
    unfold written in X. rewrite app_nil_r in X. exact X.
Qed.
Print Assumptions C193_write_partial.
(** Writing again (not appending) gives what the uninterrupted call gives. *)
Theorem C193_again :
  forall dbg lk fuel cwd fs z ns n (ln : bool) (txt : list Z) f,
  wf fs -> plain z -> (forall a, z <> a ++ [47]) -> names z = ns ++ [n] ->
  lookup fs (start cwd z ++ ns) = Some EDir -> lookup fs (target cwd z) <> Some EDir ->
  killed dbg lk fuel cwd fs [OWrite z false ln txt] f ->
  exists f1 f2, file_writefc fs cwd z false ln txt = (f1, true) /\ file_writefc f cwd z false ln txt = (f2, true) /\
    lookup f2 (target cwd z) = Some (EFile (txt ++ (if ln then [10] else []))) /\ forall q, lookup f2 q = lookup f1 q.
Proof.
  intros dbg lk fuel cwd fs z ns n ln txt f W P Hs E L K Kl.
  destruct (killed_write dbg lk fuel cwd fs z ns n false ln txt f W P Hs E L K) as [H _]. destruct (H Kl) as (Wf & A & O).
  destruct (write_ok fs cwd z ns n false ln txt W P Hs E L K) as (f1 & E1 & _ & Q1 & _).
  assert (start cwd z ++ ns <> target cwd z) as Nt by (unfold target; rewrite E; intros X; apply app_inv_head in X; symmetry in X; apply (f_equal (@List.length _)) in X; rewrite app_length in X; cbn in X; lia).
  destruct (write_ok f cwd z ns n false ln txt Wf P Hs E) as (f2 & E2 & _ & Q2 & _).
  - rewrite O by exact Nt. exact L.
  - destruct A as [->|[k X]]; [exact K|congruence].
  - exists f1, f2. split; [exact E1|]. split; [exact E2|].
    assert (forall o, written o false ln txt = txt ++ (if ln then [10] else [])) as Wr by (intros [[|c]|]; reflexivity).
    split; [rewrite Q2; destruct path_dec; [now rewrite Wr|contradiction]|]. intros q. rewrite Q1, Q2, !Wr. destruct path_dec; [reflexivity|now apply O].
Qed.
Print Assumptions C193_again.

Example C193_example :
  match states true (fun _ => false) 9 [] fs0 [OWrite (T "d/x") true true (T "ab")] with
  | Ok l => map (fun f => lookup f [T "d"; T "x"]) l =
      [Some (EFile (T "hello")); Some (EFile (T "hello")); Some (EFile (T "helloa")); Some (EFile (T "helloab")); Some (EFile (T "helloab" ++ [10])); Some (EFile (T "helloab" ++ [10]))]
  | _ => False
  end.
Proof. vm_compute. reflexivity. Qed.

(** ** C194 Interrupted directory calls can be made again *)
(** vt_path_mkdir_parents, made again after it was killed, gives what it would have given: the same entries everywhere; and in
    between every entry is as before or as at the end. *)
Theorem C194_parents :
  forall dbg lk fuel cwd fs z f, let st := start cwd z in
  wf fs -> oks z -> In 47 z -> names z <> [] -> (forall a, z <> a ++ [47; 47]) -> zlen z + 2 <= alloc_max -> lookup fs cwd = Some EDir ->
  (forall a b, names z = a ++ b -> lookup fs (dest st a) = None \/ lookup fs (dest st a) = Some EDir) ->
  killed dbg lk fuel cwd fs [OMkdirParents z] f ->
  exists f1 f2, path_mkdir_parents dbg fs cwd z = Ok (f1, true) /\ path_mkdir_parents dbg f cwd z = Ok (f2, true) /\
    (forall q, lookup f2 q = lookup f1 q) /\ (forall q, lookup f q = lookup fs q \/ lookup f q = lookup f1 q).
Proof.
  intros dbg lk fuel cwd fs z f st W O Hin Hne Hdd Hf Hc K Kl. destruct (killed_parents dbg lk fuel cwd fs z f W O Hin Hne Hdd Hf Hc K Kl) as (f1 & f2 & E1 & E2 & _ & A & B).
  exists f1, f2. auto.
Qed.
Print Assumptions C194_parents.
(** vt_path_rmdir_recurse: nothing outside the directory is touched, what is left inside is as it was; as long as the directory is there,
    calling again removes the rest. *)
Theorem C194_recurse :
  forall dbg lk fuel cwd fs z f, let p := target cwd z in
  wf fs -> plain z -> names z <> [] -> lookup fs p = Some EDir -> (depth fs < fuel)%nat ->
  (forall r, lookup fs (p ++ r) <> None -> lk (p ++ r) = false) ->
  killed dbg lk fuel cwd fs [ORmdirRecurse z] f ->
  (forall x, lookup f x = lookup fs x \/ (exists r, x = p ++ r) /\ lookup f x = None) /\
  exists f1, path_rmdir_recurse lk fuel fs cwd z = Ok (f1, true) /\
    (f = f1 \/ lookup f p = Some EDir /\ exists f2, path_rmdir_recurse lk fuel f cwd z = Ok (f2, true) /\ forall x, lookup f2 x = lookup f1 x).
Proof. intros dbg lk fuel cwd fs z f p W P Hn L Hd U K. exact (proj2 (killed_recurse dbg lk fuel cwd fs z f W P Hn L Hd U K)). Qed.
Print Assumptions C194_recurse.

Example C194_example :
  match states true (fun _ => false) 9 [] fs0 [OMkdirParents (T "d/p/q/r")] with
  | Ok l => map (fun f => match path_mkdir_parents true f [] (T "d/p/q/r") with Ok (f', b) => (zlen f, zlen f', b) | _ => (0, 0, false) end) l =
      [(6, 9, true); (6, 9, true); (7, 9, true); (8, 9, true); (9, 9, true); (9, 9, true)]
  | _ => False
  end /\
  match states true (fun _ => false) 9 [] fs0 [ORmdirRecurse (T "d")] with
  | Ok l => map (fun f => match path_rmdir_recurse (fun _ => false) 9 f [] (T "d") with Ok (f', b) => (zlen f, zlen f', b) | _ => (0, 0, false) end) l =
      [(6, 1, true); (5, 1, true); (4, 1, true); (3, 1, true); (2, 1, true); (1, 1, false); (1, 1, false)]
  | _ => False
  end.
Proof. split; vm_compute; reflexivity. Qed.

(** ** C195 Replacing a file through a temporary one *)
(** Written under another name and renamed, the file holds the old or the whole new text (or is not there, as before) whenever the
    program is killed; only these two names are concerned. *)
Theorem C195_replace_partial :
  forall dbg lk fuel cwd fs zt z ns n (ln : bool) (txt : list Z) f,
  wf fs -> plain zt -> plain z -> (forall a, zt <> a ++ [47]) -> names zt = ns ++ [n] ->
  lookup fs (start cwd zt ++ ns) = Some EDir -> lookup fs (target cwd zt) <> Some EDir -> target cwd zt <> target cwd z ->
  killed dbg lk fuel cwd fs [OWrite zt false ln txt; ORename zt z] f ->
  (lookup f (target cwd z) = lookup fs (target cwd z) \/
   lookup f (target cwd z) = Some (EFile (txt ++ (if ln then [10] else []))) /\ lookup f (target cwd zt) = None) /\
  (forall q, q <> target cwd zt -> q <> target cwd z -> lookup f q = lookup fs q).
Proof.
  intros dbg lk fuel cwd fs zt z ns n ln txt f W Pt P Hs E L K Ne Kl.
  exact (proj2 (killed_replace dbg lk fuel cwd fs zt z ns n ln txt f W Pt P Hs E L K Ne Kl)).
Qed.
Print Assumptions C195_replace_partial.
(** Full statement: also if the disk is full.  False: vt_file_write says true although only a part was written (C138). *)
Theorem C195_full_refuted :
  exists f1 f2, file_write_room 2 fs0 [] (T "tmp") (T "new text") = (f1, true) /\ path_rename (fun _ => false) f1 [] (T "tmp") (T "f") = (f2, true) /\
    lookup fs0 [T "f"] = Some (EFile (T "old")) /\ lookup f2 [T "f"] = Some (EFile (T "ne")).
Proof. do 2 eexists. repeat (split; [vm_compute; reflexivity|]). vm_compute. reflexivity. Qed.
Print Assumptions C195_full_refuted.

Example C195_example :
  match states true (fun _ => false) 9 [] fs0 [OWrite (T "d/tmp") false false (T "ab"); ORename (T "d/tmp") (T "f")] with
  | Ok l => map (fun f => (lookup f [T "d"; T "tmp"], lookup f [T "f"])) l =
      let o := Some (EFile (T "old")) in
      [(None, o); (Some (EFile []), o); (Some (EFile (T "a")), o); (Some (EFile (T "ab")), o); (Some (EFile (T "ab")), o); (None, Some (EFile (T "ab"))); (None, Some (EFile (T "ab")))]
  | _ => False
  end.
Proof. vm_compute. reflexivity. Qed.
