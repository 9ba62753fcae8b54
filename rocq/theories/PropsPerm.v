(** Directories that may not be read.  Statements only. *)
From Coq Require Import String Ascii.
From Verif Require Import Base BaseFacts StrModel StrModel2 StrSpec StrProofs FsModel PathModel FsSpec PathProofs FsProofs FsMain FsMain2 PermModel PermProofs.
From Verif Require Import PropsPath.
Local Open Scope list_scope.
Local Open Scope Z_scope.

(** C186: [nr] are the directories that may not be read.  The listing of a directory that may be read is part of the
    whole listing, in the same order.  What is in it lies in directories that may be read and is not itself a
    directory that may not.  What is missing has a directory that may not be read beside it, beside a directory around
    it, or around it. *)
Theorem C186_list : forall (nr : path -> bool) fs cwd ign z fuel p, wf fs -> resolve fs cwd z = Some p -> lookup fs p = Some EDir -> (depth fs < fuel)%nat ->
  if nr p then perm_list_recurse nr fuel fs cwd ign [] z = Ok None else
  exists ks qs, perm_list_recurse nr fuel fs cwd ign [] z = Ok (Some (map (below_text z) ks)) /\
    dir_list_recurse fuel fs cwd ign [] z = Ok (Some (map (below_text z) qs)) /\ listing fs p ign qs /\
    sub ks qs /\
    (forall q a b, In q ks -> q = a ++ b -> a <> [] -> lookup fs (p ++ a) = Some EDir -> nr (p ++ a) = false) /\
    (forall q, In q qs -> ~ In q ks -> exists a n b m, q = a ++ n :: b /\ lookup fs (p ++ a ++ [m]) = Some EDir /\ nr (p ++ a ++ [m]) = true).
Proof.
  intros nr fs cwd ign z fuel p W R L Hd. pose proof (perm_list_ok nr fs cwd ign W fuel z p R L Hd) as X. destruct (nr p); [exact X|].
  destruct X as (ks & qs & E1 & E2 & Hl & G1 & G2 & G3 & G4). exists ks, qs. split; [exact E1|]. split; [exact E2|]. split; [exact Hl|]. split; [exact G1|]. split; [exact G3|exact G2].
Qed.
Print Assumptions C186_list.
Theorem C186_none : forall nr fs cwd ign z fuel pl, (0 < fuel)%nat -> path_is_dir fs cwd z = false -> perm_list_recurse nr fuel fs cwd ign pl z = Ok None.
Proof. intros. now apply perm_not_dir. Qed.
Print Assumptions C186_none.
Theorem C186_same : forall nr fs cwd ign z fuel p, wf fs -> resolve fs cwd z = Some p -> lookup fs p = Some EDir -> (depth fs < fuel)%nat ->
  (forall r, lookup fs (p ++ r) = Some EDir -> nr (p ++ r) = false) -> perm_list_recurse nr fuel fs cwd ign [] z = dir_list_recurse fuel fs cwd ign [] z.
Proof. intros. now apply (perm_same nr fs cwd ign fuel z p). Qed.
Print Assumptions C186_same.

(** d holds a (file), s (may not be read, holds y) and w (file). *)
Definition fsp : fsys :=
  [([T "d"], EDir); ([T "d"; T "a"], EFile (T "1")); ([T "d"; T "s"], EDir); ([T "d"; T "s"; T "y"], EFile []); ([T "d"; T "w"], EFile (T "2"))].
Definition no_s (p : path) : bool := if path_dec p [T "d"; T "s"] then true else false.
Example fsp_wf : wf fsp.
Proof.
  constructor.
  - cbn. repeat constructor; cbn; intuition discriminate.
  - intros p e H. cbn [fsp In] in H. repeat destruct H as [H|H]; try contradiction; injection H as <- <-.
    + exists [], (T "d"). split; [reflexivity|]. split; [names_ok|reflexivity].
    + exists [T "d"], (T "a"). split; [reflexivity|]. split; [names_ok|reflexivity].
    + exists [T "d"], (T "s"). split; [reflexivity|]. split; [names_ok|reflexivity].
    + exists [T "d"; T "s"], (T "y"). split; [reflexivity|]. split; [names_ok|reflexivity].
    + exists [T "d"], (T "w"). split; [reflexivity|]. split; [names_ok|reflexivity].
Qed.
Example C186_list_example :
  perm_list_recurse (fun _ => false) 5 fsp [] false [] (T "d") = Ok (Some [T "d/a"; T "d/s/y"; T "d/s"; T "d/w"]) /\
  perm_list_recurse no_s 5 fsp [] false [] (T "d") = Ok (Some [T "d/a"]) /\
  perm_list_recurse no_s 5 fsp [] false [] (T "d/s") = Ok None.
Proof. repeat (split; [vm_compute; reflexivity|]). vm_compute. reflexivity. Qed.
(** So the file w, which the caller may read, is missing although d was listed. *)
Theorem C186_list_refuted : exists nr fs z n l, wf fs /\ perm_list_recurse nr 5 fs [] false [] z = Ok (Some l) /\
  path_is_dir fs [] (z ++ sep ++ n) = false /\ path_exists fs [] (z ++ sep ++ n) = true /\ ~ In (z ++ sep ++ n) l.
Proof.
  exists no_s, fsp, (T "d"), (T "w"), [T "d/a"]. split; [exact fsp_wf|]. split; [vm_compute; reflexivity|]. split; [vm_compute; reflexivity|]. split; [vm_compute; reflexivity|].
  vm_compute. intros [H|[]]. discriminate.
Qed.
Print Assumptions C186_list_refuted.

(** C187: vt_path_rmdir_recurse removes nothing outside the directory; a directory that may not be read and all that
    lies in it stay; if it returns true, and the directory itself can be removed and has no directory in it that may
    not be read, then the directory is gone.  Missing: with a directory in it that may not be read it may return true
    although the directory is still there, see below. *)
Theorem C187_remove_partial : forall nr lk fs cwd z fuel, let p := target cwd z in
  wf fs -> plain z -> names z <> [] -> lookup fs p = Some EDir -> (depth fs < fuel)%nat ->
  exists fs' b, perm_rmdir_recurse nr lk fuel fs cwd z = Ok (fs', b) /\ wf fs' /\
    (forall x, lookup fs' x = lookup fs x \/ (exists r, x = p ++ r) /\ lookup fs' x = None) /\
    (forall d r, d <> [] -> lookup fs (p ++ d) = Some EDir -> nr (p ++ d) = true -> lookup fs' (p ++ d ++ r) = lookup fs (p ++ d ++ r)) /\
    (b = true -> lk p = false -> (forall n, lookup fs (p ++ [n]) = Some EDir -> nr (p ++ [n]) = false) -> forall r, lookup fs' (p ++ r) = None) /\
    (b = true -> lk p = false -> nr p = true -> lookup fs' p = None).
Proof. exact perm_rmdir_main. Qed.
Print Assumptions C187_remove_partial.
Theorem C187_remove_refuted : exists nr fs z fs', wf fs /\ plain z /\ perm_rmdir_recurse nr (fun _ => false) 5 fs [] z = Ok (fs', true) /\
  path_is_dir fs' [] z = true /\ path_exists fs [] (z ++ T "/a") = true /\ path_exists fs' [] (z ++ T "/a") = false /\ path_exists fs' [] (z ++ T "/w") = true.
Proof.
  exists no_s, fsp, (T "d"). eexists. split; [exact fsp_wf|]. split; [split; [repeat constructor; unfold okc; vm_compute; intuition discriminate|split; vm_compute; intuition discriminate]|].
  repeat (split; [vm_compute; reflexivity|]). vm_compute. reflexivity.
Qed.
Print Assumptions C187_remove_refuted.
Example C187_example :
  perm_rmdir_recurse no_s (fun _ => false) 5 fsp [] (T "d/s") = Ok (fsp, false) /\
  exists fs', perm_rmdir_recurse (fun _ => false) (fun _ => false) 5 fsp [] (T "d") = Ok (fs', true) /\ fs' = [].
Proof. split; [vm_compute; reflexivity|]. eexists. split; [vm_compute; reflexivity|]. vm_compute. reflexivity. Qed.
