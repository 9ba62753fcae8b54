(** Properties of vt_path_rename.  Statements only.  [wf], [plain], [target], [names]:
    FsSpec.v; [denoted]: MoreProofs.v. *)
From Verif Require Import Base BaseFacts StrSpec FsModel PathModel FsSpec FsProofs MoreProofs RenameModel RenameProofs PropsPath.
From Coq Require Import String.
Local Open Scope list_scope.

(** ** C122 Renaming *)
(** True: everything at and below the old place is at the new place, nothing is left at the
    old one, everything else is as before, and what was replaced was a file (by a file) or an
    empty directory (by a directory).  False: nothing has changed. *)
Theorem C122_effect :
  forall lk fs cwd z1 z2 fs' b, wf fs -> plain z2 -> path_rename lk fs cwd z1 z2 = (fs', b) ->
  (b = false -> fs' = fs) /\
  (b = true -> exists p, resolve fs cwd z1 = Some p /\ p <> [] /\ lookup fs p <> None /\
     let q := target cwd z2 in
     wf fs' /\ (p = q -> fs' = fs) /\
     (p <> q ->
       (forall r, lookup fs' (q ++ r) = lookup fs (p ++ r)) /\ (forall r, lookup fs' (p ++ r) = None) /\
       (forall x, (forall r, x <> p ++ r) -> (forall r, x <> q ++ r) -> lookup fs' x = lookup fs x) /\
       (lookup fs q = None \/ (lookup fs p = Some EDir /\ lookup fs q = Some EDir /\ forall n, lookup fs (q ++ [n]) = None) \/
        (exists c c', lookup fs p = Some (EFile c) /\ lookup fs q = Some (EFile c'))))).
Proof. exact rename_effect. Qed.
Print Assumptions C122_effect.

(** Seen through the paths used: the old one is gone, the new one shows what the old one
    showed (kind, size, contents), whatever was there before. *)
Theorem C122_seen :
  forall lk fs cwd z1 z2 fs', wf fs -> plain z1 -> plain z2 -> path_rename lk fs cwd z1 z2 = (fs', true) ->
  target cwd z1 <> target cwd z2 ->
  fs_stat fs' cwd z1 = None /\ fs_stat fs' cwd z2 = fs_stat fs cwd z1.
Proof. exact rename_seen. Qed.
Print Assumptions C122_seen.

(** It does return true if the old path exists, the directory of the new one exists and is not
    inside the old one, nothing of another kind is in the way, and the system permits it. *)
Theorem C122_success :
  forall lk fs cwd z1 z2 e ns n, wf fs -> plain z1 -> plain z2 -> names z1 <> [] -> denoted fs cwd z1 = Some e ->
  names z2 = ns ++ [n] -> lookup fs (start cwd z2 ++ ns) = Some EDir ->
  (e = EDir \/ last z2 0 <> 47) ->
  let p := target cwd z1 in let q := target cwd z2 in
  (forall r, r <> [] -> q <> p ++ r) ->
  p = q \/ (lk p = false /\ (lookup fs q = None \/ lk q = false /\
     ((e <> EDir /\ exists c, lookup fs q = Some (EFile c)) \/
      (e = EDir /\ lookup fs q = Some EDir /\ forall m, lookup fs (q ++ [m]) = None)))) ->
  snd (path_rename lk fs cwd z1 z2) = true.
Proof. exact rename_success. Qed.
Print Assumptions C122_success.

(** Renaming to a free place and back restores everything. *)
Theorem C122_back :
  forall fs cwd z1 z2 fs1, wf fs -> plain z1 -> plain z2 -> lookup fs (target cwd z2) = None ->
  path_rename (fun _ => false) fs cwd z1 z2 = (fs1, true) ->
  exists fs2, path_rename (fun _ => false) fs1 cwd z2 z1 = (fs2, true) /\ forall x, lookup fs2 x = lookup fs x.
Proof. exact rename_back. Qed.
Print Assumptions C122_back.

Example C122_example :
  snd (path_rename free fs0 [] (T "d") (T "/e")) = true /\
  lookup (fst (path_rename free fs0 [] (T "d") (T "/e"))) [T "e"; T "x"] = lookup fs0 [T "d"; T "x"] /\
  lookup fs0 [T "d"; T "x"] <> None /\
  path_exists (fst (path_rename free fs0 [] (T "d") (T "/e"))) [] (T "d/x") = false /\
  snd (path_rename free fs0 [] (T "f") (T "d/x")) = true /\           (* replaces a file *)
  path_rename free fs0 [] (T "f") (T "d") = (fs0, false) /\           (* not a directory *)
  path_rename free fs0 [] (T "d") (T "d/y") = (fs0, false) /\         (* not below itself *)
  path_rename free fs0 [] (T "q") (T "r") = (fs0, false) /\
  path_rename free fs0 [] (T "f") (T "g/") = (fs0, false).
Proof. repeat split; try (vm_compute; reflexivity). vm_compute. discriminate. Qed.
