(** Processes that can open only some more files.  Statements only. *)
From Coq Require Import String Ascii.
From Verif Require Import Base BaseFacts StrModel StrModel2 StrSpec StrProofs FsModel PathModel FsSpec PathProofs FsProofs FsMain FsMain2 PermModel PermProofs DescModel DescProofs.
From Verif Require Import PropsPath PropsPerm.
Local Open Scope list_scope.
Local Open Scope Z_scope.

(** C208: [d] more files can be opened, at least one.  vt_path_dir_list_recurse lists part of the whole listing [qs], in the same
    order.  No directory it lists, and none around what it lists, is [d] or more levels down.  What is missing has a directory that far
    down beside it, beside a directory around it, or around it.  The listing is whole if and only if no directory to be listed is
    that far down.  Missing: otherwise the caller cannot tell that it is not whole, see below. *)
Theorem C208_list_partial : forall fs cwd ign z d p fuel, wf fs -> resolve fs cwd z = Some p -> lookup fs p = Some EDir -> (depth fs < fuel)%nat -> (0 < d)%nat ->
  exists ks qs, desc_list_recurse d fs cwd ign [] z = Ok (Some (map (below_text z) ks)) /\
    dir_list_recurse fuel fs cwd ign [] z = Ok (Some (map (below_text z) qs)) /\ listing fs p ign qs /\ sub ks qs /\
    (forall q a b, In q ks -> q = a ++ b -> a <> [] -> lookup fs (p ++ a) = Some EDir -> (List.length a < d)%nat) /\
    (forall q, In q qs -> ~ In q ks -> exists a n b m, q = a ++ n :: b /\ lookup fs (p ++ a ++ [m]) = Some EDir /\ (d <= List.length (a ++ [m]))%nat) /\
    (ks = qs <-> forall q, In q qs -> lookup fs (p ++ q) = Some EDir -> (List.length q < d)%nat).
Proof. exact desc_list_main. Qed.
Print Assumptions C208_list_partial.
(** With none left it returns NULL, and so it does for what is no directory. *)
Theorem C208_none : forall fs cwd ign z d pl, d = O \/ path_is_dir fs cwd z = false -> desc_list_recurse d fs cwd ign pl z = Ok None.
Proof.
  intros fs cwd ign z d pl H. destruct d as [|d]; cbn [desc_list_recurse]; [now destruct (negb (path_exists fs cwd z))|]. destruct H as [H|H]; [discriminate|].
  destruct (negb (path_exists fs cwd z)); [reflexivity|]. unfold fs_readdir. unfold path_is_dir, fs_stat in H. destruct (resolve fs cwd z) as [p|]; [|reflexivity]. now destruct (lookup fs p) as [[|]|].
Qed.
Print Assumptions C208_none.
(** The listing without subdirectories needs one. *)
Theorem C208_one : forall fs cwd ign z d, (0 < d)%nat -> desc_dir_list d fs cwd z ign = path_dir_list fs cwd z ign.
Proof. intros fs cwd ign z d H. destruct d; [lia|]. reflexivity. Qed.
Print Assumptions C208_one.

(** d holds a (file), s (which holds t, which holds y, and v) and w (file). *)
Definition fsd : fsys :=
  [([T "d"], EDir); ([T "d"; T "a"], EFile (T "1")); ([T "d"; T "s"], EDir); ([T "d"; T "s"; T "t"], EDir); ([T "d"; T "s"; T "t"; T "y"], EFile []); ([T "d"; T "s"; T "v"], EFile []);
   ([T "d"; T "w"], EFile (T "2"))].
Example fsd_wf : wf fsd.
Proof.
  constructor.
  - cbn. repeat constructor; cbn; intuition discriminate.
  - intros p e H. cbn [fsd In] in H. repeat destruct H as [H|H]; try contradiction; injection H as <- <-.
    + exists [], (T "d"). split; [reflexivity|]. split; [names_ok|reflexivity].
    + exists [T "d"], (T "a"). split; [reflexivity|]. split; [names_ok|reflexivity].
    + exists [T "d"], (T "s"). split; [reflexivity|]. split; [names_ok|reflexivity].
    + exists [T "d"; T "s"], (T "t"). split; [reflexivity|]. split; [names_ok|reflexivity].
    + exists [T "d"; T "s"; T "t"], (T "y"). split; [reflexivity|]. split; [names_ok|reflexivity].
    + exists [T "d"; T "s"], (T "v"). split; [reflexivity|]. split; [names_ok|reflexivity].
    + exists [T "d"], (T "w"). split; [reflexivity|]. split; [names_ok|reflexivity].
Qed.
Example C208_list_example :
  desc_list_recurse 3 fsd [] false [] (T "d") = Ok (Some [T "d/a"; T "d/s/t/y"; T "d/s/t"; T "d/s/v"; T "d/s"; T "d/w"]) /\
  desc_list_recurse 2 fsd [] false [] (T "d") = Ok (Some [T "d/a"; T "d/s"; T "d/w"]) /\
  desc_list_recurse 1 fsd [] false [] (T "d") = Ok (Some [T "d/a"]) /\
  desc_list_recurse 0 fsd [] false [] (T "d") = Ok None.
Proof. repeat (split; [vm_compute; reflexivity|]). vm_compute. reflexivity. Qed.
(** The listing is returned although a file is missing in it. *)
Theorem C208_list_refuted : exists d fs z n l, wf fs /\ (1 < d)%nat /\ desc_list_recurse d fs [] false [] z = Ok (Some l) /\
  path_is_file fs [] (z ++ sep ++ n) = true /\ ~ In (z ++ sep ++ n) l.
Proof.
  exists 2%nat, fsd, (T "d"), (T "s/v"), [T "d/a"; T "d/s"; T "d/w"]. split; [exact fsd_wf|]. split; [lia|]. split; [vm_compute; reflexivity|]. split; [vm_compute; reflexivity|].
  vm_compute. intuition discriminate.
Qed.
Print Assumptions C208_list_refuted.

(** C209: vt_path_rmdir_recurse, when [d] more files can be opened: nothing outside changes; a directory [d] or more levels down stays with all in it;
    unless [d] is 1, true means that the directory is gone (if it can be removed at all).  Missing: with one left it may return true although the
    directory is still there, see below. *)
Theorem C209_remove_partial : forall lk fs cwd z d, let p := target cwd z in
  wf fs -> plain z -> names z <> [] -> lookup fs p = Some EDir ->
  exists fs' b, desc_rmdir_recurse lk d fs cwd z = Ok (fs', b) /\ wf fs' /\
    (forall x, lookup fs' x = lookup fs x \/ (exists r, x = p ++ r) /\ lookup fs' x = None) /\
    (forall r s, r <> [] -> lookup fs (p ++ r) = Some EDir -> (d <= List.length r)%nat -> lookup fs' (p ++ r ++ s) = lookup fs (p ++ r ++ s)) /\
    (b = true -> lk p = false -> d <> 1%nat -> forall r, lookup fs' (p ++ r) = None).
Proof. exact desc_rmdir_main. Qed.
Print Assumptions C209_remove_partial.
(** With more files than levels of directories it does what it does without a limit. *)
Theorem C209_enough : forall lk fs cwd z d p fuel, wf fs -> resolve fs cwd z = Some p -> lookup fs p = Some EDir -> (depth fs < fuel)%nat ->
  (forall q, lookup fs (p ++ q) = Some EDir -> (List.length q < d)%nat) -> desc_rmdir_recurse lk d fs cwd z = path_rmdir_recurse lk fuel fs cwd z.
Proof.
  intros lk fs cwd z d p fuel W R L Hf H. unfold desc_rmdir_recurse, path_rmdir_recurse. rewrite (desc_full fs cwd false W d z p [] fuel R L); [reflexivity|lia|]. intros q _. apply H.
Qed.
Print Assumptions C209_enough.
Theorem C209_remove_refuted : exists fs z fs', wf fs /\ plain z /\ desc_rmdir_recurse (fun _ => false) 1 fs [] z = Ok (fs', true) /\
  path_is_dir fs' [] z = true /\ path_exists fs [] (z ++ T "/a") = true /\ path_exists fs' [] (z ++ T "/a") = false /\ path_exists fs' [] (z ++ T "/w") = true.
Proof.
  exists fsd, (T "d"). eexists. split; [exact fsd_wf|]. split; [split; [repeat constructor; unfold okc; vm_compute; intuition discriminate|split; vm_compute; intuition discriminate]|].
  repeat (split; [vm_compute; reflexivity|]). vm_compute. reflexivity.
Qed.
Print Assumptions C209_remove_refuted.
(** With two left it answers false, and the file a is gone. *)
Example C209_example :
  (exists fs', desc_rmdir_recurse (fun _ => false) 2 fsd [] (T "d") = Ok (fs', false) /\ fs' = [([T "d"], EDir); ([T "d"; T "s"], EDir); ([T "d"; T "s"; T "t"], EDir); ([T "d"; T "s"; T "t"; T "y"], EFile []);
     ([T "d"; T "s"; T "v"], EFile []); ([T "d"; T "w"], EFile (T "2"))]) /\
  desc_rmdir_recurse (fun _ => false) 3 fsd [] (T "d") = Ok ([], true) /\
  desc_rmdir_recurse (fun _ => false) 0 fsd [] (T "d") = Ok (fsd, false).
Proof. split; [eexists; split; vm_compute; reflexivity|]. split; vm_compute; reflexivity. Qed.

(** C210: when no more files can be opened vt_file_read returns NULL, and the writing functions return false and change nothing. *)
Theorem C210_files : forall dbg fs cwd z append ln txt, desc_file_read 0 dbg fs cwd z = Ok None /\ desc_file_writefc 0 fs cwd z append ln txt = (fs, false) /\
  (forall d, (0 < d)%nat -> desc_file_read d dbg fs cwd z = file_read dbg fs cwd z /\ desc_file_writefc d fs cwd z append ln txt = file_writefc fs cwd z append ln txt).
Proof. intros. split; [reflexivity|]. split; [reflexivity|]. intros d H. destruct d; [lia|]. split; reflexivity. Qed.
Print Assumptions C210_files.
