(** C163, C164: recursive removal and symbolic links. *)
From Coq Require Import String.
From Verif Require Import Base StrModel NumModel FsModel PathModel FsSpec SymModel SymProofs SymAgree.
Local Open Scope Z_scope. Local Open Scope list_scope.

Local Definition T (s : string) : list Z := map (fun c => Z.of_nat (Ascii.nat_of_ascii c)) (list_ascii_of_string s).
(** A home directory with a letter; beside it a directory with a link to it, and a link to nothing. *)
Definition home_fs (letter : list Z) : sfs :=
  [([T "d"], SDir); ([T "home"], SDir); ([T "home"; T "letter"], SFile letter); ([T "d"; T "l"], SLink (T "../home"))].
Definition links_fs : sfs :=
  [([T "d"], SDir); ([T "d"; T "s"], SDir); ([T "d"; T "s"; T "f"], SFile [1; 2]); ([T "d"; T "l"], SLink (T "../note"));
   ([T "note"], SFile [3]); ([T "gone"], SLink (T "nothing"))].

(** C163: removing a directory with its contents leaves everything outside it alone.
    Refuted: links to directories are followed; what they lead to is emptied. *)
Theorem C163_inside_refuted :
  ~ (forall fuel fs cwd z p fs' ok, sresolve fs cwd z = Some p -> slookup fs p = Some SDir -> names_ok fs ->
     sp_rmdir_recurse fuel fs cwd z = Ok (fs', ok) -> forall q, below p q = None -> slookup fs' q = slookup fs q).
Proof.
  intros H. specialize (H 5%nat (home_fs [1]) [] (T "d") [T "d"]).
  destruct (sp_rmdir_recurse 5 (home_fs [1]) [] (T "d")) as [[fs' ok]| | |] eqn:E; vm_compute in E; try discriminate.
  specialize (H fs' ok eq_refl eq_refl).
  assert (names_ok (home_fs [1])) as N.
  { intros q e I. cbn [home_fs In] in I. repeat destruct I as [I|I]; try contradiction; injection I as <- _;
      repeat constructor; try discriminate; cbn; intuition discriminate. }
  specialize (H N eq_refl [T "home"; T "letter"] eq_refl). injection E as <- <-. vm_compute in H. discriminate.
Qed.
Print Assumptions C163_inside_refuted.
(** Whatever the letter says, it is lost, and the directory asked for remains. *)
Example C163_lost : forall letter,
  match sp_rmdir_recurse 5 (home_fs letter) [] (T "d") with
  | Ok (fs', ok) => ok = false /\ slookup fs' [T "home"; T "letter"] = None /\ slookup fs' [T "d"] = Some SDir
  | _ => False
  end.
Proof. intros letter. repeat split. Qed.

(** If no link below the directory leads to a directory, nothing outside it changes. *)
Theorem C163_inside_partial : forall fuel fs cwd z p fs' ok,
  sresolve fs cwd z = Some p -> slookup fs p = Some SDir -> names_ok fs -> no_dir_links fs p ->
  sp_rmdir_recurse fuel fs cwd z = Ok (fs', ok) -> forall q, below p q = None -> slookup fs' q = slookup fs q.
Proof.
  intros fuel fs cwd z p fs' ok R D N L. unfold sresolve in R. assert (z <> []) as E by (now destruct z). assert (option_map fst (swalk max_links fs (start cwd z) (comps z)) = Some p) as R' by (now destruct z). clear R. rename R' into R.
  destruct (swalk max_links fs (start cwd z) (comps z)) as [[p' k]|] eqn:W; [|discriminate]. injection R as ->.
  apply (recursive_kept fs cwd z p k); assumption.
Qed.
Print Assumptions C163_inside_partial.
(** A directory with a sub-directory, a file and a link to a file outside: all of it goes, the file outside stays. *)
Example C163_example :
  match sp_rmdir_recurse 5 links_fs [] (T "d") with
  | Ok (fs', ok) => ok = true /\ fs' = [([T "note"], SFile [3]); ([T "gone"], SLink (T "nothing"))]
  | _ => False
  end.
Proof. vm_compute. repeat split. Qed.
Example C163_example_hyp : no_dir_links links_fs [T "d"] /\ names_ok links_fs.
Proof.
  split.
  - intros q n t L k r k'. remember ([T "d"] ++ q ++ [n]) as x eqn:X. assert (In (x, SLink t) links_fs) as I.
    { unfold slookup in L. destruct x; [discriminate|]. clear X. revert L. generalize links_fs. intros fs. induction fs as [|[y e] fs IH]; [discriminate|]. cbn [sassoc].
      destruct (path_dec y (l :: x)); [intros E; left; congruence|intros E; right; auto]. }
    cbn [links_fs In] in I. repeat destruct I as [I|I]; try contradiction; try discriminate; injection I as I1 I2; subst t; rewrite X in I1; try discriminate.
    assert (q = []) as ->. { destruct q as [|a [|b q]]; [reflexivity|discriminate..]. }
    intros W. destruct k as [|k]; vm_compute in W; injection W as <- _; discriminate.
  - intros q e I. cbn [links_fs In] in I. repeat destruct I as [I|I]; try contradiction; injection I as <- _;
      repeat constructor; try discriminate; cbn; intuition discriminate.
Qed.
(** Without links the function is that of the model without links: what is proved there holds here. *)
Theorem C163_no_links : forall fuel fs cwd z, wf fs ->
  sp_rmdir_recurse fuel (emb fs) cwd z = let* r := path_rmdir_recurse (fun _ => false) fuel fs cwd z in Ok (emb (fst r), snd r).
Proof. exact emb_rmdir_recurse. Qed.
Print Assumptions C163_no_links.

(** C164: a link can be removed, and removing it leaves what it leads to alone.
    Refuted: a link that leads nowhere cannot be removed. *)
Theorem C164_dangling_refuted :
  ~ (forall fs cwd z p t, sname fs cwd z = Some p -> slookup fs p = Some (SLink t) -> last (comps z) [] <> [] ->
     snd (sp_remove fs cwd z) = true).
Proof. intros H. specialize (H links_fs [] (T "gone") [T "gone"] (T "nothing") eq_refl eq_refl ltac:(discriminate)). discriminate. Qed.
Print Assumptions C164_dangling_refuted.
(** It can exactly if it leads to something; then the link is gone and nothing else, else nothing changes. *)
Theorem C164_remove_partial : forall fs cwd z p t,
  sname fs cwd z = Some p -> slookup fs p = Some (SLink t) -> last (comps z) [] <> [] ->
  let '(fs', ok) := sp_remove fs cwd z in
  (ok = true <-> s_stat fs cwd z <> None) /\
  (ok = true -> slookup fs' p = None) /\ (forall q, q <> p \/ ok = false -> slookup fs' q = slookup fs q).
Proof.
  intros fs cwd z p t N L E. rewrite (remove_link fs cwd z p t N L E). unfold sp_exists. destruct (s_stat fs cwd z).
  - split; [split; [discriminate|reflexivity]|]. split.
    + intros _. rewrite slookup_remove. destruct p; [discriminate|]. destruct (path_dec _ _); [reflexivity|contradiction].
    + intros q [Q|Q]; [|discriminate]. rewrite slookup_remove. destruct q; [reflexivity|]. destruct (path_dec _ _); [contradiction|reflexivity].
  - split; [split; [discriminate|contradiction]|]. split; [discriminate|reflexivity].
Qed.
Print Assumptions C164_remove_partial.
Example C164_example :
  sp_remove links_fs [] (T "d/l") = (sremove_key links_fs [T "d"; T "l"], true) /\
  slookup (fst (sp_remove links_fs [] (T "d/l"))) [T "note"] = Some (SFile [3]) /\
  sp_remove links_fs [] (T "gone") = (links_fs, false).
Proof. repeat split. Qed.
(** A directory that contains such a link cannot be removed with its contents. *)
Example C164_blocks :
  sp_rmdir_recurse 5 [([T "x"], SDir); ([T "x"; T "l"], SLink (T "nothing"))] [] (T "x") = Ok ([([T "x"], SDir); ([T "x"; T "l"], SLink (T "nothing"))], false).
Proof. reflexivity. Qed.
