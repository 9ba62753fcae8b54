(** Paths longer than the system accepts.  Statements only. *)
From Coq Require Import String Ascii.
From Verif Require Import Base BaseFacts StrModel StrModel2 StrSpec StrProofs FsModel PathModel FsSpec PathProofs FsProofs FsMain FsMain2 PermModel PermProofs LimModel LimProofs.
From Verif Require Import PropsPath PropsPerm.
Local Open Scope list_scope.
Local Open Scope Z_scope.

(** C211: [lim] is the number of bytes the system accepts in a path.  vt_path_dir_list_recurse lists, of the whole listing [qs] and in its
    order, exactly what lies in a directory whose text is accepted: what is too long is named, but what lies in it is not.
    Missing: the caller cannot tell that something is missing, see below. *)
Theorem C211_list_partial : forall lim fs cwd ign z p fuel, wf fs -> resolve fs cwd z = Some p -> lookup fs p = Some EDir -> (depth fs < fuel)%nat -> zlen z <= lim ->
  exists qs, dir_list_recurse fuel fs cwd ign [] z = Ok (Some (map (below_text z) qs)) /\ listing fs p ign qs /\
    lim_list_recurse lim fuel fs cwd ign [] z = Ok (Some (map (below_text z) (filter (fun q => zlen (below_text z (removelast q)) <=? lim) qs))).
Proof. exact lim_list_main. Qed.
Print Assumptions C211_list_partial.
Theorem C211_none : forall lim fs cwd ign z pl fuel, lim < zlen z -> (0 < fuel)%nat -> lim_list_recurse lim fuel fs cwd ign pl z = Ok None.
Proof. intros lim fs cwd ign z pl fuel H Hf. destruct fuel; [lia|]. cbn [lim_list_recurse]. unfold lim_exists. now rewrite (proj2 (Z.leb_gt _ _) H). Qed.
Print Assumptions C211_none.
(** d holds a (file), s (which holds t, which holds y) and w (file); the system accepts 4 bytes. *)
Definition fsl : fsys :=
  [([T "d"], EDir); ([T "d"; T "a"], EFile (T "1")); ([T "d"; T "s"], EDir); ([T "d"; T "s"; T "t"], EDir); ([T "d"; T "s"; T "t"; T "y"], EFile []);
   ([T "d"; T "w"], EFile (T "2"))].
Example fsl_wf : wf fsl.
Proof.
  constructor.
  - cbn. repeat constructor; cbn; intuition discriminate.
  - intros p e H. cbn [fsl In] in H. repeat destruct H as [H|H]; try contradiction; injection H as <- <-.
    + exists [], (T "d"). split; [reflexivity|]. split; [names_ok|reflexivity].
    + exists [T "d"], (T "a"). split; [reflexivity|]. split; [names_ok|reflexivity].
    + exists [T "d"], (T "s"). split; [reflexivity|]. split; [names_ok|reflexivity].
    + exists [T "d"; T "s"], (T "t"). split; [reflexivity|]. split; [names_ok|reflexivity].
    + exists [T "d"; T "s"; T "t"], (T "y"). split; [reflexivity|]. split; [names_ok|reflexivity].
    + exists [T "d"], (T "w"). split; [reflexivity|]. split; [names_ok|reflexivity].
Qed.
Theorem C211_list_refuted : exists lim fs z n l, wf fs /\ zlen z <= lim /\ lim_list_recurse lim 5 fs [] false [] z = Ok (Some l) /\
  path_is_file fs [] (z ++ sep ++ n) = true /\ ~ In (z ++ sep ++ n) l.
Proof.
  exists 4, fsl, (T "d"), (T "s/t/y"), [T "d/a"; T "d/s/t"; T "d/s"; T "d/w"]. split; [exact fsl_wf|]. split; [vm_compute; discriminate|]. split; [vm_compute; reflexivity|]. split; [vm_compute; reflexivity|].
  vm_compute. intuition discriminate.
Qed.
Print Assumptions C211_list_refuted.
Example C211_example :
  lim_list_recurse 7 5 fsl [] false [] (T "d") = Ok (Some [T "d/a"; T "d/s/t/y"; T "d/s/t"; T "d/s"; T "d/w"]) /\
  lim_list_recurse 2 5 fsl [] false [] (T "d") = Ok (Some [T "d/a"; T "d/s"; T "d/w"]) /\ lim_list_recurse 2 5 fsl [] false [] (T "d/s") = Ok None.
Proof. repeat (split; [vm_compute; reflexivity|]). vm_compute. reflexivity. Qed.

(** C212: vt_path_rmdir_recurse.  If all texts are accepted it does what it does without a limit.  If something below has too long a text it
    returns false; it removes nothing outside and nothing whose text is too long; so the directory stays. *)
Theorem C212_near : forall lim lk fs cwd z p fuel, wf fs -> resolve fs cwd z = Some p -> lookup fs p = Some EDir -> (depth fs < fuel)%nat ->
  (forall q, lookup fs (p ++ q) <> None -> zlen (below_text z q) <= lim) ->
  lim_rmdir_recurse lim lk fuel fs cwd z = path_rmdir_recurse lk fuel fs cwd z.
Proof. exact lim_rmdir_near. Qed.
Print Assumptions C212_near.
Theorem C212_far : forall lim lk fs cwd z q fuel, let p := target cwd z in
  wf fs -> plain z -> names z <> [] -> lookup fs p = Some EDir -> (depth fs < fuel)%nat -> lookup fs (p ++ q) <> None -> lim < zlen (below_text z q) ->
  exists fs', lim_rmdir_recurse lim lk fuel fs cwd z = Ok (fs', false) /\ wf fs' /\
    (forall x, lookup fs' x = lookup fs x \/ (exists r, r <> [] /\ zlen (below_text z r) <= lim /\ x = p ++ r) /\ lookup fs' x = None).
Proof. exact lim_rmdir_far. Qed.
Print Assumptions C212_far.
Example C212_example :
  lim_rmdir_recurse 7 (fun _ => false) 5 fsl [] (T "d") = Ok ([], true) /\
  match lim_rmdir_recurse 6 (fun _ => false) 5 fsl [] (T "d") with Ok (fs', b) => (zlen fs', b) = (zlen fsl - 1, false) | _ => False end.
Proof. split; vm_compute; reflexivity. Qed.

(** C213: vt_path_mkdir_parents asks for the names of the path one after the other, each with '/' behind it.  It makes those whose text with
    this '/' is accepted and returns true.  (For paths as in C63.)  Missing: so a path just as long as the system accepts is not made although vt_path_mkdir makes
    its last directory, and true is returned all the same, see below. *)
Theorem C213_parents_partial : forall lim dbg fs cwd z, let st := start cwd z in let ns := names z in
  wf fs -> plain z -> In 47 z -> ns <> [] -> (forall a, z <> a ++ [47; 47]) -> zlen z + 2 <= alloc_max ->
  lookup fs cwd = Some EDir ->
  (forall a b, ns = a ++ b -> lookup fs (st ++ a) = None \/ lookup fs (st ++ a) = Some EDir) ->
  exists fs', lim_mkdir_parents lim dbg fs cwd z = Ok (fs', true) /\ wf fs' /\
    (forall a b, ns = a ++ b -> lookup fs' (st ++ a) =
       if zlen (match z with 47 :: _ => [47] | _ => [] end ++ flat_map (fun n => n ++ [47]) a) <=? lim then Some EDir else lookup fs (st ++ a)) /\
    (forall q, (forall a b, ns = a ++ b -> q <> st ++ a) -> lookup fs' q = lookup fs q).
Proof.
  intros lim dbg fs cwd z st ns W P H1 H2 H3 H4 H5 H6. destruct (lim_mkdir_parents_ok lim dbg fs cwd z W P H1 H2 H3 H4 H5 H6) as (fs' & E & W' & A & B).
  exists fs'. split; [exact E|]. split; [exact W'|]. split; [|exact B]. intros a b Ha. unfold st. rewrite (A a b Ha).
  replace (match z with 47 :: _ => [47] | _ => [] end) with (pfx (is_abs z)); [reflexivity|]. destruct z as [|c z']; [reflexivity|]. cbn [is_abs]. unfold pfx. destruct (c =? 47) eqn:Ec; [apply Z.eqb_eq in Ec; now subst c|].
  apply Z.eqb_neq in Ec. destruct c as [|c|c]; try reflexivity. do 6 (try (destruct c as [c|c|]; try reflexivity)). now contradiction Ec.
Qed.
Print Assumptions C213_parents_partial.
Theorem C213_parents_refuted : exists lim fs z fs' fs'', wf fs /\ plain z /\ zlen z <= lim /\ lim_mkdir_parents lim true fs [] z = Ok (fs', true) /\ path_exists fs' [] z = false /\
  lim_mkdir lim fs' [] z = (fs'', true) /\ path_is_dir fs'' [] z = true.
Proof.
  exists 7, fsl, (T "d/new/x"). do 2 eexists. split; [exact fsl_wf|]. split; [split; [repeat constructor; unfold okc; vm_compute; intuition discriminate|split; vm_compute; intuition discriminate]|].
  split; [vm_compute; discriminate|]. repeat (split; [vm_compute; reflexivity|]). vm_compute. reflexivity.
Qed.
Print Assumptions C213_parents_refuted.
Example C213_example : exists fs', lim_mkdir_parents 8 true fsl [] (T "d/new/x") = Ok (fs', true) /\ path_is_dir fs' [] (T "d/new/x") = true /\ zlen fs' = zlen fsl + 2.
Proof. eexists. split; [vm_compute; reflexivity|]. split; vm_compute; reflexivity. Qed.
