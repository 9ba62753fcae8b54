(** Properties of path.c and fileio.c.  Statements only; each theorem is followed by a
    non-vacuity example.  [srep t cap s] (StrSpec.v): the string object [s] holds the text
    [t].  [wf fs], [target cwd z], [plain z], [names z], [listing] etc.: FsSpec.v.
    [lookup fs p] is what the file system holds at [p]. *)
From Verif Require Import Base BaseFacts StrModel StrModel2 StrSpec StrProofs StrProofs2 StrProofs3 StrMain FsModel PathModel FsSpec PathProofs FsProofs FsMain FsMain2.
From Coq Require Import String Ascii.
Local Open Scope list_scope.

Definition T (s : string) : list Z := map (fun a => Z.of_N (N_of_ascii a)) (list_ascii_of_string s).
Definition text_of (r : res (option str)) : res (option (list Z)) :=
  let* s := r in match s with Some s => let* z := str_z s in Ok (Some z) | None => Ok None end.

(** A file system for the examples: d/ (x, sub/ (y, .h)), f. *)
Definition fs0 : fsys :=
  [([T "d"], EDir); ([T "f"], EFile (T "old")); ([T "d"; T "x"], EFile (T "hello")); ([T "d"; T "sub"], EDir);
   ([T "d"; T "sub"; T "y"], EFile []); ([T "d"; T "sub"; T ".h"], EFile (T "z"))].
Lemma okn s : forallb (fun c => (0 <? c) && (c <? 256) && negb (c =? 47)) (T s) = true -> T s <> [] -> T s <> dot -> T s <> dotdot -> okname (T s).
Proof.
  intros H H1 H2 H3. repeat split; try assumption.
  - apply Forall_forall. intros c Hc. rewrite forallb_forall in H. specialize (H c Hc). unfold okc. lia.
  - intros Hc. rewrite forallb_forall in H. specialize (H _ Hc). discriminate.
Qed.
Ltac names_ok := repeat (apply Forall_cons; [apply okn; [vm_compute; reflexivity|discriminate..]|]); apply Forall_nil.
Example fs0_wf : wf fs0.
Proof.
  constructor.
  - cbn. repeat constructor; cbn; intuition discriminate.
  - intros p e H. cbn [fs0 In] in H. repeat destruct H as [H|H]; try contradiction; injection H as <- <-.
    + exists [], (T "d"). split; [reflexivity|]. split; [names_ok|reflexivity].
    + exists [], (T "f"). split; [reflexivity|]. split; [names_ok|reflexivity].
    + exists [T "d"], (T "x"). split; [reflexivity|]. split; [names_ok|reflexivity].
    + exists [T "d"], (T "sub"). split; [reflexivity|]. split; [names_ok|reflexivity].
    + exists [T "d"; T "sub"], (T "y"). split; [reflexivity|]. split; [names_ok|reflexivity].
    + exists [T "d"; T "sub"], (T ".h"). split; [reflexivity|]. split; [names_ok|reflexivity].
Qed.

(** ** C59 Path basename *)
(** Full statement: for every path the result is the part after the last separator.  False:
    no string is returned for a path without separator; with the only separator in front
    the result is filler; a separator at the end is counted as part of the name. *)
Theorem C59_basename_refuted :
  text_of (path_basename true None (T "file")) = Ok None /\
  text_of (path_basename true None (T "/file")) = Ok (Some (T "?????")) /\
  text_of (path_basename true None (T "a/b/")) = Ok (Some (T "b/")) /\
  path_basename true None [] = Abort.
Proof. repeat split; vm_compute; reflexivity. Qed.
Print Assumptions C59_basename_refuted.

(** Missing: paths without separator, whose only separator is in front, or ending in one. *)
Theorem C59_basename_partial :
  forall dbg s d b, oks (d ++ [47] ++ b) -> 0 < zlen d -> 0 < zlen b -> ~ In 47 b ->
  zlen (d ++ [47] ++ b) + 1 <= alloc_max -> target_ok s (zlen (d ++ [47] ++ b)) ->
  exists st cap, path_basename dbg s (d ++ [47] ++ b) = Ok (Some st) /\ srep b cap st.
Proof. exact basename_ok. Qed.
Print Assumptions C59_basename_partial.

Example C59_example : text_of (path_basename true None (T "/usr/lib/x.so")) = Ok (Some (T "x.so")).
Proof. vm_compute. reflexivity. Qed.

(** ** C60 Stepping up a path *)
(** Full statement: for every path.  False: the empty path makes it read before the string. *)
Theorem C60_pop_refuted : path_pop (zblk []) = UB.
Proof. vm_compute. reflexivity. Qed.
Print Assumptions C60_pop_refuted.

(** Missing: the empty path.  The memory behind the string is unchanged. *)
Theorem C60_pop_partial :
  (forall a r q, oks (a ++ [47] ++ r) -> ~ In 47 r -> zlen (a ++ [47] ++ r) + 1 <= alloc_max ->
     path_pop (map Some (a ++ [47] ++ r) ++ Some 0 :: q) = Ok (map Some a ++ Some 0 :: map Some r ++ Some 0 :: q)) /\
  (forall z q, oks z -> 0 < zlen z -> ~ In 47 z -> zlen z + 1 <= alloc_max ->
     path_pop (map Some z ++ Some 0 :: q) = Ok (map Some z ++ Some 0 :: q)).
Proof. exact (conj pop_ok pop_bare). Qed.
Print Assumptions C60_pop_partial.

Example C60_example :
  (let* b := path_pop (zblk (T "/usr/lib/x")) in let* x := cstr b in
   let* b := path_pop b in let* y := cstr b in let* b := path_pop b in let* z := cstr b in Ok (x, y, z)) = Ok (T "/usr/lib", T "/usr", []).
Proof. vm_compute. reflexivity. Qed.

(** ** C61 Path building *)
(** Full statement: for all lists of components.  False: in debug builds an empty component
    or an empty list stops the program. *)
Theorem C61_build_refuted :
  path_build true None [T "a"; []; T "b"] = Abort /\ path_build true None [] = Abort /\ path_build_n true None [] = Abort.
Proof. repeat split; vm_compute; reflexivity. Qed.
Print Assumptions C61_build_refuted.

(** Missing: empty lists and lists with empty components. *)
Theorem C61_build_partial :
  (forall dbg x l, okpieces (x :: l) -> zlen (join_with [47] (x :: l)) + 1 <= alloc_max ->
     exists s', path_build dbg None (x :: l) = Ok s' /\ srep (join_with [47] (x :: l)) (Z.max 16 (zlen (join_with [47] (x :: l)))) s') /\
  (forall dbg t cap st x l, srep t cap st -> okpieces (x :: l) ->
     Z.max cap (zlen (t ++ join_with [47] (x :: l))) + 1 <= alloc_max ->
     exists s', path_build dbg (Some st) (x :: l) = Ok s' /\
       srep (t ++ join_with [47] (x :: l)) (Z.max cap (zlen (t ++ join_with [47] (x :: l)))) s') /\
  (forall dbg s l, 0 < zlen l -> zlen l * 8 <= alloc_max -> path_build_n dbg s l = path_build dbg s l).
Proof. exact (conj build_new_ok (conj build_ok build_n_same)). Qed.
Print Assumptions C61_build_partial.

Theorem C61_validate :
  forall z q, oks z ->
  path_validate (map Some z ++ Some 0 :: q) = Ok (map Some (map (fun c => if c =? 92 then 47 else c) z) ++ Some 0 :: q).
Proof. exact path_validate_ok. Qed.
Print Assumptions C61_validate.

Example C61_example :
  (let* s := path_build_n true None [T "usr"; T "lib"; T "x"] in str_z s) = Ok (T "usr/lib/x") /\
  (let* b := path_validate (zblk (T "a\b/c")) in cstr b) = Ok (T "a/b/c").
Proof. split; vm_compute; reflexivity. Qed.

(** ** C62 Tilde expansion *)
(** Full statement: for all paths.  False: "~" alone and "" stop a debug build. *)
Theorem C62_tilde_refuted :
  path_expand_tilda true (Some (T "/home/u")) (T "~") = Abort /\ path_expand_tilda true (Some (T "/home/u")) [] = Abort.
Proof. split; vm_compute; reflexivity. Qed.
Print Assumptions C62_tilde_refuted.

(** Missing: "~" alone in debug builds, the empty path. *)
Theorem C62_tilde_partial :
  (forall dbg h r, oks r -> oks h -> zlen (126 :: r) + zlen h + 1 <= alloc_max -> 0 < zlen r \/ dbg = false ->
     exists s cap, path_expand_tilda dbg (Some h) (126 :: r) = Ok s /\ srep (h ++ r) cap s) /\
  (forall dbg home z, oks z -> 0 < zlen z -> zlen z + 1 <= alloc_max -> (forall r, z <> 126 :: r) \/ home = None ->
     exists s, path_expand_tilda dbg home z = Ok s /\ srep z (zlen z) s).
Proof. exact (conj tilda_ok tilda_other). Qed.
Print Assumptions C62_tilde_partial.

Example C62_example :
  (let* s := path_expand_tilda true (Some (T "/home/u")) (T "~/src") in str_z s) = Ok (T "/home/u/src") /\
  (let* s := path_expand_tilda true (Some (T "/home/u")) (T "a~/src") in str_z s) = Ok (T "a~/src").
Proof. split; vm_compute; reflexivity. Qed.

(** ** C63 Creating nested directories *)
(** Full statement: when true is returned, every ancestor of the path and the path itself
    are directories, nothing else changed.  False: nothing is created when an ancestor is a
    regular file, and a regular file in place of the path counts as success. *)
Theorem C63_mkdir_parents_refuted :
  path_mkdir_parents true fs0 [] (T "f/x") = Ok (fs0, true) /\ path_exists fs0 [] (T "f/x") = false /\
  path_mkdir_parents true fs0 [] (T "./f") = Ok (fs0, true) /\ path_is_dir fs0 [] (T "./f") = false.
Proof. repeat split; vm_compute; reflexivity. Qed.
Print Assumptions C63_mkdir_parents_refuted.

(** Missing: paths with "." or ".." components, ending in "//", without separator, the
    root, and paths leading through a regular file. *)
Theorem C63_mkdir_parents_partial :
  forall dbg fs cwd z, let st := start cwd z in let ns := names z in
  wf fs -> plain z -> In 47 z -> ns <> [] -> (forall a, z <> a ++ [47; 47]) -> zlen z + 2 <= alloc_max ->
  lookup fs cwd = Some EDir ->
  (forall a b, ns = a ++ b -> lookup fs (st ++ a) = None \/ lookup fs (st ++ a) = Some EDir) ->
  exists fs', path_mkdir_parents dbg fs cwd z = Ok (fs', true) /\ wf fs' /\
    (forall a b, ns = a ++ b -> lookup fs' (st ++ a) = Some EDir) /\
    (forall q, (forall a b, ns = a ++ b -> q <> st ++ a) -> lookup fs' q = lookup fs q).
Proof. exact mkdir_parents_ok. Qed.
Print Assumptions C63_mkdir_parents_partial.

Example C63_example :
  exists fs', path_mkdir_parents true fs0 [T "d"] (T "sub//p/q/") = Ok (fs', true) /\
  lookup fs' [T "d"; T "sub"; T "p"; T "q"] = Some EDir /\ zlen fs' = zlen fs0 + 2.
Proof. eexists. split; [vm_compute; reflexivity|]. split; vm_compute; reflexivity. Qed.

(** ** C87 Nested creation succeeds when it can *)
(** Full statement: if no ancestor is a regular file, the directory is made.  False: a new
    directory named without separator is refused. *)
Theorem C87_mkdir_parents_single_refuted :
  path_mkdir_parents true fs0 [] (T "new") = Ok (fs0, false) /\
  (forall dbg fs cwd z, wf fs -> oks z -> 0 < zlen z -> ~ In 47 z -> zlen z + 2 <= alloc_max ->
   path_exists fs cwd z = false -> path_mkdir_parents dbg fs cwd z = Ok (fs, false)).
Proof. split; [vm_compute; reflexivity|exact mkdir_parents_bare]. Qed.
Print Assumptions C87_mkdir_parents_single_refuted.

(** ** C64 Directory listing *)
Theorem C64_dir_list :
  (forall fs cwd z p ign, wf fs -> resolve fs cwd z = Some p -> lookup fs p = Some EDir ->
     exists l, path_dir_list fs cwd z ign = Some l /\ NoDup l /\
       forall n, In n l <-> lookup fs (p ++ [n]) <> None /\ (ign = true -> forall r, n <> 46 :: r)) /\
  (forall fs cwd z ign, path_is_dir fs cwd z = false -> path_dir_list fs cwd z ign = None).
Proof. exact (conj dir_list_ok dir_list_none). Qed.
Print Assumptions C64_dir_list.

Theorem C64_dir_list_recurse :
  forall fs cwd ign fuel z p pl, wf fs -> resolve fs cwd z = Some p -> lookup fs p = Some EDir -> (depth fs < fuel)%nat ->
  exists qs, dir_list_recurse fuel fs cwd ign pl z = Ok (Some (pl ++ map (below_text z) qs)) /\ listing fs p ign qs /\
    forall q, In q qs -> resolve fs cwd (below_text z q) = Some (p ++ q).
Proof. exact dir_list_recurse_full. Qed.
Print Assumptions C64_dir_list_recurse.

Example C64_example :
  dir_list_recurse 9 fs0 [] false [] (T "d") = Ok (Some [T "d/x"; T "d/sub/y"; T "d/sub/.h"; T "d/sub"]) /\
  dir_list_recurse 9 fs0 [] true [] (T "d") = Ok (Some [T "d/x"; T "d/sub/y"; T "d/sub"]) /\
  path_dir_list fs0 [T "d"] (T "..") false = Some [T "d"; T "f"] /\ path_dir_list fs0 [] (T "f") false = None.
Proof. repeat split; vm_compute; reflexivity. Qed.

(** ** C65 Recursive directory removal *)
(** Full statement: for every path of a directory.  False: named through "." (or through
    one of its own subdirectories and ".."), the contents are removed but the directory
    stays, and true is returned; so also if the system refuses to remove the directory itself
    ([lk] tells which entries it refuses to remove). *)
Definition free (p : path) : bool := false.
Theorem C65_rmdir_recurse_refuted :
  path_rmdir_recurse free 9 fs0 [] (T "d/.") = Ok ([([T "d"], EDir); ([T "f"], EFile (T "old"))], true) /\
  path_rmdir_recurse free 9 fs0 [] (T "d/sub/..") = Ok ([([T "d"], EDir); ([T "f"], EFile (T "old"))], true) /\
  path_rmdir_recurse (fun p => if path_dec p [T "d"] then true else false) 9 fs0 [] (T "d") =
    Ok ([([T "d"], EDir); ([T "f"], EFile (T "old"))], true).
Proof. repeat split; vm_compute; reflexivity. Qed.
Print Assumptions C65_rmdir_recurse_refuted.

(** Missing: paths with "." or ".." components, the root, directories that themselves cannot
    be removed.  [depth fs] bounds the recursion. *)
Theorem C65_rmdir_recurse_partial :
  (forall lk fs cwd z fuel, let p := target cwd z in
   wf fs -> plain z -> names z <> [] -> lookup fs p = Some EDir -> (depth fs < fuel)%nat ->
   (forall r, lookup fs (p ++ r) <> None -> lk (p ++ r) = false) ->
   exists fs', path_rmdir_recurse lk fuel fs cwd z = Ok (fs', true) /\ wf fs' /\
    (forall r, lookup fs' (p ++ r) = None) /\
    (forall x, (forall r, x <> p ++ r) -> lookup fs' x = lookup fs x)) /\
  (forall lk fs cwd z fuel, (0 < fuel)%nat -> path_is_dir fs cwd z = false -> path_rmdir_recurse lk fuel fs cwd z = Ok (fs, false)).
Proof. exact (conj rmdir_recurse_ok rmdir_recurse_not_dir). Qed.
Print Assumptions C65_rmdir_recurse_partial.

(** If an entry in the directory cannot be removed, false is returned, that entry is kept and
    nothing outside the directory is touched. *)
Theorem C65_failure_partial :
  forall lk fs cwd z fuel r, let p := target cwd z in
  wf fs -> plain z -> names z <> [] -> lookup fs p = Some EDir -> (depth fs < fuel)%nat ->
  r <> [] -> lookup fs (p ++ r) <> None -> lk (p ++ r) = true ->
  exists fs', path_rmdir_recurse lk fuel fs cwd z = Ok (fs', false) /\ wf fs' /\
    lookup fs' (p ++ r) = lookup fs (p ++ r) /\
    (forall x, lookup fs' x = lookup fs x \/ (exists r', r' <> [] /\ x = p ++ r') /\ lookup fs' x = None).
Proof. exact rmdir_recurse_stuck. Qed.
Print Assumptions C65_failure_partial.

Example C65_example :
  path_rmdir_recurse free 9 fs0 [] (T "d/") = Ok ([([T "f"], EFile (T "old"))], true) /\
  path_rmdir_recurse free 9 fs0 [] (T "f") = Ok (fs0, false) /\
  match path_rmdir_recurse (fun p => if path_dec p [T "d"; T "x"] then true else false) 9 fs0 [] (T "d") with
  | Ok (fs', b) => b = false /\ lookup fs' [T "d"; T "x"] = Some (EFile (T "hello"))
  | _ => False
  end.
Proof. repeat split; vm_compute; reflexivity. Qed.

(** ** C66 File write/read round trip *)
(** Full statement: for all texts.  False: a debug build stops when it reads an empty file. *)
Theorem C66_round_trip_refuted :
  exists fs', file_write fs0 [] (T "e") [] = (fs', true) /\ file_read true fs' [] (T "e") = Abort.
Proof. eexists. split; [vm_compute; reflexivity|]. vm_compute. reflexivity. Qed.
Print Assumptions C66_round_trip_refuted.

(** Missing: empty results in debug builds; paths with "." or ".." components or ending in
    a separator. *)
Theorem C66_round_trip_partial :
  forall dbg fs cwd z ns n (append ln : bool) (txt : text),
  let old := match lookup fs (target cwd z) with Some (EFile c) => if append then c else [] | _ => [] end in
  let c := old ++ txt ++ (if ln then [10] else []) in
  wf fs -> plain z -> (forall a, z <> a ++ [47]) -> names z = ns ++ [n] ->
  lookup fs (start cwd z ++ ns) = Some EDir -> lookup fs (target cwd z) <> Some EDir ->
  0 < zlen c \/ dbg = false -> zlen c + 1 <= alloc_max ->
  exists fs' s, file_writefc fs cwd z append ln txt = (fs', true) /\ wf fs' /\
    lookup fs' (target cwd z) = Some (EFile c) /\ (forall q, q <> target cwd z -> lookup fs' q = lookup fs q) /\
    file_read dbg fs' cwd z = Ok (Some s) /\ sb s = map Some c ++ [Some 0] /\ sl s = zlen c.
Proof. exact write_read. Qed.
Print Assumptions C66_round_trip_partial.

Example C66_example :
  (let '(fs1, _) := file_writeln fs0 [T "d"] (T "sub/n") (T "one") in
   let '(fs2, _) := file_append fs1 [T "d"] (T "sub/n") (T "two") in
   text_of (file_read true fs2 [T "d"] (T "sub/n"))) = Ok (Some (T "one" ++ [10] ++ T "two")) /\
  text_of (file_read true fs0 [] (T "f")) = Ok (Some (T "old")).
Proof. split; vm_compute; reflexivity. Qed.

(** ** C67 Reading into a caller buffer *)
Theorem C67_read_to_buffer :
  forall dbg fs cwd z b k, 0 < k <= zlen b ->
  match fs_stat fs cwd z with
  | Some (EFile c) => file_read_to_buffer dbg fs cwd z b k =
                      Ok (true, map Some (firstn (Z.to_nat k) c) ++ skipn (List.length (firstn (Z.to_nat k) c)) b)
  | _ => file_read_to_buffer dbg fs cwd z b k = Ok (false, b)
  end.
Proof. exact read_buffer_ok. Qed.
Print Assumptions C67_read_to_buffer.

Example C67_example :
  file_read_to_buffer true fs0 [] (T "d/x") (map Some (T "ABCDEFGH")) 3 = Ok (true, map Some (T "helDEFGH")) /\
  file_read_to_buffer true fs0 [] (T "d/x") (map Some (T "ABCDEFGH")) 7 = Ok (true, map Some (T "helloFGH")).
Proof. split; vm_compute; reflexivity. Qed.

(** ** C88 Removing one entry *)
Theorem C88_remove_one :
  (forall lk fs cwd z fs' b, wf fs -> path_rmdir lk fs cwd z = (fs', b) ->
   wf fs' /\
   (b = true -> exists p, resolve fs cwd z = Some p /\ lookup fs p = Some EDir /\ (forall n, lookup fs (p ++ [n]) = None) /\
                lookup fs' p = None /\ forall q, q <> p -> lookup fs' q = lookup fs q) /\
   (b = false -> fs' = fs)) /\
  (forall lk fs cwd z fs' b, wf fs -> path_remove lk fs cwd z = (fs', b) ->
   wf fs' /\
   (b = true -> exists p, resolve fs cwd z = Some p /\ lookup fs p <> None /\ (forall n, lookup fs (p ++ [n]) = None) /\
                lookup fs' p = None /\ forall q, q <> p -> lookup fs' q = lookup fs q) /\
   (b = false -> fs' = fs)).
Proof. exact (conj rmdir_effect remove_effect). Qed.
Print Assumptions C88_remove_one.

(** They do return true if nothing prevents it, at least for paths without "." and ".."
    components. *)
Theorem C88_success :
  forall lk fs cwd z p, wf fs -> plain z -> names z <> [] -> resolve fs cwd z = Some p -> p <> [] -> lk p = false ->
  (forall n, lookup fs (p ++ [n]) = None) ->
  (lookup fs p = Some EDir -> snd (path_rmdir lk fs cwd z) = true) /\
  (lookup fs p <> None -> snd (path_remove lk fs cwd z) = true).
Proof. exact removes. Qed.
Print Assumptions C88_success.

Example C88_example :
  path_rmdir free fs0 [] (T "d") = (fs0, false) /\ path_rmdir free fs0 [] (T "f") = (fs0, false) /\
  snd (path_remove free fs0 [] (T "d/../f")) = true /\ lookup (fst (path_remove free fs0 [] (T "d/../f"))) [T "f"] = None.
Proof. repeat split; vm_compute; reflexivity. Qed.

(** ** C89 Creating one directory *)
(** Full statement: true is returned exactly when the path is a directory afterwards.
    False: true is returned for a regular file. *)
Theorem C89_mkdir_refuted : path_mkdir fs0 [] (T "f") = (fs0, true) /\ path_is_dir fs0 [] (T "f") = false.
Proof. split; vm_compute; reflexivity. Qed.
Print Assumptions C89_mkdir_refuted.

(** Missing: what is at the path when it existed before; paths with "." or ".." components. *)
Theorem C89_mkdir_partial :
  forall fs cwd z fs' b, plain z -> wf fs -> path_mkdir fs cwd z = (fs', b) ->
  (b = true -> lookup fs (target cwd z) = None -> lookup fs' (target cwd z) = Some EDir) /\
  (b = true -> lookup fs' (target cwd z) <> None) /\
  (forall q, q <> target cwd z -> lookup fs' q = lookup fs q) /\
  (lookup fs (target cwd z) <> None \/ b = false -> fs' = fs).
Proof. exact mkdir_effect2. Qed.
Print Assumptions C89_mkdir_partial.

Example C89_example :
  snd (path_mkdir fs0 [] (T "d/new")) = true /\ lookup (fst (path_mkdir fs0 [] (T "d/new"))) [T "d"; T "new"] = Some EDir /\
  path_mkdir fs0 [] (T "g/new") = (fs0, false).
Proof. repeat split; vm_compute; reflexivity. Qed.
