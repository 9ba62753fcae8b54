(** Exact outcomes: creating nested directories. *)
From Coq Require Import String Ascii Lia.
From Verif Require Import Base BaseFacts StrModel StrModel2 StrSpec FsModel PathModel FsSpec FsMain PropsPath ExactFs.
Local Open Scope list_scope.

(** ** C63 Creating nested directories: the outcome for every path *)
(** [dest p cs] is where the components lead by the text alone: "." stays, ".." goes up.
    1. Nothing but directories in the way: exactly the missing ones are made.
    2. The first regular file in the way ends it: the directories in front of it are made,
       nothing else, and true is returned all the same.
    3. A path that ends in two separators and does not exist is undefined behaviour.
    4. Only separators, i.e. the root: true.
    5. A name without separator: true if it exists, else false and nothing is made.
    6. The empty path ends the process, also in release builds. *)
Theorem C63_exact : forall dbg fs cwd z, let st := start cwd z in wf fs -> oks z -> zlen z + 2 <= alloc_max -> lookup fs cwd = Some EDir ->
  (In 47 z -> names z <> [] -> (forall a, z <> a ++ [47; 47]) ->
   (forall a b, names z = a ++ b -> lookup fs (dest st a) = None \/ lookup fs (dest st a) = Some EDir) ->
   exists fs', path_mkdir_parents dbg fs cwd z = Ok (fs', true) /\ wf fs' /\
     (forall a b, names z = a ++ b -> lookup fs' (dest st a) = Some EDir) /\
     (forall q, (forall a b, names z = a ++ b -> q <> dest st a) -> lookup fs' q = lookup fs q)) /\
  (forall ns1 n ns2 w, In 47 z -> names z = ns1 ++ n :: ns2 -> (forall a, z <> a ++ [47; 47]) ->
   (forall a b, ns1 = a ++ b -> lookup fs (dest st a) = None \/ lookup fs (dest st a) = Some EDir) ->
   lookup fs (dest st (ns1 ++ [n])) = Some (EFile w) ->
   exists fs', path_mkdir_parents dbg fs cwd z = Ok (fs', true) /\ wf fs' /\
     (forall a b, ns1 = a ++ b -> lookup fs' (dest st a) = Some EDir) /\
     (forall q, (forall a b, ns1 = a ++ b -> q <> dest st a) -> lookup fs' q = lookup fs q)) /\
  (forall a, z = a ++ [47; 47] -> path_exists fs cwd z = false -> path_mkdir_parents dbg fs cwd z = UB) /\
  (In 47 z -> names z = [] -> path_mkdir_parents dbg fs cwd z = Ok (fs, true)) /\
  (~ In 47 z -> z <> [] -> path_mkdir_parents dbg fs cwd z = Ok (fs, path_exists fs cwd z)) /\
  (z = [] -> path_mkdir_parents dbg fs cwd z = Abort).
Proof.
  intros dbg fs cwd z st W O F C. split; [intros; apply mkdir_parents_dots; assumption|]. split; [intros ns1 n ns2 w H1 H2 H3 H4 H5; exact (mkdir_parents_blocked dbg fs cwd z ns1 n ns2 w W O H1 H2 H3 F C H4 H5)|].
  split; [intros a -> E; apply mkdir_parents_double; assumption|]. split; [apply mkdir_parents_root|]. split.
  - intros H N. destruct (path_exists fs cwd z) eqn:E; [unfold path_mkdir_parents; now rewrite E|]. apply mkdir_parents_bare; trivial. destruct z; [contradiction|]. rewrite zlen_cons. pose proof (zlen_nonneg z0). lia.
  - intros ->. destruct dbg; reflexivity.
Qed.
Print Assumptions C63_exact.

Example C63_exact_example :
  names (T "new/./x/../y") = [T "new"; T "."; T "x"; T ".."; T "y"] /\ dest [] (names (T "new/./x/../y")) = [T "new"; T "y"] /\
  (exists fs', path_mkdir_parents true fs0 [] (T "new/./x/../y") = Ok (fs', true) /\ zlen fs' = zlen fs0 + 3 /\ lookup fs' [T "new"; T "y"] = Some EDir /\ lookup fs' [T "new"; T "x"] = Some EDir) /\
  path_mkdir_parents false fs0 [] (T "new//") = UB /\ path_mkdir_parents false fs0 [] (T "//") = Ok (fs0, true).
Proof. split; [reflexivity|]. split; [reflexivity|]. split; [eexists; split; [vm_compute; reflexivity|repeat split; vm_compute; reflexivity]|]. split; vm_compute; reflexivity. Qed.
