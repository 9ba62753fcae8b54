(** Properties of tables kept in files (C205).  [write_table] (vt_str_join and vt_file_appendln once per row) and [read_table] (vt_file_read,
    vt_str_split at line feeds, vt_str_split of each line): TableProofs.v. *)
From Verif Require Import Base BaseFacts StrModel StrModel2 StrSpec StrProofs StrMain FsModel PathModel FsSpec FsProofs FsMain FsMain2 PropsPath LineProofs TableProofs.
From Coq Require Import String.
Local Open Scope list_scope.

(** ** C205 A table in a file *)
(** Full statement: rows of fields without separators and line feeds, joined with a separator and written one per line, come back from reading the
    file and splitting it twice.  False: an empty field ends the program in debug builds and is left out in release builds, so that the fields after
    it move to the place of the field before; and a row of one field comes back as NULL. *)
Theorem C205_table_refuted :
  write_table true fs0 [] (T "new") 59 [[T "a"; []; T "c"]] = Abort /\
  (exists fs, write_table false fs0 [] (T "new") 59 [[T "a"; []; T "c"]; [T "d"; T "e"; T "f"]] = Ok (fs, true) /\
     read_table false fs [] (T "new") 59 = Ok (Some [[T "a"; T "c"]; [T "d"; T "e"; T "f"]])) /\
  (exists fs, write_table true fs0 [] (T "new") 59 [[T "a"]; [T "b"; T "c"]] = Ok (fs, true) /\ read_table true fs [] (T "new") 59 = Ok (Some [[]; [T "b"; T "c"]])).
Proof. split; [vm_compute; reflexivity|]. split; eexists; (split; [vm_compute; reflexivity|]); vm_compute; reflexivity. Qed.
Print Assumptions C205_table_refuted.
(** Missing: empty fields and rows of one field.  (The file is new or empty; its directory exists.) *)
Theorem C205_table_partial :
  forall dbg fs cwd z ns n c rows, plain z -> (forall a, z <> a ++ [47]) -> names z = ns ++ [n] -> wf fs ->
  lookup fs (start cwd z ++ ns) = Some EDir -> lookup fs (target cwd z) = None \/ lookup fs (target cwd z) = Some (EFile []) ->
  okc c -> c <> 10 -> rows <> [] ->
  Forall (fun r => (2 <= List.length r)%nat /\ Forall (fun t => oks t /\ t <> [] /\ ~ In c t /\ ~ In 10 t) r) rows ->
  zlen (List.concat (map (fun r => join_with [c] r ++ [10]) rows)) + 1 <= alloc_max ->
  exists fs', write_table dbg fs cwd z c rows = Ok (fs', true) /\ read_table dbg fs' cwd z c = Ok (Some rows).
Proof.
  intros dbg fs cwd z ns n c rows P Hs E W L K Oc N10 N F A. apply (table_ok dbg fs cwd z ns n c rows P Hs E W L K Oc N10 N F).
  unfold of_lines. rewrite map_map. exact A.
Qed.
Print Assumptions C205_table_partial.
Example C205_example :
  exists fs, write_table true fs0 [] (T "d/prices") 59 [[T "tea"; T "2.50"]; [T "coffee"; T "3"; T "sold out"]] = Ok (fs, true) /\
    fs_stat fs [] (T "d/prices") = Some (EFile (T "tea;2.50" ++ [10] ++ T "coffee;3;sold out" ++ [10])) /\
    read_table true fs [] (T "d/prices") 59 = Ok (Some [[T "tea"; T "2.50"]; [T "coffee"; T "3"; T "sold out"]]).
Proof. eexists. split; [vm_compute; reflexivity|]. split; vm_compute; reflexivity. Qed.
