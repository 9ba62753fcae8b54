(** C216, C217, C218: lines, tables and saved files in the Windows build.  [wappend_lines], [wwrite_table], [resave]: WinLines.v; [crlf]: WinModel.v;
    [read_table]: TableProofs.v. *)
From Verif Require Import Base BaseFacts StrModel StrModel2 StrSpec StrProofs StrMain FsModel PathModel FsSpec FsProofs FsMain FsMain2 PropsPath LineProofs TableProofs WinModel WinLines.
From Coq Require Import String.
Local Open Scope list_scope.

(** ** C216 A file of lines on Windows *)
(** Full statement: in the Windows build lines written one by one with vt_file_appendln to a new or empty file come back from vt_file_read and
    vt_str_split at line feeds.  False: every line comes back with a carriage return at its end, because the file is written in text mode and read in
    binary mode. *)
Theorem C216_lines_refuted :
  exists fs s ps, wappend_lines false fs0 [] (T "new") [T "a"; T "b"] = (fs, true) /\ file_read true fs [] (T "new") = Ok (Some s) /\
     str_split true (lf s) s [10] = Ok (Some ps) /\ map str_z ps = [Ok (T "a" ++ [13]); Ok (T "b" ++ [13])].
Proof. do 3 eexists; repeat (split; [vm_compute; reflexivity|]); vm_compute; reflexivity. Qed.
Print Assumptions C216_lines_refuted.
(** Exactly: every line comes back, the empty ones too (unlike C198), each with a carriage return at its end; the split is always defined.
    (The file is new or empty; its directory exists.) *)
Theorem C216_lines_partial :
  forall dbg fs cwd z ns n ls, plain z -> (forall a, z <> a ++ [47]) -> names z = ns ++ [n] -> wf fs ->
  lookup fs (start cwd z ++ ns) = Some EDir -> lookup fs (target cwd z) = None \/ lookup fs (target cwd z) = Some (EFile []) ->
  ls <> [] -> Forall (fun l => oks l /\ ~ In 10 l) ls -> zlen (List.concat (map (fun l => l ++ [13; 10]) ls)) + 1 <= alloc_max ->
  exists fs' s ps, wappend_lines false fs cwd z ls = (fs', true) /\ file_read dbg fs' cwd z = Ok (Some s) /\ str_z s = Ok (List.concat (map (fun l => l ++ [13; 10]) ls)) /\
    str_split dbg (lf s) s [10] = Ok (Some ps) /\ Forall2 (fun l p => str_z p = Ok (l ++ [13])) ls ps.
Proof. exact wlines_ok. Qed.
Print Assumptions C216_lines_partial.
(** With vt_file_appendbln it is as on other systems (C198). *)
Theorem C216_binary :
  forall dbg fs cwd z ns n ls, plain z -> (forall a, z <> a ++ [47]) -> names z = ns ++ [n] -> wf fs ->
  lookup fs (start cwd z ++ ns) = Some EDir -> lookup fs (target cwd z) = None \/ lookup fs (target cwd z) = Some (EFile []) ->
  ls <> [] -> Forall (fun l => oks l /\ ~ In 10 l) ls -> zlen (List.concat (map (fun l => l ++ [10]) ls)) + 1 <= alloc_max ->
  exists fs' s, wappend_lines true fs cwd z ls = (fs', true) /\ file_read dbg fs' cwd z = Ok (Some s) /\ str_z s = Ok (List.concat (map (fun l => l ++ [10]) ls)) /\
    (last ls [] <> [] -> exists ps, str_split dbg (lf s) s [10] = Ok (Some ps) /\ Forall2 (fun l p => str_z p = Ok l) (filter (fun l => negb (zlen l =? 0)) ls) ps) /\
    (last ls [] = [] -> str_split dbg (lf s) s [10] = UB).
Proof. intros dbg fs cwd z ns n ls. rewrite wlines_bin. apply lines_ok. Qed.
Print Assumptions C216_binary.
Example C216_example :
  exists fs s ps, wappend_lines false fs0 [] (T "d/new") [T "one"; []; T "three"; []] = (fs, true) /\ file_read true fs [] (T "d/new") = Ok (Some s) /\
    str_split true (lf s) s [10] = Ok (Some ps) /\ map str_z ps = [Ok (T "one" ++ [13]); Ok [13]; Ok (T "three" ++ [13]); Ok [13]].
Proof. do 3 eexists; repeat (split; [vm_compute; reflexivity|]); vm_compute; reflexivity. Qed.

(** ** C217 A table in a file on Windows *)
(** Full statement: in the Windows build rows of two or more fields, none of them empty, joined by a separator and written with vt_file_appendln, come back from
    vt_file_read and two splits.  False: the last field of every row has a carriage return at its end. *)
Theorem C217_table_refuted :
  exists fs, wwrite_table false true fs0 [] (T "new") 59 [[T "a"; T "b"]; [T "c"; T "d"]] = Ok (fs, true) /\
    read_table true fs [] (T "new") 59 = Ok (Some [[T "a"; T "b" ++ [13]]; [T "c"; T "d" ++ [13]]]).
Proof. eexists; (split; [vm_compute; reflexivity|]); vm_compute; reflexivity. Qed.
Print Assumptions C217_table_refuted.
(** Exactly so for all tables: only the last fields differ, by that one byte. *)
Theorem C217_table_partial :
  forall dbg fs cwd z ns n c rows, plain z -> (forall a, z <> a ++ [47]) -> names z = ns ++ [n] -> wf fs ->
  lookup fs (start cwd z ++ ns) = Some EDir -> lookup fs (target cwd z) = None \/ lookup fs (target cwd z) = Some (EFile []) ->
  okc c -> c <> 10 -> c <> 13 -> rows <> [] ->
  Forall (fun r => (2 <= List.length r)%nat /\ Forall (fun t => oks t /\ t <> [] /\ ~ In c t /\ ~ In 10 t) r) rows ->
  zlen (List.concat (map (fun r => join_with [c] r ++ [13; 10]) rows)) + 1 <= alloc_max ->
  exists fs', wwrite_table false dbg fs cwd z c rows = Ok (fs', true) /\
    read_table dbg fs' cwd z c = Ok (Some (map (fun r => removelast r ++ [last r [] ++ [13]]) rows)).
Proof. exact wtable_ok. Qed.
Print Assumptions C217_table_partial.
(** With vt_file_appendbln all fields come back. *)
Theorem C217_binary :
  forall dbg fs cwd z ns n c rows, plain z -> (forall a, z <> a ++ [47]) -> names z = ns ++ [n] -> wf fs ->
  lookup fs (start cwd z ++ ns) = Some EDir -> lookup fs (target cwd z) = None \/ lookup fs (target cwd z) = Some (EFile []) ->
  okc c -> c <> 10 -> rows <> [] ->
  Forall (fun r => (2 <= List.length r)%nat /\ Forall (fun t => oks t /\ t <> [] /\ ~ In c t /\ ~ In 10 t) r) rows ->
  zlen (List.concat (map (fun r => join_with [c] r ++ [10]) rows)) + 1 <= alloc_max ->
  exists fs', wwrite_table true dbg fs cwd z c rows = Ok (fs', true) /\ read_table dbg fs' cwd z c = Ok (Some rows).
Proof.
  intros dbg fs cwd z ns n c rows P Hs E W L K Oc N10 N F A. rewrite wtable_bin. apply (table_ok dbg fs cwd z ns n c rows P Hs E W L K Oc N10 N F).
  unfold of_lines. rewrite map_map. exact A.
Qed.
Print Assumptions C217_binary.
Example C217_example :
  exists fs, wwrite_table true true fs0 [] (T "d/prices") 59 [[T "tea"; T "2.50"]; [T "coffee"; T "3"; T "sold out"]] = Ok (fs, true) /\
    read_table true fs [] (T "d/prices") 59 = Ok (Some [[T "tea"; T "2.50"]; [T "coffee"; T "3"; T "sold out"]]).
Proof. eexists; (split; [vm_compute; reflexivity|]); vm_compute; reflexivity. Qed.

(** ** C218 Saving what was loaded *)
(** Full statement: a text file read with vt_file_read and written back with vt_file_write is unchanged, in the Windows build too.  False: there it gets
    longer each time. *)
Theorem C218_resave_refuted :
  exists fs fs', wappend_lines false fs0 [] (T "new") [T "k=1"] = (fs, true) /\ fs_stat fs [] (T "new") = Some (EFile (T "k=1" ++ [13; 10])) /\
    resave 3 false true fs [] (T "new") = Ok (fs', true) /\ fs_stat fs' [] (T "new") = Some (EFile (T "k=1" ++ [13; 13; 13; 13; 10])).
Proof. do 2 eexists; repeat (split; [vm_compute; reflexivity|]); vm_compute; reflexivity. Qed.
Print Assumptions C218_resave_refuted.
(** Missing: text mode and line feeds.  Exactly: each time every line feed gets one more carriage return before it ([bin] false); with vt_file_writeb ([bin]
    true) the file stays as it is.  Nothing else changes.  (Files with NUL: C206; empty files: C66.) *)
Theorem C218_resave_partial :
  forall (bin : bool) dbg fs cwd z ns n k c, plain z -> (forall a, z <> a ++ [47]) -> names z = ns ++ [n] -> wf fs ->
  lookup fs (start cwd z ++ ns) = Some EDir -> lookup fs (target cwd z) = Some (EFile c) -> fs_stat fs cwd z = Some (EFile c) -> c <> [] -> oks c ->
  zlen c + Z.of_nat k * Z.of_nat (count_occ Z.eq_dec c 10) + 1 <= alloc_max ->
  exists fs', resave k bin dbg fs cwd z = Ok (fs', true) /\
    fs_stat fs' cwd z = Some (EFile (if bin then c else flat_map (fun b => if b =? 10 then repeat 13 k ++ [10] else [b]) c)) /\
    (forall q, q <> target cwd z -> lookup fs' q = lookup fs q).
Proof.
  intros bin dbg fs cwd z ns n k c P Hs E W L K S Nc O A. destruct (resave_ok dbg cwd z ns n bin P Hs E k fs c W L K S Nc O A) as (f & E1 & S1 & Q1).
  exists f. split; [exact E1|]. split; [|exact Q1]. rewrite S1. destruct bin; [reflexivity|]. do 2 f_equal. apply iter_crlf.
Qed.
Print Assumptions C218_resave_partial.
(** The size grows by the number of lines each time. *)
Theorem C218_size :
  forall k c, zlen (flat_map (fun b => if b =? 10 then repeat 13 k ++ [10] else [b]) c) = zlen c + Z.of_nat k * Z.of_nat (count_occ Z.eq_dec c 10).
Proof. intros k c. rewrite <- iter_crlf. apply iter_len. Qed.
Print Assumptions C218_size.
Example C218_example :
  exists fs f2 f5, wappend_lines true fs0 [] (T "d/new") [T "k=1"; T "l=2"] = (fs, true) /\ resave 2 false true fs [] (T "d/new") = Ok (f2, true) /\
    fs_stat f2 [] (T "d/new") = Some (EFile (T "k=1" ++ [13; 13; 10] ++ T "l=2" ++ [13; 13; 10])) /\
    resave 5 true true fs [] (T "d/new") = Ok (f5, true) /\ fs_stat f5 [] (T "d/new") = Some (EFile (T "k=1" ++ [10] ++ T "l=2" ++ [10])).
Proof. do 3 eexists. repeat (split; [vm_compute; reflexivity|]). vm_compute. reflexivity. Qed.
