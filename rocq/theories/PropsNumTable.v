(** Properties of tables of numbers kept in files (C207).  [write_numbers] (vt_conv_..._to_str of each number, then as C205) and [read_numbers] (as C205, then
    vt_conv_str_to_... of each field): NumTable.v. *)
From Verif Require Import Base BaseFacts StrModel StrModel2 StrSpec StrProofs StrMain NumModel NumProofs FsModel PathModel FsSpec FsProofs FsMain FsMain2 PropsPath LineProofs TableProofs NumTable.
From Coq Require Import String.
Local Open Scope list_scope.

(** ** C207 A table of numbers in a file *)
(** Full statement: rows of integers, written as texts with a separator, one row per line, come back.  False: every negative number comes back as 0 (C47),
    and a row of one number comes back empty (C205). *)
Theorem C207_numbers_refuted :
  (exists fs, write_numbers true fs0 [] (T "new") 44 [[-5; 7]; [100; -1]] = Ok (fs, true) /\
     fs_stat fs [] (T "new") = Some (EFile (T "-5,7" ++ [10] ++ T "100,-1" ++ [10])) /\
     read_numbers (conv_str_to_i 32) true fs [] (T "new") 44 = Ok (Some [[0; 7]; [100; 0]])) /\
  (exists fs, write_numbers true fs0 [] (T "new") 44 [[5]; [6; 7]] = Ok (fs, true) /\ read_numbers (conv_str_to_i 32) true fs [] (T "new") 44 = Ok (Some [[]; [6; 7]])).
Proof. split; eexists; repeat (split; [vm_compute; reflexivity|]); vm_compute; reflexivity. Qed.
Print Assumptions C207_numbers_refuted.
(** Missing: negative numbers and rows of one number.  [w] is the width of the type: 8, 16, 32 or 64. *)
Theorem C207_numbers_partial :
  forall dbg fs cwd z ns n c w rows, plain z -> (forall a, z <> a ++ [47]) -> names z = ns ++ [n] -> wf fs ->
  lookup fs (start cwd z ++ ns) = Some EDir -> lookup fs (target cwd z) = None \/ lookup fs (target cwd z) = Some (EFile []) ->
  okc c -> c <> 10 -> ~ 48 <= c <= 57 -> w = 8 \/ w = 16 \/ w = 32 \/ w = 64 -> rows <> [] -> Forall (fun r => (2 <= List.length r)%nat) rows ->
  21 * zlen (List.concat rows) + 1 <= alloc_max ->
  (Forall (Forall (fun v => 0 <= v < 2 ^ w)) rows ->
   exists fs', write_numbers dbg fs cwd z c rows = Ok (fs', true) /\ read_numbers (conv_str_to_u w) dbg fs' cwd z c = Ok (Some rows)) /\
  (Forall (Forall (fun v => 0 <= v < 2 ^ (w - 1))) rows ->
   exists fs', write_numbers dbg fs cwd z c rows = Ok (fs', true) /\ read_numbers (conv_str_to_i w) dbg fs' cwd z c = Ok (Some rows)).
Proof.
  intros dbg fs cwd z ns n c w rows P Hs E W L K Oc N10 Nd Ww N F A. apply (number_table dbg fs cwd z ns n c w rows P Hs E W L K Oc N10 Nd Ww N F).
  replace (count_all rows) with (zlen (List.concat rows)); [exact A|]. clear. induction rows as [|r rows IH]; [reflexivity|]. cbn [List.concat count_all]. now rewrite zlen_app, IH.
Qed.
Print Assumptions C207_numbers_partial.
Example C207_example :
  exists fs, write_numbers true fs0 [] (T "d/n") 32 [[0; 255]; [18446744073709551615; 1; 20]] = Ok (fs, true) /\
    fs_stat fs [] (T "d/n") = Some (EFile (T "0 255" ++ [10] ++ T "18446744073709551615 1 20" ++ [10])) /\
    read_numbers (conv_str_to_u 64) true fs [] (T "d/n") 32 = Ok (Some [[0; 255]; [18446744073709551615; 1; 20]]).
Proof. eexists. repeat (split; [vm_compute; reflexivity|]). vm_compute. reflexivity. Qed.
