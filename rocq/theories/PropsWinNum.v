(** C219: tables of numbers in the Windows build.  [wwrite_numbers]: WinNum.v; [read_numbers]: NumTable.v. *)
From Verif Require Import Base BaseFacts StrModel StrModel2 StrSpec StrProofs StrMain NumModel NumProofs FsModel PathModel FsSpec FsProofs FsMain FsMain2 PropsPath LineProofs TableProofs NumTable WinModel WinLines WinNum.
From Coq Require Import String.
Local Open Scope list_scope.

(** ** C219 A table of numbers in a file on Windows *)
(** Full statement: in the Windows build rows of two or more unsigned integers, written as texts with a separator with vt_file_appendln, one row per line, come
    back.  False: the last number of every row comes back as 0, because its text ends in a carriage return, and vt_conv_str_to_* answers 0 for that. *)
Theorem C219_numbers_refuted :
  exists fs, wwrite_numbers false true fs0 [] (T "new") 44 [[5; 7]; [100; 41; 3]] = Ok (fs, true) /\
    fs_stat fs [] (T "new") = Some (EFile (T "5,7" ++ [13; 10] ++ T "100,41,3" ++ [13; 10])) /\
    read_numbers (conv_str_to_u 32) true fs [] (T "new") 44 = Ok (Some [[5; 0]; [100; 41; 0]]).
Proof. eexists; repeat (split; [vm_compute; reflexivity|]); vm_compute; reflexivity. Qed.
Print Assumptions C219_numbers_refuted.
(** Exactly so for all tables: all numbers but the last of each row.  [w] is the width of the type: 8, 16, 32 or 64. *)
Theorem C219_numbers_partial :
  forall dbg fs cwd z ns n c w rows, plain z -> (forall a, z <> a ++ [47]) -> names z = ns ++ [n] -> wf fs ->
  lookup fs (start cwd z ++ ns) = Some EDir -> lookup fs (target cwd z) = None \/ lookup fs (target cwd z) = Some (EFile []) ->
  okc c -> c <> 10 -> c <> 13 -> ~ 48 <= c <= 57 -> w = 8 \/ w = 16 \/ w = 32 \/ w = 64 -> rows <> [] -> Forall (fun r => (2 <= List.length r)%nat) rows ->
  22 * zlen (List.concat rows) + 1 <= alloc_max ->
  (Forall (Forall (fun v => 0 <= v < 2 ^ w)) rows ->
   exists fs', wwrite_numbers false dbg fs cwd z c rows = Ok (fs', true) /\ read_numbers (conv_str_to_u w) dbg fs' cwd z c = Ok (Some (map (fun r => removelast r ++ [0]) rows))) /\
  (Forall (Forall (fun v => 0 <= v < 2 ^ (w - 1))) rows ->
   exists fs', wwrite_numbers false dbg fs cwd z c rows = Ok (fs', true) /\ read_numbers (conv_str_to_i w) dbg fs' cwd z c = Ok (Some (map (fun r => removelast r ++ [0]) rows))).
Proof.
  intros dbg fs cwd z ns n c w rows P Hs E W L K Oc N10 N13 Nd Ww N F A. apply (wnumber_table dbg fs cwd z ns n c w rows P Hs E W L K Oc N10 N13 Nd Ww N F).
  replace (count_all rows) with (zlen (List.concat rows)); [exact A|]. clear. induction rows as [|r rows IH]; [reflexivity|]. cbn [List.concat count_all]. now rewrite zlen_app, IH.
Qed.
Print Assumptions C219_numbers_partial.
(** With vt_file_appendbln all numbers come back. *)
Theorem C219_binary :
  forall dbg fs cwd z ns n c w rows, plain z -> (forall a, z <> a ++ [47]) -> names z = ns ++ [n] -> wf fs ->
  lookup fs (start cwd z ++ ns) = Some EDir -> lookup fs (target cwd z) = None \/ lookup fs (target cwd z) = Some (EFile []) ->
  okc c -> c <> 10 -> ~ 48 <= c <= 57 -> w = 8 \/ w = 16 \/ w = 32 \/ w = 64 -> rows <> [] -> Forall (fun r => (2 <= List.length r)%nat) rows ->
  21 * zlen (List.concat rows) + 1 <= alloc_max -> Forall (Forall (fun v => 0 <= v < 2 ^ w)) rows ->
  exists fs', wwrite_numbers true dbg fs cwd z c rows = Ok (fs', true) /\ read_numbers (conv_str_to_u w) dbg fs' cwd z c = Ok (Some rows).
Proof.
  intros dbg fs cwd z ns n c w rows P Hs E W L K Oc N10 Nd Ww N F A G. destruct (number_table dbg fs cwd z ns n c w rows P Hs E W L K Oc N10 Nd Ww N F) as [X _].
  - replace (count_all rows) with (zlen (List.concat rows)); [exact A|]. clear. induction rows as [|r rows IH]; [reflexivity|]. cbn [List.concat count_all]. now rewrite zlen_app, IH.
  - destruct (X G) as (f & E1 & E2). exists f. split; [|exact E2]. unfold wwrite_numbers. rewrite <- E1. unfold write_numbers.
    destruct (map_res (map_res number_text) rows) as [ts| | |]; try reflexivity. cbn [bind]. apply wtable_bin.
Qed.
Print Assumptions C219_binary.
Example C219_example :
  exists fs, wwrite_numbers true true fs0 [] (T "new") 44 [[5; 7]; [255; 0; 3]] = Ok (fs, true) /\
    read_numbers (conv_str_to_u 8) true fs [] (T "new") 44 = Ok (Some [[5; 7]; [255; 0; 3]]).
Proof. eexists; (split; [vm_compute; reflexivity|]); vm_compute; reflexivity. Qed.
