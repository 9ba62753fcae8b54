(** Properties of files of lines (C198).  [append_lines] (vt_file_appendln once per line), [line], [of_lines]: LineProofs.v. *)
From Verif Require Import Base BaseFacts StrModel StrModel2 StrSpec StrProofs StrMain FsModel PathModel FsSpec FsProofs FsMain FsMain2 PropsPath LineProofs.
From Coq Require Import String.
Local Open Scope list_scope.

(** ** C198 A file of lines *)
(** Full statement: lines written one by one with vt_file_appendln to a new file come back from vt_file_read and vt_str_split at line feeds.
    False: empty lines are left out, and after an empty last line the split reads beyond the storage (C36). *)
Theorem C198_lines_refuted :
  (exists fs s ps, append_lines fs0 [] (T "new") [T "a"; []; T "b"] = (fs, true) /\ file_read true fs [] (T "new") = Ok (Some s) /\
     str_split true (lf s) s [10] = Ok (Some ps) /\ map str_z ps = [Ok (T "a"); Ok (T "b")]) /\
  (exists fs s, append_lines fs0 [] (T "new") [T "a"; []] = (fs, true) /\ file_read true fs [] (T "new") = Ok (Some s) /\ str_split true (lf s) s [10] = UB).
Proof. split; [do 3 eexists|do 2 eexists]; repeat (split; [vm_compute; reflexivity|]); vm_compute; reflexivity. Qed.
Print Assumptions C198_lines_refuted.
(** Exactly: the file holds the lines, each ended by a line feed; the split gives the lines that are not empty, in order, if the last one is
    not empty; otherwise it is undefined.  (The file is new or empty; its directory exists.) *)
Theorem C198_lines_partial :
  forall dbg fs cwd z ns n ls, plain z -> (forall a, z <> a ++ [47]) -> names z = ns ++ [n] -> wf fs ->
  lookup fs (start cwd z ++ ns) = Some EDir -> lookup fs (target cwd z) = None \/ lookup fs (target cwd z) = Some (EFile []) ->
  ls <> [] -> Forall (fun l => oks l /\ ~ In 10 l) ls -> zlen (List.concat (map (fun l => l ++ [10]) ls)) + 1 <= alloc_max ->
  exists fs' s, append_lines fs cwd z ls = (fs', true) /\ file_read dbg fs' cwd z = Ok (Some s) /\ str_z s = Ok (List.concat (map (fun l => l ++ [10]) ls)) /\
    (last ls [] <> [] -> exists ps, str_split dbg (lf s) s [10] = Ok (Some ps) /\ Forall2 (fun l p => str_z p = Ok l) (filter (fun l => negb (zlen l =? 0)) ls) ps) /\
    (last ls [] = [] -> str_split dbg (lf s) s [10] = UB).
Proof. exact lines_ok. Qed.
Print Assumptions C198_lines_partial.
(** In particular, if no line is empty all come back. *)
Theorem C198_full_lines :
  forall dbg fs cwd z ns n ls, plain z -> (forall a, z <> a ++ [47]) -> names z = ns ++ [n] -> wf fs ->
  lookup fs (start cwd z ++ ns) = Some EDir -> lookup fs (target cwd z) = None \/ lookup fs (target cwd z) = Some (EFile []) ->
  ls <> [] -> Forall (fun l => oks l /\ ~ In 10 l /\ l <> []) ls -> zlen (List.concat (map (fun l => l ++ [10]) ls)) + 1 <= alloc_max ->
  exists fs' s ps, append_lines fs cwd z ls = (fs', true) /\ file_read dbg fs' cwd z = Ok (Some s) /\
    str_split dbg (lf s) s [10] = Ok (Some ps) /\ Forall2 (fun l p => str_z p = Ok l) ls ps.
Proof.
  intros dbg fs cwd z ns n ls P Hs E W L K N F A.
  assert (Forall line ls) as F'. { eapply Forall_impl; [|exact F]. intros l (O & X & _). now split. }
  destruct (lines_ok dbg fs cwd z ns n ls P Hs E W L K N F' A) as (f & s & E1 & E2 & _ & G & _).
  destruct G as (ps & E3 & G).
  - destruct (exists_last N) as (ls' & x & ->). rewrite last_last. apply Forall_app in F as [_ F]. inversion F as [|? ? (_ & _ & Nx) _]; subst. exact Nx.
  - exists f, s, ps. repeat (split; [assumption|]). assert (filter nonempty ls = ls) as <-; [|exact G].
    clear -F. induction F as [|l ls (_ & _ & Nl) _ IH]; [reflexivity|]. cbn [filter]. destruct l; [contradiction|]. unfold nonempty at 1. unfold zlen. cbn [List.length]. replace (Z.of_nat (S (List.length l)) =? 0) with false by lia. cbn [negb]. now rewrite IH.
Qed.
Print Assumptions C198_full_lines.

Example C198_example :
  exists fs s ps, append_lines fs0 [T "d"] (T "log") [T "first line"; T "2"; T "three"] = (fs, true) /\ file_read true fs [] (T "d/log") = Ok (Some s) /\
    str_split true (lf s) s [10] = Ok (Some ps) /\ map str_z ps = [Ok (T "first line"); Ok (T "2"); Ok (T "three")].
Proof. do 3 eexists; repeat (split; [vm_compute; reflexivity|]); vm_compute; reflexivity. Qed.
