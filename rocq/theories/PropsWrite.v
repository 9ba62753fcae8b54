(** Properties of writing files on a medium with limited room.  Statements as in PropsPath.v. *)
From Verif Require Import Base BaseFacts StrModel FsModel PathModel FsSpec FsProofs FsMain FsMain2 PropsPath.
From Verif Require Import WriteModel.
From Coq Require Import String.
Local Open Scope list_scope.

(** ** C138 A write that reports success stored the text *)
(** Full statement: if true is returned, the file holds the text.  False: with no room left
    for the text true is returned, and the previous contents are lost as well. *)
Theorem C138_success_refuted :
  exists fs', file_write_room 2 fs0 [] (T "f") (T "new text") = (fs', true) /\
    lookup fs0 [T "f"] = Some (EFile (T "old")) /\ lookup fs' [T "f"] = Some (EFile (T "ne")).
Proof. eexists. repeat split; vm_compute; reflexivity. Qed.
Print Assumptions C138_success_refuted.

Lemma room_false room fs cwd z append ln txt fs' : file_writefc_room room fs cwd z append ln txt = (fs', false) -> fs' = fs.
Proof. unfold file_writefc_room. destruct fs_write; congruence. Qed.

Lemma room_eq room fs cwd z append (ln : bool) txt :
  file_writefc_room room fs cwd z append ln txt = file_writefc fs cwd z append false (firstn (Z.to_nat room) (txt ++ if ln then [10] else [])).
Proof. unfold file_writefc_room, file_writefc. now rewrite app_nil_r. Qed.

(** What holds: the file holds the text if there is room for it. *)
Theorem C138_success_partial :
  forall room fs cwd z append (ln : bool) txt, zlen txt + (if ln then 1 else 0) <= room ->
  file_writefc_room room fs cwd z append ln txt = file_writefc fs cwd z append ln txt.
Proof.
  intros room fs cwd z append ln txt H. rewrite room_eq. unfold file_writefc. rewrite app_nil_r, firstn_all2; [reflexivity|].
  rewrite app_length. unfold zlen in H. destruct ln; cbn [List.length]; lia.
Qed.
Print Assumptions C138_success_partial.

(** Without it the file holds a beginning of the text, after the old contents when
    appending; no other entry is touched. *)
Theorem C138_prefix :
  forall room fs cwd z ns n (append ln : bool) (txt : list Z),
  let old := match lookup fs (target cwd z) with Some (EFile c) => if append then c else [] | _ => [] end in
  let new := firstn (Z.to_nat room) (txt ++ (if ln then [10] else [])) in
  wf fs -> plain z -> (forall a, z <> a ++ [47]) -> names z = ns ++ [n] ->
  lookup fs (start cwd z ++ ns) = Some EDir -> lookup fs (target cwd z) <> Some EDir ->
  exists fs', file_writefc_room room fs cwd z append ln txt = (fs', true) /\ wf fs' /\
    lookup fs' (target cwd z) = Some (EFile (old ++ new)) /\
    forall q, q <> target cwd z -> lookup fs' q = lookup fs q.
Proof.
  intros room fs cwd z ns n append ln txt old new W P Hs E L K. rewrite room_eq. fold new.
  destruct (write_ok fs cwd z ns n append false new W P Hs E L K) as (fs' & Hw & W' & Q & _).
  exists fs'. split; [exact Hw|]. split; [exact W'|]. split.
  - rewrite Q. destruct path_dec as [_|F]; [|now elim F]. unfold written. fold old. now rewrite app_nil_r.
  - intros q Hq. rewrite Q. destruct path_dec; congruence.
Qed.
Print Assumptions C138_prefix.

(** A call that reports failure changed nothing. *)
Theorem C138_failure :
  forall room fs cwd z append ln txt fs', file_writefc_room room fs cwd z append ln txt = (fs', false) -> fs' = fs.
Proof. exact room_false. Qed.
Print Assumptions C138_failure.

Example C138_example :
  (let '(fs1, b1) := file_appendln_room 4 fs0 [T "d"] (T "x") (T "ab") in
   let '(fs2, b2) := file_append_room 1 fs1 [T "d"] (T "x") (T "cd") in
   let '(fs3, b3) := file_write_room 9 fs2 [T "d"] (T "sub") (T "q") in
   (b1, b2, b3, lookup fs1 [T "d"; T "x"], lookup fs2 [T "d"; T "x"], lookup fs3 [T "d"; T "sub"])) =
  (true, true, false, Some (EFile (T "helloab" ++ [10])), Some (EFile (T "helloab" ++ [10] ++ T "c")), Some EDir).
Proof. vm_compute. reflexivity. Qed.
