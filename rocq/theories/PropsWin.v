(** C170, C171: the Windows build.  Statements and short proofs. *)
From Verif Require Import Base BaseFacts StrModel StrModel2 StrSpec StrProofs StrProofs2 StrProofs3 StrMain FsModel PathModel FsSpec FsProofs FsMain2 PathProofs PropsPath WinModel WinProofs.
From Coq Require Import String.
Local Open Scope list_scope.

(** ** C170 Paths on Windows *)
(** Full statement: in the Windows build vt_path_basename gives the part after the last separator
    and vt_path_pop takes it away, where both '\' and '/' separate, as they do for Windows itself.
    False: '/' is not seen. *)
Theorem C170_slash_refuted :
  text_of (wpath_basename true None (T "C:/lib/x.dll")) = Ok None /\
  text_of (wpath_basename true None (T "C:\lib/x.dll")) = Ok (Some (T "lib/x.dll")) /\
  (let* b := wpath_pop (zblk (T "C:\lib/x.dll")) in cstr b) = Ok (T "C:").
Proof. repeat split; vm_compute; reflexivity. Qed.
Print Assumptions C170_slash_refuted.
(** What holds: with '\' only. *)
Theorem C170_basename_partial :
  forall dbg s d b, oks (d ++ [92] ++ b) -> 0 < zlen d -> 0 < zlen b -> ~ In 92 b ->
  zlen (d ++ [92] ++ b) + 1 <= alloc_max -> target_ok s (zlen (d ++ [92] ++ b)) ->
  exists st cap, wpath_basename dbg s (d ++ [92] ++ b) = Ok (Some st) /\ srep b cap st.
Proof. exact wbasename_ok. Qed.
Print Assumptions C170_basename_partial.
Theorem C170_pop_partial :
  (forall a r q, oks (a ++ [92] ++ r) -> ~ In 92 r -> zlen (a ++ [92] ++ r) + 1 <= alloc_max ->
     wpath_pop (map Some (a ++ [92] ++ r) ++ Some 0 :: q) = Ok (map Some a ++ Some 0 :: map Some r ++ Some 0 :: q)) /\
  (forall z q, oks z -> 0 < zlen z -> ~ In 92 z -> zlen z + 1 <= alloc_max ->
     wpath_pop (map Some z ++ Some 0 :: q) = Ok (map Some z ++ Some 0 :: q)).
Proof. exact (conj wpop_ok wpop_bare). Qed.
Print Assumptions C170_pop_partial.
(** Built paths come apart again. *)
Theorem C170_build :
  forall dbg x l b, Forall (fun p => oks p /\ 0 < zlen p) (x :: l ++ [b]) -> ~ In 92 b -> zlen (join_with [92] (x :: l ++ [b])) + 1 <= alloc_max ->
  exists s st capb blk s', wpath_build dbg None (x :: l ++ [b]) = Ok s /\ str_z s = Ok (join_with [92] (x :: l ++ [b])) /\
    wpath_basename dbg None (join_with [92] (x :: l ++ [b])) = Ok (Some st) /\ srep b capb st /\
    wpath_pop (sb s) = Ok blk /\ cstr blk = Ok (join_with [92] (x :: l)) /\
    wpath_build dbg None [join_with [92] (x :: l); b] = Ok s' /\ str_equals s s' = Ok true.
Proof. exact wbuild_apart. Qed.
Print Assumptions C170_build.
(** vt_path_build_n joins its parts with '\'. *)
Theorem C170_build_n :
  forall dbg x l, Forall (fun p => oks p /\ 0 < zlen p) (x :: l) -> zlen (x :: l) * 8 <= alloc_max -> zlen (join_with [92] (x :: l)) + 1 <= alloc_max ->
  exists s, wpath_build_n dbg None (x :: l) = Ok s /\ str_z s = Ok (join_with [92] (x :: l)).
Proof.
  intros dbg x l H A B. rewrite wbuild_n_same by (rewrite ?zlen_cons in *; pose proof (zlen_nonneg l); lia).
  destruct (wbuild_new_ok dbg x l H B) as (s & E & R). exists s. split; [exact E|]. exact (z_ok _ _ _ R).
Qed.
Print Assumptions C170_build_n.
(** vt_path_validate makes every '/' a '\' and changes nothing else. *)
Theorem C170_validate : forall z q, oks z ->
  wpath_validate (map Some z ++ Some 0 :: q) = Ok (map Some (map (fun c => if c =? 47 then 92 else c) z) ++ Some 0 :: q).
Proof. exact wpath_validate_ok. Qed.
Print Assumptions C170_validate.
(** So after vt_path_validate the part after the last separator of either kind is found. *)
Theorem C170_mixed : forall dbg d c b q, oks (d ++ [c] ++ b) -> c = 47 \/ c = 92 -> 0 < zlen d -> 0 < zlen b -> ~ In 47 b -> ~ In 92 b ->
  zlen (d ++ [c] ++ b) + 1 <= alloc_max ->
  exists blk z st cap, wpath_validate (map Some (d ++ [c] ++ b) ++ Some 0 :: q) = Ok blk /\ cstr blk = Ok z /\
    wpath_basename dbg None z = Ok (Some st) /\ srep b cap st.
Proof.
  intros dbg d c b q O C Hd Hb N1 N2 A.
  assert (forall z, oks z -> oks (map wfix_sep z)) as K.
  { intros z Oz. unfold oks in *. rewrite Forall_map. eapply Forall_impl; [|exact Oz]. intros x Hx. unfold wfix_sep, okc in *. destruct (x =? 47); lia. }
  assert (map wfix_sep b = b) as Eb.
  { clear - N1. induction b as [|x b IH]; [reflexivity|]. cbn [map]. rewrite IH by (intros H; apply N1; now right). unfold wfix_sep at 1. replace (x =? 47) with false; [reflexivity|].
    symmetry. apply Z.eqb_neq. intros ->. apply N1. now left. }
  assert (map wfix_sep (d ++ [c] ++ b) = map wfix_sep d ++ [92] ++ b) as E.
  { rewrite !map_app, Eb. cbn [map]. destruct C as [->| ->]; reflexivity. }
  pose proof (K _ O) as O'. rewrite E in O'.
  destruct (wbasename_ok dbg None (map wfix_sep d) b O' ltac:(rewrite zlen_map; exact Hd) Hb N2) as (st & cap & Es & R).
  { revert A. rewrite !zlen_app, zlen_map. exact (fun A => A). }
  { intros s Hs. discriminate. }
  exists (map Some (map wfix_sep d ++ [92] ++ b) ++ Some 0 :: q), (map wfix_sep d ++ [92] ++ b), st, cap.
  split; [rewrite wpath_validate_ok, E by exact O; reflexivity|]. split; [|split; [exact Es|exact R]].
  apply cstr_app. now apply oks_nonul.
Qed.
Print Assumptions C170_mixed.
Example C170_example :
  text_of (wpath_basename true None (T "C:\lib\x.dll")) = Ok (Some (T "x.dll")) /\
  (let* s := wpath_build_n true None [T "C:"; T "lib"; T "x"] in str_z s) = Ok (T "C:\lib\x") /\
  (let* b := wpath_validate (zblk (T "C:/lib\x/y")) in let* z := cstr b in text_of (wpath_basename true None z)) = Ok (Some (T "y")).
Proof. repeat split; vm_compute; reflexivity. Qed.

(** ** C171 Files on Windows *)
(** Full statement: vt_file_read gives back the text written by vt_file_write and its siblings,
    also in the Windows build.  False: they write in text mode, where a line feed becomes two bytes,
    and read in binary mode. *)
Theorem C171_lines_refuted :
  exists fs', wfile_writefc false fs0 [] (T "e") false true (T "one") = (fs', true) /\
    text_of (file_read true fs' [] (T "e")) = Ok (Some (T "one" ++ [13; 10])).
Proof. eexists. split; [vm_compute; reflexivity|]. vm_compute. reflexivity. Qed.
Print Assumptions C171_lines_refuted.

Lemma crlf_id l : ~ In 10 l -> crlf l = l.
Proof.
  induction l as [|c l IH]; intros N; [reflexivity|]. unfold crlf in *. cbn [flat_map]. replace (c =? 10) with false by (symmetry; apply Z.eqb_neq; intros ->; apply N; now left).
  cbn [app]. f_equal. apply IH. intros H. apply N. now right.
Qed.

(** What holds: binary mode (vt_file_writeb and its siblings), or no line feed. *)
Theorem C171_written_partial :
  forall (bin : bool) dbg fs cwd z ns n (append ln : bool) (txt : text),
  let old := match lookup fs (target cwd z) with Some (EFile c) => if append then c else [] | _ => [] end in
  let c := old ++ txt ++ (if ln then [10] else []) in
  bin = true \/ (ln = false /\ ~ In 10 txt) ->
  wf fs -> plain z -> (forall a, z <> a ++ [47]) -> names z = ns ++ [n] ->
  lookup fs (start cwd z ++ ns) = Some EDir -> lookup fs (target cwd z) <> Some EDir ->
  0 < zlen c \/ dbg = false -> zlen c + 1 <= alloc_max ->
  exists fs' s, wfile_writefc bin fs cwd z append ln txt = (fs', true) /\
    file_read dbg fs' cwd z = Ok (Some s) /\ sb s = map Some c ++ [Some 0] /\ sl s = zlen c.
Proof.
  intros bin dbg fs cwd z ns n append ln txt old c B W P Hs E L K H1 H2.
  destruct (write_read dbg fs cwd z ns n append false (txt ++ (if ln then [10] else [])) W P Hs E L K) as (fs' & s & Ew & _ & _ & _ & Er & Rb & Rl).
  - fold old. rewrite app_nil_r. exact H1.
  - fold old. rewrite app_nil_r. exact H2.
  - fold old in Rb, Rl. rewrite app_nil_r in Rb, Rl. exists fs', s. split; [|now split].
    unfold wfile_writefc. destruct B as [->|[-> N]]; [exact Ew|]. cbn [app]. rewrite crlf_id, app_nil_r in * by (rewrite ?app_nil_r; assumption). destruct bin; exact Ew.
Qed.
Print Assumptions C171_written_partial.
(** In text mode the file is longer by the number of lines. *)
Theorem C171_length : forall l, zlen (crlf l) = zlen l + Z.of_nat (count_occ Z.eq_dec l 10).
Proof.
  induction l as [|c l IH]; [reflexivity|]. unfold crlf in *. cbn [flat_map count_occ]. rewrite zlen_app, IH, zlen_cons.
  destruct (Z.eq_dec c 10) as [->|N].
  - change (zlen (if 10 =? 10 then [13; 10] else [10])) with 2. lia.
  - replace (c =? 10) with false by lia. change (zlen [c]) with 1. lia.
Qed.
Print Assumptions C171_length.
Example C171_example :
  (let '(fs1, _) := wfile_writefc true fs0 [T "d"] (T "sub/n") false true (T "one") in
   let '(fs2, _) := wfile_writefc false fs1 [T "d"] (T "sub/n") true false (T "two") in
   text_of (file_read true fs2 [T "d"] (T "sub/n"))) = Ok (Some (T "one" ++ [10] ++ T "two")) /\
  crlf (T "a" ++ [10; 10]) = T "a" ++ [13; 10; 13; 10].
Proof. split; vm_compute; reflexivity. Qed.
