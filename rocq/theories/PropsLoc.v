(** Properties of vt_path_get_this_exe_location and vt_path_get_cwd.  Statements only. *)
From Verif Require Import Base BaseFacts StrModel StrModel2 StrSpec StrProofs FsModel PathModel FsSpec FsProofs LocModel LocProofs PropsPath.
From Coq Require Import String.
Local Open Scope list_scope.

(** ** C126 The program's location *)
(** Full statement: the string returned holds the path of the program, as C string and with
    its length.  False for every path shorter than 4096 bytes: the bytes after the path are
    the question marks vt_str_create_capacity left there, no NUL is written, so that vt_str_z
    gives the path followed by question marks up to 4096 bytes. *)
Theorem C126_exe_refuted :
  forall dbg t, oks t -> 0 < zlen t < 4096 ->
  exists s z, get_exe dbg (Some t) = Ok (Some s) /\ cstr (sb s) = Ok z /\ z <> t /\ zlen z = 4096.
Proof.
  intros dbg t O L. destruct (exe_text dbg t O) as (s & E & _ & C); [lia|]. exists s, (t ++ repeat 63 (4096 - List.length t)).
  split; [exact E|]. split; [exact C|]. split.
  - intros H. apply (f_equal zlen) in H. revert H. rewrite zlen_app. unfold zlen in *. rewrite repeat_length. lia.
  - rewrite zlen_app. unfold zlen in *. rewrite repeat_length. lia.
Qed.
Print Assumptions C126_exe_refuted.
(** What holds: the length is that of the path (its first 4096 bytes), the storage starts with
    it; if the system cannot tell the path or it is empty, the result is NULL.  Missing: the
    NUL after the path. *)
Theorem C126_exe_partial :
  forall dbg t, oks t -> 0 < zlen t ->
  exists s, get_exe dbg (Some t) = Ok (Some s) /\ str_len s = Z.min (zlen t) 4096 /\
    bread (sb s) 0 (str_len s) = Ok (map Some (firstn 4096 t)) /\ zlen (sb s) = 4097.
Proof.
  intros dbg t O L. destruct (exe_ok dbg t O L) as (s & E & Sl & _ & Sb). exists s. split; [exact E|].
  assert (Ld : zlen (firstn 4096 t) = Z.min (zlen t) 4096) by (unfold zlen; rewrite firstn_length; lia).
  unfold str_len. rewrite Sl, Sb. split; [exact Ld|]. split.
  - replace (zlen (firstn 4096 t)) with (zlen (map (@Some Z) (firstn 4096 t))) by (unfold zlen; now rewrite map_length).
    apply (bread_app []); reflexivity.
  - unfold zlen in *. rewrite !app_length, map_length, repeat_length. cbn [List.length]. lia.
Qed.
Print Assumptions C126_exe_partial.
Theorem C126_fails_partial : forall dbg, get_exe dbg None = Ok None /\ get_exe dbg (Some []) = Ok None.
Proof. intros []; split; vm_compute; reflexivity. Qed.
Print Assumptions C126_fails_partial.
Example C126_example :
  (let* s := get_exe true (Some (T "/bin/x")) in
   match s with None => UB | Some s => let* z := cstr (sb s) in Ok (str_len s, firstn 9 z) end) = Ok (6, T "/bin/x???").
Proof. vm_compute. reflexivity. Qed.

(** ** C127 The working directory *)
(** The string returned holds a path that denotes the working directory, from wherever it is
    looked up. *)
Theorem C127_cwd :
  forall dbg fs cwd z, wf fs -> fs_getcwd fs cwd = Some z -> zlen z + 1 <= alloc_max ->
  exists s, get_cwd dbg fs cwd = Ok s /\ srep z (zlen z) s /\ forall c, resolve fs c z = Some cwd.
Proof. exact cwd_ok. Qed.
Print Assumptions C127_cwd.
(** If it has been removed, debug builds stop the program; release builds have undefined
    behaviour. *)
Theorem C127_removed :
  forall fs cwd, lookup fs cwd = None -> get_cwd true fs cwd = Abort /\ get_cwd false fs cwd = UB.
Proof. intros fs cwd L. unfold get_cwd, fs_getcwd. now rewrite L. Qed.
Print Assumptions C127_removed.
Example C127_example :
  lookup fs0 [T "d"] = Some EDir /\
  (let* s := get_cwd true fs0 [T "d"] in cstr (sb s)) = Ok (T "/d") /\ resolve fs0 [] (T "/d") = Some [T "d"] /\
  (let* s := get_cwd true fs0 [] in cstr (sb s)) = Ok (T "/").
Proof. repeat split; vm_compute; reflexivity. Qed.
