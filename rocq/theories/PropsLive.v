(** C222, C223: reading a file while other processes change it.  [live_read], [fread_live]: LiveModel.v. *)
From Verif Require Import Base BaseFacts StrModel StrModel2 StrSpec StrProofs StrMain FsModel PathModel FsSpec FsProofs FsMain FsMain2 RenameModel PropsPath LiveModel LiveProofs.
From Coq Require Import String.
Local Open Scope list_scope.

(** ** C222 Reading a file that is being replaced *)
(** Without other processes [live_read] is the function of all other properties. *)
Theorem C222_alone :
  forall dbg fs cwd z c, fs_stat fs cwd z = Some (EFile c) -> live_read dbg fs fs cwd z [(List.length c, c)] = file_read dbg fs cwd z.
Proof. exact live_alone. Qed.
Print Assumptions C222_alone.
(** Full statement: while another process replaces a file as in C195 (another file is written and renamed to its name), vt_file_read gives the old or the
    new text.  False: the size is asked for by the path, so it may be that of the new file while the opened file is the old one: the old text is cut, or
    NULL is returned. *)
Theorem C222_replaced_refuted :
  exists f1 f2 g1 g2 s, fs_stat fs0 [] (T "f") = Some (EFile (T "old")) /\
    file_write fs0 [] (T "tmp") (T "12") = (f1, true) /\ path_rename (fun _ => false) f1 [] (T "tmp") (T "f") = (f2, true) /\
    live_read true fs0 f2 [] (T "f") [(4096%nat, T "old")] = Ok (Some s) /\ str_z s = Ok (T "ol") /\
    file_write fs0 [] (T "tmp") (T "1234") = (g1, true) /\ path_rename (fun _ => false) g1 [] (T "tmp") (T "f") = (g2, true) /\
    live_read true fs0 g2 [] (T "f") [(4096%nat, T "old"); (4096%nat, T "old")] = Ok None.
Proof. do 5 eexists. repeat (split; [vm_compute; reflexivity|]). vm_compute. reflexivity. Qed.
Print Assumptions C222_replaced_refuted.
(** What is returned: NULL, or as much of the old text as the new one is long.  So it is right if the two are equally long, and NULL if the new one is longer.
    The opened file stays as it is, [old], although it has no name any more. *)
Theorem C222_replaced_partial :
  forall dbg fs1 fs2 cwd z old new sched, fs_stat fs1 cwd z = Some (EFile old) -> fs_stat fs2 cwd z = Some (EFile new) ->
  0 < zlen new \/ dbg = false -> zlen new + 1 <= alloc_max -> Forall (fun r => snd r = old) sched ->
  (live_read dbg fs1 fs2 cwd z sched = Ok None \/
   zlen new <= zlen old /\ exists s, live_read dbg fs1 fs2 cwd z sched = Ok (Some s) /\ sb s = map Some (firstn (List.length new) old) ++ [Some 0] /\ sl s = zlen new) /\
  (zlen old < zlen new -> live_read dbg fs1 fs2 cwd z sched = Ok None) /\
  (zlen new <= zlen old -> forall k sched', sched = (k, old) :: sched' -> (List.length new <= k)%nat -> live_read dbg fs1 fs2 cwd z sched <> Ok None).
Proof.
  intros dbg fs1 fs2 cwd z old new sched S1 S2 Hd A F. destruct (live_ok dbg fs1 fs2 cwd z (EFile old) new sched S1 S2 Hd A) as [H1 H2].
  destruct (live_same sched old (List.length new) F) as [D L]. pose proof (live_len sched 0 (List.length new)) as Ln. set (d := fread_live sched 0 (List.length new)) in *.
  split; [|split].
  - destruct (Z.eq_dec (zlen d) (zlen new)) as [E|E]; [right|left; now apply H2]. destruct (H1 E) as (s & X1 & X2 & X3). split; [unfold zlen in *; lia|]. exists s. split; [exact X1|]. split; [|exact X3].
    rewrite X2. rewrite D at 1. replace (List.length d) with (List.length new) by (unfold zlen in E; lia). reflexivity.
  - intros Lt. apply H2. unfold zlen in *. lia.
  - intros Le k sched' -> Hk. destruct H1 as (s & X & _); [|congruence]. unfold d. cbn [fread_live skipn]. replace (Nat.min k (List.length new)) with (List.length new) by lia.
    assert (List.length (firstn (List.length new) old) = List.length new) as Lf by (rewrite firstn_length; unfold zlen in Le; lia).
    destruct (firstn (List.length new) old) as [|x y] eqn:Ef; [unfold zlen; cbn [List.length] in *; lia|]. unfold zlen. rewrite app_length. pose proof (live_len sched' (0 + List.length (x :: y)) (List.length new - List.length (x :: y))). lia.
Qed.
Print Assumptions C222_replaced_partial.
Example C222_example :
  exists s, live_read true fs0 (store fs0 [T "f"] (EFile (T "new"))) [] (T "f") [(2%nat, T "old"); (2%nat, T "old")] = Ok (Some s) /\ str_z s = Ok (T "old").
Proof. eexists. split; vm_compute; reflexivity. Qed.

(** ** C223 Reading a file that is being written *)
(** Full statement: while another process writes the file anew with vt_file_write, vt_file_read gives the old or the new text or NULL.  The file holds at
    each moment the old text or a beginning of the new one (C193).  False: a beginning of the new text, or the beginning of the old and the rest of the
    new text may be returned; and a debug build that finds the file empty ends. *)
Theorem C223_written_refuted :
  let now c := store fs0 [T "f"] (EFile c) in
  (exists s, live_read true fs0 (now (T "ne")) [] (T "f") [(4096%nat, T "new text")] = Ok (Some s) /\ str_z s = Ok (T "ne")) /\
  (exists s, live_read true (now (T "abcdef")) (now (T "abcdef")) [] (T "f") [(3%nat, T "abcdef"); (3%nat, T "123456")] = Ok (Some s) /\ str_z s = Ok (T "abc456")) /\
  live_read true fs0 (now []) [] (T "f") [(4096%nat, T "new text")] = Abort.
Proof. cbn zeta. split; [eexists; split; vm_compute; reflexivity|]. split; [eexists; split; vm_compute; reflexivity|]. vm_compute. reflexivity. Qed.
Print Assumptions C223_written_refuted.
(** What holds: nothing undefined happens; a text returned is as long as the file was when its size was asked for, and each of its bytes is the one at this
    place of the old or of the new text; if one read call delivered everything it is a beginning of one of the two. *)
Theorem C223_written_partial :
  forall dbg fs1 fs2 cwd z e old new size sched,
  let moment c := c = old \/ exists k, c = firstn k new in
  fs_stat fs1 cwd z = Some e -> fs_stat fs2 cwd z = Some (EFile size) -> moment size -> Forall (fun r => moment (snd r)) sched ->
  zlen size + 1 <= alloc_max ->
  (zlen size = 0 /\ dbg = true /\ live_read dbg fs1 fs2 cwd z sched = Abort) \/
  live_read dbg fs1 fs2 cwd z sched = Ok None \/
  exists s d, live_read dbg fs1 fs2 cwd z sched = Ok (Some s) /\ sb s = map Some d ++ [Some 0] /\ sl s = zlen d /\ zlen d = zlen size /\
    (forall i, (i < List.length d)%nat -> nth_error d i = nth_error old i \/ nth_error d i = nth_error new i) /\
    (forall r, sched = [r] -> d = firstn (List.length d) old \/ d = firstn (List.length d) new).
Proof.
  intros dbg fs1 fs2 cwd z e old new size sched moment S1 S2 Ms F A.
  destruct (Z.eq_dec (zlen size) 0) as [E0|N0]; [destruct dbg|].
  - left. split; [exact E0|]. split; [reflexivity|]. apply (live_empty fs1 fs2 cwd z e); [exact S1|]. destruct size; [exact S2|]. rewrite zlen_cons in E0. pose proof (zlen_nonneg size). lia.
  - right. apply (live_cases false fs1 fs2 cwd z e old new size sched S1 S2); auto.
  - right. apply (live_cases dbg fs1 fs2 cwd z e old new size sched S1 S2); auto. left. pose proof (zlen_nonneg size). lia.
Qed.
Print Assumptions C223_written_partial.
Example C223_example :
  let now c := store fs0 [T "f"] (EFile c) in
  live_read true fs0 fs0 [] (T "f") [(4096%nat, T "n")] = Ok None /\
  (exists s, live_read true fs0 (now (T "new text")) [] (T "f") [(4%nat, T "new te"); (4096%nat, T "new text")] = Ok (Some s) /\ str_z s = Ok (T "new text")).
Proof. cbn zeta. split; [vm_compute; reflexivity|]. eexists. split; vm_compute; reflexivity. Qed.

(** ** C224 Reading a file that grows *)
(** While other processes only append to the file (vt_file_append and its siblings, vt_log), at each later moment it holds what it held before and more.
    Then a text returned is exactly what the file held when its size was asked for.  NULL is returned only if a read call fails (the list of calls ends before all
    is read) or delivers nothing although there is something; it is not if every call delivers at least one byte and there are enough calls, or if the
    first delivers all. *)
Theorem C224_grows :
  forall dbg fs1 fs2 cwd z e c sched, fs_stat fs1 cwd z = Some e -> fs_stat fs2 cwd z = Some (EFile c) -> 0 < zlen c \/ dbg = false -> zlen c + 1 <= alloc_max ->
  Forall (fun r => exists x, snd r = c ++ x) sched ->
  (forall s, live_read dbg fs1 fs2 cwd z sched = Ok (Some s) -> sb s = map Some c ++ [Some 0] /\ sl s = zlen c) /\
  (Forall (fun r => (0 < fst r)%nat) sched -> (List.length c <= List.length sched)%nat \/ (exists k x sched', sched = (k, x) :: sched' /\ (List.length c <= k)%nat) ->
   exists s, live_read dbg fs1 fs2 cwd z sched = Ok (Some s)) /\
  (live_read dbg fs1 fs2 cwd z sched = Ok None \/ exists s, live_read dbg fs1 fs2 cwd z sched = Ok (Some s)).
Proof. exact live_grows. Qed.
Print Assumptions C224_grows.
Example C224_example :
  exists s, live_read true fs0 (store fs0 [T "f"] (EFile (T "old1"))) [] (T "f") [(2%nat, T "old12"); (4096%nat, T "old1234")] = Ok (Some s) /\ str_z s = Ok (T "old1").
Proof. eexists. split; vm_compute; reflexivity. Qed.

(** ** C229 Reading into a buffer while the file changes *)
(** Without other processes [live_read_to_buffer] is the function of C67. *)
Theorem C229_alone :
  forall dbg fs cwd z b k c, fs_stat fs cwd z = Some (EFile c) ->
  live_read_to_buffer dbg fs fs cwd z b k [(List.length c, c)] = file_read_to_buffer dbg fs cwd z b k.
Proof. exact live_buffer_alone. Qed.
Print Assumptions C229_alone.
(** Whatever other processes do to the file (replaced, cut, rewritten, removed, grown), at most the first [k] bytes of the buffer change; each byte written is the one
    the file had at this place at the moment of some read call; if non-NULL is returned they are as many as the buffer holds or the file had; and
    if the file only grew they are the beginning of what it held when its size was asked for. *)
Theorem C229_buffer :
  forall dbg fs1 fs2 cwd z b k sched, 0 < k <= zlen b ->
  exists ok d, live_read_to_buffer dbg fs1 fs2 cwd z b k sched = Ok (ok, map Some d ++ skipn (List.length d) b) /\ zlen d <= k /\
    (ok = true -> zlen d = Z.min k (path_get_file_size fs2 cwd z)) /\
    (forall i, (i < List.length d)%nat -> exists n c, In (n, c) sched /\ nth_error d i = nth_error c i) /\
    (forall c, fs_stat fs2 cwd z = Some (EFile c) -> Forall (fun r => exists x, snd r = c ++ x) sched -> ok = true -> d = firstn (Z.to_nat k) c).
Proof. exact live_buffer. Qed.
Print Assumptions C229_buffer.
Example C229_example :
  live_read_to_buffer true fs0 (store fs0 [T "f"] (EFile (T "old1"))) [] (T "f") (map Some (T "ABCDEFGH")) 8 [(2%nat, T "old12"); (4096%nat, T "old1234")]
    = Ok (true, map Some (T "old1EFGH")) /\
  live_read_to_buffer true fs0 fs0 [] (T "f") (map Some (T "ABCDEFGH")) 8 [(2%nat, T "old"); (4096%nat, T "")] = Ok (false, map Some (T "olCDEFGH")).
Proof. split; vm_compute; reflexivity. Qed.
