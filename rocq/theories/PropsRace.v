(** Several processes at work in the same directories.  Statements only. *)
From Coq Require Import String Ascii.
From Verif Require Import Base BaseFacts StrModel StrModel2 StrSpec StrProofs StrProofs2 StrProofs3 StrMain FsModel PathModel FsSpec PathProofs FsProofs FsMain ExactFs RaceModel RaceProofs.
Local Open Scope list_scope.
Local Open Scope Z_scope.
Definition T (s : string) : list Z := map (fun a => Z.of_N (N_of_ascii a)) (list_ascii_of_string s).

(** C182: any number of processes that call vt_path_mkdir_parents for any paths, in any interleaving of their
    system calls.  If nothing but directories is in the way, each process that is done finds all directories of its
    path, nothing else has changed, and everything that was there still is. *)
Theorem C182_nested : forall cwd fs0 zs sched, wf fs0 -> lookup fs0 cwd = Some EDir -> Forall oks zs ->
  (forall z a b, In z zs -> names z = a ++ b -> lookup fs0 (dest (start cwd z) a) = None \/ lookup fs0 (dest (start cwd z) a) = Some EDir) ->
  let '(fs, ps) := run cwd fs0 (map parents zs) sched in
  wf fs /\
  (forall q, lookup fs q = lookup fs0 q \/ (exists z a b, In z zs /\ names z = a ++ b /\ q = dest (start cwd z) a) /\ lookup fs q = Some EDir) /\
  List.length ps = List.length zs /\
  forall i z p, nth_error zs i = Some z -> nth_error ps i = Some p -> finished p = true ->
    forall a b, names z = a ++ b -> lookup fs (dest (start cwd z) a) = Some EDir.
Proof. intros cwd fs0 zs sched W C O K. exact (nested cwd fs0 zs W C O K sched). Qed.
Print Assumptions C182_nested.
(** Each is done after at most two steps for each name and two more. *)
Theorem C182_done : forall cwd fs0 zs sched i z, nth_error zs i = Some z ->
  2 * zlen (names z) + 2 <= Z.of_nat (count_occ Nat.eq_dec sched i) ->
  exists p, nth_error (snd (run cwd fs0 (map parents zs) sched)) i = Some p /\ finished p = true.
Proof.
  intros cwd fs0 zs sched i z E L. apply (all_done cwd i sched fs0 (map parents zs) (parents z)); [now rewrite nth_error_map, E|].
  now rewrite parents_left.
Qed.
Print Assumptions C182_done.
(** A process alone does what vt_path_mkdir_parents does in the model of one process. *)
Theorem C182_alone : forall dbg cwd fs z, oks z -> In 47 z -> names z <> [] -> (forall a, z <> a ++ [47; 47]) -> zlen z + 2 <= alloc_max ->
  exists k fs' p, run cwd fs [parents z] (repeat 0%nat k) = (fs', [p]) /\ finished p = true /\ path_mkdir_parents dbg fs cwd z = Ok (fs', true).
Proof. exact alone_parents. Qed.
Print Assumptions C182_alone.

(** Several processes that call vt_path_mkdir for the same missing directory: once one is done the directory is
    there and one of those done was told true. *)
Theorem C182_mkdir_partial : forall cwd fs0 z p n sched, path_exists fs0 cwd z = false -> new_entry fs0 cwd z = Some p ->
  let '(fs, ps) := run cwd fs0 (repeat (one_mkdir z) n) sched in
  (forall q, In q ps -> p_answers q = [] \/ p_answers q = [true] \/ p_answers q = [false]) /\
  ((forall q, In q ps -> finished q = false) /\ fs = fs0 \/
   fs = store fs0 p EDir /\ exists q, In q ps /\ finished q = true /\ p_answers q = [true]).
Proof. intros cwd fs0 z p n sched X N. exact (one_dir cwd fs0 z p X N n sched). Qed.
Print Assumptions C182_mkdir_partial.
(** Refuted: false is returned although the directory is there: it was made between the check and the call. *)
Theorem C182_mkdir_refuted :
  exists sched, let '(fs, ps) := run [] [] [one_mkdir (T "d"); one_mkdir (T "d")] sched in
  map p_answers ps = [[true]; [false]] /\ path_is_dir fs [] (T "d") = true.
Proof. exists [0; 1; 0; 1]%nat. vm_compute. now split. Qed.
Print Assumptions C182_mkdir_refuted.

(** Several processes that remove the same file: exactly one is told true, as soon as one is done. *)
Theorem C182_remove : forall cwd fs0 z p w n sched, resolve fs0 cwd z = Some p -> lookup fs0 p = Some (EFile w) ->
  let '(fs, ps) := run cwd fs0 (repeat (one_remove z) n) sched in
  (fs = fs0 /\ forall q, In q ps -> finished q = false) \/
  (fs = remove_key fs0 p /\ exists a q b, ps = a ++ q :: b /\ finished q = true /\ p_answers q = [true] /\
     forall r, In r (a ++ b) -> finished r = true -> p_answers r = [false]).
Proof. intros cwd fs0 z p w n sched R L. exact (one_file cwd fs0 z p w R L n sched). Qed.
Print Assumptions C182_remove.

Example C182_example :
  let zs := [T "a/b/c"; T "a/b/d/"; T "/a/x"] in
  let '(fs, ps) := run [] [] (map parents zs) [0;0;1;1;0;1;2;2;0;1;0;1;2;2;2;1;0;0;1;1;0;1;0;2]%nat in
  forallb finished ps = true /\ map (fun z => path_is_dir fs [] z) zs = [true; true; true] /\
  existsb (existsb negb) (map p_answers ps) = true.
Proof. vm_compute. repeat split. Qed.
