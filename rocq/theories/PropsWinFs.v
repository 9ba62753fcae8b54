(** Directories on Windows.  Statements only. *)
From Coq Require Import String Ascii Lia.
From Verif Require Import Base BaseFacts StrModel StrModel2 StrSpec StrProofs StrProofs2 StrMain FsModel PathModel FsSpec FsMain FsMain2 FsProofs ExactFs RenameModel RenameProofs MoreProofs WinModel PropsPath PropsExact3 PropsRename WinFsModel WinFsProofs.
Local Open Scope list_scope.
Local Open Scope Z_scope.

(** A machine with a drive and a share; the working directory is C:\work. *)
Definition cdrive : fsys := [([T "work"], EDir); ([T "work"; T "x"], EFile (T "mine")); ([T "x"], EFile (T "other")); ([T "lib"], EDir); ([T "lib"; T "y"], EFile [])].
Definition mach : machine := fun v => if name_dec v (T "C:") then Some cdrive else if name_dec v (T "//srv/share") then Some [] else None.
Definition here : list Z * path := (T "C:", [T "work"]).
Definition nolk : list Z -> path -> bool := fun _ _ => false.
Definition after {A} (r : res (machine * A)) (v : list Z) (p : path) : res (option entry * A) :=
  match r with Ok (M, a) => Ok (match M v with Some fs => lookup fs p | None => None end, a) | Abort => Abort | UB => UB | NoFuel => NoFuel end.

(** ** C183 Nested directories on Windows *)
(** Refuted: for a path on a share the directories are made on the current drive and true is returned; with a '/'
    in the path nothing is made and true is returned. *)
Theorem C183_share_refuted :
  after (wpath_mkdir_parents true true mach here (T "\\srv\share\d")) (T "//srv/share") [T "d"] = Ok (None, true) /\
  after (wpath_mkdir_parents true true mach here (T "\\srv\share\d")) (T "C:") [T "srv"; T "share"; T "d"] = Ok (Some EDir, true).
Proof. split; vm_compute; reflexivity. Qed.
Print Assumptions C183_share_refuted.
Theorem C183_slash_refuted :
  after (wpath_mkdir_parents true true mach here (T "a/b\c")) (T "C:") [T "work"; T "a"] = Ok (None, true) /\
  after (wpath_mkdir_parents true true mach here (T "a/b\c")) (T "C:") [T "work"; T "a"; T "b"; T "c"] = Ok (None, true).
Proof. split; vm_compute; reflexivity. Qed.
Print Assumptions C183_slash_refuted.
(** What holds: with '\' between the names and on a drive (named or current), nothing but directories in the way,
    exactly the missing directories are made, on that drive.  [ts]: whether stat takes a separator at the end. *)
Theorem C183_nested_partial : forall dbg ts M cw z v x fs, let st := start (dir_on cw v) x in
  oks z -> ~ In 47 z -> In 92 z -> zlen z + 2 <= alloc_max -> (forall a, z <> a ++ [92; 92]) ->
  (forall r, z <> 92 :: 92 :: r) -> (forall c r, z = c :: 58 :: r -> c = 92 \/ exists r', r = 92 :: r') ->
  wparse (fst cw) z = Some (v, x) -> M v = Some fs -> wf fs -> lookup fs (dir_on cw v) = Some EDir ->
  names x <> [] -> (ts = true \/ last x 0 <> 47) ->
  (forall a b, names x = a ++ b -> lookup fs (dest st a) = None \/ lookup fs (dest st a) = Some EDir) ->
  exists M' fs', wpath_mkdir_parents dbg ts M cw z = Ok (M', true) /\ M' v = Some fs' /\ wf fs' /\
    (forall u, u <> v -> M' u = M u) /\
    (forall a b, names x = a ++ b -> lookup fs' (dest st a) = Some EDir) /\
    (forall q, (forall a b, names x = a ++ b -> q <> dest st a) -> lookup fs' q = lookup fs q).
Proof.
  intros dbg ts M cw z v x fs st O N I L D S1 S2 P HM W C Hne T K.
  destruct (wmkdir_parents_sim dbg ts M cw z v x fs O N I (conj S1 S2) D L P HM Hne) as (M' & fs' & E & E' & HP).
  { destruct T as [->|T]; [now left|right]. unfold ends_in_slash. now apply Z.eqb_neq. }
  destruct (parse_texts (fst cw) z v x O N P (conj S1 S2) I D) as (Ox & Ix & Dx & Lx).
  destruct (C63_exact dbg fs (dir_on cw v) x W Ox ltac:(lia) C) as [H _]. destruct (H Ix Hne Dx K) as (fs2 & E2 & W2 & A2 & B2).
  rewrite E' in E2. injection E2 as <-. exists M', fs'. split; [exact E|]. split; [now apply is_put_at with M|]. split; [exact W2|]. split; [|now split].
  intros u Hu. rewrite HP. destruct (name_dec u v); [contradiction|reflexivity].
Qed.
Print Assumptions C183_nested_partial.
Example C183_example :
  after (wpath_mkdir_parents true false mach here (T "C:\lib\new\dir")) (T "C:") [T "lib"; T "new"; T "dir"] = Ok (Some EDir, true) /\
  after (wpath_mkdir_parents false false mach here (T "a\..\b\")) (T "C:") [T "work"; T "b"] = Ok (Some EDir, true) /\
  wparse (T "C:") (T "C:\lib\new\dir") = Some (T "C:", T "/lib/new/dir") /\ wparse (T "C:") (T "a\b") = Some (T "C:", T "a/b") /\
  after (wpath_mkdir_parents true true mach here (T "D:\q\r")) (T "C:") [T "q"] = Ok (None, true).
Proof. repeat (split; [vm_compute; reflexivity|]). vm_compute. reflexivity. Qed.

(** ** C184 Recursive removal and listing on Windows *)
(** Refuted: "C:" is the working directory on that drive; the contents of the root with the same names are removed
    in place of its own, and true is returned. *)
Theorem C184_drive_refuted :
  after (wpath_rmdir_recurse nolk true 9 mach here (T "C:")) (T "C:") [T "work"; T "x"] = Ok (Some (EFile (T "mine")), true) /\
  after (wpath_rmdir_recurse nolk true 9 mach here (T "C:")) (T "C:") [T "x"] = Ok (None, true).
Proof. split; vm_compute; reflexivity. Qed.
Print Assumptions C184_drive_refuted.
(** The listing of the root gives paths that name servers. *)
Theorem C184_root_refuted :
  exists l, wdir_list_recurse 9 true mach here true [] (T "\") = Ok (Some l) /\ l = [T "\\work"; T "\\x"; T "\\lib"] /\
    forallb (fun z => negb (wpath_exists true mach here z)) l = true.
Proof. eexists. split; [vm_compute; reflexivity|]. split; vm_compute; reflexivity. Qed.
Print Assumptions C184_root_refuted.
(** What holds: for a path that is more than the name of a drive, root or share ([steady]) the directory and everything
    in it is removed, on its volume, and nothing else. *)
Theorem C184_remove_partial : forall lk ts M cw z v x fs fuel, let p := target (dir_on cw v) x in
  steady z = true -> wparse (fst cw) z = Some (v, x) -> M v = Some fs -> wf fs -> (forall q e n, In (q, e) fs -> In n q -> ~ In 92 n) ->
  (ts = true \/ last x 0 <> 47) -> plain x -> names x <> [] -> lookup fs p = Some EDir -> (depth fs < fuel)%nat ->
  (forall r, lookup fs (p ++ r) <> None -> lk v (p ++ r) = false) ->
  exists M' fs', wpath_rmdir_recurse lk ts fuel M cw z = Ok (M', true) /\ M' v = Some fs' /\ wf fs' /\ (forall u, u <> v -> M' u = M u) /\
    (forall r, lookup fs' (p ++ r) = None) /\ (forall q, (forall r, q <> p ++ r) -> lookup fs' q = lookup fs q).
Proof.
  intros lk ts M cw z v x fs fuel p S P HM W N9 T Pl Hne L D K.
  assert (rel ts cw v z x) as R. { split; [exact P|]. destruct T as [->|T]; [now left|right]. unfold ends_in_slash. now apply Z.eqb_neq. }
  pose proof (rmdir_recurse_sim ts cw v lk M fs fuel z x HM (winfs_of fs W N9) R S) as Sim.
  destruct (proj1 C65_rmdir_recurse_partial (lk v) fs (dir_on cw v) x fuel W Pl Hne L D K) as (fs' & E & W' & A & B). rewrite E in Sim.
  destruct (wpath_rmdir_recurse lk ts fuel M cw z) as [[M' b]| | |]; try contradiction. destruct Sim as [-> HP].
  exists M', fs'. split; [reflexivity|]. split; [now apply is_put_at with M|]. split; [exact W'|]. split; [|now split].
  intros u Hu. rewrite HP. destruct (name_dec u v); [contradiction|reflexivity].
Qed.
Print Assumptions C184_remove_partial.
Example C184_example :
  after (wpath_rmdir_recurse nolk false 9 mach here (T "C:\lib")) (T "C:") [T "lib"; T "y"] = Ok (None, true) /\
  after (wpath_rmdir_recurse nolk false 9 mach here (T "..\lib")) (T "C:") [T "lib"] = Ok (None, true) /\
  after (wpath_rmdir_recurse nolk false 9 mach here (T "\lib")) (T "C:") [T "x"] = Ok (Some (EFile (T "other")), true) /\
  steady (T "C:\lib") = true /\ steady (T "C:") = false /\ steady (T "\\srv\share") = false /\ steady (T "\\srv\share\d") = true.
Proof. repeat (split; [vm_compute; reflexivity|]). vm_compute. reflexivity. Qed.

(** ** C185 Renaming on Windows *)
(** On one volume: nothing that exists is replaced; to a free place the effect is that of C122. *)
Theorem C185_rename : forall lk ts M cw z1 z2 v fs x y p q,
  wparse (fst cw) z1 = Some (v, x) -> wparse (fst cw) z2 = Some (v, y) -> M v = Some fs -> (ts = true \/ last x 0 <> 47) ->
  resolve fs (dir_on cw v) x = Some p -> entry_place fs (dir_on cw v) y = Some q ->
  (lookup fs q <> None -> p <> q -> wpath_rename lk ts M cw z1 z2 = (M, false)) /\
  (lookup fs q = None \/ p = q ->
   let '(M', b) := wpath_rename lk ts M cw z1 z2 in let '(fs', b') := path_rename (lk v) fs (dir_on cw v) x y in
   b = b' /\ forall u, M' u = if name_dec u v then Some fs' else M u).
Proof.
  intros lk ts M cw z1 z2 v fs x y p q P1 P2 HM T. apply wrename_sim; trivial. destruct T as [->|T]; [now left|right]. unfold ends_in_slash. now apply Z.eqb_neq.
Qed.
Print Assumptions C185_rename.
Theorem C185_false : forall lk ts M cw z1 z2 M', wpath_rename lk ts M cw z1 z2 = (M', false) -> M' = M.
Proof. exact wrename_false. Qed.
Print Assumptions C185_false.
(** Between volumes: files only, and only to a free place; the content goes along. *)
Theorem C185_across : forall lk ts M cw z1 z2 v u fs fu x y M',
  wparse (fst cw) z1 = Some (v, x) -> wparse (fst cw) z2 = Some (u, y) -> v <> u -> M v = Some fs -> M u = Some fu ->
  wpath_rename lk ts M cw z1 z2 = (M', true) ->
  exists p q w, resolve fs (dir_on cw v) x = Some p /\ lookup fs p = Some (EFile w) /\ entry_place fu (dir_on cw u) y = Some q /\ lookup fu q = None /\
    M' v = Some (remove_key fs p) /\ M' u = Some (store fu q (EFile w)) /\ forall t, t <> v -> t <> u -> M' t = M t.
Proof. exact wrename_across. Qed.
Print Assumptions C185_across.
Example C185_example :
  after (Ok (wpath_rename nolk true mach here (T "x") (T "..\x"))) (T "C:") [T "x"] = Ok (Some (EFile (T "other")), false) /\
  after (Ok (wpath_rename nolk true mach here (T "x") (T "..\w"))) (T "C:") [T "w"] = Ok (Some (EFile (T "mine")), true) /\
  after (Ok (wpath_rename nolk true mach here (T "x") (T "\\srv\share\w"))) (T "//srv/share") [T "w"] = Ok (Some (EFile (T "mine")), true) /\
  after (Ok (wpath_rename nolk true mach here (T "\lib") (T "\\srv\share\w"))) (T "//srv/share") [T "w"] = Ok (None, false).
Proof. repeat (split; [vm_compute; reflexivity|]). vm_compute. reflexivity. Qed.

(** ** Single calls of C183 and C184 *)
(** One directory: what is there stays and true is returned, whatever it is; else as in C62, on the volume. *)
Theorem C183_mkdir : forall ts M cw z,
  (wpath_exists ts M cw z = true -> wpath_mkdir ts M cw z = (M, true)) /\
  (forall v x fs, wparse (fst cw) z = Some (v, x) -> M v = Some fs -> ts = true \/ last x 0 <> 47 ->
   let '(M', b) := wpath_mkdir ts M cw z in let '(fs', b') := path_mkdir fs (dir_on cw v) x in
   b = b' /\ forall u, M' u = if name_dec u v then Some fs' else M u) /\
  (forall M', wpath_mkdir ts M cw z = (M', false) -> M' = M) /\
  (wparse (fst cw) z = None -> wpath_mkdir ts M cw z = (M, false)).
Proof.
  intros ts M cw z. split; [|split; [|split]].
  - intros E. unfold wpath_mkdir. now rewrite E.
  - intros v x fs P HM T. assert (R : rel ts cw v z x). { split; [exact P|]. destruct T as [->|T]; [now left|right]. unfold ends_in_slash. now apply Z.eqb_neq. }
    pose proof (is_put_self M v fs HM) as HP. unfold wpath_mkdir, path_mkdir. rewrite (exists_sim ts cw v M fs z x HM R). destruct (path_exists fs (dir_on cw v) x); [now split|].
    unfold w_CreateDirectory, change. rewrite P, HM. destruct (fs_mkdir fs (dir_on cw v) x); [split; [reflexivity|now apply is_put_put with fs]|now split].
  - intros M'. unfold wpath_mkdir. destruct (wpath_exists ts M cw z); [discriminate|]. destruct (w_CreateDirectory M cw z); congruence.
  - intros P. unfold wpath_mkdir, wpath_exists, w_stat, on, w_CreateDirectory, change. now rewrite P.
Qed.
Print Assumptions C183_mkdir.
(** With an older C runtime a directory that is there is not found under a name with a separator at the end. *)
Theorem C183_mkdir_refuted : wpath_is_dir false mach here (T "\lib") = true /\ snd (wpath_mkdir false mach here (T "\lib\")) = false.
Proof. split; vm_compute; reflexivity. Qed.
Print Assumptions C183_mkdir_refuted.
(** A path without '\' is never made. *)
Theorem C183_one : forall dbg ts M cw z, oks z -> z <> [] -> ~ In 92 z -> zlen z + 2 <= alloc_max -> wpath_mkdir_parents dbg ts M cw z = Ok (M, wpath_exists ts M cw z).
Proof.
  intros dbg ts M cw z O Hz N F. unfold wpath_mkdir_parents. destruct (wpath_exists ts M cw z); [reflexivity|].
  assert (Hz0 : 0 < zlen z) by (destruct z; [contradiction|unfold zlen; cbn [List.length]; lia]).
  destruct (create_ok dbg z O Hz0) as (s & E1 & R1); [lia|]. rewrite E1. cbn [bind].
  assert (L : str_len s = zlen z) by (unfold str_len; apply (r_len _ _ _ R1)). rewrite L.
  assert (W : w64 (zlen z + 1) = zlen z + 1) by (unfold w64, two64; apply Z.mod_small; unfold alloc_max in F; lia). rewrite W.
  destruct (create_capacity_ok dbg (zlen z + 1)) as (sf & E2 & R2); [lia|lia|]. rewrite E2. cbn [bind].
  destruct z as [|c z]; [contradiction|]. replace (c =? 92) with false by (symmetry; apply Z.eqb_neq; intros ->; apply N; now left). cbn [bind].
  assert (Sc : scan wsep (c :: z) [c :: z]). { constructor. intros a b E. apply N. rewrite E. apply in_or_app. right. now left. }
  destruct (split_scan dbg _ _ _ wsep _ R1 ltac:(rewrite wsep_len; unfold zlen in *; cbn [List.length] in *; lia) Sc) as [H1 _].
  unfold lf in H1. rewrite H1 by reflexivity. reflexivity.
Qed.
Print Assumptions C183_one.
(** One directory or file removed: directories with rmdir, files with remove, never the other way round. *)
Theorem C184_one : forall lk ts M cw z v x fs, wparse (fst cw) z = Some (v, x) -> M v = Some fs -> ts = true \/ last x 0 <> 47 ->
  (let '(M', b) := wpath_rmdir lk ts M cw z in let '(fs', b') := path_rmdir (lk v) fs (dir_on cw v) x in
   b = b' /\ forall u, M' u = if name_dec u v then Some fs' else M u) /\
  (if path_is_dir fs (dir_on cw v) x then wpath_remove lk ts M cw z = (M, false)
   else let '(M', b) := wpath_remove lk ts M cw z in let '(fs', b') := path_remove (lk v) fs (dir_on cw v) x in
   b = b' /\ forall u, M' u = if name_dec u v then Some fs' else M u).
Proof.
  intros lk ts M cw z v x fs P HM T. assert (R : rel ts cw v z x). { split; [exact P|]. destruct T as [->|T]; [now left|right]. unfold ends_in_slash. now apply Z.eqb_neq. }
  pose proof (is_put_self M v fs HM) as HP. split.
  - unfold wpath_rmdir, path_rmdir. rewrite (exists_sim ts cw v M fs z x HM R). destruct (path_exists fs (dir_on cw v) x); cbn [negb]; [|now split].
    unfold w_RemoveDirectory, change. rewrite P, HM. destruct (fs_rmdir (lk v) fs (dir_on cw v) x); [split; [reflexivity|now apply is_put_put with fs]|now split].
  - unfold wpath_remove, path_remove, path_is_dir. rewrite (exists_sim ts cw v M fs z x HM R). unfold path_exists, w_remove, change. rewrite P, HM.
    destruct (fs_stat fs (dir_on cw v) x) as [[|w]|] eqn:St; cbn [negb]; [reflexivity| |now split].
    destruct (fs_remove (lk v) fs (dir_on cw v) x); [split; [reflexivity|now apply is_put_put with fs]|now split].
Qed.
Print Assumptions C184_one.
Example C184_one_example :
  after (Ok (wpath_mkdir false mach here (T "new"))) (T "C:") [T "work"; T "new"] = Ok (Some EDir, true) /\
  after (Ok (wpath_mkdir false mach here (T "x"))) (T "C:") [T "work"; T "x"] = Ok (Some (EFile (T "mine")), true) /\
  after (wpath_mkdir_parents true true mach here (T "new")) (T "C:") [T "work"; T "new"] = Ok (None, false) /\
  after (Ok (wpath_remove nolk true mach here (T "\lib"))) (T "C:") [T "lib"] = Ok (Some EDir, false) /\
  after (Ok (wpath_remove nolk true mach here (T "x"))) (T "C:") [T "work"; T "x"] = Ok (None, true).
Proof. repeat (split; [vm_compute; reflexivity|]). vm_compute. reflexivity. Qed.
