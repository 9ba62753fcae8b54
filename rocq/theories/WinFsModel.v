(** Model of the directory functions of src/vita/system/path.c as built on Windows (path.h:35-47: mkdir is
    CreateDirectory, rmdir RemoveDirectory, rename MoveFile, which answer nonzero upon success).  No proofs
    in this file.

    A machine has volumes: drives ("C:") and shares ("//server/share").  Each is a file system of FsModel.v.
    '\' and '/' both separate names.  Not modelled: names that differ in case only, reserved names, names
    that end in a dot or space, the form "\\?\", limits on the length of paths, links. *)
From Verif Require Import Base PlistModel StrModel StrModel2 FsModel PathModel RenameModel WinModel.
Local Open Scope list_scope.

Definition is_sep (c : Z) : bool := (c =? 47) || (c =? 92).
(** The text with one kind of separator. *)
Definition fwd (z : list Z) : list Z := map (fun c => if c =? 92 then 47 else c) z.
(** Up to the first separator, and the rest from there. *)
Fixpoint upto (z : list Z) : list Z * list Z :=
  match z with
  | [] => ([], [])
  | c :: r => if is_sep c then ([], z) else let '(a, b) := upto r in (c :: a, b)
  end.
(** Which volume a path names, and the path on it: "\\server\share\...", "X:\...", "X:..." (from the working
    directory if X is the current drive, else from its root), "\..." (root of the current volume), others from the
    working directory.  "\\server" alone names nothing. *)
Definition wparse (cur : list Z) (z : list Z) : option (list Z * list Z) :=
  match z with
  | c :: d :: r =>
      if is_sep c && is_sep d then
        match upto r with
        | (s :: server, _ :: r1) =>
            match upto r1 with
            | (t :: share, r2) => Some ([47; 47] ++ (s :: server) ++ [47] ++ (t :: share), match r2 with [] => [47] | _ => fwd r2 end)
            | _ => None
            end
        | _ => None
        end
      else if (d =? 58) && negb (is_sep c) then
        Some ([c; d], match r with
                      | e :: _ => if is_sep e then fwd r else if name_dec cur [c; d] then fwd r else 47 :: fwd r
                      | [] => if name_dec cur [c; d] then [46] else [47]
                      end)
      else Some (cur, fwd z)
  | [] => None
  | _ => Some (cur, fwd z)
  end.

(** A machine: its volumes ([None]: no such volume).  [cw]: the current volume and the working directory on it. *)
Definition machine := list Z -> option fsys.
Definition put (M : machine) (v : list Z) (fs : fsys) : machine := fun u => if name_dec u v then Some fs else M u.
Definition dir_on (cw : list Z * path) (v : list Z) : path := if name_dec v (fst cw) then snd cw else [].
(** A system call on the volume that the path names. *)
Definition on {A} (M : machine) (cw : list Z * path) (z : list Z) (f : fsys -> path -> list Z -> option A) : option A :=
  match wparse (fst cw) z with
  | Some (v, x) => match M v with Some fs => f fs (dir_on cw v) x | None => None end
  | None => None
  end.
Definition change (M : machine) (cw : list Z * path) (z : list Z) (f : fsys -> path -> list Z -> option fsys) : option machine :=
  match wparse (fst cw) z with
  | Some (v, x) => match M v with
                   | Some fs => match f fs (dir_on cw v) x with Some fs' => Some (put M v fs') | None => None end
                   | None => None
                   end
  | None => None
  end.

(** stat of the C runtime.  [ts]: whether it accepts a separator at the end of the name of a directory other than
    a root (older runtimes do not). *)
Definition at_root (x : list Z) : bool := match comps x with [[]; []] => true | _ => false end.
Definition w_stat (ts : bool) (M : machine) (cw : list Z * path) (z : list Z) : option entry :=
  on M cw z (fun fs cwd x => if negb ts && ends_in_slash x && negb (at_root x) then None else fs_stat fs cwd x).
(** CreateDirectory, RemoveDirectory; remove of the C runtime removes files only; opendir and readdir. *)
Definition w_CreateDirectory M cw z := change M cw z fs_mkdir.
Definition w_RemoveDirectory (lk : list Z -> path -> bool) M cw z :=
  match wparse (fst cw) z with
  | Some (v, _) => change M cw z (fs_rmdir (lk v))
  | None => None
  end.
Definition w_remove (lk : list Z -> path -> bool) M cw z :=
  match wparse (fst cw) z with
  | Some (v, _) => change M cw z (fun fs cwd x => match fs_stat fs cwd x with Some (EFile _) => fs_remove (lk v) fs cwd x | _ => None end)
  | None => None
  end.
Definition w_readdir M cw z : option (list name) := on M cw z fs_readdir.

(** vt_path_exists, is_dir, path.c:31-47. *)
Definition wpath_exists ts M cw z : bool := match w_stat ts M cw z with Some _ => true | None => false end.
Definition wpath_is_dir ts M cw z : bool := match w_stat ts M cw z with Some EDir => true | _ => false end.

(** vt_path_mkdir, path.c:261-283; vt_path_rmdir, path.c:366-383; vt_path_remove, path.c:437-448. *)
Definition wpath_mkdir ts M cw z : machine * bool :=
  if wpath_exists ts M cw z then (M, true) else
  match w_CreateDirectory M cw z with Some M' => (M', true) | None => (M, false) end.
Definition wpath_rmdir lk ts M cw z : machine * bool :=
  if negb (wpath_exists ts M cw z) then (M, false) else
  match w_RemoveDirectory lk M cw z with Some M' => (M', true) | None => (M, false) end.
Definition wpath_remove lk ts M cw z : machine * bool :=
  if negb (wpath_exists ts M cw z) then (M, false) else
  match w_remove lk M cw z with Some M' => (M', true) | None => (M, false) end.

(** vt_path_mkdir_parents, path.c:285-364. *)
Fixpoint wmkdir_loop (dbg ts : bool) cw (dirs : list str) (sfull : str) (M : machine) : res machine :=
  match dirs with
  | [] => Ok M
  | d :: dirs' =>
      let* zd := str_z d in
      let* sfull := str_append dbg sfull zd in
      let* sfull := str_append dbg sfull wsep in
      let* zf := str_z sfull in
      wmkdir_loop dbg ts cw dirs' sfull (fst (wpath_mkdir ts M cw zf))
  end.
Definition wpath_mkdir_parents (dbg ts : bool) (M : machine) cw (z : list Z) : res (machine * bool) :=
  if wpath_exists ts M cw z then Ok (M, true) else
  let* s := str_create dbg z in
  let* sfull := str_create_capacity dbg (w64 (str_len s + 1)) in
  let* sfull := match z with c :: _ => if c =? 92 then str_append dbg sfull wsep else Ok sfull | [] => Ok sfull end in
  let* dirs := str_split dbg (S (length (sb s))) s wsep in
  match dirs with
  | None => Ok (M, false)
  | Some dirs => let* M := wmkdir_loop dbg ts cw dirs sfull M in Ok (M, true)
  end.

(** vt_path_dir_list_recurse, path.c:139-203, as in PathModel.v. *)
Fixpoint wlist_loop (rec : list (list Z) -> list Z -> res (option (list (list Z)))) ts M cw (ign : bool) (z : list Z)
    (names : list name) (pl : list (list Z)) : res (option (list (list Z))) :=
  match names with
  | [] => Ok (Some pl)
  | n :: names' =>
      if hidden ign n then wlist_loop rec ts M cw ign z names' pl else
      let st := z ++ wsep ++ n in
      if wpath_is_dir ts M cw st then
        let* r := rec pl st in
        match r with
        | None => Ok (Some pl)
        | Some pl => wlist_loop rec ts M cw ign z names' (pl ++ [st])
        end
      else wlist_loop rec ts M cw ign z names' (pl ++ [st])
  end.
Fixpoint wdir_list_recurse (fuel : nat) ts M cw (ign : bool) (pl : list (list Z)) (z : list Z) : res (option (list (list Z))) :=
  match fuel with
  | O => NoFuel
  | S f =>
      if negb (wpath_exists ts M cw z) then Ok None else
      match w_readdir M cw z with
      | None => Ok None
      | Some names => wlist_loop (wdir_list_recurse f ts M cw ign) ts M cw ign z names pl
      end
  end.

(** vt_path_rmdir_recurse, path.c:385-435. *)
Fixpoint wremove_loop lk ts M cw (l : list (list Z)) : machine * bool :=
  match l with
  | [] => (M, true)
  | z :: l' =>
      let '(M, status) := if wpath_is_dir ts M cw z then wpath_rmdir lk ts M cw z else wpath_remove lk ts M cw z in
      if status then wremove_loop lk ts M cw l' else (M, false)
  end.
Definition wpath_rmdir_recurse lk ts (fuel : nat) M cw (z : list Z) : res (machine * bool) :=
  if negb (wpath_exists ts M cw z) then Ok (M, false) else
  let* l := wdir_list_recurse fuel ts M cw false [] z in
  match l with
  | None | Some [] => Ok (wpath_rmdir lk ts M cw z)
  | Some l =>
      let '(M, status) := wremove_loop lk ts M cw l in
      if status then Ok (fst (wpath_rmdir lk ts M cw z), true)
      else Ok (M, false)
  end.

(** MoveFile within a volume: as rename, but what exists is not replaced; a file may go to another volume
    (copied and deleted), a directory may not. *)
Definition w_MoveFile (lk : list Z -> path -> bool) (M : machine) cw (z1 z2 : list Z) : option machine :=
  match wparse (fst cw) z1, wparse (fst cw) z2 with
  | Some (v, x), Some (u, y) =>
      match M v, M u with
      | Some fs, Some fu =>
          if name_dec v u then
            match resolve fs (dir_on cw v) x, entry_place fs (dir_on cw v) y with
            | Some p, Some q =>
                if path_dec p q then change M cw z1 (fun fs cwd x => fs_rename (lk v) fs cwd x y) else
                match lookup fs q with
                | Some _ => None
                | None => change M cw z1 (fun fs cwd x => fs_rename (lk v) fs cwd x y)
                end
            | _, _ => None
            end
          else
            match resolve fs (dir_on cw v) x, entry_place fu (dir_on cw u) y with
            | Some p, Some q =>
                match lookup fs p, lookup fu q with
                | Some (EFile w), None => if lk v p || ends_in_slash y then None else Some (put (put M u (store fu q (EFile w))) v (remove_key fs p))
                | _, _ => None
                end
            | _, _ => None
            end
      | _, _ => None
      end
  | _, _ => None
  end.
(** vt_path_rename, path.c:449-467. *)
Definition wpath_rename lk ts M cw z1 z2 : machine * bool :=
  if negb (wpath_exists ts M cw z1) then (M, false) else
  match w_MoveFile lk M cw z1 z2 with Some M' => (M', true) | None => (M, false) end.
