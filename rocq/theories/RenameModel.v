(** vt_path_rename (src/vita/system/path.c) and the contract of rename (POSIX) on the file
    systems of FsModel.v.  No proofs in this file. *)
From Verif Require Import Base FsModel PathModel.

(** The place of an entry named by [z] in an existing directory; the last component may not
    be "." or "..". *)
Definition entry_place (fs : fsys) (cwd : path) (z : list Z) : option path :=
  match z, rev_comps z with
  | [], _ | _, [] => None
  | _, c :: r =>
      if special c then None else
      match walk fs (start cwd z) (rev r) with
      | Some p => match lookup fs p with Some EDir => Some (p ++ [c]) | _ => None end
      | None => None
      end
  end.
Definition ends_in_slash (z : list Z) : bool := last z 0 =? 47.

(** Everything at and below [p] goes to [q]. *)
Definition fs_move (fs : fsys) (p q : path) : fsys :=
  map (fun ke => match below p (fst ke) with Some r => (q ++ r, snd ke) | None => ke end) (remove_key fs q).

(** rename: a file replaces a file, a directory replaces an empty directory; a directory
    cannot go below itself; renaming to the same place does nothing.  [lk] as in FsModel.v.
    [None] = failure (nothing changed). *)
Definition fs_rename (lk : path -> bool) (fs : fsys) (cwd : path) (z1 z2 : list Z) : option fsys :=
  match resolve fs cwd z1, rev_comps z1, entry_place fs cwd z2 with
  | Some p, c :: _, Some q =>
      if special c then None else
      if path_dec p [] then None else
      match lookup fs p with
      | None => None
      | Some (EFile _) =>
          if ends_in_slash z2 then None else
          if path_dec p q then Some fs else
          match lookup fs q with
          | Some EDir => None
          | Some (EFile _) => if lk p || lk q then None else Some (fs_move fs p q)
          | None => if lk p then None else Some (fs_move fs p q)
          end
      | Some EDir =>
          if path_dec p q then Some fs else
          match below p q with
          | Some _ => None
          | None =>
              match lookup fs q with
              | Some EDir => match children fs q with
                             | [] => if lk p || lk q then None else Some (fs_move fs p q)
                             | _ => None
                             end
              | Some (EFile _) => None
              | None => if lk p then None else Some (fs_move fs p q)
              end
          end
      end
  | _, _, _ => None
  end.

(** vt_path_rename, path.c:449-467. *)
Definition path_rename (lk : path -> bool) (fs : fsys) (cwd : path) (z1 z2 : list Z) : fsys * bool :=
  if negb (path_exists fs cwd z1) then (fs, false) else
  match fs_rename lk fs cwd z1 z2 with Some fs' => (fs', true) | None => (fs, false) end.
