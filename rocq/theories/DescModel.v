(** Listing and removing directories by a process that can open only some more files (limit of open
    descriptors).  vt_path_dir_list_recurse keeps a directory open while it lists those in it.  The functions are those
    of PathModel.v with another opendir.  No proofs in this file. *)
From Verif Require Import Base PlistModel StrModel StrModel2 FsModel PathModel.
Local Open Scope list_scope.

(** vt_path_dir_list, path.c:89-137; [d]: how many more files can be opened (opendir fails with EMFILE if none). *)
Definition desc_dir_list (d : nat) fs cwd z (ign : bool) : option (list name) :=
  if negb (path_exists fs cwd z) then None else
  match d with
  | O => None
  | S _ => match fs_readdir fs cwd z with
           | None => None
           | Some l => Some (filter (fun n => negb (hidden ign n)) l)
           end
  end.
(** vt_path_dir_list_recurse, path.c:139-203: closedir (path.c:198) comes after the recursive calls (path.c:177). *)
Fixpoint desc_list_recurse (d : nat) (fs : fsys) (cwd : path) (ign : bool) (pl : list (list Z)) (z : list Z) : res (option (list (list Z))) :=
  if negb (path_exists fs cwd z) then Ok None else
  match d with
  | O => Ok None
  | S d' => match fs_readdir fs cwd z with
            | None => Ok None
            | Some names => list_loop (desc_list_recurse d' fs cwd ign) fs cwd ign z names pl
            end
  end.
(** vt_path_rmdir_recurse, path.c:385-435; rmdir and remove open nothing. *)
Definition desc_rmdir_recurse (lk : path -> bool) (d : nat) (fs : fsys) (cwd : path) (z : list Z) : res (fsys * bool) :=
  if negb (path_exists fs cwd z) then Ok (fs, false) else
  let* l := desc_list_recurse d fs cwd false [] z in
  match l with
  | None | Some [] => Ok (path_rmdir lk fs cwd z)
  | Some l =>
      let '(fs, status) := remove_loop lk fs cwd l in
      if status then Ok (fst (path_rmdir lk fs cwd z), true)
      else Ok (fs, false)
  end.
(** vt_file_read, fileio.c:3-54: fopen fails if nothing can be opened. *)
Definition desc_file_read (d : nat) (dbg : bool) fs cwd z : res (option str) :=
  match d with O => Ok None | S _ => file_read dbg fs cwd z end.
(** vt_file_writefc, fileio.c:249-276. *)
Definition desc_file_writefc (d : nat) fs cwd z (append add_ln : bool) txt : fsys * bool :=
  match d with O => (fs, false) | S _ => file_writefc fs cwd z append add_ln txt end.
