(** Listing and removing directories when some directories may not be read (opendir fails for lack of
    permission).  The functions are those of PathModel.v with another opendir.  No proofs in this file. *)
From Verif Require Import Base PlistModel StrModel StrModel2 FsModel PathModel.
Local Open Scope list_scope.

(** opendir and readdir; [nr]: the directories that may not be read. *)
Definition perm_readdir (nr : path -> bool) (fs : fsys) (cwd : path) (z : list Z) : option (list name) :=
  match resolve fs cwd z with
  | Some p => if nr p then None else fs_readdir fs cwd z
  | None => None
  end.
(** vt_path_dir_list, path.c:89-137. *)
Definition perm_dir_list nr fs cwd z (ign : bool) : option (list name) :=
  if negb (path_exists fs cwd z) then None else
  match perm_readdir nr fs cwd z with
  | None => None
  | Some l => Some (filter (fun n => negb (hidden ign n)) l)
  end.
(** vt_path_dir_list_recurse, path.c:139-203. *)
Fixpoint perm_list_recurse (nr : path -> bool) (fuel : nat) (fs : fsys) (cwd : path) (ign : bool) (pl : list (list Z)) (z : list Z) : res (option (list (list Z))) :=
  match fuel with
  | O => NoFuel
  | S f =>
      if negb (path_exists fs cwd z) then Ok None else
      match perm_readdir nr fs cwd z with
      | None => Ok None
      | Some names => list_loop (perm_list_recurse nr f fs cwd ign) fs cwd ign z names pl
      end
  end.
(** vt_path_rmdir_recurse, path.c:385-435. *)
Definition perm_rmdir_recurse (nr lk : path -> bool) (fuel : nat) (fs : fsys) (cwd : path) (z : list Z) : res (fsys * bool) :=
  if negb (path_exists fs cwd z) then Ok (fs, false) else
  let* l := perm_list_recurse nr fuel fs cwd false [] z in
  match l with
  | None | Some [] => Ok (path_rmdir lk fs cwd z)
  | Some l =>
      let '(fs, status) := remove_loop lk fs cwd l in
      if status then Ok (fst (path_rmdir lk fs cwd z), true)
      else Ok (fs, false)
  end.
