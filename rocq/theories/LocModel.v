(** Model of vt_path_get_this_exe_location and vt_path_get_cwd, src/vita/system/path.c.
    No proofs in this file.

    Contracts of the system calls: readlink of /proc/self/exe fails or writes the first bytes
    of the link, at most as many as asked for, without a NUL; getcwd fails or returns a new
    block with the absolute path of the working directory. *)
From Verif Require Import Base StrModel FsModel.

Definition path_max : Z := 4096.

(** vt_path_get_this_exe_location, path.c:497-525 (Linux).  [link]: the path of the program,
    [None]: readlink fails.  Result [None]: NULL, the string has been destroyed. *)
Definition get_exe (dbg : bool) (link : option (list Z)) : res (option str) :=
  let* s := str_create_capacity dbg path_max in
  match link with
  | None => Ok None
  | Some t =>
      let d := firstn (Z.to_nat path_max) t in
      let* s := swrite s 0 (map Some d) in
      if zlen d <=? 0 then Ok None else Ok (Some (set_len s (zlen d)))
  end.

(** getcwd: [None] if the working directory has been removed. *)
Definition fs_getcwd (fs : fsys) (cwd : path) : option (list Z) :=
  match lookup fs cwd with
  | Some EDir => Some match cwd with [] => [47] | _ => flat_map (fun n => 47 :: n) cwd end
  | _ => None
  end.

(** vt_path_get_cwd, path.c:27-29, with the NULL check of vt_str_take_ownership, str.c:98-99;
    strlen of NULL is undefined. *)
Definition get_cwd (dbg : bool) (fs : fsys) (cwd : path) : res str :=
  match fs_getcwd fs cwd with
  | Some z => str_take_ownership dbg (zblk z)
  | None => if dbg then Abort else UB
  end.
