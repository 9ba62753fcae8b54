(** A program that is killed while it is in a call of path.c or fileio.c: the states the disk goes through.
    No proofs in this file.

    Every system call (mkdir, rmdir, remove, rename, opening a file) happens or does not happen.  What is
    written to a file arrives in pieces: stdio hands over its buffer when it is full, at the latest in fclose,
    so the process may be killed after any number of bytes.  Simplification: it is the process that is killed;
    what the system took is kept (no loss of power). *)
From Verif Require Import Base StrModel StrModel2 FsModel PathModel RenameModel FsTree.

(** vt_file_writefc, fileio.c:249-276 (and, without append, 198-247): nothing yet; the file opened, with the first
    bytes of the text in it. *)
Definition write_states (fs : fsys) (cwd : path) (z : list Z) (append ln : bool) (txt : list Z) : list fsys :=
  let data := txt ++ (if ln then [10] else []) in
  fs :: flat_map (fun k => match fs_write fs cwd z append (firstn k data) with Some fs' => [fs'] | None => [] end) (seq 0 (S (length data))).

(** vt_path_mkdir_parents, path.c:285-364: one directory after the other. *)
Fixpoint mkdir_states (dbg : bool) (cwd : path) (dirs : list str) (sfull : str) (fs : fsys) : res (list fsys) :=
  match dirs with
  | [] => Ok [fs]
  | d :: dirs' =>
      let* zd := str_z d in
      let* sfull := str_append dbg sfull zd in
      let* sfull := str_append dbg sfull sep in
      let* zf := str_z sfull in
      let* l := mkdir_states dbg cwd dirs' sfull (fst (path_mkdir fs cwd zf)) in
      Ok (fs :: l)
  end.
Definition parents_states (dbg : bool) (fs : fsys) (cwd : path) (z : list Z) : res (list fsys) :=
  if path_exists fs cwd z then Ok [fs] else
  let* s := str_create dbg z in
  let* sfull := str_create_capacity dbg (w64 (str_len s + 1)) in
  let* sfull := match z with c :: _ => if c =? 47 then str_append dbg sfull sep else Ok sfull | [] => Ok sfull end in
  let* dirs := str_split dbg (S (length (sb s))) s sep in
  match dirs with
  | None => Ok [fs]
  | Some dirs => mkdir_states dbg cwd dirs sfull fs
  end.

(** vt_path_rmdir_recurse, path.c:385-435: the entries one after the other, then the directory. *)
Fixpoint remove_states (lk : path -> bool) (fs : fsys) (cwd : path) (l : list (list Z)) : list fsys :=
  match l with
  | [] => [fs]
  | z :: l' =>
      let '(fs', status) := if path_is_dir fs cwd z then path_rmdir lk fs cwd z else path_remove lk fs cwd z in
      fs :: (if status then remove_states lk fs' cwd l' else [fs'])
  end.
Definition recurse_states (lk : path -> bool) (fuel : nat) (fs : fsys) (cwd : path) (z : list Z) : res (list fsys) :=
  if negb (path_exists fs cwd z) then Ok [fs] else
  let* l := dir_list_recurse fuel fs cwd false [] z in
  match l with
  | None | Some [] => Ok [fs; fst (path_rmdir lk fs cwd z)]
  | Some l =>
      let '(fs', status) := remove_loop lk fs cwd l in
      Ok (remove_states lk fs cwd l ++ (if status then [fst (path_rmdir lk fs' cwd z)] else []))
  end.

(** The states during one call, from the one before it to the one after it; the other calls change the disk by
    one system call (path.c:261-283, 366-383, 437-466). *)
Definition call_states (dbg : bool) (lk : path -> bool) (fuel : nat) (cwd : path) (fs : fsys) (o : fop) : res (list fsys) :=
  match o with
  | OMkdir z => Ok [fs; fst (path_mkdir fs cwd z)]
  | OMkdirParents z => parents_states dbg fs cwd z
  | OWrite z append ln txt => Ok (write_states fs cwd z append ln txt)
  | ORemove z => Ok [fs; fst (path_remove lk fs cwd z)]
  | ORmdir z => Ok [fs; fst (path_rmdir lk fs cwd z)]
  | ORmdirRecurse z => recurse_states lk fuel fs cwd z
  | ORename z1 z2 => Ok [fs; fst (path_rename lk fs cwd z1 z2)]
  end.
(** The states during a sequence of calls. *)
Fixpoint states (dbg : bool) (lk : path -> bool) (fuel : nat) (cwd : path) (fs : fsys) (os : list fop) : res (list fsys) :=
  match os with
  | [] => Ok [fs]
  | o :: os' =>
      let* l := call_states dbg lk fuel cwd fs o in
      let* r := states dbg lk fuel cwd (last l fs) os' in
      Ok (l ++ r)
  end.
(** The program is killed at some moment of the calls [os], begun at [fs]: the disk may be left as [fs']. *)
Definition killed (dbg : bool) (lk : path -> bool) (fuel : nat) (cwd : path) (fs : fsys) (os : list fop) (fs' : fsys) : Prop :=
  exists l, states dbg lk fuel cwd fs os = Ok l /\ In fs' l.
