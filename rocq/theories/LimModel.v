(** Paths longer than the system accepts (PATH_MAX).  A call given a text of more than [lim] bytes fails with ENAMETOOLONG.  The
    functions are those of PathModel.v with such calls.  No proofs in this file. *)
From Verif Require Import Base PlistModel StrModel StrModel2 FsModel PathModel.
Local Open Scope list_scope.

(** vt_path_exists, vt_path_is_dir, path.c:31-66. *)
Definition lim_exists (lim : Z) fs cwd (z : list Z) : bool := (zlen z <=? lim) && path_exists fs cwd z.
Definition lim_is_dir (lim : Z) fs cwd (z : list Z) : bool := (zlen z <=? lim) && path_is_dir fs cwd z.
(** vt_path_dir_list_recurse, path.c:139-203. *)
Fixpoint lim_list_loop (lim : Z) (rec : list (list Z) -> list Z -> res (option (list (list Z)))) (fs : fsys) (cwd : path) (ign : bool) (z : list Z)
    (names : list name) (pl : list (list Z)) : res (option (list (list Z))) :=
  match names with
  | [] => Ok (Some pl)
  | n :: names' =>
      if hidden ign n then lim_list_loop lim rec fs cwd ign z names' pl else
      let st := z ++ sep ++ n in
      if lim_is_dir lim fs cwd st then
        let* r := rec pl st in
        match r with
        | None => Ok (Some pl)                       (* break *)
        | Some pl => lim_list_loop lim rec fs cwd ign z names' (pl ++ [st])
        end
      else lim_list_loop lim rec fs cwd ign z names' (pl ++ [st])
  end.
Fixpoint lim_list_recurse (lim : Z) (fuel : nat) (fs : fsys) (cwd : path) (ign : bool) (pl : list (list Z)) (z : list Z) : res (option (list (list Z))) :=
  match fuel with
  | O => NoFuel
  | S f =>
      if negb (lim_exists lim fs cwd z) then Ok None else
      match fs_readdir fs cwd z with
      | None => Ok None
      | Some names => lim_list_loop lim (lim_list_recurse lim f fs cwd ign) fs cwd ign z names pl
      end
  end.
(** vt_path_mkdir, path.c:261-283; vt_path_rmdir, path.c:366-383; vt_path_remove, path.c:437-448. *)
Definition lim_mkdir (lim : Z) fs cwd (z : list Z) : fsys * bool := if zlen z <=? lim then path_mkdir fs cwd z else (fs, false).
Definition lim_rmdir (lim : Z) lk fs cwd z : fsys * bool :=
  if negb (lim_exists lim fs cwd z) then (fs, false) else
  match fs_rmdir lk fs cwd z with Some fs' => (fs', true) | None => (fs, false) end.
Definition lim_remove (lim : Z) lk fs cwd z : fsys * bool :=
  if negb (lim_exists lim fs cwd z) then (fs, false) else
  match fs_remove lk fs cwd z with Some fs' => (fs', true) | None => (fs, false) end.
(** vt_path_rmdir_recurse, path.c:385-435. *)
Fixpoint lim_remove_loop (lim : Z) (lk : path -> bool) (fs : fsys) (cwd : path) (l : list (list Z)) : fsys * bool :=
  match l with
  | [] => (fs, true)
  | z :: l' =>
      let '(fs, status) := if lim_is_dir lim fs cwd z then lim_rmdir lim lk fs cwd z else lim_remove lim lk fs cwd z in
      if status then lim_remove_loop lim lk fs cwd l' else (fs, false)
  end.
Definition lim_rmdir_recurse (lim : Z) (lk : path -> bool) (fuel : nat) (fs : fsys) (cwd : path) (z : list Z) : res (fsys * bool) :=
  if negb (lim_exists lim fs cwd z) then Ok (fs, false) else
  let* l := lim_list_recurse lim fuel fs cwd false [] z in
  match l with
  | None | Some [] => Ok (lim_rmdir lim lk fs cwd z)
  | Some l =>
      let '(fs, status) := lim_remove_loop lim lk fs cwd l in
      if status then Ok (fst (lim_rmdir lim lk fs cwd z), true)
      else Ok (fs, false)
  end.
(** vt_path_mkdir_parents, path.c:285-364. *)
Fixpoint lim_mkdir_loop (lim : Z) (dbg : bool) (cwd : path) (dirs : list str) (sfull : str) (fs : fsys) : res fsys :=
  match dirs with
  | [] => Ok fs
  | d :: dirs' =>
      let* zd := str_z d in
      let* sfull := str_append dbg sfull zd in
      let* sfull := str_append dbg sfull sep in
      let* zf := str_z sfull in
      lim_mkdir_loop lim dbg cwd dirs' sfull (fst (lim_mkdir lim fs cwd zf))     (* result not used *)
  end.
Definition lim_mkdir_parents (lim : Z) (dbg : bool) (fs : fsys) (cwd : path) (z : list Z) : res (fsys * bool) :=
  if lim_exists lim fs cwd z then Ok (fs, true) else
  let* s := str_create dbg z in
  let* sfull := str_create_capacity dbg (w64 (str_len s + 1)) in
  let* sfull := match z with c :: _ => if c =? 47 then str_append dbg sfull sep else Ok sfull | [] => Ok sfull end in
  let* dirs := str_split dbg (S (length (sb s))) s sep in
  match dirs with
  | None => Ok (fs, false)
  | Some dirs => let* fs := lim_mkdir_loop lim dbg cwd dirs sfull fs in Ok (fs, true)
  end.
