(** Recursive removal in a file system with symbolic links.  No proofs in this file.

    FsModel.v has no links.  Here an entry may be a symbolic link with the text it points to; the
    functions of path.c are those of PathModel.v over the system calls below. *)
From Verif Require Import Base StrModel NumModel FsModel PathModel.

Inductive sentry := SDir | SFile (c : list Z) | SLink (t : list Z).
Notation sfs := (list (list (list Z) * sentry)).

Fixpoint sassoc (fs : sfs) (p : path) : option sentry :=
  match fs with
  | [] => None
  | (q, e) :: fs' => if path_dec q p then Some e else sassoc fs' p
  end.
Definition slookup (fs : sfs) (p : path) : option sentry := match p with [] => Some SDir | _ => sassoc fs p end.
Definition sremove_key (fs : sfs) (p : path) : sfs := filter (fun qe => if path_dec (fst qe) p then false else true) fs.

(** Pathname resolution following links; at most [k] links are followed (40 on Linux).  The
    result: the path and the number of links that may still be followed. *)
Fixpoint swalk (k : nat) (fs : sfs) (cur : path) (cs : list name) {struct k} : option (path * nat) :=
  (fix go (cur : path) (cs : list name) {struct cs} : option (path * nat) :=
     match cs with
     | [] => Some (cur, k)
     | c :: cs' =>
         match slookup fs cur with
         | Some SDir =>
             if name_dec c [] then go cur cs'
             else if name_dec c dot then go cur cs'
             else if name_dec c dotdot then go (removelast cur) cs'
             else match slookup fs (cur ++ [c]) with
                  | Some (SLink t) => match k, t with
                                      | O, _ | _, [] => None
                                      | S k', _ => swalk k' fs (start cur t) (comps t ++ cs')
                                      end
                  | Some _ => go (cur ++ [c]) cs'
                  | None => None
                  end
         | _ => None
         end
     end) cur cs.
Definition max_links : nat := 40.
Definition sresolve (fs : sfs) (cwd : path) (z : list Z) : option path :=
  match z with [] => None | _ => option_map fst (swalk max_links fs (start cwd z) (comps z)) end.
(** The entry that is named, without following a link in the last place (rmdir, unlink): [None] if
    the directory on the way does not exist or the name is "." or "..". *)
Definition sname (fs : sfs) (cwd : path) (z : list Z) : option path :=
  match z, rev_comps z with
  | [], _ | _, [] => None
  | _, c :: r =>
      if special c then None else
      match swalk max_links fs (start cwd z) (rev r) with
      | Some (p, _) => match slookup fs p with Some SDir => Some (p ++ [c]) | _ => None end
      | None => None
      end
  end.

(** stat, opendir with readdir, rmdir, remove. *)
Definition s_stat (fs : sfs) (cwd : path) (z : list Z) : option sentry :=
  match sresolve fs cwd z with Some p => slookup fs p | None => None end.
Definition schildren (fs : sfs) (p : path) : list name :=
  flat_map (fun qe => match below p (fst qe) with Some [n] => [n] | _ => [] end) fs.
Definition s_readdir (fs : sfs) (cwd : path) (z : list Z) : option (list name) :=
  match sresolve fs cwd z with
  | Some p => match slookup fs p with Some SDir => Some (dot :: dotdot :: schildren fs p) | _ => None end
  | None => None
  end.
Definition s_rmdir (fs : sfs) (cwd : path) (z : list Z) : option sfs :=
  match sname fs cwd z with
  | Some p => match slookup fs p, schildren fs p with Some SDir, [] => Some (sremove_key fs p) | _, _ => None end
  | None => None
  end.
Definition s_remove (fs : sfs) (cwd : path) (z : list Z) : option sfs :=
  match sname fs cwd z with
  | Some p => match slookup fs p with
              | Some SDir => s_rmdir fs cwd z
              | Some _ => match last (comps z) [] with [] => None | _ => Some (sremove_key fs p) end
              | None => None
              end
  | None => None
  end.

(** vt_path_exists, vt_path_is_dir, path.c:29-46. *)
Definition sp_exists (fs : sfs) (cwd : path) (z : list Z) : bool := match s_stat fs cwd z with Some _ => true | None => false end.
Definition sp_is_dir (fs : sfs) (cwd : path) (z : list Z) : bool := match s_stat fs cwd z with Some SDir => true | _ => false end.

(** vt_path_dir_list_recurse, path.c:139-203, without the filter of dot files. *)
Fixpoint slist_loop (rec : list (list Z) -> list Z -> res (option (list (list Z)))) (fs : sfs) (cwd : path) (z : list Z)
    (names : list name) (pl : list (list Z)) : res (option (list (list Z))) :=
  match names with
  | [] => Ok (Some pl)
  | n :: names' =>
      if hidden false n then slist_loop rec fs cwd z names' pl else
      let st := z ++ sep ++ n in
      if sp_is_dir fs cwd st then
        let* r := rec pl st in
        match r with
        | None => Ok (Some pl)
        | Some pl => slist_loop rec fs cwd z names' (pl ++ [st])
        end
      else slist_loop rec fs cwd z names' (pl ++ [st])
  end.
Fixpoint sdir_list_recurse (fuel : nat) (fs : sfs) (cwd : path) (pl : list (list Z)) (z : list Z) : res (option (list (list Z))) :=
  match fuel with
  | O => NoFuel
  | S f =>
      if negb (sp_exists fs cwd z) then Ok None else
      match s_readdir fs cwd z with
      | None => Ok None
      | Some names => slist_loop (sdir_list_recurse f fs cwd) fs cwd z names pl
      end
  end.

(** vt_path_rmdir, path.c:366-383; vt_path_remove, path.c:437-448. *)
Definition sp_rmdir (fs : sfs) (cwd : path) (z : list Z) : sfs * bool :=
  if negb (sp_exists fs cwd z) then (fs, false) else
  match s_rmdir fs cwd z with Some fs' => (fs', true) | None => (fs, false) end.
Definition sp_remove (fs : sfs) (cwd : path) (z : list Z) : sfs * bool :=
  if negb (sp_exists fs cwd z) then (fs, false) else
  match s_remove fs cwd z with Some fs' => (fs', true) | None => (fs, false) end.

(** vt_path_rmdir_recurse, path.c:385-435. *)
Fixpoint sremove_loop (fs : sfs) (cwd : path) (l : list (list Z)) : sfs * bool :=
  match l with
  | [] => (fs, true)
  | z :: l' =>
      let '(fs, status) := if sp_is_dir fs cwd z then sp_rmdir fs cwd z else sp_remove fs cwd z in
      if status then sremove_loop fs cwd l' else (fs, false)
  end.
Definition sp_rmdir_recurse (fuel : nat) (fs : sfs) (cwd : path) (z : list Z) : res (sfs * bool) :=
  if negb (sp_exists fs cwd z) then Ok (fs, false) else
  let* l := sdir_list_recurse fuel fs cwd [] z in
  match l with
  | None | Some [] => Ok (sp_rmdir fs cwd z)
  | Some l =>
      let '(fs, status) := sremove_loop fs cwd l in
      if status then Ok (fst (sp_rmdir fs cwd z), true) else Ok (fs, false)
  end.
