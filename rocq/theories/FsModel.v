(** Contract of the file system calls used by path.c and fileio.c (POSIX).

    A file system is a finite map from paths (lists of names, [] = the root) to entries.
    Not modelled: symbolic links (see SymModel.v) and hard links, permissions (but see [lk] below), special files,
    name and path length limits, failures of the medium (but see WriteModel.v),
    other processes. *)
From Verif Require Import Base.

Notation name := (list Z).
Notation path := (list (list Z)).
Inductive entry := EDir | EFile (c : list Z).
Notation fsys := (list (list (list Z) * entry)).

Definition name_dec : forall a b : name, {a = b} + {a <> b} := list_eq_dec Z.eq_dec.
Definition path_dec : forall a b : path, {a = b} + {a <> b} := list_eq_dec name_dec.

Fixpoint assoc (fs : fsys) (p : path) : option entry :=
  match fs with
  | [] => None
  | (q, e) :: fs' => if path_dec q p then Some e else assoc fs' p
  end.
(** The root always exists. *)
Definition lookup (fs : fsys) (p : path) : option entry :=
  match p with [] => Some EDir | _ => assoc fs p end.
Definition remove_key (fs : fsys) (p : path) : fsys :=
  filter (fun qe => if path_dec (fst qe) p then false else true) fs.
Definition store (fs : fsys) (p : path) (e : entry) : fsys := remove_key fs p ++ [(p, e)].

(** Components of a path text: the pieces between '/' (47). *)
Fixpoint comps (z : list Z) : list name :=
  match z with
  | [] => [[]]
  | c :: z' => if c =? 47 then [] :: comps z'
               else match comps z' with x :: l => (c :: x) :: l | [] => [[c]] end
  end.
Definition dot : name := [46].
Definition dotdot : name := [46; 46].

(** Pathname resolution, one component at a time; every directory on the way must exist. *)
Fixpoint walk (fs : fsys) (cur : path) (cs : list name) : option path :=
  match cs with
  | [] => Some cur
  | c :: cs' =>
      match lookup fs cur with
      | Some EDir =>
          if name_dec c [] then walk fs cur cs'
          else if name_dec c dot then walk fs cur cs'
          else if name_dec c dotdot then walk fs (removelast cur) cs'
          else match lookup fs (cur ++ [c]) with
               | Some _ => walk fs (cur ++ [c]) cs'
               | None => None
               end
      | _ => None
      end
  end.
(** [cwd]: the working directory. *)
Definition start (cwd : path) (z : list Z) : path := match z with c :: _ => if c =? 47 then [] else cwd | [] => cwd end.
Definition resolve (fs : fsys) (cwd : path) (z : list Z) : option path :=
  match z with [] => None | _ => walk fs (start cwd z) (comps z) end.

(** stat: the entry; [None] = failure. *)
Definition fs_stat (fs : fsys) (cwd : path) (z : list Z) : option entry :=
  match resolve fs cwd z with Some p => lookup fs p | None => None end.

(** Components without the empty ones at the end (trailing slashes), in reverse. *)
Fixpoint drop_nil (l : list name) : list name :=
  match l with [] :: l' => drop_nil l' | _ => l end.
Definition rev_comps (z : list Z) : list name := drop_nil (rev (comps z)).
Definition special (c : name) : bool := if name_dec c dot then true else if name_dec c dotdot then true else false.

(** Where a new entry named by [z] would go: [None] if it cannot be created or exists. *)
Definition new_entry (fs : fsys) (cwd : path) (z : list Z) : option path :=
  match z, rev_comps z with
  | [], _ | _, [] => None
  | _, c :: r =>
      if special c then None else
      match walk fs (start cwd z) (rev r) with
      | Some p => match lookup fs p with
                  | Some EDir => match lookup fs (p ++ [c]) with Some _ => None | None => Some (p ++ [c]) end
                  | _ => None
                  end
      | None => None
      end
  end.

(** mkdir; [None] = failure (nothing changed). *)
Definition fs_mkdir (fs : fsys) (cwd : path) (z : list Z) : option fsys :=
  match new_entry fs cwd z with Some p => Some (store fs p EDir) | None => None end.

(** [q] below [p]. *)
Fixpoint below (p q : path) : option path :=
  match p, q with
  | [], _ => Some q
  | a :: p', b :: q' => if name_dec a b then below p' q' else None
  | _, [] => None
  end.
Definition children (fs : fsys) (p : path) : list name :=
  flat_map (fun qe => match below p (fst qe) with Some [n] => [n] | _ => [] end) fs.

(** opendir + readdir until the end: the names, "." and ".." first.
    Simplification: the order is that of the map. *)
Definition fs_readdir (fs : fsys) (cwd : path) (z : list Z) : option (list name) :=
  match resolve fs cwd z with
  | Some p => match lookup fs p with Some EDir => Some (dot :: dotdot :: children fs p) | _ => None end
  | None => None
  end.

(** rmdir: the directory must be empty, not the root, and not named by ".".  [lk]: the entries
    that the system refuses to remove for other reasons (permissions, in use). *)
Definition fs_rmdir (lk : path -> bool) (fs : fsys) (cwd : path) (z : list Z) : option fsys :=
  match resolve fs cwd z with
  | Some [] => None
  | Some p =>
      match lookup fs p, children fs p, rev_comps z with
      | Some EDir, [], c :: _ => if name_dec c dot then None else if lk p then None else Some (remove_key fs p)
      | _, _, _ => None
      end
  | None => None
  end.
(** remove: unlink for files, rmdir for directories. *)
Definition fs_remove (lk : path -> bool) (fs : fsys) (cwd : path) (z : list Z) : option fsys :=
  match resolve fs cwd z with
  | Some p => match lookup fs p with
              | Some (EFile _) => if lk p then None else Some (remove_key fs p)
              | Some EDir => fs_rmdir lk fs cwd z
              | None => None
              end
  | None => None
  end.

(** Opening for writing ("w" truncates, "a" appends), writing [data] and closing; the file
    is created if needed. *)
Definition fs_write (fs : fsys) (cwd : path) (z : list Z) (append : bool) (data : list Z) : option fsys :=
  match resolve fs cwd z with
  | Some p => match lookup fs p with
              | Some (EFile c) => Some (store fs p (EFile (if append then c ++ data else data)))
              | _ => None
              end
  | None => match last (comps z) [] with
            | [] => None                                (* no name, or a trailing slash *)
            | _ => match new_entry fs cwd z with
                   | Some p => Some (store fs p (EFile data))
                   | None => None
                   end
            end
  end.
(** st_size; directories have some positive size. *)
Definition dir_size : Z := 4096.
Definition size_of (e : entry) : Z := match e with EDir => dir_size | EFile c => zlen c end.
(** Opening for reading and fread of [n] bytes: the bytes read (none from a directory). *)
Definition fread_entry (e : entry) (n : Z) : list Z := match e with EDir => [] | EFile c => firstn (Z.to_nat n) c end.
