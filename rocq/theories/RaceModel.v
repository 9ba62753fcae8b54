(** Several processes that create and remove entries of one file system at the same time.  Each system call
    (stat inside vt_path_exists, mkdir, remove) is one step; between two steps of a process the others may run. *)
From Verif Require Import Base FsModel PathModel FsSpec FsMain.
Local Open Scope list_scope.

(** What a process still has to do.
    [AGuard z]: the check at the beginning of vt_path_mkdir_parents, path.c:290-292.
    [AMkdir z]: vt_path_mkdir(z), path.c:261-283: stat, then mkdir.
    [ARemove z]: vt_path_remove(z), path.c:437-448: stat, then remove. *)
Inductive act := AGuard (z : list Z) | AMkdir (z : list Z) | ARemove (z : list Z).
(** [p_armed]: the check of the first action was made and the system call follows.  [p_answers]: what the finished
    calls returned. *)
Record proc := mk_proc { p_todo : list act; p_armed : bool; p_answers : list bool }.

Definition pstep (cwd : path) (fs : fsys) (p : proc) : fsys * proc :=
  match p_todo p with
  | [] => (fs, p)
  | AGuard z :: l => (fs, if path_exists fs cwd z then mk_proc [] false (p_answers p) else mk_proc l false (p_answers p))
  | AMkdir z :: l =>
      if p_armed p then
        match fs_mkdir fs cwd z with
        | Some fs' => (fs', mk_proc l false (p_answers p ++ [true]))
        | None => (fs, mk_proc l false (p_answers p ++ [false]))
        end
      else if path_exists fs cwd z then (fs, mk_proc l false (p_answers p ++ [true]))
      else (fs, mk_proc (p_todo p) true (p_answers p))
  | ARemove z :: l =>
      if p_armed p then
        match fs_remove (fun _ => false) fs cwd z with
        | Some fs' => (fs', mk_proc l false (p_answers p ++ [true]))
        | None => (fs, mk_proc l false (p_answers p ++ [false]))
        end
      else if path_exists fs cwd z then (fs, mk_proc (p_todo p) true (p_answers p))
      else (fs, mk_proc l false (p_answers p ++ [false]))
  end.

(** The [i]-th process makes a step. *)
Fixpoint wstep (cwd : path) (fs : fsys) (ps : list proc) (i : nat) : fsys * list proc :=
  match ps, i with
  | [], _ => (fs, [])
  | p :: ps, O => let '(fs, p) := pstep cwd fs p in (fs, p :: ps)
  | p :: ps, S i => let '(fs, ps) := wstep cwd fs ps i in (fs, p :: ps)
  end.
Fixpoint run (cwd : path) (fs : fsys) (ps : list proc) (sched : list nat) : fsys * list proc :=
  match sched with [] => (fs, ps) | i :: sched => let '(fs, ps) := wstep cwd fs ps i in run cwd fs ps sched end.

(** vt_path_mkdir_parents(z), path.c:285-364: the check, then vt_path_mkdir for "a/", "a/b/", ... *)
Fixpoint prefixes (pre : list name) (ns : list name) : list (list name) :=
  match ns with [] => [] | n :: ns => (pre ++ [n]) :: prefixes (pre ++ [n]) ns end.
Definition parents (z : list Z) : proc :=
  mk_proc (AGuard z :: map (fun ns => AMkdir (pfx (is_abs z) ++ slashed ns)) (prefixes [] (names z))) false [].
(** vt_path_mkdir(z) and vt_path_remove(z). *)
Definition one_mkdir (z : list Z) : proc := mk_proc [AMkdir z] false [].
Definition one_remove (z : list Z) : proc := mk_proc [ARemove z] false [].
Definition finished (p : proc) : bool := match p_todo p with [] => true | _ => false end.
