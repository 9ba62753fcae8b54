(** Model of the file names given to log.c and debug.c as pointers.  No proofs in this file.

    LogModel.v takes the name of a file as a text that does not change.  Here the caller owns
    buffers, may write to them and free them, and passes their addresses.  log.c copies the name
    (log.c:18, 23); debug.c keeps the pointer (debug.c:75-77) and reads the name whenever it writes
    (debug.c:28, 60).  Simplification: a buffer that is not freed holds a text. *)
From Verif Require Import Base StrModel NumModel LogModel.

(** The buffers: [None] = freed, or never allocated. *)
Notation bufs := (Z -> option (list Z)).
Definition put (b : bufs) (a : Z) (t : option (list Z)) : bufs := fun x => if x =? a then t else b x.

(** What a program does: write a buffer or free it; redirect by a pointer ([None] = NULL); any call
    that is not a redirection. *)
Inductive act :=
| Write (a : Z) (t : list Z)
| Free (a : Z)
| Redirect (level : Z) (f : option Z)
| RedirectAll (f : option Z)
| DebugRedirect (f : option Z)
| Other (c : call).

(** The process with the pointer of debug.c:5. *)
Record named := mk_named { n_proc : proc; n_ptr : option Z; n_bufs : bufs }.

(** The text a pointer leads to. *)
Definition deref (b : bufs) (f : option Z) : res (option (list Z)) :=
  match f with None => Ok None | Some a => match b a with Some t => Ok (Some t) | None => UB end end.

Definition with_dest (p : proc) (d : option (list Z)) : proc := mk_proc (p_names p) (p_on p) d (p_err p) (p_out p).
(** Whether the call writes through debug.c: debug.c:19-27, 47-59; log.c:48-52 in debug builds. *)
Definition writes_debug (dbg : bool) (can_open : list Z -> bool) (p : proc) (c : call) : bool :=
  p_on p &&
  match c with
  | CAssert _ expr _ _ _ _ _ => negb expr
  | CPrintf _ _ _ => true
  | CLog _ f level expr _ _ _ _ =>
      dbg && negb expr &&
      match nth_error (p_names p) (Z.to_nat level) with
      | None => false
      | Some b => match (match f with Some z => Ok z | None => cstr b end) with
                  | Ok (x :: name) => negb (can_open (x :: name))
                  | _ => false
                  end
      end
  | _ => false
  end.
(** The two functions of log.c, the one of debug.c, and the other calls with the name read when it is needed. *)
Definition nstep (dbg : bool) (can_open : list Z -> bool) (s : named) (x : act) : res (named * ending) :=
  match x with
  | Write a t => Ok (mk_named (n_proc s) (n_ptr s) (put (n_bufs s) a (Some t)), Returns)
  | Free a => Ok (mk_named (n_proc s) (n_ptr s) (put (n_bufs s) a None), Returns)
  | Redirect level f =>
      let* t := deref (n_bufs s) f in
      let* p := log_redirect_level dbg (n_proc s) level t in
      Ok (mk_named p (n_ptr s) (n_bufs s), Returns)
  | RedirectAll f =>
      let* t := deref (n_bufs s) f in
      let* p := log_redirect_all (n_proc s) t in
      Ok (mk_named p (n_ptr s) (n_bufs s), Returns)
  | DebugRedirect f => Ok (mk_named (n_proc s) f (n_bufs s), Returns)
  | Other c =>
      let* t := if writes_debug dbg can_open (n_proc s) c then deref (n_bufs s) (n_ptr s) else Ok None in
      let* r := step dbg can_open (with_dest (n_proc s) t) c in
      Ok (mk_named (fst r) (n_ptr s) (n_bufs s), snd r)
  end.
Fixpoint nrun (dbg : bool) (can_open : list Z -> bool) (s : named) (l : list act) : res (named * ending) :=
  match l with
  | [] => Ok (s, Returns)
  | x :: l' =>
      let* r := nstep dbg can_open s x in
      match r with
      | (s, Exits) => Ok (s, Exits)
      | (s, Returns) => nrun dbg can_open s l'
      end
  end.
Definition nstart : named := mk_named init None (fun _ => None).
