(** The system heap: malloc/calloc/realloc/free with every possible choice of
    addresses.  No proofs in this file.

    A heap is the list of live blocks (address, contents).  Which address the
    system allocator returns is decided by a [policy]: a new address for the n-th
    call given the live addresses (any address that is not NULL and not live is
    possible, so freed addresses may be reused; NULL: the request is refused), and
    whether the n-th realloc stays in place. *)
From Verif Require Import Base.

Notation heap := (list (Z * blk)).

Fixpoint hlookup (h : heap) (a : Z) : option blk :=
  match h with
  | [] => None
  | (x, b) :: h' => if x =? a then Some b else hlookup h' a
  end.

Fixpoint hremove (h : heap) (a : Z) : heap :=
  match h with
  | [] => []
  | (x, b) :: h' => if x =? a then h' else (x, b) :: hremove h' a
  end.

Definition addrs (h : heap) : list Z := map fst h.

(** Stores new contents of a live block in place. *)
Fixpoint hstore (h : heap) (a : Z) (c : blk) : heap :=
  match h with
  | [] => []
  | (x, b) :: h' => if x =? a then (x, c) :: h' else (x, b) :: hstore h' a c
  end.

Record policy := mk_policy { choose : nat -> list Z -> Z; stay : nat -> bool }.

(** What a system allocator guarantees that never runs out of memory. *)
Definition valid_policy (p : policy) : Prop :=
  forall n l, choose p n l <> 0 /\ ~ In (choose p n l) l.

Record sys := mk_sys { s_heap : heap; s_clock : nat }.

(** vt_calloc, src/vita/core/core.c:25-36; exit if the system returns NULL. *)
Definition sys_calloc (dbg : bool) (p : policy) (s : sys) (bytes : Z) : res (sys * Z) :=
  let* b := c_calloc dbg bytes in
  let a := choose p (s_clock s) (addrs (s_heap s)) in
  let* _ := enforce (negb (a =? 0)) in
  Ok (mk_sys ((a, b) :: s_heap s) (S (s_clock s)), a).

(** vt_realloc, core.c:38-49, at a pointer that is not NULL; a pointer that is not
    live is UB; exit if the system returns NULL. *)
Definition sys_realloc (dbg : bool) (p : policy) (s : sys) (ptr bytes : Z) : res (sys * Z) :=
  let* _ := dassert dbg (0 <? bytes) in
  match hlookup (s_heap s) ptr with
  | None => UB
  | Some b =>
      let* b' := c_realloc dbg b bytes in
      let a := if stay p (s_clock s) then ptr else choose p (s_clock s) (addrs (s_heap s)) in
      let* _ := enforce (negb (a =? 0)) in
      Ok (mk_sys ((a, b') :: hremove (s_heap s) ptr) (S (s_clock s)), a)
  end.

(** vt_free, core.c:51-57: freeing what is not live (again) is UB. *)
Definition sys_free (s : sys) (ptr : Z) : res sys :=
  if ptr =? 0 then Ok s else
  match hlookup (s_heap s) ptr with
  | None => UB
  | Some _ => Ok (mk_sys (hremove (s_heap s) ptr) (s_clock s))
  end.
