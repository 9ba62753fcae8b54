(** A client of the allocator and what it expects.  The client only remembers what
    the interface told it: the blocks it was given and has not released, with the
    sizes it asked for, and how often it called what. *)
From Verif Require Import Base HeapModel AllocModel.

Record client := mk_client {
  blocks : list (Z * Z);      (* (pointer, bytes) *)
  n_allocs : Z; n_reallocs : Z; n_frees : Z;
  released : Z                (* bytes given back by free and shrinking realloc *)
}.

Definition client0 : client := mk_client [] 0 0 0 0.

(** Calls: allocate; reallocate or free the k-th block the client holds. *)
Inductive aop := AAlloc (bytes : Z) | ARealloc (k : nat) (bytes : Z) | AFree (k : nat).

Definition drop {A} (l : list A) (k : nat) : list A := firstn k l ++ skipn (S k) l.

Definition sane (n : Z) : bool := (0 <? n) && (n <=? alloc_max).

(** One call by the client; calls on blocks it does not hold or with sizes that
    cannot be served are not made. *)
Definition client_step (dbg : bool) (p : policy) (st : sys * alc * client) (o : aop) : res (sys * alc * client) :=
  let '(s, a, c) := st in
  match o with
  | AAlloc n =>
      if sane n then
        let* r := mallocator_alloc dbg p s a n in
        let '(s', a', q) := r in
        Ok (s', a', mk_client ((q, n) :: blocks c) (n_allocs c + 1) (n_reallocs c) (n_frees c) (released c))
      else Ok st
  | ARealloc k n =>
      match nth_error (blocks c) k with
      | Some (ptr, old) =>
          if sane n then
            let* r := mallocator_realloc dbg p s a ptr n in
            let '(s', a', q) := r in
            Ok (s', a', mk_client ((q, n) :: drop (blocks c) k) (n_allocs c) (n_reallocs c + 1) (n_frees c)
                                  (released c + Z.max 0 (old - n)))
          else Ok st
      | None => Ok st
      end
  | AFree k =>
      match nth_error (blocks c) k with
      | Some (ptr, old) =>
          let* r := mallocator_free dbg s a ptr in
          Ok (fst r, snd r, mk_client (drop (blocks c) k) (n_allocs c) (n_reallocs c) (n_frees c + 1) (released c + old))
      | None => Ok st
      end
  end.

Fixpoint client_run (dbg : bool) (p : policy) (st : sys * alc * client) (ops : list aop) : res (sys * alc * client) :=
  match ops with
  | [] => Ok st
  | o :: ops' => let* st' := client_step dbg p st o in client_run dbg p st' ops'
  end.

Definition total (l : list (Z * Z)) : Z := fold_right (fun e n => snd e + n) 0 l.

(** Entries recorded in the object list. *)
Definition tracked (a : alc) : list (option (Z * Z)) := firstn (Z.to_nat (tlen a)) (tab a).
