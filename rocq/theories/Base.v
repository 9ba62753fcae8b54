(** Base of the model: outcomes of calls, machine arithmetic, memory blocks.
    No proofs in this file. *)
From Coq Require Export ZArith List Bool Lia.
Export ListNotations.
Global Open Scope Z_scope.

(** * Outcomes

    [Ok a]   the call returned;
    [Abort]  the process terminated through a check or an allocation failure:
             inc/vita/util/debug.h:29-43 (VT_DEBUG_ASSERT, VT_ENFORCE),
             src/vita/util/debug.c:43 (exit), src/vita/core/core.c:16-19, 29-32,
             42-45 (exit on allocation failure), and assert();
    [UB]     undefined behaviour of C;
    [NoFuel] a loop of the model ran out of its fuel (the real loop had not
             ended yet). *)
Inductive res (A : Type) : Type :=
| Ok (a : A)
| Abort
| UB
| NoFuel.
Arguments Ok {A} a.
Arguments Abort {A}.
Arguments UB {A}.
Arguments NoFuel {A}.

Definition bind {A B} (r : res A) (k : A -> res B) : res B :=
  match r with
  | Ok a => k a
  | Abort => Abort
  | UB => UB
  | NoFuel => NoFuel
  end.

Notation "'let*' x ':=' e 'in' k" := (bind e (fun x => k))
  (at level 200, x pattern, e at level 100, k at level 200, right associativity).

(** VT_DEBUG_ASSERT, inc/vita/util/debug.h:29-43 and assert(): active only in
    debug builds ([dbg = true], i.e. NDEBUG undefined). *)
Definition dassert (dbg c : bool) : res unit :=
  if dbg then (if c then Ok tt else Abort) else Ok tt.

(** VT_ENFORCE, inc/vita/util/debug.h:29-43: active in every build. *)
Definition enforce (c : bool) : res unit := if c then Ok tt else Abort.

(** * Machine arithmetic *)

(** size_t / uint64_t arithmetic is modulo 2^64. *)
Definition two64 : Z := 18446744073709551616.
Definition w64 (z : Z) : Z := z mod two64.

(** Largest request malloc/calloc/realloc can satisfy: the user address space
    (2^48 bytes on arm64, 2^47 on x86-64 Linux).  Larger requests return NULL
    and the library exits (src/vita/core/core.c:16-19, 29-32, 42-45).
    Simplification: smaller requests never fail. *)
Definition alloc_max : Z := 281474976710656.

(** * Memory blocks *)

(** One byte of a heap block: [None] uninitialised, [Some b] the byte b. *)
Notation cell := (option Z).
Notation blk := (list (option Z)).

Definition zlen {A} (l : list A) : Z := Z.of_nat (length l).

(** VT_CALLOC, src/vita/core/core.c:25-36. *)
Definition c_calloc (dbg : bool) (bytes : Z) : res blk :=
  let* _ := dassert dbg (0 <? bytes) in
  if bytes <=? alloc_max then Ok (repeat (Some 0) (Z.to_nat bytes)) else Abort.

(** VT_REALLOC, src/vita/core/core.c:38-49: the common prefix is kept, new bytes
    are uninitialised; realloc(p,0) returns NULL (glibc), hence exit. *)
Definition c_realloc (dbg : bool) (b : blk) (bytes : Z) : res blk :=
  let* _ := dassert dbg (0 <? bytes) in
  if bytes =? 0 then Abort else
  if bytes <=? alloc_max
  then Ok (firstn (Z.to_nat bytes) b
           ++ repeat None (Z.to_nat bytes - length b)%nat)
  else Abort.

(** Reading [n] bytes at offset [off] of a block (the source side of
    memcpy/memmove). *)
Definition bread (b : blk) (off n : Z) : res (list cell) :=
  if (0 <=? off) && (0 <=? n) && (off + n <=? zlen b)
  then Ok (firstn (Z.to_nat n) (skipn (Z.to_nat off) b))
  else UB.

(** Writing bytes at offset [off] of a block (the destination side). *)
Definition bwrite (b : blk) (off : Z) (d : list cell) : res blk :=
  if (0 <=? off) && (off + zlen d <=? zlen b)
  then Ok (firstn (Z.to_nat off) b ++ d ++ skipn (Z.to_nat off + length d) b)
  else UB.

(** vt_memmove inside one block, src/vita/core/core.c:59-72 (a zero size is an
    early return, so no address is used). *)
Definition bmove (b : blk) (dst src n : Z) : res blk :=
  if n =? 0 then Ok b else
  let* d := bread b src n in
  bwrite b dst d.

(** memcpy inside one block: identical pointers are a no-op, partial overlap is
    undefined. *)
Definition bcopy_in (b : blk) (dst src n : Z) : res blk :=
  let* d := bread b src n in
  if dst =? src then bwrite b dst d else
  if (dst <? src + n) && (src <? dst + n) then UB
  else bwrite b dst d.

(** vt_gswap on two elements of one block, src/vita/core/core.c:116-131. *)
Definition bswap (dbg : bool) (b : blk) (o1 o2 n : Z) : res blk :=
  let* _ := dassert dbg (negb (n =? 0)) in
  let* _ := c_calloc dbg n in
  let* t := bread b o1 n in
  let* b1 := bcopy_in b o1 o2 n in
  bwrite b1 o2 t.

(** A decision needs initialised bytes. *)
Fixpoint all_init (l : list cell) : option (list Z) :=
  match l with
  | [] => Some []
  | Some c :: l' => match all_init l' with Some t => Some (c :: t) | None => None end
  | None :: _ => None
  end.

Fixpoint bytes_eqb (a b : list Z) : bool :=
  match a, b with
  | [], [] => true
  | x :: a', y :: b' => (x =? y) && bytes_eqb a' b'
  | _, _ => false
  end.

(** memcmp(p, val, n) == 0.  Simplification: comparing any uninitialised byte is
    UB even if an earlier byte already differs. *)
Definition memcmp_eq (l : list cell) (d : list Z) : res bool :=
  match all_init l with
  | Some t => Ok (bytes_eqb t d)
  | None => UB
  end.

(** * C strings *)

(** The bytes of a C string: up to the first NUL.  Running off the block or over
    uninitialised bytes is UB. *)
Fixpoint cstr (b : blk) : res (list Z) :=
  match b with
  | [] => UB
  | None :: _ => UB
  | Some c :: b' =>
      if c =? 0 then Ok [] else
      let* t := cstr b' in
      Ok (c :: t)
  end.

Definition cstr_at (b : blk) (off : Z) : res (list Z) :=
  if (0 <=? off) && (off <=? zlen b) then cstr (skipn (Z.to_nat off) b) else UB.

(** One byte read for a decision. *)
Definition bbyte (b : blk) (off : Z) : res Z :=
  if (0 <=? off) && (off <? zlen b)
  then match nth_error b (Z.to_nat off) with
       | Some (Some c) => Ok c
       | _ => UB
       end
  else UB.

(** [is_prefix p l]: strncmp(l, p, strlen(p)) == 0. *)
Fixpoint is_prefix (p l : list Z) : bool :=
  match p, l with
  | [], _ => true
  | _, [] => false
  | x :: p', y :: l' => (x =? y) && is_prefix p' l'
  end.

(** strstr by contract: offset of the leftmost occurrence. *)
Fixpoint strstr (l p : list Z) : option Z :=
  if is_prefix p l then Some 0 else
  match l with
  | [] => None
  | _ :: l' => match strstr l' p with Some i => Some (i + 1) | None => None end
  end.

(** strchr(set, c) for a non-NUL character: membership. *)
Fixpoint memb (c : Z) (l : list Z) : bool :=
  match l with
  | [] => false
  | x :: l' => (x =? c) || memb c l'
  end.
