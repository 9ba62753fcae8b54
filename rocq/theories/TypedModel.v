(** Models of the typed accessors of vectors and spans (generated by the macros in
    src/vita/container/vec.c and span.c).  No proofs in this file. *)
From Verif Require Import Base VecModel SpanModel.

(** The element types of the macros (vec.c:149-159 and the other instantiation
    lists).  A float or double is given by its bit pattern, an unsigned number; a
    [real] (long double, inc/vita/core/core.h:107) by all its 16 bytes, of which 6 are
    padding (RealModel.v). *)
Inductive ctype := I8 | U8 | I16 | U16 | I32 | U32 | I64 | U64 | F32 | F64 | REAL.

(** sizeof(T). *)
Definition width (t : ctype) : Z :=
  match t with
  | I8 | U8 => 1 | I16 | U16 => 2 | I32 | U32 | F32 => 4 | I64 | U64 | F64 => 8 | REAL => 16
  end.

Definition signed (t : ctype) : bool :=
  match t with I8 | I16 | I32 | I64 => true | _ => false end.

(** The object representation of [v]: little-endian, two's complement. *)
Fixpoint le_bytes (n : nat) (v : Z) : list Z :=
  match n with
  | O => []
  | S n' => v mod 256 :: le_bytes n' (v / 256)
  end.

Definition enc (t : ctype) (v : Z) : list Z := le_bytes (Z.to_nat (width t)) v.

Fixpoint le_val (l : list Z) : Z :=
  match l with
  | [] => 0
  | c :: l' => c + 256 * le_val l'
  end.

Definition dec (t : ctype) (l : list Z) : Z :=
  let u := le_val l in
  if signed t && (2 ^ (8 * width t - 1) <=? u) then u - 2 ^ (8 * width t) else u.

(** [*(T* )ptr]: reads sizeof(T) initialised bytes at an aligned address.  A block
    of the C allocator is aligned for every T, so the offset decides. *)
Definition deref (t : ctype) (b : blk) (off : Z) : res Z :=
  if negb (off mod width t =? 0) then UB else
  let* c := bread b off (width t) in
  match all_init c with
  | Some l => Ok (dec t l)
  | None => UB
  end.

(** vt_vec_push_frontT, vec.c:145-160. *)
Definition vec_push_front_t (dbg : bool) (t : ctype) (v : arr) (x : Z) : res arr :=
  vec_push_front dbg v (Ext (enc t x)).

(** vt_vec_push_backT, vec.c:177-192. *)
Definition vec_push_back_t (dbg : bool) (t : ctype) (v : arr) (x : Z) : res arr :=
  vec_push_back dbg v (Ext (enc t x)).

(** vt_vec_pop_getT, vec.c:218-234. *)
Definition vec_pop_get_t (t : ctype) (v : arr) : res (arr * Z) :=
  match vec_pop_get v with
  | (v', Some off) => let* x := deref t (a_blk v') off in Ok (v', x)
  | (v', None) => Ok (v', 0)
  end.

(** vt_vec_setT, vec.c:253-268. *)
Definition vec_set_t (dbg : bool) (t : ctype) (v : arr) (x i : Z) : res arr :=
  vec_set dbg v (Ext (enc t x)) i.

(** vt_vec_getT, vec.c:285-300. *)
Definition vec_get_t (dbg : bool) (t : ctype) (v : arr) (i : Z) : res Z :=
  let* off := vec_get_ptr dbg v i in deref t (a_blk v) off.

(** vt_vec_insertT, vec.c:330-345. *)
Definition vec_insert_t (dbg : bool) (t : ctype) (v : arr) (x i : Z) : res arr :=
  vec_insert dbg v (Ext (enc t x)) i.

(** vt_vec_can_findT, vec.c:387-402: memcmp compares elsize bytes of the
    argument, whatever its own size. *)
Definition vec_can_find_t (t : ctype) (v : arr) (x : Z) : res Z :=
  if (width t <? a_es v) && (0 <? a_len v) then UB
  else vec_can_find v (firstn (Z.to_nat (a_es v)) (enc t x)).

(** vt_span_getT, span.c:46-62.  [s_off] is the offset in the block behind the span. *)
Definition span_get_t (dbg : bool) (t : ctype) (b : blk) (s : span) (i : Z) : res Z :=
  let* _ := dassert dbg (i <? s_len s) in
  let* _ := dassert dbg (i <? s_len s) in
  deref t b (s_off s + w64 (i * s_es s)).

(** vt_span_setT, span.c:78-92. *)
Definition span_set_t (dbg : bool) (t : ctype) (b : blk) (s : span) (x i : Z) : res blk :=
  span_set dbg b s (enc t x) i.

(** * Traces of typed calls *)

Inductive top :=
| TPushBack (x : Z)
| TPushFront (x : Z)
| TInsert (x i : Z)
| TSet (x i : Z)
| TGet (i : Z)
| TPopGet
| TPop
| TRemove (i rs : Z)
| TFind (x : Z)
| TClear
| TShrink
| TLen.

(** What the caller sees: nothing or a number. *)
Definition tstep (dbg : bool) (t : ctype) (v : arr) (o : top) : res (arr * option Z) :=
  match o with
  | TPushBack x => let* v' := vec_push_back_t dbg t v x in Ok (v', None)
  | TPushFront x => let* v' := vec_push_front_t dbg t v x in Ok (v', None)
  | TInsert x i => let* v' := vec_insert_t dbg t v x i in Ok (v', None)
  | TSet x i => let* v' := vec_set_t dbg t v x i in Ok (v', None)
  | TGet i => let* x := vec_get_t dbg t v i in Ok (v, Some x)
  | TPopGet => let* r := vec_pop_get_t t v in Ok (fst r, Some (snd r))
  | TPop => Ok (vec_pop v, None)
  | TRemove i rs => let* v' := vec_remove dbg v i rs in Ok (v', None)
  | TFind x => let* i := vec_can_find_t t v x in Ok (v, Some i)
  | TClear => Ok (vec_clear v, None)
  | TShrink => let* v' := vec_shrink dbg v in Ok (v', None)
  | TLen => Ok (v, Some (vec_len v))
  end.

Fixpoint trun (dbg : bool) (t : ctype) (v : arr) (ops : list top) : res (arr * list (option Z)) :=
  match ops with
  | [] => Ok (v, [])
  | o :: ops' =>
      let* r := tstep dbg t v o in
      let* r' := trun dbg t (fst r) ops' in
      Ok (fst r', snd r :: snd r')
  end.
