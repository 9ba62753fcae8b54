(** Models of the accessors of vectors and spans of [real] (long double,
    inc/vita/core/core.h:107).  No proofs in this file.

    On x86-64 a long double has 16 bytes: 10 of them hold the number, the other 6 are
    padding.  What the padding contains whenever a long double is stored is left open by the
    language (C11 6.2.6.1p6); here it is an argument of every call that stores one. *)
From Verif Require Import Base VecModel SpanModel TypedModel.

(** The 16 bytes of an object holding the number with the 80 bits [x]. *)
Definition real_rep (x pad : Z) : Z := x + 2 ^ 80 * pad.
(** The number in an object, [*(real* )ptr] used as a value. *)
Definition real_val (r : Z) : Z := r mod 2 ^ 80.

(** vt_vec_push_backr, vt_vec_push_frontr, vt_vec_insertr, vt_vec_setr, vt_vec_can_findr
    (vec.c:145-148, 159, 177-180, 191, 253-256, 267, 330-333, 344, 387-390, 401): the
    argument is an object of its own, [pad] its padding. *)
Definition with_pad (o : top) (pad : Z) : top :=
  match o with
  | TPushBack x => TPushBack (real_rep x pad)
  | TPushFront x => TPushFront (real_rep x pad)
  | TInsert x i => TInsert (real_rep x pad) i
  | TSet x i => TSet (real_rep x pad) i
  | TFind x => TFind (real_rep x pad)
  | _ => o
  end.
(** vt_vec_getr and vt_vec_pop_getr (vec.c:285-288, 299, 218-222, 233) return the number;
    the other functions as for the other types. *)
Definition real_out (o : top) (r : option Z) : option Z :=
  match o with TGet _ | TPopGet => option_map real_val r | _ => r end.
Definition rstep (dbg : bool) (v : arr) (o : top) (pad : Z) : res (arr * option Z) :=
  let* r := tstep dbg REAL v (with_pad o pad) in
  Ok (fst r, real_out o (snd r)).
Fixpoint rrun (dbg : bool) (v : arr) (ops : list (top * Z)) : res (arr * list (option Z)) :=
  match ops with
  | [] => Ok (v, [])
  | (o, pad) :: ops' =>
      let* r := rstep dbg v o pad in
      let* q := rrun dbg (fst r) ops' in
      Ok (fst q, snd r :: snd q)
  end.
Definition vec_get_r (dbg : bool) (v : arr) (i : Z) : res Z :=
  let* r := vec_get_t dbg REAL v i in Ok (real_val r).

(** vt_span_getr and vt_span_setr, span.c:46-49, 60, 77-80, 91. *)
Definition span_get_r (dbg : bool) (b : blk) (s : span) (i : Z) : res Z :=
  let* r := span_get_t dbg REAL b s i in Ok (real_val r).
Definition span_set_r (dbg : bool) (b : blk) (s : span) (x pad i : Z) : res blk :=
  span_set_t dbg REAL b s (real_rep x pad) i.
