(** Models of src/vita/container/span.c and of the helpers of
    src/vita/core/core.c that are used on their own.  No proofs in this file. *)
From Coq Require Import String.
From Verif Require Import Base VecModel.

(** vt_span_t, inc/vita/container/span.h (a wrapped base array).  [s_off] is the
    offset of instance.ptr inside the memory block it points into; capacity,
    slider and allocator stay zero and are not used. *)
Record span := mk_span { s_off : Z; s_len : Z; s_es : Z }.

(** vt_span_from, span.c:3-14. *)
Definition span_from (dbg : bool) (off len es : Z) : res span :=
  let* _ := dassert dbg (0 <? len) in
  let* _ := dassert dbg (0 <? es) in
  Ok (mk_span off len es).

(** vt_span_from_to, span.c:16-28. *)
Definition span_from_to (dbg : bool) (off from to es : Z) : res span :=
  let* _ := dassert dbg (0 <? from) in
  let* _ := dassert dbg (0 <? to) in
  let* _ := dassert dbg (0 <? es) in
  Ok (mk_span (off + w64 (from * es)) (w64 (to - from)) es).

(** vt_span_len, span.c:30-32. *)
Definition span_len (s : span) : Z := s_len s.

(** vt_span_get, span.c:34-44 with vt_array_get, common.c:75-88, and the typed
    variants span.c:46-62, which dereference: the element's bytes. *)
Definition span_get (dbg : bool) (b : blk) (s : span) (i : Z) : res (list cell) :=
  let* _ := dassert dbg (i <? s_len s) in
  let* _ := dassert dbg (i <? s_len s) in
  bread b (s_off s + w64 (i * s_es s)) (s_es s).

(** vt_span_set, span.c:64-76 with vt_array_set, common.c:90-105, and the typed
    variants span.c:78-92.  [d]: the bytes behind val (memory of the caller). *)
Definition span_set (dbg : bool) (b : blk) (s : span) (d : list Z) (i : Z) : res blk :=
  let* _ := dassert dbg (i <? s_len s) in
  let* _ := dassert dbg (i <? s_len s) in
  let* c := bread (map Some d) 0 (s_es s) in
  bwrite b (s_off s + w64 (i * s_es s)) c.

(** vt_memcmp, core.c:103-112: two ranges of one block. *)
Definition vt_memcmp (b : blk) (o1 o2 n : Z) : res bool :=
  if n =? 0 then Ok false else
  let* c1 := bread b o1 n in
  let* c2 := bread b o2 n in
  match all_init c2 with
  | Some d => memcmp_eq c1 d
  | None => UB
  end.

(** vt_memcopy, core.c:74-87. *)
Definition vt_memcopy (b : blk) (dst src n : Z) : res blk :=
  if n =? 0 then Ok b else bcopy_in b dst src n.

(** vt_memset, core.c:89-101 (the value is converted to unsigned char). *)
Definition vt_memset (b : blk) (o value n : Z) : res blk :=
  if n =? 0 then Ok b else bwrite b o (repeat (Some (value mod 256)) (Z.to_nat n)).

(** vt_error_str, core.c:3-8, and VT_i_GENERATE_VITA_STATUS, core.h:117-129. *)
Definition error_str : list string :=
  ["VT_STATUS_ERROR_IS_NULL"; "VT_STATUS_ERROR_ALLOCATION"; "VT_STATUS_ERROR_INVALID_ARGUMENTS";
   "VT_STATUS_ERROR_OUT_OF_MEMORY"; "VT_STATUS_ERROR_OUT_OF_BOUNDS_ACCESS";
   "VT_STATUS_ERROR_INCOMPATIBLE_DATATYPE"; "VT_STATUS_ERROR_CONVERSION";
   "VT_STATUS_ERROR_ELEMENT_NOT_FOUND"; "VT_STATUS_ERROR_IS_VIEW"; "VT_STATUS_OPERATION_FAILURE";
   "VT_STATUS_OPERATION_SUCCESS"; "VT_STATUS_COUNT"]%string.
Definition status_count : Z := 11.

(** vt_status_to_str, core.c:143-149; the enum is unsigned. *)
Definition status_to_str (e : Z) : res (option string) :=
  if e <? status_count
  then match nth_error error_str (Z.to_nat e) with Some s => Ok (Some s) | None => UB end
  else Ok None.
