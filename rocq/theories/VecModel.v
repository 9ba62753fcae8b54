(** Model of src/vita/container/common.c (base array) and
    src/vita/container/vec.c.  No proofs in this file. *)
From Verif Require Import Base.

(** struct VitaBaseArrayType, inc/vita/container/common.h.  Simplifications: the
    allocator field is omitted (both branches of every "alloctr ? A : B" request
    the same sizes, see AllocModel.v for the allocator itself); [ptr] is the block
    itself, always non-NULL. *)
Record arr := mk_arr {
  a_blk : blk;       (* ptr *)
  a_len : Z;         (* len *)
  a_cap : Z;         (* capacity *)
  a_es : Z;          (* elsize *)
  a_slider : Z       (* slider_idx *)
}.

Definition set_blk (v : arr) (b : blk) : arr := mk_arr b (a_len v) (a_cap v) (a_es v) (a_slider v).
Definition set_len (v : arr) (n : Z) : arr := mk_arr (a_blk v) n (a_cap v) (a_es v) (a_slider v).
Definition set_cap (v : arr) (n : Z) : arr := mk_arr (a_blk v) (a_len v) n (a_es v) (a_slider v).
Definition set_slider (v : arr) (n : Z) : arr := mk_arr (a_blk v) (a_len v) (a_cap v) (a_es v) n.

(** Where a [const void *val] argument points: memory of the caller (bytes), or
    byte offset [off] of the vector's own storage. *)
Inductive vsrc := Ext (d : list Z) | Own (off : Z).

(** vt_array_len / capacity / has_space, common.c:36-58 (vec.c:55-69). *)
Definition vec_len (v : arr) : Z := a_len v.
Definition vec_capacity (v : arr) : Z := a_cap v.
Definition vec_has_space (v : arr) : Z := w64 (a_cap v - a_len v).
Definition vec_is_empty (v : arr) : bool := a_len v =? 0.

(** vt_vec_create, vec.c:3-19 (with vt_array_new, common.c:3-11; the header block
    itself is not modelled here). *)
Definition vec_create (dbg : bool) (n es : Z) : res arr :=
  let* _ := dassert dbg (0 <? n) in
  let* _ := dassert dbg (0 <? es) in
  let* b := c_calloc dbg (w64 (n * es)) in
  Ok (mk_arr b 0 n es 0).

(** vt_array_get, common.c:75-88: the offset of the returned pointer. *)
Definition array_get (dbg : bool) (v : arr) (i : Z) : res Z :=
  let* _ := dassert dbg (i <? a_len v) in
  Ok (w64 (i * a_es v)).

(** vt_vec_get, vec.c:270-283, and the typed variants vec.c:285-300 that
    dereference the pointer: the element's bytes. *)
Definition vec_get_ptr (dbg : bool) (v : arr) (i : Z) : res Z :=
  let* _ := dassert dbg (i <? a_len v) in
  array_get dbg v i.

Definition vec_get (dbg : bool) (v : arr) (i : Z) : res (list cell) :=
  let* off := vec_get_ptr dbg v i in
  bread (a_blk v) off (a_es v).

(** memcpy(ptr + off, val, elsize).  [moved]: the storage has been reallocated
    since the caller obtained [val], so a pointer into it is dangling. *)
Definition copy_val (b : blk) (moved : bool) (off : Z) (val : vsrc) (es : Z) : res blk :=
  match val with
  | Ext d => let* c := bread (map Some d) 0 es in bwrite b off c
  | Own o => if moved then UB else bcopy_in b off o es
  end.

(** vt_array_set, common.c:90-105. *)
Definition array_set (dbg : bool) (v : arr) (val : vsrc) (i : Z) : res arr :=
  let* _ := dassert dbg (i <? a_len v) in
  let* b := copy_val (a_blk v) false (w64 (i * a_es v)) val (a_es v) in
  Ok (set_blk v b).

(** vt_vec_set, vec.c:236-251. *)
Definition vec_set (dbg : bool) (v : arr) (val : vsrc) (i : Z) : res arr :=
  let* _ := dassert dbg (i <? a_len v) in
  array_set dbg v val i.

(** vt_vec_dup, vec.c:40-53. *)
Definition vec_dup (dbg : bool) (v : arr) : res arr :=
  let* d := vec_create dbg (a_len v) (a_es v) in
  let* c := bread (a_blk v) 0 (w64 (a_len v * a_es v)) in
  let* b := bwrite (a_blk d) 0 c in
  Ok (set_blk (set_len d (a_len v)) b).

(** vt_vec_shrink, vec.c:71-88. *)
Definition vec_shrink (dbg : bool) (v : arr) : res arr :=
  if a_len v =? a_cap v then Ok v else
  let* b := c_realloc dbg (a_blk v) (w64 (a_len v * a_es v)) in
  Ok (set_cap (set_blk v b) (a_len v)).

(** vt_vec_clear, vec.c:90-97. *)
Definition vec_clear (v : arr) : arr := set_len v 0.

(** vt_vec_reserve, vec.c:99-112. *)
Definition vec_reserve (dbg : bool) (v : arr) (n : Z) : res arr :=
  let* _ := dassert dbg (0 <? n) in
  let* b := c_realloc dbg (a_blk v) (w64 (w64 (a_cap v + n) * a_es v)) in
  Ok (set_cap (set_blk v b) (w64 (a_cap v + n))).

(** vt_vec_resize, vec.c:114-132. *)
Definition vec_resize (dbg : bool) (v : arr) (n : Z) : res arr :=
  let* _ := dassert dbg (0 <? n) in
  if n =? a_cap v then Ok (set_len v (a_cap v)) else
  let* b := c_realloc dbg (a_blk v) (w64 (n * a_es v)) in
  Ok (set_cap (set_len (set_blk v b) n) n).

(** "if (!vt_vec_has_space(v)) vt_vec_reserve(v, v->capacity * 2)",
    vec.c:168-171 and 314-317; VT_ARRAY_DEFAULT_GROWTH_RATE = 2,
    inc/vita/core/core.h:52.  Also returns whether the storage moved. *)
Definition vec_grow (dbg : bool) (v : arr) : res (arr * bool) :=
  if vec_has_space v =? 0
  then let* v' := vec_reserve dbg v (w64 (a_cap v * 2)) in Ok (v', true)
  else Ok (v, false).

(** vt_vec_push_back, vec.c:162-175. *)
Definition vec_push_back (dbg : bool) (v : arr) (val : vsrc) : res arr :=
  let* g := vec_grow dbg v in
  let v := fst g in
  let* b := copy_val (a_blk v) (snd g) (w64 (a_len v * a_es v)) val (a_es v) in
  Ok (set_len (set_blk v b) (w64 (a_len v + 1))).

(** vt_vec_insert, vec.c:302-328. *)
Definition vec_insert (dbg : bool) (v : arr) (val : vsrc) (i : Z) : res arr :=
  let* _ := dassert dbg (i <? a_len v) in
  let* g := vec_grow dbg v in
  let v := fst g in
  let* b := bmove (a_blk v) (w64 (w64 (i + 1) * a_es v)) (w64 (i * a_es v))
                  (w64 (w64 (a_len v - i) * a_es v)) in
  let* b := copy_val b (snd g) (w64 (i * a_es v)) val (a_es v) in
  Ok (set_len (set_blk v b) (w64 (a_len v + 1))).

(** vt_vec_push_front, vec.c:134-143. *)
Definition vec_push_front (dbg : bool) (v : arr) (val : vsrc) : res arr :=
  if negb (vec_len v =? 0) then vec_insert dbg v val 0 else vec_push_back dbg v val.

(** vt_vec_pop, vec.c:194-203. *)
Definition vec_pop (v : arr) : arr :=
  if 0 <? a_len v then set_len v (w64 (a_len v - 1)) else v.

(** vt_vec_pop_get, vec.c:205-216: new vector and pointer (offset) or NULL. *)
Definition vec_pop_get (v : arr) : arr * option Z :=
  if 0 <? a_len v
  then let n := w64 (a_len v - 1) in (set_len v n, Some (w64 (n * a_es v)))
  else (v, None).

(** enum VitaRemoveStrategy, inc/vita/core/core.h:110-114: STABLE = 0, FAST = 1,
    COUNT = 2.  [rs] is the raw enum value. *)
(** vt_vec_remove, vec.c:347-369. *)
Definition vec_remove (dbg : bool) (v : arr) (i rs : Z) : res arr :=
  let* _ := dassert dbg (rs <? 2) in
  let* _ := dassert dbg (i <? a_len v) in
  let* b :=
    if rs =? 0
    then bmove (a_blk v) (w64 (i * a_es v)) (w64 (w64 (i + 1) * a_es v))
               (w64 (w64 (w64 (a_len v - i) - 1) * a_es v))
    else bswap dbg (a_blk v) (w64 (i * a_es v)) (w64 (w64 (a_len v - 1) * a_es v)) (a_es v) in
  Ok (set_len (set_blk v b) (w64 (a_len v - 1))).

(** vt_vec_can_find, vec.c:371-385.  The loop runs from iter = ptr while
    iter != ptr + len*elsize; [k] counts the iterations still possible, [i] the
    index.  Simplification: the pointer inequality is modelled as i <> len, which
    is the same for elsize > 0. *)
Fixpoint vec_find_loop (k : nat) (b : blk) (es : Z) (d : list Z) (i : Z) : res Z :=
  match k with
  | O => Ok (-1)
  | S k' =>
      let* c := bread b (i * es) es in
      let* e := memcmp_eq c d in
      if e then Ok i else vec_find_loop k' b es d (i + 1)
  end.

Definition vec_can_find (v : arr) (d : list Z) : res Z :=
  vec_find_loop (Z.to_nat (a_len v)) (a_blk v) (a_es v) d 0.

(** vt_vec_apply, vec.c:429-439: the sequence of (pointer offset, index) the
    callback receives.  Same simplification as above. *)
Fixpoint apply_loop (k : nat) (es : Z) (i : Z) : list (Z * Z) :=
  match k with
  | O => []
  | S k' => (i * es, i) :: apply_loop k' es (i + 1)
  end.

Definition vec_apply (v : arr) : list (Z * Z) := apply_loop (Z.to_nat (a_len v)) (a_es v) 0.

(** vt_array_slide_reset, common.c:141-147. *)
Definition slide_reset (v : arr) : arr := set_slider v 0.

(** vt_array_slide_front, common.c:107-122: new state, pointer offset or NULL. *)
Definition slide_front (v : arr) : arr * option Z :=
  if a_slider v <? a_len v
  then let s := w64 (a_slider v + 1) in (set_slider v s, Some (w64 (w64 (s - 1) * a_es v)))
  else (slide_reset v, None).

(** vt_array_slide_back, common.c:124-139. *)
Definition slide_back (v : arr) : arr * option Z :=
  if a_slider v <? a_len v
  then let s := w64 (a_slider v + 1) in
       (set_slider v s, Some (w64 (w64 (w64 (a_len v - s) - 2) * a_es v)))
  else (slide_reset v, None).

(** * Index helpers, common.c:149-176 *)

(** vt_index_2d_to_1d, common.c:149-151. *)
Definition index_2d_to_1d (row col ncols : Z) : Z := w64 (w64 (ncols * row) + col).

(** vt_index_1d_to_2d, common.c:153-160; division by zero is UB. *)
Definition index_1d_to_2d (idx ncols : Z) : res (Z * Z) :=
  if ncols =? 0 then UB else Ok (idx / ncols, idx mod ncols).

(** vt_index_3d_to_1d, common.c:162-164. *)
Definition index_3d_to_1d (row col depth nrows ncols : Z) : Z :=
  w64 (w64 (w64 (w64 (depth * ncols) * nrows) + w64 (row * ncols)) + col).

(** vt_index_1d_to_3d, common.c:166-176: (row, col, depth). *)
Definition index_1d_to_3d (idx nrows ncols : Z) : res (Z * Z * Z) :=
  if w64 (nrows * ncols) =? 0 then UB else
  let depth := idx / w64 (nrows * ncols) in
  let off := w64 (idx - w64 (w64 (depth * nrows) * ncols)) in
  if ncols =? 0 then UB else Ok (off / ncols, off mod ncols, depth).

(** * Traces of vector calls *)

Inductive vop :=
| PushBack (d : list Z)
| PushFront (d : list Z)
| Insert (d : list Z) (i : Z)
| SetAt (d : list Z) (i : Z)
| Remove (i rs : Z)
| Pop
| PopGet
| Clear
| Reserve (n : Z)
| Shrink
| Resize (n : Z)
| Get (i : Z)
| Find (d : list Z)
| Len
| Capacity.

(** What the caller sees: nothing, the bytes behind the returned pointer, NULL or
    a number. *)
Inductive vout := ONone | OElem (c : list cell) | ONull | OInt (z : Z).

(** One call; the bytes behind a returned pointer are read right after it. *)
Definition vstep (dbg : bool) (v : arr) (o : vop) : res (arr * vout) :=
  match o with
  | PushBack d => let* v' := vec_push_back dbg v (Ext d) in Ok (v', ONone)
  | PushFront d => let* v' := vec_push_front dbg v (Ext d) in Ok (v', ONone)
  | Insert d i => let* v' := vec_insert dbg v (Ext d) i in Ok (v', ONone)
  | SetAt d i => let* v' := vec_set dbg v (Ext d) i in Ok (v', ONone)
  | Remove i rs => let* v' := vec_remove dbg v i rs in Ok (v', ONone)
  | Pop => Ok (vec_pop v, ONone)
  | PopGet => match vec_pop_get v with
              | (v', Some off) => let* c := bread (a_blk v') off (a_es v') in Ok (v', OElem c)
              | (v', None) => Ok (v', ONull)
              end
  | Clear => Ok (vec_clear v, ONone)
  | Reserve n => let* v' := vec_reserve dbg v n in Ok (v', ONone)
  | Shrink => let* v' := vec_shrink dbg v in Ok (v', ONone)
  | Resize n => let* v' := vec_resize dbg v n in Ok (v', ONone)
  | Get i => let* c := vec_get dbg v i in Ok (v, OElem c)
  | Find d => let* i := vec_can_find v d in Ok (v, OInt i)
  | Len => Ok (v, OInt (vec_len v))
  | Capacity => Ok (v, OInt (vec_capacity v))
  end.

Fixpoint vrun (dbg : bool) (v : arr) (ops : list vop) : res (arr * list vout) :=
  match ops with
  | [] => Ok (v, [])
  | o :: ops' =>
      let* r := vstep dbg v o in
      let* r' := vrun dbg (fst r) ops' in
      Ok (fst r', snd r :: snd r')
  end.
