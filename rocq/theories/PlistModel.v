(** Model of src/vita/container/plist.c.  No proofs in this file.

    The storage is an array of pointers.  Simplification: it is modelled in slots
    of sizeof(void pointer) = 8 bytes; a slot holds [Some p] (an address, 0 = NULL) or
    [None] (uninitialised).  Byte sizes passed to the allocation functions are
    computed with size_t wrap exactly as in the code. *)
From Verif Require Import Base.

(** vt_plist_t, inc/vita/container/common.h; elsize is always sizeof(void pointer). *)
Record plist := mk_pl {
  p_blk : blk;       (* ptr2, in slots *)
  p_len : Z;
  p_cap : Z;
  p_slider : Z
}.

Definition psz : Z := 8.

(** Allocation of [bytes] bytes seen as slots, core.c:25-49. *)
Definition slots_calloc (dbg : bool) (bytes : Z) : res blk :=
  let* _ := dassert dbg (0 <? bytes) in
  if bytes <=? alloc_max then Ok (repeat (Some 0) (Z.to_nat (bytes / psz))) else Abort.

Definition slots_realloc (dbg : bool) (b : blk) (bytes : Z) : res blk :=
  let* _ := dassert dbg (0 <? bytes) in
  if bytes =? 0 then Abort else
  if bytes <=? alloc_max
  then Ok (firstn (Z.to_nat (bytes / psz)) b
           ++ repeat None (Z.to_nat (bytes / psz) - length b)%nat)
  else Abort.

(** p->ptr2[i] read for its value / written. *)
Definition slot_get (b : blk) (i : Z) : res Z := bbyte b i.
Definition slot_set (b : blk) (i x : Z) : res blk := bwrite b i [Some x].

(** vt_plist_create, plist.c:3-18. *)
Definition plist_create (dbg : bool) (n : Z) : res plist :=
  let* _ := dassert dbg (0 <? n) in
  let* b := slots_calloc dbg (w64 (n * psz)) in
  Ok (mk_pl b 0 n 0).

(** plist.c:54-68 with common.c:36-58. *)
Definition plist_len (p : plist) : Z := p_len p.
Definition plist_capacity (p : plist) : Z := p_cap p.
Definition plist_has_space (p : plist) : Z := w64 (p_cap p - p_len p).
Definition plist_is_empty (p : plist) : bool := p_len p =? 0.

(** vt_plist_dup, plist.c:39-52. *)
Definition plist_dup (dbg : bool) (p : plist) : res plist :=
  let* d := plist_create dbg (p_len p) in
  let* c := bread (p_blk p) 0 (w64 (p_len p * psz) / psz) in
  let* b := bwrite (p_blk d) 0 c in
  Ok (mk_pl b (p_len p) (p_cap d) (p_slider d)).

(** vt_plist_reserve, plist.c:70-83. *)
Definition plist_reserve (dbg : bool) (p : plist) (n : Z) : res plist :=
  let* _ := dassert dbg (0 <? n) in
  let* b := slots_realloc dbg (p_blk p) (w64 (w64 (p_cap p + n) * psz)) in
  Ok (mk_pl b (p_len p) (w64 (p_cap p + n)) (p_slider p)).

(** vt_plist_shrink, plist.c:85-103. *)
Definition plist_shrink (dbg : bool) (p : plist) : res plist :=
  if p_len p =? p_cap p then Ok p else
  let* b := slots_realloc dbg (p_blk p) (w64 (p_len p * psz)) in
  Ok (mk_pl b (p_len p) (p_len p) (p_slider p)).

(** vt_plist_resize, plist.c:105-123. *)
Definition plist_resize (dbg : bool) (p : plist) (n : Z) : res plist :=
  let* _ := dassert dbg (0 <? n) in
  if n =? p_cap p then Ok (mk_pl (p_blk p) (p_cap p) (p_cap p) (p_slider p)) else
  let* b := slots_realloc dbg (p_blk p) (w64 (n * psz)) in
  Ok (mk_pl b n n (p_slider p)).

(** "if (!vt_plist_has_space(p)) vt_plist_reserve(p, p->capacity * 2)",
    plist.c:139-141 and 212-214. *)
Definition plist_grow (dbg : bool) (p : plist) : res plist :=
  if plist_has_space p =? 0 then plist_reserve dbg p (w64 (p_cap p * 2)) else Ok p.

(** vt_plist_insert, plist.c:125-151. *)
Definition plist_insert (dbg : bool) (p : plist) (x i : Z) : res plist :=
  let* _ := dassert dbg (negb (x =? 0)) in
  let* _ := dassert dbg (i <? p_len p) in
  let* p := plist_grow dbg p in
  let* b := bmove (p_blk p) (w64 (i + 1)) i (w64 (w64 (p_len p - i) * psz) / psz) in
  let* b := slot_set b i x in
  Ok (mk_pl b (w64 (p_len p + 1)) (p_cap p) (p_slider p)).

(** vt_plist_clear, plist.c:153-160. *)
Definition plist_clear (p : plist) : plist := mk_pl (p_blk p) 0 (p_cap p) (p_slider p).

(** vt_plist_set, plist.c:162-177. *)
Definition plist_set (dbg : bool) (p : plist) (x i : Z) : res plist :=
  let* _ := dassert dbg (negb (x =? 0)) in
  let* _ := dassert dbg (i <? p_len p) in
  let* b := slot_set (p_blk p) i x in
  Ok (mk_pl b (p_len p) (p_cap p) (p_slider p)).

(** vt_plist_get, plist.c:179-192. *)
Definition plist_get (dbg : bool) (p : plist) (i : Z) : res Z :=
  let* _ := dassert dbg (i <? p_len p) in
  slot_get (p_blk p) i.

(** vt_plist_push_back, plist.c:205-218. *)
Definition plist_push_back (dbg : bool) (p : plist) (x : Z) : res plist :=
  let* _ := dassert dbg (negb (x =? 0)) in
  let* p := plist_grow dbg p in
  let* b := slot_set (p_blk p) (p_len p) x in
  Ok (mk_pl b (w64 (p_len p + 1)) (p_cap p) (p_slider p)).

(** vt_plist_push_front, plist.c:194-203. *)
Definition plist_push_front (dbg : bool) (p : plist) (x : Z) : res plist :=
  let* _ := dassert dbg (negb (x =? 0)) in
  if negb (plist_len p =? 0) then plist_insert dbg p x 0 else plist_push_back dbg p x.

(** vt_plist_pop, plist.c:220-229. *)
Definition plist_pop (p : plist) : plist :=
  if 0 <? p_len p then mk_pl (p_blk p) (w64 (p_len p - 1)) (p_cap p) (p_slider p) else p.

(** vt_plist_pop_get, plist.c:231-242: NULL (0) when empty. *)
Definition plist_pop_get (p : plist) : res (plist * Z) :=
  if 0 <? p_len p
  then let n := w64 (p_len p - 1) in
       let* x := slot_get (p_blk p) n in
       Ok (mk_pl (p_blk p) n (p_cap p) (p_slider p), x)
  else Ok (p, 0).

(** vt_pswap on two slots of one array, core.c:133-141.  The values may be
    uninitialised; they are only copied. *)
Definition slot_swap (b : blk) (i j : Z) : res blk :=
  let* t := bread b i 1 in
  let* c := bread b j 1 in
  let* b := bwrite b i c in
  bwrite b j t.

(** vt_plist_remove, plist.c:244-266. *)
Definition plist_remove (dbg : bool) (p : plist) (i rs : Z) : res plist :=
  let* _ := dassert dbg (rs <? 2) in
  let* _ := dassert dbg (i <? p_len p) in
  let* b :=
    if rs =? 0
    then bmove (p_blk p) i (w64 (i + 1)) (w64 (w64 (w64 (p_len p - i) - 1) * psz) / psz)
    else slot_swap (p_blk p) i (w64 (p_len p - 1)) in
  Ok (mk_pl b (w64 (p_len p - 1)) (p_cap p) (p_slider p)).

(** vt_plist_can_find, plist.c:280-294 (the pointer loop makes len iterations). *)
Fixpoint plist_find_loop (k : nat) (b : blk) (x i : Z) : res Z :=
  match k with
  | O => Ok (-1)
  | S k' =>
      let* y := slot_get b i in
      if y =? x then Ok i else plist_find_loop k' b x (i + 1)
  end.

Definition plist_can_find (dbg : bool) (p : plist) (x : Z) : res Z :=
  let* _ := dassert dbg (negb (x =? 0)) in
  plist_find_loop (Z.to_nat (p_len p)) (p_blk p) x 0.

(** vt_plist_remove_element, plist.c:268-278. *)
Definition plist_remove_element (dbg : bool) (p : plist) (x rs : Z) : res plist :=
  let* _ := dassert dbg (negb (x =? 0)) in
  let* _ := dassert dbg (rs <? 2) in
  let* i := plist_can_find dbg p x in
  if 0 <=? i then plist_remove dbg p i rs else Ok p.

(** vt_plist_slide_reset, plist.c:330-336. *)
Definition plist_slide_reset (p : plist) : plist := mk_pl (p_blk p) (p_len p) (p_cap p) 0.

(** vt_plist_slide_front, plist.c:296-311. *)
Definition plist_slide_front (p : plist) : res (plist * Z) :=
  if p_slider p <? p_len p
  then let s := w64 (p_slider p + 1) in
       let* x := slot_get (p_blk p) (w64 (s - 1)) in
       Ok (mk_pl (p_blk p) (p_len p) (p_cap p) s, x)
  else Ok (plist_slide_reset p, 0).

(** vt_plist_slide_back, plist.c:313-328. *)
Definition plist_slide_back (p : plist) : res (plist * Z) :=
  if p_slider p <? p_len p
  then let s := w64 (p_slider p + 1) in
       let* x := slot_get (p_blk p) (w64 (w64 (p_len p - s) - 2)) in
       Ok (mk_pl (p_blk p) (p_len p) (p_cap p) s, x)
  else Ok (plist_slide_reset p, 0).

(** vt_plist_apply, plist.c:338-349: the (pointer, index) pairs passed to the
    callback, in order. *)
Fixpoint plist_apply_loop (k : nat) (b : blk) (i : Z) : res (list (Z * Z)) :=
  match k with
  | O => Ok []
  | S k' =>
      let* x := slot_get b i in
      let* r := plist_apply_loop k' b (i + 1) in
      Ok ((x, i) :: r)
  end.
Definition plist_apply (p : plist) : res (list (Z * Z)) :=
  plist_apply_loop (Z.to_nat (plist_len p)) (p_blk p) 0.

(** * Traces of calls *)
Inductive plop :=
| LPushBack (x : Z) | LPushFront (x : Z) | LInsert (x i : Z) | LSet (x i : Z)
| LRemove (i rs : Z) | LRemoveElement (x rs : Z) | LPop | LPopGet | LClear
| LReserve (n : Z) | LShrink | LResize (n : Z) | LGet (i : Z) | LFind (x : Z) | LLen | LCapacity.

(** Observed: nothing or a number (pointer, length, index). *)
Definition plstep (dbg : bool) (p : plist) (o : plop) : res (plist * option Z) :=
  match o with
  | LPushBack x => let* q := plist_push_back dbg p x in Ok (q, None)
  | LPushFront x => let* q := plist_push_front dbg p x in Ok (q, None)
  | LInsert x i => let* q := plist_insert dbg p x i in Ok (q, None)
  | LSet x i => let* q := plist_set dbg p x i in Ok (q, None)
  | LRemove i rs => let* q := plist_remove dbg p i rs in Ok (q, None)
  | LRemoveElement x rs => let* q := plist_remove_element dbg p x rs in Ok (q, None)
  | LPop => Ok (plist_pop p, None)
  | LPopGet => let* r := plist_pop_get p in Ok (fst r, Some (snd r))
  | LClear => Ok (plist_clear p, None)
  | LReserve n => let* q := plist_reserve dbg p n in Ok (q, None)
  | LShrink => let* q := plist_shrink dbg p in Ok (q, None)
  | LResize n => let* q := plist_resize dbg p n in Ok (q, None)
  | LGet i => let* x := plist_get dbg p i in Ok (p, Some x)
  | LFind x => let* i := plist_can_find dbg p x in Ok (p, Some i)
  | LLen => Ok (p, Some (plist_len p))
  | LCapacity => Ok (p, Some (plist_capacity p))
  end.

Fixpoint plrun (dbg : bool) (p : plist) (ops : list plop) : res (plist * list (option Z)) :=
  match ops with
  | [] => Ok (p, [])
  | o :: ops' =>
      let* r := plstep dbg p o in
      let* r' := plrun dbg (fst r) ops' in
      Ok (fst r', snd r :: snd r')
  end.
