(** Model of src/vita/allocator/mallocator.c.  No proofs in this file. *)
From Verif Require Import Base HeapModel.

(** struct VitaBaseAllocatorType, inc/vita/allocator/mallocator.h:31-59.  The
    function pointers are omitted (they always point to the functions below).
    Simplification: the contents of the object list are kept here as a list of
    entries (pointer, bytes), [None] = uninitialised entry; the heap holds its
    block (at [tptr], tcap * 16 bytes) and the block of the struct ([self]). *)
Record alc := mk_alc {
  c_allocs : Z; c_reallocs : Z; c_frees : Z; c_bytes : Z; c_freed : Z;
  tab : list (option (Z * Z)); tptr : Z; tlen : Z; tcap : Z;
  self : Z
}.

Definition obj_size : Z := 16.      (* sizeof(struct VitaAllocatedObject) *)
Definition alc_size : Z := 88.      (* sizeof(vt_mallocator_t) *)

(** int64_t conversion. *)
Definition s64 (z : Z) : Z := let w := w64 z in if w <? two64 / 2 then w else w - two64.

Definition set_tab (a : alc) (t : list (option (Z * Z))) (p n c : Z) : alc :=
  mk_alc (c_allocs a) (c_reallocs a) (c_frees a) (c_bytes a) (c_freed a) t p n c (self a).

(** obj_list[i] read / written. *)
Definition tab_get (t : list (option (Z * Z))) (i : Z) : res (Z * Z) :=
  if 0 <=? i then match nth_error t (Z.to_nat i) with Some (Some e) => Ok e | _ => UB end else UB.
Definition tab_set (t : list (option (Z * Z))) (i : Z) (e : Z * Z) : res (list (option (Z * Z))) :=
  if (0 <=? i) && (i <? zlen t)
  then Ok (firstn (Z.to_nat i) t ++ Some e :: skipn (S (Z.to_nat i)) t) else UB.

(** vt_mallocator_create, mallocator.c:9-25; VT_ARRAY_DEFAULT_INIT_ELEMENTS = 16,
    core.h:52. *)
Definition mallocator_create (dbg : bool) (p : policy) (s : sys) : res (sys * alc) :=
  let* r := sys_calloc dbg p s alc_size in
  let* r' := sys_calloc dbg p (fst r) (w64 (obj_size * 16)) in
  Ok (fst r', mk_alc 0 0 0 0 0 (repeat (Some (0, 0)) 16) (snd r') 0 16 (snd r)).

(** vt_mallocator_obj_list_find, mallocator.c:259-274. *)
Fixpoint find_loop (k : nat) (t : list (option (Z * Z))) (ptr i : Z) : res Z :=
  match k with
  | O => Ok (-1)
  | S k' => let* e := tab_get t i in
            if fst e =? ptr then Ok i else find_loop k' t ptr (i + 1)
  end.
Definition obj_list_find (dbg : bool) (a : alc) (ptr : Z) : res Z :=
  let* _ := dassert dbg (negb (ptr =? 0)) in
  find_loop (Z.to_nat (tlen a)) (tab a) ptr 0.

(** vt_mallocator_obj_list_has_space, mallocator.c:245-251 (size_t to bool). *)
Definition obj_list_has_space (a : alc) : bool := negb (w64 (tcap a - tlen a) =? 0).

(** vt_mallocator_obj_list_resize, mallocator.c:230-239. *)
Definition obj_list_resize (dbg : bool) (p : policy) (s : sys) (a : alc) (n : Z) : res (sys * alc) :=
  let* _ := dassert dbg (0 <? n) in
  let bytes := w64 (n * obj_size) in
  let* r := sys_realloc dbg p s (tptr a) bytes in
  let k := Z.to_nat (bytes / obj_size) in
  Ok (fst r, set_tab a (firstn k (tab a) ++ repeat None (k - length (tab a))%nat) (snd r) (tlen a) n).

(** vt_mallocator_obj_list_add, mallocator.c:177-190. *)
Definition obj_list_add (dbg : bool) (p : policy) (s : sys) (a : alc) (e : Z * Z) : res (sys * alc) :=
  let* _ := dassert dbg (negb (fst e =? 0)) in
  let* r := if negb (obj_list_has_space a)
            then obj_list_resize dbg p s a (w64 (2 * tcap a)) else Ok (s, a) in
  let a := snd r in
  let* t := tab_set (tab a) (tlen a) e in
  Ok (fst r, set_tab a t (tptr a) (w64 (tlen a + 1)) (tcap a)).

(** vt_mallocator_obj_list_remove, mallocator.c:198-224. *)
Definition obj_list_remove (dbg : bool) (a : alc) (ptr : Z) : res (alc * Z) :=
  let* _ := dassert dbg (negb (ptr =? 0)) in
  if 0 <? tlen a then
    let* idx := obj_list_find dbg a ptr in
    if idx <? 0 then Ok (a, 0) else
    let* e := tab_get (tab a) idx in
    let* t := if negb (idx =? s64 (tlen a - 1))
              then let* l := tab_get (tab a) (w64 (tlen a - 1)) in tab_set (tab a) idx l
              else Ok (tab a) in
    Ok (set_tab a t (tptr a) (w64 (tlen a - 1)) (tcap a), snd e)
  else Ok (a, 0).

(** vt_mallocator_alloc, mallocator.c:57-80. *)
Definition mallocator_alloc (dbg : bool) (p : policy) (s : sys) (a : alc) (bytes : Z) : res (sys * alc * Z) :=
  let* _ := dassert dbg (0 <? bytes) in
  let* r := sys_calloc dbg p s bytes in
  let* r' := obj_list_add dbg p (fst r) a (snd r, bytes) in
  let a := snd r' in
  Ok (fst r',
      mk_alc (w64 (c_allocs a + 1)) (c_reallocs a) (c_frees a) (w64 (c_bytes a + bytes)) (c_freed a)
             (tab a) (tptr a) (tlen a) (tcap a) (self a),
      snd r).

(** vt_mallocator_realloc, mallocator.c:82-111. *)
Definition mallocator_realloc (dbg : bool) (p : policy) (s : sys) (a : alc) (ptr bytes : Z) : res (sys * alc * Z) :=
  let* _ := dassert dbg (negb (ptr =? 0)) in
  let* _ := dassert dbg (0 <? bytes) in
  let* ro := obj_list_remove dbg a ptr in
  let bytes_old := snd ro in
  let* r := sys_realloc dbg p s ptr bytes in
  let* r' := obj_list_add dbg p (fst r) (fst ro) (snd r, bytes) in
  let a := snd r' in
  let diff := s64 (bytes - bytes_old) in
  Ok (fst r',
      mk_alc (c_allocs a) (w64 (c_reallocs a + 1)) (c_frees a) (w64 (c_bytes a + diff))
             (w64 (c_freed a - (if diff <? 0 then diff else 0)))
             (tab a) (tptr a) (tlen a) (tcap a) (self a),
      snd r).

(** vt_mallocator_free, mallocator.c:113-137. *)
Definition mallocator_free (dbg : bool) (s : sys) (a : alc) (ptr : Z) : res (sys * alc) :=
  let* _ := dassert dbg (negb (ptr =? 0)) in
  let* ro := obj_list_remove dbg a ptr in
  let a := fst ro in
  let bytes := snd ro in
  let a := if 0 <? bytes
           then mk_alc (c_allocs a) (c_reallocs a) (w64 (c_frees a + 1)) (w64 (c_bytes a - bytes))
                       (w64 (c_freed a + bytes)) (tab a) (tptr a) (tlen a) (tcap a) (self a)
           else a in
  let* s := sys_free s ptr in
  Ok (s, a).

(** vt_mallocator_destroy, mallocator.c:27-55. *)
Fixpoint destroy_loop (k : nat) (s : sys) (t : list (option (Z * Z))) (i : Z) : res sys :=
  match k with
  | O => Ok s
  | S k' => let* e := tab_get t i in
            let* s := sys_free s (fst e) in
            destroy_loop k' s t (i + 1)
  end.
Definition mallocator_destroy (s : sys) (a : alc) : res sys :=
  let* s := destroy_loop (Z.to_nat (tlen a)) s (tab a) 0 in
  let* s := sys_free s (tptr a) in
  sys_free s (self a).
