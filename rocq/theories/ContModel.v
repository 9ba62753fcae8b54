(** Vectors, pointer lists and strings as objects in memory: their header and
    storage blocks in the system heap, obtained directly or through an allocator
    (the "alloctr ? VT_ALLOCATOR_... : VT_..." branches of src/vita/container).
    No proofs in this file.

    Simplifications.
    - What a call does to the bytes of one container and to its header fields is
      taken from VecModel.v, PlistModel.v and StrModel.v, run on the bytes found in
      the heap; this file adds where the blocks live.
    - The storage is reallocated exactly when a call changes its size (and always in
      vt_str_resize).  The code reallocates in the same cases, except that
      vt_str_replace may grow the storage in several steps, contracted into one here,
      and that a string that took ownership of a longer block could be reallocated to
      the size it already has.
    - Header fields are kept in [h_body]; the header's block holds no modelled bytes.
    - A pointer stored in a list occupies eight cells, all holding the pointer. *)
From Verif Require Import Base HeapModel AllocModel VecModel PlistModel StrModel StrSpec.

(** System heap and one allocator. *)
Record mem := mk_mem { m_sys : sys; m_alc : alc }.

(** "alloctr ? VT_ALLOCATOR_ALLOC(alloctr, n) : VT_CALLOC(n)", common.c:3-11,
    vec.c:8-11, plist.c:8-11, str.c:40-43; [use]: the container has the allocator. *)
Definition m_alloc (dbg : bool) (p : policy) (m : mem) (use : bool) (n : Z) : res (mem * Z) :=
  if use
  then let* r := mallocator_alloc dbg p (m_sys m) (m_alc m) n in
       let '(s, a, q) := r in Ok (mk_mem s a, q)
  else let* r := sys_calloc dbg p (m_sys m) n in
       Ok (mk_mem (fst r) (m_alc m), snd r).

(** "alloctr ? VT_ALLOCATOR_REALLOC(...) : VT_REALLOC(...)", vec.c:80-83, 105-108,
    124-127, plist.c:77-79, 96-98, 117-119, str.c:168-170, 199-201, 218-220. *)
Definition m_realloc (dbg : bool) (p : policy) (m : mem) (use : bool) (ptr n : Z) : res (mem * Z) :=
  if use
  then let* r := mallocator_realloc dbg p (m_sys m) (m_alc m) ptr n in
       let '(s, a, q) := r in Ok (mk_mem s a, q)
  else let* r := sys_realloc dbg p (m_sys m) ptr n in
       Ok (mk_mem (fst r) (m_alc m), snd r).

(** "alloctr ? VT_ALLOCATOR_FREE(...) : VT_FREE(...)", common.c:13-22,
    vec.c:27-31, plist.c:27-31, str.c:77-81. *)
Definition m_free (dbg : bool) (m : mem) (use : bool) (ptr : Z) : res mem :=
  if use
  then let* r := mallocator_free dbg (m_sys m) (m_alc m) ptr in Ok (mk_mem (fst r) (snd r))
  else let* s := sys_free (m_sys m) ptr in Ok (mk_mem s (m_alc m)).

Definition m_heap (m : mem) : heap := s_heap (m_sys m).

Definition m_store (m : mem) (ptr : Z) (b : blk) : mem :=
  mk_mem (mk_sys (hstore (m_heap m) ptr b) (s_clock (m_sys m))) (m_alc m).

(** A container's header fields together with its storage. *)
Inductive body := BVec (v : arr) | BList (l : plist) | BStr (s : str).

(** List slots as bytes, see above. *)
Definition slots_bytes (b : blk) : blk := flat_map (fun c => repeat c 8) b.
Fixpoint bytes_slots (k : nat) (b : blk) : blk :=
  match k with
  | O => []
  | S k' => match b with [] => [] | c :: _ => c :: bytes_slots k' (skipn 8 b) end
  end.

Definition bytes_of (x : body) : blk :=
  match x with
  | BVec v => a_blk v
  | BList l => slots_bytes (p_blk l)
  | BStr s => sb s
  end.

Definition with_bytes (x : body) (b : blk) : body :=
  match x with
  | BVec v => BVec (set_blk v b)
  | BList l => BList (mk_pl (bytes_slots (length b) b) (p_len l) (p_cap l) (p_slider l))
  | BStr s => BStr (mk_str b (sl s) (sc s) (sv s) (ss s))
  end.

(** A live container: address of the header, whether it has the allocator, the
    storage pointer, the other header fields. *)
Record cont := mk_cont { h_hdr : Z; h_use : bool; h_ptr : Z; h_body : body }.

(** Header fields and the bytes the storage pointer leads to. *)
Definition c_load (m : mem) (c : cont) : res body :=
  match hlookup (m_heap m) (h_ptr c) with
  | Some b => Ok (with_bytes (h_body c) b)
  | None => UB
  end.

(** vt_array_new (common.c:3-11) followed by the allocation of the storage and its
    initialisation: the second half of vt_vec_create (vec.c:3-19), vt_plist_create
    (plist.c:3-18) and vt_str_create_len (str.c:35-53). *)
Definition c_place (dbg : bool) (p : policy) (m : mem) (use : bool) (x : body) : res (mem * cont) :=
  let* r := m_alloc dbg p m use array_size in
  let* r' := m_alloc dbg p (fst r) use (zlen (bytes_of x)) in
  Ok (m_store (fst r') (snd r') (bytes_of x), mk_cont (snd r) use (snd r') x).

(** vt_vec_destroy (vec.c:21-38), vt_plist_destroy (plist.c:20-37), vt_str_destroy of
    a string that is not a view (str.c:66-87), with vt_array_free (common.c:13-22). *)
Definition c_destroy (dbg : bool) (m : mem) (c : cont) : res mem :=
  let* m := m_free dbg m (h_use c) (h_ptr c) in
  m_free dbg m (h_use c) (h_hdr c).

(** Header fields and storage after a call. *)
Definition c_put (dbg : bool) (p : policy) (m : mem) (c : cont) (x : body) (always : bool) : res (mem * cont) :=
  match hlookup (m_heap m) (h_ptr c) with
  | None => UB
  | Some b =>
      let* r := if always || negb (zlen (bytes_of x) =? zlen b)
                then m_realloc dbg p m (h_use c) (h_ptr c) (zlen (bytes_of x)) else Ok (m, h_ptr c) in
      Ok (m_store (fst r) (snd r) (bytes_of x), mk_cont (h_hdr c) (h_use c) (snd r) x)
  end.

(** * A program with any number of containers *)

Record world := mk_world { w_mem : mem; w_objs : list (option cont) }.

Inductive wop :=
| WVec (use : bool) (n es : Z)          (* vt_vec_create *)
| WList (use : bool) (n : Z)            (* vt_plist_create *)
| WStr (use : bool) (z : text)          (* vt_str_create *)
| WStrCap (use : bool) (n : Z)          (* vt_str_create_capacity *)
| WStrLen (use : bool) (n : Z)          (* vt_str_create_len *)
| WOwn (use : bool) (z : text) (rest : blk)  (* vt_str_take_ownership of a block obtained the same way *)
| WDup (i : nat) (use : bool)           (* vt_vec_dup, vt_plist_dup; vt_str_dup *)
| WDestroy (i : nat)
| WVecOp (i : nat) (o : vop)
| WListOp (i : nat) (o : plop)
| WStrOp (i : nat) (o : sop)
| WPushFrom (i j : nat) (k : Z)         (* vt_vec_push_back(v_i, vt_vec_get(v_j, k)) *)
| WAppendFrom (i j : nat).              (* vt_str_append(s_i, vt_str_z(s_j)) *)

Inductive wout := QNone | QVec (o : vout) | QNum (o : option Z).

Definition setn {A} (l : list A) (i : nat) (x : A) : list A := firstn i l ++ x :: skipn (S i) l.

(** The live container number [i]; using one that was destroyed is UB. *)
Definition w_get (w : world) (i : nat) : res cont :=
  match nth_error (w_objs w) i with Some (Some c) => Ok c | _ => UB end.

Definition w_new (w : world) (r : res (mem * cont)) : res (world * wout) :=
  let* r := r in Ok (mk_world (fst r) (w_objs w ++ [Some (snd r)]), QNone).

Definition w_upd (w : world) (i : nat) (r : res (mem * cont)) (q : wout) : res (world * wout) :=
  let* r := r in Ok (mk_world (fst r) (setn (w_objs w) i (Some (snd r))), q).

(** vt_str_insertf with a long text (str.c:425-441): the text is formatted into a
    temporary string of the same allocator, inserted, and the temporary destroyed. *)
Definition c_insertf (dbg : bool) (p : policy) (m : mem) (c : cont) (at_ : Z) (txt : text) : res (mem * cont) :=
  let* t := str_create_len dbg (zlen txt) in
  let* r := c_place dbg p m (h_use c) (BStr t) in
  let* t := str_vfmt_set dbg t txt in
  let* r := c_put dbg p (fst r) (snd r) (BStr t) false in
  let tmp := snd r in
  let* z := str_z t in
  let* x := c_load (fst r) c in
  match x with
  | BStr s =>
      let* s := str_insert dbg s z at_ in
      let* r := c_put dbg p (fst r) c (BStr s) false in
      let* m := c_destroy dbg (fst r) tmp in
      Ok (m, snd r)
  | _ => UB
  end.

Definition always_realloc (o : sop) : bool := match o with SResize _ => true | _ => false end.
Definition long_insert (o : sop) : option (Z * text) :=
  match o with SInsertf i z => if zlen z <? tmp_buffer - 1 then None else Some (i, z) | _ => None end.

(** The bytes of an element that is copied elsewhere (all initialised). *)
Fixpoint known (l : list cell) : res (list Z) :=
  match l with
  | [] => Ok []
  | Some c :: l' => let* r := known l' in Ok (c :: r)
  | None :: _ => UB
  end.

Definition wstep (dbg : bool) (p : policy) (w : world) (o : wop) : res (world * wout) :=
  let m := w_mem w in
  match o with
  | WVec use n es => let* v := vec_create dbg n es in w_new w (c_place dbg p m use (BVec v))
  | WList use n => let* l := plist_create dbg n in w_new w (c_place dbg p m use (BList l))
  | WStr use z => let* s := str_create dbg z in w_new w (c_place dbg p m use (BStr s))
  | WStrCap use n => let* s := str_create_capacity dbg n in w_new w (c_place dbg p m use (BStr s))
  | WStrLen use n => let* s := str_create_len dbg n in w_new w (c_place dbg p m use (BStr s))
  | WOwn use z rest =>
      (* the caller's block, then the header of vt_str_take_ownership, str.c:97-115 *)
      let b := map Some z ++ Some 0 :: rest in
      let* r := m_alloc dbg p m use (zlen b) in
      let m := m_store (fst r) (snd r) b in
      let* s := str_take_ownership dbg b in
      let* h := m_alloc dbg p m use array_size in
      w_new w (Ok (fst h, mk_cont (snd h) use (snd r) (BStr s)))
  | WDup i use =>
      let* c := w_get w i in
      let* x := c_load m c in
      match x with
      | BVec v => let* v := vec_dup dbg v in w_new w (c_place dbg p m use (BVec v))
      | BList l => let* l := plist_dup dbg l in w_new w (c_place dbg p m use (BList l))
      | BStr s => let* s := str_dup dbg s in w_new w (c_place dbg p m (h_use c) (BStr s))
      end
  | WDestroy i =>
      let* c := w_get w i in
      let* m := c_destroy dbg m c in
      Ok (mk_world m (setn (w_objs w) i None), QNone)
  | WVecOp i o =>
      let* c := w_get w i in
      let* x := c_load m c in
      match x with
      | BVec v => let* r := vstep dbg v o in
                  w_upd w i (c_put dbg p m c (BVec (fst r)) false) (QVec (snd r))
      | _ => UB
      end
  | WListOp i o =>
      let* c := w_get w i in
      let* x := c_load m c in
      match x with
      | BList l => let* r := plstep dbg l o in
                   w_upd w i (c_put dbg p m c (BList (fst r)) false) (QNum (snd r))
      | _ => UB
      end
  | WStrOp i o =>
      let* c := w_get w i in
      match long_insert o with
      | Some (at_, txt) => w_upd w i (c_insertf dbg p m c at_ txt) (QNum None)
      | None =>
          let* x := c_load m c in
          match x with
          | BStr s => let* r := sstep dbg s o in
                      w_upd w i (c_put dbg p m c (BStr (fst r)) (always_realloc o)) (QNum (snd r))
          | _ => UB
          end
      end
  | WPushFrom i j k =>
      let* d := w_get w j in
      let* y := c_load m d in
      let* c := w_get w i in
      let* x := c_load m c in
      match x, y with
      | BVec v, BVec u =>
          let* off := vec_get_ptr dbg u k in
          let* e := bread (a_blk u) off (a_es u) in
          let* e := known e in
          let* v := vec_push_back dbg v (if Nat.eqb i j then Own off else Ext e) in
          w_upd w i (c_put dbg p m c (BVec v) false) QNone
      | _, _ => UB
      end
  | WAppendFrom i j =>
      let* d := w_get w j in
      let* y := c_load m d in
      let* c := w_get w i in
      let* x := c_load m c in
      match x, y with
      | BStr s, BStr t =>
          if Nat.eqb i j then UB else    (* a string appended to itself: not modelled *)
          let* z := str_z t in
          let* s := str_append dbg s z in
          w_upd w i (c_put dbg p m c (BStr s) false) QNone
      | _, _ => UB
      end
  end.

Fixpoint wrun (dbg : bool) (p : policy) (w : world) (ops : list wop) : res (world * list wout) :=
  match ops with
  | [] => Ok (w, [])
  | o :: ops' =>
      let* r := wstep dbg p w o in
      let* r' := wrun dbg p (fst r) ops' in
      Ok (fst r', snd r :: snd r')
  end.

(** A program: an allocator is created in the heap [h0], then the calls are made. *)
Definition wstart (dbg : bool) (p : policy) (h0 : heap) : res world :=
  let* r := mallocator_create dbg p (mk_sys h0 0) in
  Ok (mk_world (mk_mem (fst r) (snd r)) []).
Definition program (dbg : bool) (p : policy) (h0 : heap) (ops : list wop) : res (world * list wout) :=
  let* w := wstart dbg p h0 in wrun dbg p w ops.
