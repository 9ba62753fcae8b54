(** Model of src/vita/container/str.c, part 1: storage and editing.
    No proofs in this file.

    A string argument [z : list Z] (const char *z) stands for the bytes before its
    terminating NUL; it is separate memory from the vt_str_t operated on. *)
From Verif Require Import Base.

(** struct VitaBaseArrayType, inc/vita/container/common.h:27-46, as used by vt_str_t.
    elsize is always 1 (sizeof(char)).  NULL arguments are not modelled. *)
Record str := mk_str {
  sb : blk;       (* storage *)
  sl : Z;         (* len *)
  sc : Z;         (* capacity *)
  sv : bool;      (* is_view *)
  ss : Z          (* slider_idx *)
}.

(** The bytes of a C string in memory. *)
Definition zblk (z : list Z) : blk := map Some z ++ [Some 0].

(** Writes to the storage of a view are undefined (it may be a string literal). *)
Definition swrite (s : str) (off : Z) (d : list cell) : res str :=
  if sv s then UB else
  let* b := bwrite (sb s) off d in
  Ok (mk_str b (sl s) (sc s) (sv s) (ss s)).

(** s->ptr[off] = c (as char). *)
Definition sput (s : str) (off c : Z) : res str := swrite s off [Some c].

(** vt_memmove within the storage, src/vita/core/core.c:59-72. *)
Definition smove (s : str) (dst src n : Z) : res str :=
  if n =? 0 then Ok s else
  let* d := bread (sb s) src n in
  swrite s dst d.

(** vt_memmove / vt_memcopy of [n] bytes at offset [zoff] of a C string into the
    storage. *)
Definition scopy (s : str) (dst : Z) (z : list Z) (zoff n : Z) : res str :=
  if n =? 0 then Ok s else
  let* d := bread (zblk z) zoff n in
  swrite s dst d.

Definition set_len (s : str) (n : Z) : str := mk_str (sb s) n (sc s) (sv s) (ss s).

(** VT_REALLOC / VT_ALLOCATOR_REALLOC of the storage. *)
Definition srealloc (dbg : bool) (s : str) (bytes : Z) : res str :=
  let* b := c_realloc dbg (sb s) bytes in
  Ok (mk_str b (sl s) (sc s) (sv s) (ss s)).

Definition array_size : Z := 56.    (* sizeof(struct VitaBaseArrayType) *)

(** vt_str_create_static, str.c:6-19. *)
Definition str_create_static (z : list Z) : str := mk_str (zblk z) (zlen z) 0 true 0.

(** vt_str_clear, str.c:179-189. *)
Definition str_clear (s : str) : res str :=
  let* s := sput s 0 0 in
  Ok (set_len s 0).

(** vt_str_create_len, str.c:35-53. *)
Definition str_create_len (dbg : bool) (n : Z) : res str :=
  let* _ := dassert dbg (0 <? n) in
  let* _ := c_calloc dbg array_size in
  let* b := c_calloc dbg (w64 (n + 1)) in
  let s := mk_str b n n false 0 in
  if n =? 0 then Ok s else swrite s 0 (repeat (Some 63) (Z.to_nat n)).

(** vt_str_set_n, str.c:289-313. *)
Definition str_set_n (dbg : bool) (s : str) (z : list Z) (n : Z) : res str :=
  let* _ := dassert dbg (0 <? n) in
  let* _ := enforce (n <=? sl s) in
  let* s := scopy s 0 z 0 n in
  let* s := sput s n 0 in
  Ok (set_len s n).

(** vt_str_create, str.c:21-33. *)
Definition str_create (dbg : bool) (z : list Z) : res str :=
  let* s := str_create_len dbg (zlen z) in
  str_set_n dbg s z (zlen z).

(** vt_str_create_capacity, str.c:55-64. *)
Definition str_create_capacity (dbg : bool) (n : Z) : res str :=
  let* _ := dassert dbg (0 <? n) in
  let* s := str_create_len dbg n in
  str_clear s.

(** vt_str_dup, str.c:89-95. *)
Definition str_dup (dbg : bool) (s : str) : res str :=
  let* z := cstr (sb s) in
  str_create dbg z.

(** vt_str_take_ownership, str.c:97-115: the block [b] is a C string on the heap. *)
Definition str_take_ownership (dbg : bool) (b : blk) : res str :=
  let* _ := c_calloc dbg array_size in
  let* z := cstr b in
  Ok (mk_str b (zlen z) (zlen z) false 0).

(** vt_str_len, vt_str_capacity, vt_str_has_space, vt_str_is_empty,
    str.c:125-139, common.c:36-58. *)
Definition str_len (s : str) : Z := sl s.
Definition str_capacity (s : str) : Z := sc s.
Definition str_has_space (s : str) : Z := w64 (sc s - sl s).
Definition str_is_empty (s : str) : bool := sl s =? 0.

(** vt_str_z, str.c:117-123, read as a C string. *)
Definition str_z (s : str) : res (list Z) := cstr (sb s).

(** strnlen(p, n). *)
Fixpoint strnlen (b : blk) (k : nat) : res Z :=
  match k with
  | O => Ok 0
  | S k' => match b with
            | [] => UB
            | None :: _ => UB
            | Some c :: b' => if c =? 0 then Ok 0 else let* n := strnlen b' k' in Ok (n + 1)
            end
  end.

(** vt_str_validate_len, str.c:141-154. *)
Definition str_validate_len (s : str) : res (str * Z) :=
  let* n := strnlen (sb s) (Z.to_nat (sc s)) in
  let* s := sput s n 0 in
  Ok (set_len s n, n).

(** vt_str_shrink, str.c:156-177. *)
Definition str_shrink (dbg : bool) (s : str) : res str :=
  let* _ := enforce (negb (sv s)) in
  if sl s =? sc s then Ok s else
  let* s := srealloc dbg s (w64 (sl s + 1)) in
  let s := mk_str (sb s) (sl s) (sl s) (sv s) (ss s) in
  sput s (sc s) 0.

(** vt_str_reserve, str.c:191-208. *)
Definition str_reserve (dbg : bool) (s : str) (n : Z) : res str :=
  let* _ := dassert dbg (0 <? n) in
  let* _ := enforce (negb (sv s)) in
  let* s := srealloc dbg s (w64 (sc s + n + 1)) in
  let s := mk_str (sb s) (sl s) (w64 (sc s + n)) (sv s) (ss s) in
  sput s (sc s) 0.

(** vt_str_resize, str.c:210-228. *)
Definition str_resize (dbg : bool) (s : str) (n : Z) : res str :=
  let* _ := dassert dbg (0 <? n) in
  let* _ := enforce (negb (sv s)) in
  let* s := srealloc dbg s (w64 (n + 1)) in
  let s := mk_str (sb s) (if n <? sl s then n else sl s) n (sv s) (ss s) in
  sput s (sc s) 0.

(** vt_str_set, str.c:230-237. *)
Definition str_set (dbg : bool) (s : str) (z : list Z) : res str := str_set_n dbg s z (zlen z).

(** vt_str_append_n, str.c:342-362. *)
Definition str_append_n (dbg : bool) (s : str) (z : list Z) (n : Z) : res str :=
  let* _ := dassert dbg (0 <? n) in
  let* s := if str_has_space s <? n then str_reserve dbg s (w64 (n - str_has_space s)) else Ok s in
  let* s := scopy s (sl s) z 0 n in
  let s := set_len s (w64 (sl s + n)) in
  sput s (sl s) 0.

(** vt_str_append, str.c:315-322. *)
Definition str_append (dbg : bool) (s : str) (z : list Z) : res str := str_append_n dbg s z (zlen z).

(** vt_str_vfmt_append, str.c:1428-1462, and vt_str_appendf, 324-340.  By contract
    vsnprintf returns the length of the formatted text [txt] and writes it with its
    NUL (it fails with a negative length only on encoding errors: not modelled). *)
Definition str_appendf (dbg : bool) (s : str) (txt : list Z) : res str :=
  let n := zlen txt in
  let* s := if str_has_space s <? n then str_reserve dbg s (w64 (n - str_has_space s)) else Ok s in
  let* s := swrite s (sl s) (zblk txt) in
  let s := set_len s (w64 (sl s + n)) in
  sput s (sl s) 0.

(** vt_str_vfmt_set, str.c:1385-1419 (used on the temporary string of insertf). *)
Definition str_vfmt_set (dbg : bool) (s : str) (txt : list Z) : res str :=
  let n := zlen txt + 1 in
  let* s := if str_has_space s <? n then str_reserve dbg s (w64 (n - str_has_space s)) else Ok s in
  let* s := swrite s 0 (zblk txt) in
  let s := set_len s n in
  sput s (sl s) 0.

(** vt_str_insert, str.c:364-395. *)
Definition str_insert (dbg : bool) (s : str) (z : list Z) (at_ : Z) : res str :=
  let* _ := dassert dbg (at_ <? sl s) in
  let zl := zlen z in
  let sp := str_has_space s in
  let* s := if sp <? zl then str_reserve dbg s (w64 (zl - sp)) else Ok s in
  let* s := smove s (w64 (at_ + zl)) at_ (w64 (sl s - at_)) in
  let* s := scopy s at_ z 0 zl in
  let s := set_len s (w64 (sl s + zl)) in
  sput s (sl s) 0.

Definition tmp_buffer : Z := 1024.   (* VT_STR_TMP_BUFFER_SIZE, str.h:71 *)

(** vt_str_insertf, str.c:397-447, with the formatted text [txt]. *)
Definition str_insertf (dbg : bool) (s : str) (at_ : Z) (txt : list Z) : res str :=
  if zlen txt <? tmp_buffer - 1 then str_insert dbg s txt at_ else
  let* t := str_create_len dbg (zlen txt) in
  let* t := str_vfmt_set dbg t txt in
  let* z := str_z t in
  str_insert dbg s z at_.

(** vt_str_insert_n, str.c:449-473. *)
Definition str_insert_n (dbg : bool) (s : str) (z : list Z) (at_ n : Z) : res str :=
  let* _ := dassert dbg (0 <? n) in
  let sp := str_has_space s in
  let* s := if sp <? n then str_reserve dbg s (w64 (n - sp)) else Ok s in
  let* s := smove s (w64 (at_ + n)) at_ (w64 (sl s - at_)) in
  let* s := scopy s at_ z 0 n in
  let s := set_len s (w64 (sl s + n)) in
  sput s (sl s) 0.

(** vt_str_find, str.c:897-905: offset of the occurrence, [None] = NULL. *)
Definition str_find (s : str) (sub : list Z) : res (option Z) :=
  let* _ := enforce (zlen sub <=? sl s) in
  let* t := str_z s in
  Ok (strstr t sub).

(** vt_str_index_find, str.c:1337-1350. *)
Definition str_index_find (s : str) (sub : list Z) : res Z :=
  let* r := str_find s sub in
  Ok (match r with Some i => i | None => -1 end).

(** vt_str_insert_before, str.c:475-490. *)
Definition str_insert_before (dbg : bool) (s : str) (sub z : list Z) : res str :=
  let* i := str_index_find s sub in
  if i <? 0 then Ok s else str_insert dbg s z i.

(** vt_str_insert_after, str.c:492-507. *)
Definition str_insert_after (dbg : bool) (s : str) (sub z : list Z) : res str :=
  let* i := str_index_find s sub in
  if i <? 0 then Ok s else str_insert dbg s z (i + zlen sub).

(** vt_str_remove, str.c:509-535. *)
Definition str_remove (dbg : bool) (s : str) (from n : Z) : res str :=
  let* _ := dassert dbg (0 <? n) in
  let* _ := dassert dbg (from <? sl s) in
  let n := if w64 (sl s - from) <? n then w64 (sl s - from) else n in
  let* s := smove s from (w64 (from + n)) (w64 (sl s - w64 (from + n))) in
  let s := set_len s (w64 (sl s - n)) in
  sput s (sl s) 0.

(** vt_str_set_at, str.c:239-269. *)
Definition str_set_at (dbg : bool) (s : str) (z : list Z) (at_ : Z) : res str :=
  let* _ := dassert dbg (at_ <? sl s) in
  let* _ := enforce (zlen z <=? w64 (sl s - at_)) in
  let* s := str_remove dbg s at_ (w64 (sl s - at_)) in
  str_append_n dbg s z (zlen z).

(** vt_str_set_c, str.c:271-287. *)
Definition str_set_c (dbg : bool) (s : str) (c at_ : Z) : res str :=
  let* _ := dassert dbg (at_ <? sl s) in
  sput s at_ c.

(** vt_str_remove_first, str.c:537-564; [true] = success, [false] = not found. *)
Definition str_remove_first (s : str) (z : list Z) : res (str * bool) :=
  let* t := str_z s in
  match strstr t z with
  | None => Ok (s, false)
  | Some i =>
      let zl := zlen z in
      let diff := w64 (sl s - (i + zl)) in
      let* s := smove s i (i + zl) diff in
      let s := set_len s (w64 (sl s - zl)) in
      let* s := sput s (sl s) 0 in
      Ok (s, true)
  end.

(** Last instance: p = strstr(ptr, z); while ((p = strstr(p + zLen, z)) != NULL)
    last = p; the loop of str.c:575-579, 722-726, 1151-1155.  [p] and the result are
    offsets. *)
Fixpoint last_loop (fuel : nat) (b : blk) (z : list Z) (p : Z) : res Z :=
  match fuel with
  | O => NoFuel
  | S f =>
      let* t := cstr_at b (p + zlen z) in
      match strstr t z with
      | None => Ok p
      | Some i => last_loop f b z (p + zlen z + i)
      end
  end.

(** vt_str_remove_last, str.c:566-592.  When the substring does not occur, p is NULL
    and strstr(NULL + zLen, z) is evaluated: undefined. *)
Definition str_remove_last (dbg : bool) (fuel : nat) (s : str) (z : list Z) : res (str * bool) :=
  let* t := str_z s in
  match strstr t z with
  | None => UB
  | Some i =>
      let* last := last_loop fuel (sb s) z i in
      let pos := w64 (sl s - last) in
      let* s := str_remove dbg s pos (zlen z) in
      Ok (s, true)
  end.

(** vt_str_remove_all, str.c:594-604. *)
Fixpoint str_remove_all (fuel : nat) (s : str) (z : list Z) : res str :=
  match fuel with
  | O => NoFuel
  | S f =>
      let* r := str_remove_first s z in
      if snd r then str_remove_all f (fst r) z else Ok (fst r)
  end.

(** vt_str_remove_c, str.c:606-644: the loop from index [i] with [k] iterations
    left. *)
Fixpoint rmc_loop (k : nat) (s : str) (c : list Z) (i offset : Z) : res (str * Z) :=
  match k with
  | O => Ok (s, offset)
  | S k' =>
      let* x := bbyte (sb s) i in
      if memb x c then rmc_loop k' s c (i + 1) (offset + 1) else
      let* s := sput s (i - offset) x in
      rmc_loop k' s c (i + 1) offset
  end.
Definition str_remove_c (s : str) (c : list Z) : res str :=
  let* r := rmc_loop (Z.to_nat (sl s)) s c 0 0 in
  let s := set_len (fst r) (w64 (sl (fst r) - snd r)) in
  sput s (sl s) 0.

(** Replacing the occurrence at [i]: str.c:666-671, 697-702, 731-736. *)
Definition replace_at (dbg : bool) (s : str) (sub rsub : list Z) (i : Z) : res str :=
  if zlen sub =? zlen rsub then scopy s i rsub 0 (zlen rsub) else
  let* s := str_remove dbg s i (zlen sub) in
  if i <? sl s then str_insert dbg s rsub i else str_append dbg s rsub.

Definition is_nil {A} (l : list A) : bool := match l with [] => true | _ => false end.

(** vt_str_replace, str.c:646-677; [p] = offset where the search continues. *)
Fixpoint replace_loop (fuel : nat) (dbg : bool) (s : str) (sub rsub : list Z) (p : Z) : res str :=
  match fuel with
  | O => NoFuel
  | S f =>
      let* t := cstr_at (sb s) p in
      match strstr t sub with
      | None => Ok s
      | Some i =>
          let* s := replace_at dbg s sub rsub (p + i) in
          replace_loop f dbg s sub rsub (p + i + zlen rsub)
      end
  end.
Definition str_replace (dbg : bool) (fuel : nat) (s : str) (sub rsub : list Z) : res str :=
  if is_nil sub || is_nil rsub then Ok s else replace_loop fuel dbg s sub rsub 0.

(** vt_str_replace_first, str.c:679-705. *)
Definition str_replace_first (dbg : bool) (s : str) (sub rsub : list Z) : res str :=
  if is_nil sub || is_nil rsub then Ok s else
  let* r := str_find s sub in
  match r with
  | None => Ok s
  | Some i => replace_at dbg s sub rsub i
  end.

(** vt_str_replace_last, str.c:707-739 (not found: strstr(NULL + subLen, sub)). *)
Definition str_replace_last (dbg : bool) (fuel : nat) (s : str) (sub rsub : list Z) : res str :=
  if is_nil sub || is_nil rsub then Ok s else
  let* t := str_z s in
  match strstr t sub with
  | None => UB
  | Some i =>
      let* last := last_loop fuel (sb s) sub i in
      replace_at dbg s sub rsub last
  end.

(** vt_str_replace_c, str.c:741-767: first j with ptr[i] == c[j]. *)
Fixpoint index_in (x : Z) (c : list Z) : option Z :=
  match c with
  | [] => None
  | y :: c' => if x =? y then Some 0 else match index_in x c' with Some j => Some (j + 1) | None => None end
  end.
Fixpoint rpc_loop (k : nat) (s : str) (c r : list Z) (i : Z) : res str :=
  match k with
  | O => Ok s
  | S k' =>
      let* x := bbyte (sb s) i in
      match index_in x c with
      | None => rpc_loop k' s c r (i + 1)
      | Some j =>
          let* y := bbyte (zblk r) (if j <? zlen r then j else zlen r - 1) in
          let* s := sput s i y in
          rpc_loop k' s c r (i + 1)
      end
  end.
Definition str_replace_c (s : str) (c r : list Z) : res str :=
  let* _ := enforce (zlen r <=? zlen c) in
  if is_nil r || is_nil c then Ok s else
  rpc_loop (Z.to_nat (sl s)) s c r 0.

(** * Stripping, str.c:769-895 *)

(** isspace / ispunct in the C locale on bytes (simplification: a char is a byte
    0..255; bytes above 127 belong to no class). *)
Definition is_space (c : Z) : bool := ((9 <=? c) && (c <=? 13)) || (c =? 32).
Definition is_punct (c : Z) : bool :=
  ((33 <=? c) && (c <=? 47)) || ((58 <=? c) && (c <=? 64)) || ((91 <=? c) && (c <=? 96))
  || ((123 <=? c) && (c <=? 126)).

(** while (f( *curr)) { offset++; curr = p + offset; } *)
Fixpoint lead_loop (fuel : nat) (f : Z -> bool) (b : blk) (offset : Z) : res Z :=
  match fuel with
  | O => NoFuel
  | S k => let* c := bbyte b offset in
           if f c then lead_loop k f b (offset + 1) else Ok offset
  end.
(** curr = p + (len + offset - 1); while (f( *curr)) { len--; curr = ...; } *)
Fixpoint tail_loop (fuel : nat) (f : Z -> bool) (b : blk) (offset len : Z) : res Z :=
  match fuel with
  | O => NoFuel
  | S k => let* c := bbyte b (w64 (len + offset - 1)) in
           if f c then tail_loop k f b offset (w64 (len - 1)) else Ok len
  end.
Definition strip_by (fuel : nat) (f : Z -> bool) (s : str) : res str :=
  let* offset := lead_loop fuel f (sb s) 0 in
  let* n := tail_loop fuel f (sb s) offset (w64 (sl s - offset)) in
  let s := set_len s n in
  let* s := smove s 0 offset n in
  sput s n 0.
(** vt_str_strip, str.c:769-801; vt_str_strip_punct, 803-835. *)
Definition str_strip (fuel : nat) (s : str) : res str := strip_by fuel is_space s.
Definition str_strip_punct (fuel : nat) (s : str) : res str :=
  strip_by fuel (fun c => is_space c || is_punct c) s.
(** vt_str_strip_c, str.c:837-895: with an empty set the first while loop never
    sets stop. *)
Definition str_strip_c (fuel : nat) (s : str) (c : list Z) : res str :=
  if is_nil c then NoFuel else strip_by fuel (fun x => memb x c) s.
