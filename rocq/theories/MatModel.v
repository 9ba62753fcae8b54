(** Model of archive/mat.c: matrices of elements of one size.  No proofs in this file.

    The file is kept in the repository but not built.  It uses macros that the library no longer
    has; they are taken as calloc, realloc and free with the VT_DEBUG_ASSERT of today
    (DEBUG_ASSERT ends the program in debug builds).  calloc and realloc answer NULL for more
    than [alloc_max] bytes; calloc(0) gives a block without bytes; realloc(p, 0) frees the block
    and answers NULL (glibc).  NULL matrices are not modelled. *)
From Verif Require Import Base StrModel NumModel VecModel TypedModel.

(** mat_t; [None] = the block was freed. *)
Record mat := mk_mat { m_blk : option blk; m_rows : Z; m_cols : Z; m_el : Z }.

(** What a call answers. *)
Inductive status := Success | Error_size | Error_allocation | Error_bounds | Error_type.

(** The number of bytes, computed in size_t. *)
Definition bytes (rows cols el : Z) : Z := w64 (w64 (rows * cols) * el).

(** mat_create with mat_ctor, mat.c:13-39, 79-95; [None] = NULL. *)
Definition mat_create (dbg : bool) (rows cols el : Z) : res (option mat) :=
  if (rows =? 0) || (cols =? 0) || (alloc_max <? bytes rows cols el)
  then let* _ := dassert dbg false in Ok None
  else Ok (Some (mk_mat (Some (repeat (Some 0) (Z.to_nat (bytes rows cols el)))) rows cols el)).

(** mat_from, mat.c:102-120; [src] = the bytes the pointer leads to, [None] = NULL. *)
Definition mat_from (dbg : bool) (src : option blk) (rows cols el : Z) : res (option mat) :=
  let* m := mat_create dbg rows cols el in
  match m, src with
  | None, _ => let* _ := dassert dbg false in Ok None
  | Some m, None => Ok (Some m)
  | Some m, Some s =>
      let* d := bread s 0 (bytes rows cols el) in
      match m_blk m with
      | Some b => let* b := bwrite b 0 d in Ok (Some (mk_mat (Some b) rows cols el))
      | None => UB
      end
  end.
(** mat_dup, mat.c:41-55. *)
Definition mat_dup (dbg : bool) (m : mat) : res (option mat) :=
  match m_blk m with Some b => mat_from dbg (Some b) (m_rows m) (m_cols m) (m_el m) | None => UB end.

(** mat_rows, mat_cols, mat_size, mat.c:162-175. *)
Definition mat_size (m : mat) : Z := w64 (m_rows m * m_cols m).

(** mat_clear, mat.c:177-187. *)
Definition mat_clear (m : mat) : res mat :=
  match m_blk m with
  | Some b => let* b := bwrite b 0 (repeat (Some 0) (Z.to_nat (bytes (m_rows m) (m_cols m) (m_el m)))) in
              Ok (mk_mat (Some b) (m_rows m) (m_cols m) (m_el m))
  | None => UB
  end.

(** mat_resize, mat.c:189-217. *)
Definition mat_resize (dbg : bool) (m : mat) (rows cols : Z) : res (mat * status) :=
  if (rows =? 0) || (cols =? 0) then let* _ := dassert dbg false in Ok (m, Error_size) else
  if (m_rows m =? rows) && (m_cols m =? cols) then Ok (m, Success) else
  let n := bytes rows cols (m_el m) in
  match m_blk m with
  | None => UB
  | Some b =>
      if n =? 0 then let* _ := dassert dbg false in Ok (mk_mat None (m_rows m) (m_cols m) (m_el m), Error_allocation)
      else if alloc_max <? n then let* _ := dassert dbg false in Ok (m, Error_allocation)
      else Ok (mk_mat (Some (firstn (Z.to_nat n) b ++ repeat None (Z.to_nat n - length b))) rows cols (m_el m), Success)
  end.

(** The address computed in mat.c:232 and 338. *)
Definition offset (m : mat) (i j : Z) : Z := w64 (w64 (w64 (i * m_cols m) + j) * m_el m).
Definition in_bounds (m : mat) (i j : Z) : bool := (i <? m_rows m) && (j <? m_cols m).

(** mat_set, mat.c:219-235; [val]: the bytes at the pointer. *)
Definition mat_set (dbg : bool) (m : mat) (val : blk) (i j : Z) : res (mat * status) :=
  if negb (in_bounds m i j) then let* _ := dassert dbg false in Ok (m, Error_bounds) else
  let* d := bread val 0 (m_el m) in
  match m_blk m with
  | Some b => let* b := bwrite b (offset m i j) d in Ok (mk_mat (Some b) (m_rows m) (m_cols m) (m_el m), Success)
  | None => UB
  end.
(** mat_setT, mat.c:237-325. *)
Definition mat_set_t (dbg : bool) (t : ctype) (m : mat) (x i j : Z) : res (mat * status) :=
  if negb (m_el m =? width t) then let* _ := dassert dbg false in Ok (m, Error_type)
  else mat_set dbg m (map Some (enc t x)) i j.

(** mat_get, mat.c:327-339: where the element is; [None] = NULL. *)
Definition mat_get (dbg : bool) (m : mat) (i j : Z) : res (option Z) :=
  if negb (in_bounds m i j) then let* _ := dassert dbg false in Ok None else Ok (Some (offset m i j)).
(** mat_getT, mat.c:341-379. *)
Definition mat_get_t (dbg : bool) (t : ctype) (m : mat) (i j : Z) : res Z :=
  let* o := mat_get dbg m i j in
  match o, m_blk m with Some o, Some b => deref t b o | _, _ => UB end.

(** mat_apply, mat.c:381-397.  [f]: what the function leaves in the element it is given, with the
    row and the column; it may use the bytes of that element only. *)
Definition mat_visit (f : list cell -> Z -> Z -> list cell) (m : mat) (i j : Z) : res mat :=
  let* o := mat_get false m i j in
  match o, m_blk m with
  | Some o, Some b =>
      let* c := bread b o (m_el m) in
      let* b := bwrite b o (f c i j) in
      Ok (mk_mat (Some b) (m_rows m) (m_cols m) (m_el m))
  | _, _ => UB
  end.
Fixpoint apply_row (f : list cell -> Z -> Z -> list cell) (k : nat) (m : mat) (i j : Z) : res mat :=
  match k with
  | O => Ok m
  | S k => let* m := mat_visit f m i j in apply_row f k m i (j + 1)
  end.
Fixpoint apply_rows (f : list cell -> Z -> Z -> list cell) (k : nat) (m : mat) (i : Z) : res mat :=
  match k with
  | O => Ok m
  | S k => let* m := apply_row f (Z.to_nat (m_cols m)) m i 0 in apply_rows f k m (i + 1)
  end.
Definition mat_apply (f : list cell -> Z -> Z -> list cell) (m : mat) : res mat := apply_rows f (Z.to_nat (m_rows m)) m 0.
