(** C169: a vector used as a matrix (docs/wiki/page2.md "Imitating 2d arrays").  Statements only. *)
From Verif Require Import Base BaseFacts VecModel VecSpec VecProofs SpanModel TypedModel TypedSpec TypedProofs GridProofs.
Local Open Scope Z_scope.

(** C169: a vector made for r*c numbers and resized to r*c, used with vt_index_2d_to_1d, is a
    matrix of zeros with r rows and c columns: every sequence of sets and gets at places inside
    answers as a function of row and column does. *)
Theorem C169_grid : forall dbg t r c ops, 0 < r -> 0 < c -> r * c * width t <= alloc_max ->
  Forall (fun o => (0 <= fst (gplace o) < r /\ 0 <= snd (gplace o) < c) /\ match o with GSet x _ _ => typed t x | _ => True end) ops ->
  exists v v', grid_create dbg t r c = Ok v /\ vec_len v = r * c /\ grun dbg t c v ops = Ok (v', expected (fun _ _ => 0) ops).
Proof. exact grid_run. Qed.
Print Assumptions C169_grid.
(** In debug builds a place outside is stopped.  Refuted: only the place in the vector is checked, so a
    column too large is a place of the next row. *)
Theorem C169_column_refuted :
  exists v v', grid_create true I32 2 3 = Ok v /\ vec_set_t true I32 v 7 (index_2d_to_1d 0 3 3) = Ok v' /\
    vec_get_t true I32 v' (index_2d_to_1d 1 0 3) = Ok 7.
Proof. do 2 eexists. split; [vm_compute; reflexivity|]. split; [vm_compute; reflexivity|]. vm_compute. reflexivity. Qed.
Print Assumptions C169_column_refuted.
(** A row too large is stopped, after any sequence of calls (while the place is a number below 2^64). *)
Theorem C169_row_partial : forall t r c ops i j v v' outs, 0 < r -> 0 < c -> r * c * width t <= alloc_max ->
  Forall (fun o => (0 <= fst (gplace o) < r /\ 0 <= snd (gplace o) < c) /\ match o with GSet x _ _ => typed t x | _ => True end) ops ->
  grid_create true t r c = Ok v -> grun true t c v ops = Ok (v', outs) -> r <= i -> 0 <= j < c -> c * i + j < two64 ->
  vec_get_t true t v' (index_2d_to_1d i j c) = Abort /\ forall x, vec_set_t true t v' x (index_2d_to_1d i j c) = Abort.
Proof. exact grid_row. Qed.
Print Assumptions C169_row_partial.
(** The identity matrix of the page. *)
Example C169_example :
  (let* v := grid_create true I32 5 5 in
   let* r := grun true I32 5 v [GSet 1 0 0; GSet 1 1 1; GSet 1 2 2; GSet 1 3 3; GSet 1 4 4; GGet 3 3; GGet 3 4] in
   let* a := vec_get_t true I32 (fst r) 0 in let* b := vec_get_t true I32 (fst r) 6 in let* c := vec_get_t true I32 (fst r) 12 in
   let* d := vec_get_t true I32 (fst r) 18 in let* e := vec_get_t true I32 (fst r) 24 in
   Ok (a, b, c, d, e, vec_len v, vec_capacity v, vec_has_space v, snd r)) =
  Ok (1, 1, 1, 1, 1, 25, 25, 0, [None; None; None; None; None; Some 1; Some 0]).
Proof. vm_compute. reflexivity. Qed.
