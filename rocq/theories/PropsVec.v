(** Properties of vt_vec (src/vita/container/vec.c, common.c).  Statements only;
    each theorem is followed by a non-vacuity example. *)
From Verif Require Import Base BaseFacts VecModel VecSpec VecProofs VecProofs2 VecAlias VecMain.
From Coq Require Import Permutation.

(** C01: every trace of in-range calls returns exactly what the sequence returns,
    and afterwards length, capacity and every element agree. *)
Theorem C01_vec_refines_sequence :
  forall dbg es n ops xs cap outs,
    0 < n -> 0 < es -> fits es n = true ->
    srun es ([], n) ops = Some ((xs, cap), outs) ->
    exists v0 v,
      vec_create dbg n es = Ok v0 /\ vrun dbg v0 ops = Ok (v, outs) /\
      vec_len v = zlen xs /\ vec_capacity v = cap /\
      forall i, 0 <= i < zlen xs ->
        exists x, nth_error xs (Z.to_nat i) = Some x /\ vec_get dbg v i = Ok (map Some x).
Proof. exact vec_refines. Qed.
Print Assumptions C01_vec_refines_sequence.

Example C01_example :
  srun 2 ([], 1) [PushBack [1;2]; PushFront [3;4]; PushBack [5;6]; Insert [7;8] 1; Remove 0 1;
                  Find [7;8]; PopGet; Shrink; Get 0; SetAt [9;9] 0; Reserve 3; Capacity]
  = Some (([[9;9]; [7;8]], 5),
          [ONone; ONone; ONone; ONone; ONone; OInt 1; OElem [Some 1; Some 2]; ONone;
           OElem [Some 5; Some 6]; ONone; ONone; OInt 5]).
Proof. vm_compute. reflexivity. Qed.

(** C02: in debug builds an index at or beyond the length ends the process. *)
Theorem C02_vec_bounds_checked :
  forall v i val rs, a_len v <= i ->
    vec_get_ptr true v i = Abort /\ vec_get true v i = Abort /\ vec_set true v val i = Abort /\
    vec_insert true v val i = Abort /\ vec_remove true v i rs = Abort.
Proof. exact vec_bounds_abort. Qed.
Print Assumptions C02_vec_bounds_checked.

Example C02_example : exists v, vec_create true 3 4 = Ok v /\ a_len v <= 0.
Proof. eexists. split; vm_compute; [reflexivity|discriminate]. Qed.

(** C03: arbitrary calls in debug builds never leave the storage (no [UB]).
    vt_vec_can_find is excluded for histories that contain vt_vec_resize, because
    resize exposes uninitialised bytes that the search would compare. *)
Theorem C03_vec_safe_debug :
  forall n es ops v0,
    0 < n -> 0 < es -> n * es < two64 / 2 -> vec_create true n es = Ok v0 ->
    Forall (op_typed es) ops -> Forall no_find ops \/ Forall no_resize ops ->
    vrun true v0 ops = Abort \/ exists v outs, vrun true v0 ops = Ok (v, outs) /\ vwf v.
Proof. exact vec_safe_debug. Qed.
Print Assumptions C03_vec_safe_debug.

Example C03_example :
  exists v0, vec_create true 2 1 = Ok v0 /\
    Forall (op_typed 1) [Resize 9; SetAt [3] 8; Remove 8 1; Insert [1] 7; Remove 100 0] /\
    vrun true v0 [Resize 9; SetAt [3] 8; Remove 8 1; Insert [1] 7; Remove 100 0] = Abort.
Proof.
  eexists. split; [vm_compute; reflexivity|]. split; [|vm_compute; reflexivity].
  repeat constructor; vm_compute; intuition discriminate.
Qed.

(** C04 (false): vt_vec_create(2^61+1, 8) succeeds with one element of storage,
    and the second push writes outside it. *)
Theorem C04_vec_oversized_refuted :
  exists n es v, 0 < n < two64 /\ 0 < es < two64 /\ vec_create true n es = Ok v /\
    zlen (a_blk v) < vec_capacity v * es /\
    vrun true v [PushBack (repeat 7 8); PushBack (repeat 7 8)] = UB.
Proof.
  exists 2305843009213693953, 8. eexists. split; [split; reflexivity|]. split; [split; reflexivity|].
  split; [vm_compute; reflexivity|]. split; (vm_compute; reflexivity).
Qed.
Print Assumptions C04_vec_oversized_refuted.

(** C04, part that holds: no wrap, no mismatch.  Missing: sizes whose product
    exceeds 2^64. *)
Theorem C04_vec_create_partial :
  forall dbg n es v, 0 <= n -> 0 <= es -> n * es < two64 ->
    vec_create dbg n es = Ok v -> zlen (a_blk v) = vec_capacity v * es /\ vec_capacity v = n.
Proof. exact vec_create_exact. Qed.
Print Assumptions C04_vec_create_partial.

Theorem C04_vec_reserve_partial :
  forall dbg v n v', 0 <= a_cap v -> 0 <= n -> 0 < a_es v -> (a_cap v + n) * a_es v < two64 ->
    vec_reserve dbg v n = Ok v' ->
    zlen (a_blk v') = vec_capacity v' * a_es v' /\ vec_capacity v' = vec_capacity v + n.
Proof. exact vec_reserve_exact. Qed.
Print Assumptions C04_vec_reserve_partial.

Example C04_example : exists v v', vec_create true 2 3 = Ok v /\ vec_reserve true v 5 = Ok v' /\ zlen (a_blk v') = 21.
Proof. do 2 eexists. run_steps. Qed.

(** C05: stable removal keeps the order; fast removal moves the last element into
    the gap; the results are permutations of each other. *)
Theorem C05_vec_remove :
  forall dbg es p x s cap v, vrep es (p ++ x :: s) cap v ->
    exists v1 v2 ys,
      vec_remove dbg v (zlen p) 0 = Ok v1 /\ vrep es (p ++ s) cap v1 /\
      vec_remove dbg v (zlen p) 1 = Ok v2 /\ vrep es ys cap v2 /\
      Permutation ys (p ++ s) /\
      (s = [] -> ys = p) /\
      (forall k y, s = k ++ [y] -> ys = p ++ y :: k).
Proof. exact vec_remove_both. Qed.
Print Assumptions C05_vec_remove.

(** A vector with three elements, reached from vt_vec_create. *)
Definition ex_vec : arr :=
  mk_arr (map Some [1;1;2;2;3;3] ++ repeat (Some 0) 2) 3 4 2 0.
Lemma ex_vec_rep : vrep 2 [[1;1];[2;2];[3;3]] 4 ex_vec.
Proof.
  constructor; try (vm_compute; first [reflexivity | discriminate]).
  - eexists. reflexivity.
  - repeat constructor.
Qed.
Example ex_vec_reached :
  exists v0, vec_create true 4 2 = Ok v0 /\
    vrun true v0 [PushBack [1;1]; PushBack [2;2]; PushBack [3;3]] = Ok (ex_vec, [ONone; ONone; ONone]).
Proof. eexists. run_steps. Qed.

(** C06: the search returns the first index, or -1 exactly when absent. *)
Theorem C06_vec_find_first :
  forall es xs cap v d, vrep es xs cap v ->
    exists r, vec_can_find v d = Ok r /\
      ((r = -1 /\ ~ In d xs) \/ (exists p s, xs = p ++ d :: s /\ r = zlen p /\ ~ In d p)).
Proof. exact vec_find_first. Qed.
Print Assumptions C06_vec_find_first.
Example C06_example : vec_can_find ex_vec [2;2] = Ok 1 /\ vec_can_find ex_vec [2;3] = Ok (-1).
Proof. split; (vm_compute; reflexivity). Qed.

(** C07: [m] complete sweeps of vt_vec_slide_front; each sweep yields the
    addresses of elements 0..len-1, then NULL, and ends in the initial state. *)
Theorem C07_slide_front_sweeps :
  forall es xs cap v m, vrep es xs cap v -> a_slider v = 0 ->
    calls slide_front (m * (Z.to_nat (vec_len v) + 1)) v =
    (v, repeat_list m (offsets es 0 (length xs) ++ [None])) /\
    Forall2 (fun o x => match o with Some off => bread (a_blk v) off es = Ok (map Some x) | None => False end)
            (offsets es 0 (length xs)) xs.
Proof. exact c07_slide_front_sweeps_proof. Qed.
Print Assumptions C07_slide_front_sweeps.
Example C07_example : snd (calls slide_front 5 ex_vec) = [Some 0; Some 2; Some 4; None; Some 0].
Proof. vm_compute. reflexivity. Qed.

(** C08 (false): the first call of vt_vec_slide_back does not give the last
    element. *)
Theorem C08_slide_back_refuted :
  exists es xs cap v off, vrep es xs cap v /\ a_slider v = 0 /\ xs <> [] /\
    snd (slide_back v) = Some off /\ bread (a_blk v) off es <> Ok (map Some (last xs [])).
Proof.
  exists 2, [[1;1];[2;2];[3;3]], 4, ex_vec, 0.
  split; [exact ex_vec_rep|]. repeat split; vm_compute; discriminate.
Qed.
Print Assumptions C08_slide_back_refuted.

(** C08, what happens instead: the first len-2 calls visit len-3, ..., 0, the two
    calls after them return addresses outside the storage. *)
Theorem C08_slide_back_partial :
  forall es xs cap v, vrep es xs cap v -> a_slider v = 0 -> 2 <= zlen xs ->
    calls slide_back (Z.to_nat (zlen xs - 2)) v =
      (set_slider v (zlen xs - 2), back_offsets es (zlen xs - 3) (Z.to_nat (zlen xs - 2))) /\
    (forall s, zlen xs - 2 <= s < zlen xs ->
       exists off, snd (slide_back (set_slider v s)) = Some off /\ bread (a_blk v) off es = UB).
Proof. exact c08_slide_back_partial_proof. Qed.
Print Assumptions C08_slide_back_partial.
Example C08_example : snd (calls slide_back 1 ex_vec) = [Some 0].
Proof. vm_compute. reflexivity. Qed.

(** C09: appending the elements [ds] one by one: at most logarithmically many
    reallocations, at most 1.5 moves per element. *)
Theorem C09_push_amortised :
  forall dbg es n ds v0, 0 < n -> 0 < es -> uniform es ds ->
    n * es <= alloc_max -> zlen ds * 3 * es <= alloc_max -> vec_create dbg n es = Ok v0 ->
    exists w reallocs moved, push_all dbg v0 ds = Ok (w, reallocs, moved) /\ shows dbg w ds /\
      0 <= reallocs /\ (reallocs = 0 \/ n * 3 ^ reallocs < 3 * zlen ds) /\ 2 * moved <= 3 * zlen ds.
Proof. exact push_amortised. Qed.
Print Assumptions C09_push_amortised.
Example C09_example : exists v0 w, vec_create true 1 1 = Ok v0 /\
  push_all true v0 (repeat [5] 10) = Ok (w, 3, 13).
Proof. do 2 eexists. run_steps. Qed.

(** C10 (contents; independence is in PropsHeap): the duplicate of a non-empty
    vector holds the same elements, has capacity = length and a reset slider. *)
Theorem C10_vec_dup_equal :
  forall dbg es xs cap v, vrep es xs cap v -> xs <> [] ->
    exists w, vec_dup dbg v = Ok w /\ vrep es xs (zlen xs) w /\ a_slider w = 0.
Proof. exact vec_dup_rep. Qed.
Print Assumptions C10_vec_dup_equal.
Example C10_example : exists w, vec_dup true ex_vec = Ok w /\ vec_capacity w = 3.
Proof. eexists. run_steps. Qed.

(** C11: resize keeps the common prefix. *)
Theorem C11_vec_resize_prefix :
  forall dbg es xs cap v n, vrep es xs cap v -> 0 < n -> n * es <= alloc_max ->
    exists w, vec_resize dbg v n = Ok w /\ vec_len w = n /\ vec_capacity w = n /\
      zlen (a_blk w) = n * es /\
      forall i, 0 <= i < Z.min n (zlen xs) -> vec_get dbg w i = vec_get dbg v i.
Proof. exact vec_resize_any. Qed.
Print Assumptions C11_vec_resize_prefix.
Example C11_example : exists w, vec_resize true ex_vec 7 = Ok w /\ vec_get true w 2 = Ok [Some 3; Some 3].
Proof. eexists. run_steps. Qed.

(** C74 (false): appending a vector's own element when the storage is full reads
    freed memory; inserting one in front of itself stores another element. *)
Theorem C74_own_element_refuted :
  (forall dbg es xs cap v o, vrep es xs cap v -> zlen xs = cap -> cap * 3 * es <= alloc_max ->
     vec_push_back dbg v (Own o) = UB) /\
  (exists v o w, alias_vec = Ok v /\ vec_get_ptr true v 2 = Ok o /\ vec_get true v 2 = Ok [Some 30] /\
     vec_insert true v (Own o) 1 = Ok w /\ vec_get true w 1 = Ok [Some 20]).
Proof. exact (conj vec_push_own_full vec_insert_own_wrong). Qed.
Print Assumptions C74_own_element_refuted.

(** C74, part that holds: set always; push and insert when no reallocation is
    needed and (insert) the source element is not behind the position. *)
Theorem C74_own_element_partial :
  forall dbg es p x s cap v i, vrep es (p ++ x :: s) cap v ->
    (0 <= i < zlen (p ++ x :: s) ->
      exists o w, vec_get_ptr dbg v (zlen p) = Ok o /\ vec_set dbg v (Own o) i = Ok w /\
                  vrep es (seq_update (p ++ x :: s) (Z.to_nat i) x) cap w) /\
    (zlen (p ++ x :: s) < cap ->
      exists o w, vec_get_ptr dbg v (zlen p) = Ok o /\ vec_push_back dbg v (Own o) = Ok w /\
                  vrep es ((p ++ x :: s) ++ [x]) cap w) /\
    (zlen (p ++ x :: s) < cap -> zlen p <= i < zlen (p ++ x :: s) ->
      exists o w, vec_get_ptr dbg v (zlen p) = Ok o /\ vec_insert dbg v (Own o) i = Ok w /\
                  vrep es (seq_insert (p ++ x :: s) (Z.to_nat i) x) cap w).
Proof. exact c74_own_element_partial_proof. Qed.
Print Assumptions C74_own_element_partial.
Example C74_example : exists w, vec_push_back true ex_vec (Own 2) = Ok w /\ vec_get true w 3 = Ok [Some 2; Some 2].
Proof. eexists. run_steps. Qed.
