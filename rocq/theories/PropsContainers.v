(** Properties of vt_plist, vt_span, the index helpers and the core memory
    helpers.  Statements only. *)
From Coq Require Import String.
From Verif Require Import Base BaseFacts VecModel VecSpec PlistModel PlistSpec PlistProofs SpanModel SpanProofs SpanMain.
Local Open Scope list_scope.

(** C12: any trace of in-range calls behaves as on a sequence of pointers. *)
Theorem C12_plist_refines_sequence :
  forall dbg n ops xs cap outs, 0 < n -> pfits n = true ->
    lrun ([], n) ops = Some ((xs, cap), outs) ->
    exists p0 p, plist_create dbg n = Ok p0 /\ plrun dbg p0 ops = Ok (p, outs) /\
      plist_len p = zlen xs /\ plist_capacity p = cap /\
      forall i, 0 <= i < zlen xs -> exists x, nth_error xs (Z.to_nat i) = Some x /\ plist_get dbg p i = Ok x.
Proof. exact plist_refines. Qed.
Print Assumptions C12_plist_refines_sequence.
Example C12_example :
  lrun ([], 1) [LPushBack 10; LPushFront 20; LInsert 30 1; LRemoveElement 20 1; LPopGet; LPopGet; LPopGet; LShrink]
  = None /\
  lrun ([], 1) [LPushBack 10; LPushFront 20; LInsert 30 1; LFind 30; LRemoveElement 20 1; LPopGet; LShrink; LCapacity]
  = Some (([10], 1), [None; None; None; Some 1; None; Some 30; None; Some 1]).
Proof. split; vm_compute; reflexivity. Qed.

(** A list reached by calls, used below. *)
Definition ex_plist : plist := mk_pl [Some 10; Some 20; Some 10; None; None; None] 3 6 0.
Example ex_plist_reached :
  exists p0, plist_create true 2 = Ok p0 /\
    plrun true p0 [LPushBack 10; LPushBack 20; LPushBack 10] = Ok (ex_plist, [None; None; None]).
Proof. eexists. run_steps. Qed.
Lemma ex_plist_rep : prep [10; 20; 10] 6 ex_plist.
Proof.
  constructor; try (vm_compute; first [reflexivity | discriminate]). eexists. reflexivity.
Qed.

(** C13: search gives the first occurrence or -1; removal by value removes exactly
    the first occurrence, or nothing. *)
Theorem C13_plist_find_first :
  forall dbg xs cap p x, prep xs cap p -> x <> 0 ->
    exists r, plist_can_find dbg p x = Ok r /\
      ((r = -1 /\ ~ In x xs) \/ (exists a s, xs = a ++ x :: s /\ r = zlen a /\ ~ In x a)).
Proof. exact plist_find_first. Qed.
Print Assumptions C13_plist_find_first.

Theorem C13_plist_remove_element :
  forall dbg a x s cap p, prep (a ++ x :: s) cap p -> x <> 0 -> ~ In x a ->
    (exists q, plist_remove_element dbg p x 0 = Ok q /\ prep (a ++ s) cap q) /\
    (exists q, plist_remove_element dbg p x 1 = Ok q /\
       prep (match rev s with [] => a | y :: r => a ++ y :: rev r end) cap q).
Proof. exact plist_remove_element_first. Qed.
Print Assumptions C13_plist_remove_element.

Theorem C13_plist_remove_absent :
  forall dbg xs cap p x rs, prep xs cap p -> x <> 0 -> 0 <= rs < 2 -> ~ In x xs ->
    plist_remove_element dbg p x rs = Ok p.
Proof. exact plist_remove_element_absent. Qed.
Print Assumptions C13_plist_remove_absent.
Example C13_example :
  prep [10; 20; 10] 6 ex_plist /\ plist_can_find true ex_plist 20 = Ok 1 /\
  exists q, plist_remove_element true ex_plist 10 0 = Ok q /\ plist_get true q 0 = Ok 20 /\ plist_len q = 2.
Proof. split; [exact ex_plist_rep|]. split; [vm_compute; reflexivity|]. eexists. run_steps. Qed.

(** C14: the span over the elements [xs] of a buffer reads exactly those; writing
    element i changes exactly the bytes of element i of the buffer. *)
Theorem C14_span_reads_buffer :
  forall dbg es pre xs post i, uniform es xs -> 0 < es -> zlen xs * es < two64 -> 0 <= i < zlen xs ->
    span_from dbg (zlen pre) (zlen xs) es = Ok (mk_span (zlen pre) (zlen xs) es) /\
    exists x, nth_error xs (Z.to_nat i) = Some x /\
      span_get dbg (pre ++ map Some (concat xs) ++ post) (mk_span (zlen pre) (zlen xs) es) i = Ok (map Some x).
Proof. exact c14_span_reads_buffer_proof. Qed.
Print Assumptions C14_span_reads_buffer.

Theorem C14_span_writes_buffer :
  forall dbg es pre p x s post d, uniform es (p ++ x :: s) -> 0 < es ->
    zlen (p ++ x :: s) * es < two64 -> zlen d = es ->
    span_set dbg (pre ++ map Some (concat (p ++ x :: s)) ++ post)
             (mk_span (zlen pre) (zlen (p ++ x :: s)) es) d (zlen p) =
    Ok (pre ++ map Some (concat (p ++ d :: s)) ++ post).
Proof. exact span_set_rep. Qed.
Print Assumptions C14_span_writes_buffer.

Theorem C14_span_bounds_checked :
  forall b s i d, s_len s <= i -> span_get true b s i = Abort /\ span_set true b s d i = Abort.
Proof. exact span_bounds. Qed.
Print Assumptions C14_span_bounds_checked.
Example C14_example :
  uniform 2 [[1;2];[3;4];[5;6]] /\
  span_set true ([Some 9] ++ map Some (concat [[1;2];[3;4];[5;6]]) ++ [None]) (mk_span 1 3 2) [7;8] 1
  = Ok [Some 9; Some 1; Some 2; Some 7; Some 8; Some 5; Some 6; None].
Proof. split; [repeat constructor|vm_compute; reflexivity]. Qed.

(** C15 (false): a range that starts at element 0 is rejected in debug builds. *)
Theorem C15_span_from_to_refuted :
  exists off from to es, 0 <= from <= to /\ 0 < es /\ span_from_to true off from to es = Abort.
Proof. exists 0, 0, 3, 1. vm_compute. intuition discriminate. Qed.
Print Assumptions C15_span_from_to_refuted.

(** C15, part that holds: ranges starting behind element 0. *)
Theorem C15_span_from_to_partial :
  forall dbg es pre a xs post i, uniform es (a ++ xs) -> 0 < es -> 0 < zlen a ->
    zlen (a ++ xs) * es < two64 ->
    exists s, span_from_to dbg (zlen pre) (zlen a) (zlen (a ++ xs)) es = Ok s /\ span_len s = zlen xs /\
      (0 <= i < zlen xs -> exists x, nth_error (a ++ xs) (Z.to_nat (zlen a + i)) = Some x /\
         span_get dbg (pre ++ map Some (concat (a ++ xs)) ++ post) s i = Ok (map Some x)).
Proof. exact span_from_to_range. Qed.
Print Assumptions C15_span_from_to_partial.
Example C15_example :
  exists s, span_from_to true 0 1 3 2 = Ok s /\ span_len s = 2 /\
            span_get true (map Some [1;1;2;2;3;3]) s 1 = Ok [Some 3; Some 3].
Proof. eexists. run_steps. Qed.

(** C16 *)
Theorem C16_index_2d_roundtrip :
  forall row col ncols, 0 <= row -> 0 <= col < ncols -> ncols * row + col < two64 ->
    index_1d_to_2d (index_2d_to_1d row col ncols) ncols = Ok (row, col).
Proof. exact index2_roundtrip. Qed.
Print Assumptions C16_index_2d_roundtrip.
Theorem C16_index_2d_inverse :
  forall idx ncols, 0 <= idx < two64 -> 0 < ncols ->
    exists row col, index_1d_to_2d idx ncols = Ok (row, col) /\ 0 <= row /\ 0 <= col < ncols /\
      index_2d_to_1d row col ncols = idx.
Proof. exact index2_inverse. Qed.
Print Assumptions C16_index_2d_inverse.
Theorem C16_index_2d_injective :
  forall r1 c1 r2 c2 ncols, 0 <= r1 -> 0 <= c1 < ncols -> ncols * r1 + c1 < two64 ->
    0 <= r2 -> 0 <= c2 < ncols -> ncols * r2 + c2 < two64 ->
    index_2d_to_1d r1 c1 ncols = index_2d_to_1d r2 c2 ncols -> r1 = r2 /\ c1 = c2.
Proof. exact index2_injective. Qed.
Print Assumptions C16_index_2d_injective.
Example C16_example : index_2d_to_1d 2 3 5 = 13 /\ index_1d_to_2d 13 5 = Ok (2, 3).
Proof. split; vm_compute; reflexivity. Qed.

(** C17 *)
Theorem C17_index_3d_roundtrip :
  forall row col depth nrows ncols,
    0 <= row < nrows -> 0 <= col < ncols -> 0 <= depth -> (depth + 1) * (nrows * ncols) <= two64 ->
    nrows * ncols < two64 ->
    index_1d_to_3d (index_3d_to_1d row col depth nrows ncols) nrows ncols = Ok (row, col, depth).
Proof. exact index3_roundtrip. Qed.
Print Assumptions C17_index_3d_roundtrip.
Theorem C17_index_3d_inverse :
  forall idx nrows ncols, 0 <= idx < two64 -> 0 < nrows -> 0 < ncols -> nrows * ncols < two64 ->
    exists row col depth, index_1d_to_3d idx nrows ncols = Ok (row, col, depth) /\
      0 <= row < nrows /\ 0 <= col < ncols /\ 0 <= depth /\
      index_3d_to_1d row col depth nrows ncols = idx.
Proof. exact index3_inverse. Qed.
Print Assumptions C17_index_3d_inverse.
Example C17_example : index_3d_to_1d 1 2 3 4 5 = 67 /\ index_1d_to_3d 67 4 5 = Ok (1, 2, 3).
Proof. split; vm_compute; reflexivity. Qed.

(** C18 *)
Theorem C18_gswap :
  forall dbg a x m y c n, zlen x = n -> zlen y = n -> 0 < n <= alloc_max ->
    bswap dbg (a ++ x ++ m ++ y ++ c) (zlen a) (zlen a + n + zlen m) n = Ok (a ++ y ++ m ++ x ++ c) /\
    bswap dbg (a ++ x ++ m ++ y ++ c) (zlen a + n + zlen m) (zlen a) n = Ok (a ++ y ++ m ++ x ++ c).
Proof. exact gswap_forward. Qed.
Print Assumptions C18_gswap.
Theorem C18_pswap :
  forall a x m y c,
    slot_swap (a ++ x :: m ++ y :: c) (zlen a) (zlen a + 1 + zlen m) = Ok (a ++ y :: m ++ x :: c).
Proof. exact pswap_forward. Qed.
Print Assumptions C18_pswap.
Theorem C18_memcmp :
  forall a x m y c, zlen x = zlen y ->
    vt_memcmp (a ++ map Some x ++ m ++ map Some y ++ c) (zlen a) (zlen a + zlen x + zlen m) (zlen x) =
    Ok (if list_eq_dec Z.eq_dec x y then negb (zlen x =? 0) else false).
Proof. exact memcmp_exact. Qed.
Print Assumptions C18_memcmp.
Theorem C18_memmove :
  forall b dst src n, 0 <= dst -> 0 <= src -> 0 <= n -> dst + n <= zlen b -> src + n <= zlen b ->
    exists b', bmove b dst src n = Ok b' /\ zlen b' = zlen b /\
    forall i, 0 <= i < zlen b ->
      nth_error b' (Z.to_nat i) =
      nth_error b (Z.to_nat (if (dst <=? i) && (i <? dst + n) then src + (i - dst) else i)).
Proof. exact memmove_total. Qed.
Print Assumptions C18_memmove.
Theorem C18_status_names :
  forall e, 0 <= e ->
    (e < 11 -> exists s, status_to_str e = Ok (Some s)) /\
    (11 <= e -> status_to_str e = Ok None) /\
    (forall e', 0 <= e' < 11 -> e < 11 -> status_to_str e = status_to_str e' -> e = e').
Proof. exact status_to_str_spec. Qed.
Print Assumptions C18_status_names.
Example C18_example :
  bmove (map Some [1;2;3;4;5]) 1 0 3 = Ok (map Some [1;1;2;3;5]) /\
  bswap true (map Some [1;2;3;4;5]) 0 3 2 = Ok (map Some [4;5;3;1;2]) /\
  vt_memcmp (map Some [1;2;1;2]) 0 2 2 = Ok true /\ vt_memcmp (map Some [1;2;1;2]) 0 2 0 = Ok false /\
  status_to_str 8 = Ok (Some "VT_STATUS_ERROR_IS_VIEW"%string).
Proof. run_steps. Qed.

(** C75: vt_plist_slide_front sweeps: after the pointers in order comes NULL, then
    the next sweep starts over. *)
Theorem C75_plist_slide_front_sweeps :
  forall xs cap p m, prep xs cap p -> p_slider p = 0 ->
    pcalls plist_slide_front (m * (length xs + 1)) p = Ok (p, repeat_list m (xs ++ [0])).
Proof. exact plist_slide_sweeps. Qed.
Print Assumptions C75_plist_slide_front_sweeps.

Theorem C75_plist_apply_visits :
  forall xs cap p, prep xs cap p ->
    plist_apply p = Ok (combine xs (map Z.of_nat (seq 0 (length xs)))).
Proof. exact plist_apply_rep. Qed.
Print Assumptions C75_plist_apply_visits.
Example C75_example : exists q, pcalls plist_slide_front 5 ex_plist = Ok (q, [10; 20; 10; 0; 10]) /\
  plist_apply ex_plist = Ok [(10, 0); (20, 1); (10, 2)].
Proof. eexists. run_steps. Qed.

(** C76: the duplicate of a non-empty pointer list holds the same pointers. *)
Theorem C76_plist_dup_equal :
  forall dbg xs cap p, prep xs cap p -> xs <> [] ->
    exists q, plist_dup dbg p = Ok q /\ prep xs (zlen xs) q /\ p_slider q = 0.
Proof. exact plist_dup_rep. Qed.
Print Assumptions C76_plist_dup_equal.
Example C76_example : exists q, plist_dup true ex_plist = Ok q /\ plist_get true q 2 = Ok 10 /\ plist_capacity q = 3.
Proof. eexists. run_steps. Qed.
