(** Properties of the typed accessors of vectors and spans. *)
From Verif Require Import Base BaseFacts VecModel VecSpec VecProofs SpanModel TypedModel TypedSpec TypedProofs.

(** C103: a vector made for elements of the type, used with the typed functions,
    is a list of numbers of that type. *)
Theorem C103_typed_vec :
  forall dbg t n ops xs outs, 0 < n -> 3 * (n + zlen ops) * width t <= alloc_max ->
    Forall (args_typed t) ops -> lrun [] ops = Some (xs, outs) ->
    exists v0 v, vec_create dbg n (width t) = Ok v0 /\ trun dbg t v0 ops = Ok (v, outs) /\
      vec_len v = zlen xs /\
      forall i, 0 <= i < zlen xs -> vec_get_t dbg t v i = Ok (nth (Z.to_nat i) xs 0).
Proof. exact typed_refines. Qed.
Print Assumptions C103_typed_vec.
Definition c103_ops : list top :=
  [TPushBack (-5); TPushFront 300; TInsert (-32768) 1; TFind (-5); TSet 7 0; TRemove 0 1; TGet 0;
   TPopGet; TPopGet; TPopGet; TLen].
Example C103_example :
  Forall (args_typed I16) c103_ops /\
  lrun [] c103_ops = Some ([], [None; None; None; Some 2; None; None; Some (-5);
                                Some (-32768); Some (-5); Some 0; Some 0]).
Proof. split; [repeat constructor; vm_compute; intuition discriminate|vm_compute; reflexivity]. Qed.

Theorem C103_typed_span_get :
  forall dbg t pre xs post i, Forall (typed t) xs -> zlen pre mod width t = 0 ->
    zlen xs * width t < two64 -> 0 <= i < zlen xs ->
    span_get_t dbg t (pre ++ map Some (concat (map (enc t) xs)) ++ post)
      (mk_span (zlen pre) (zlen xs) (width t)) i = Ok (nth (Z.to_nat i) xs 0).
Proof. exact span_get_typed. Qed.
Print Assumptions C103_typed_span_get.

Theorem C103_typed_span_set :
  forall dbg t pre p x s post y, zlen (p ++ x :: s) * width t < two64 ->
    span_set_t dbg t (pre ++ map Some (concat (map (enc t) (p ++ x :: s))) ++ post)
      (mk_span (zlen pre) (zlen (p ++ x :: s)) (width t)) y (zlen p) =
    Ok (pre ++ map Some (concat (map (enc t) (p ++ y :: s))) ++ post).
Proof. exact span_set_typed. Qed.
Print Assumptions C103_typed_span_set.

(** The representation used above is the little-endian one of the type. *)
Theorem C103_representation : forall t x, typed t x -> zlen (enc t x) = width t /\ dec t (enc t x) = x.
Proof. intros t x H. split; [exact (enc_len t x)|exact (dec_enc t x H)]. Qed.
Print Assumptions C103_representation.
(** The numbers of each type. *)
Theorem C103_ranges : forall x,
  (typed I8 x <-> -128 <= x < 128) /\ (typed U8 x <-> 0 <= x < 256) /\ (typed I16 x <-> -32768 <= x < 32768) /\ (typed U16 x <-> 0 <= x < 65536) /\
  (typed I32 x <-> -2147483648 <= x < 2147483648) /\ (typed U32 x <-> 0 <= x < 4294967296) /\
  (typed I64 x <-> -9223372036854775808 <= x < 9223372036854775808) /\ (typed U64 x <-> 0 <= x < 18446744073709551616) /\
  (typed F32 x <-> 0 <= x < 4294967296) /\ (typed F64 x <-> 0 <= x < 18446744073709551616).
Proof. intros x. unfold typed. cbn [signed width]. cbn. tauto. Qed.
Print Assumptions C103_ranges.
Example C103_span_example :
  enc I32 (-2) = [254; 255; 255; 255] /\
  (let* b := span_set_t true I32 (map Some (concat (map (enc I32) [1; 2; 3]))) (mk_span 0 3 4) (-7) 1 in
   span_get_t true I32 b (mk_span 0 3 4) 1) = Ok (-7).
Proof. split; vm_compute; reflexivity. Qed.

(** C104 (false): a typed call whose type is wider than or narrower than the
    elements is not refused, not even in debug builds: pushing an int32_t to a
    vector of 8-byte elements reads past the argument. *)
Theorem C104_width_mismatch_refuted :
  exists v, vec_create true 4 8 = Ok v /\ width I32 <> 8 /\ vec_push_back_t true I32 v 5 = UB.
Proof. eexists. split; [vm_compute; reflexivity|]. split; [discriminate|vm_compute; reflexivity]. Qed.
Print Assumptions C104_width_mismatch_refuted.
Theorem C104_truncation_refuted :
  exists v v', vec_create true 4 1 = Ok v /\ vec_push_back_t true I32 v 300 = Ok v' /\
    vec_get_t true U8 v' 0 = Ok 44.
Proof. do 2 eexists. split; [vm_compute; reflexivity|]. split; vm_compute; reflexivity. Qed.
Print Assumptions C104_truncation_refuted.

(** C104, what happens: a type at least as wide as the elements stores its low
    bytes (all of them if the sizes agree) and stays inside all memory. *)
Theorem C104_width_partial :
  forall dbg t es xs cap v x, vrep es xs cap v -> es <= width t ->
    grown (zlen xs) cap * es <= alloc_max ->
    exists v', vec_push_back_t dbg t v x = Ok v' /\
      vrep es (xs ++ [firstn (Z.to_nat es) (enc t x)]) (grown (zlen xs) cap) v'.
Proof. exact push_narrow. Qed.
Print Assumptions C104_width_partial.
Example C104_example :
  exists v, vec_create true 2 2 = Ok v /\ vrep 2 [] 2 v /\ 2 <= width I32 /\ grown 0 2 * 2 <= alloc_max.
Proof.
  destruct (vec_create_rep true 2 2) as (v & E & H); [lia|lia|vm_compute; discriminate|].
  exists v. split; [exact E|]. split; [exact H|]. split; vm_compute; discriminate.
Qed.
