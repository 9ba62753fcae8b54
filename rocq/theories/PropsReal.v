(** Properties of vectors and spans of long doubles. *)
From Verif Require Import Base BaseFacts VecModel SpanModel TypedModel TypedSpec TypedProofs RealModel RealProofs.

(** ** C147 Vectors of long doubles *)
(** A call is paired with what the padding of its argument happens to contain.  Whatever
    that is, all calls but vt_vec_can_findr treat the vector as a list of numbers. *)
Theorem C147_real_vec :
  forall dbg n ops ys outs, 0 < n -> 48 * (n + zlen ops) <= alloc_max ->
    Forall args_real ops -> Forall (fun q => not_find (fst q)) ops ->
    lrun [] (map fst ops) = Some (ys, outs) ->
    exists v0 v, vec_create dbg n 16 = Ok v0 /\ rrun dbg v0 ops = Ok (v, outs) /\ vec_len v = zlen ys /\
      forall i, 0 <= i < zlen ys -> vec_get_r dbg v i = Ok (nth (Z.to_nat i) ys 0).
Proof. intros. apply real_refines; auto. Qed.
Print Assumptions C147_real_vec.
(** 1.0L and 0.1L with changing padding. *)
Definition one80 : Z := 0x3fff8000000000000000.
Definition tenth80 : Z := 0x3ffbcccccccccccccccd.
Definition c147_ops : list (top * Z) :=
  [(TPushBack one80, 0); (TPushBack tenth80, 0xdeadbeef); (TInsert one80 1, 77); (TSet tenth80 0, 5);
   (TGet 1, 0); (TRemove 0 1, 0); (TGet 0, 0); (TPopGet, 0); (TPopGet, 0); (TPopGet, 0); (TLen, 0)].
Example C147_example :
  (forall q, In q c147_ops -> args_real q /\ not_find (fst q)) /\
  lrun [] (map fst c147_ops) = Some ([], [None; None; None; None; Some one80; None; Some tenth80;
                                           Some one80; Some tenth80; Some 0; Some 0]).
Proof.
  split; [|vm_compute; reflexivity].
  intros q. cbn [In c147_ops]. unfold args_real, args80, num80, pad48.
  intros H. repeat (destruct H as [<-|H]; [vm_compute; intuition discriminate|]). destruct H.
Qed.

(** Spans: get gives the number, set stores it and its padding and nothing else. *)
Theorem C147_real_span_get :
  forall dbg pre l post i, Forall (fun q => num80 (fst q) /\ pad48 (snd q)) l -> zlen pre mod 16 = 0 ->
    zlen l * 16 < two64 -> 0 <= i < zlen l ->
    span_get_r dbg (pre ++ map Some (reals l) ++ post) (mk_span (zlen pre) (zlen l) 16) i =
    Ok (fst (nth (Z.to_nat i) l (0, 0))).
Proof. exact span_get_real. Qed.
Print Assumptions C147_real_span_get.
Theorem C147_real_span_set :
  forall dbg pre p q s post x pad, zlen (p ++ q :: s) * 16 < two64 ->
    span_set_r dbg (pre ++ map Some (reals (p ++ q :: s)) ++ post)
      (mk_span (zlen pre) (zlen (p ++ q :: s)) 16) x pad (zlen p) =
    Ok (pre ++ map Some (reals (p ++ (x, pad) :: s)) ++ post).
Proof. exact span_set_real. Qed.
Print Assumptions C147_real_span_set.
(** [reals]: 10 bytes of the number, little-endian, then 6 bytes of padding. *)
Theorem C147_representation :
  forall x pad, num80 x -> pad48 pad -> reals [(x, pad)] = le_bytes 10 x ++ le_bytes 6 pad.
Proof. exact reals_one. Qed.
Print Assumptions C147_representation.
Example C147_span_example :
  (let* b := span_set_r true (repeat (Some 0) 48) (mk_span 0 3 16) tenth80 99 1 in
   let* x := span_get_r true b (mk_span 0 3 16) 1 in
   let* y := span_get_r true b (mk_span 0 3 16) 2 in Ok (x, y)) = Ok (tenth80, 0).
Proof. vm_compute. reflexivity. Qed.

(** ** C148 Searching long doubles *)
(** Full statement: vt_vec_can_findr finds the first element with the bits searched for.
    False: memcmp compares the padding too, so a number just pushed need not be found. *)
Theorem C148_find_refuted :
  (let* v := vec_create true 4 16 in rrun true v [(TPushBack one80, 0); (TFind one80, 1)]) <>
  (let* v := vec_create true 4 16 in rrun true v [(TPushBack one80, 0); (TFind one80, 0)]) /\
  (let* v := vec_create true 4 16 in
   let* r := rrun true v [(TPushBack one80, 0); (TGet 0, 0); (TFind one80, 1)] in Ok (snd r)) =
  Ok [None; Some one80; Some (-1)].
Proof. split; [vm_compute; discriminate|vm_compute; reflexivity]. Qed.
Print Assumptions C148_find_refuted.
(** Proved: as long as all paddings are the same. *)
Theorem C148_find_partial :
  forall dbg n p ops ys outs, 0 < n -> 48 * (n + zlen ops) <= alloc_max ->
    Forall args_real ops -> Forall (fun q => snd q = p) ops ->
    lrun [] (map fst ops) = Some (ys, outs) ->
    exists v0 v, vec_create dbg n 16 = Ok v0 /\ rrun dbg v0 ops = Ok (v, outs) /\ vec_len v = zlen ys /\
      forall i, 0 <= i < zlen ys -> vec_get_r dbg v i = Ok (nth (Z.to_nat i) ys 0).
Proof. intros. apply real_refines; eauto. Qed.
Print Assumptions C148_find_partial.
Example C148_example :
  (let* v := vec_create false 4 16 in
   let* r := rrun false v [(TPushBack one80, 7); (TPushBack tenth80, 7); (TFind tenth80, 7); (TFind 0, 7)] in Ok (snd r)) =
  Ok [None; None; Some 1; Some (-1)].
Proof. vm_compute. reflexivity. Qed.
