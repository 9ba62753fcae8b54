(** Properties of searching vectors of floating point numbers.  [vrep]: VecSpec.v (the vector
    holds these elements); [f_eq] is the operator == of C, [zero_or_nan x]: x is a zero or not
    a number (FindProofs.v). *)
From Flocq Require Import IEEE754.BinarySingleNaN IEEE754.Binary IEEE754.Bits.
From Verif Require Import Base BaseFacts VecModel VecSpec TypedModel FloatModel.
From Verif Require Import FindProofs.
Local Open Scope Z_scope.

(** A vector of floats filled by vt_vec_push_backf. *)
Definition floats (l : list binary32) : res arr :=
  let* v := vec_create true 4 4 in
  fold_left (fun r x => let* v := r in vec_push_back_t true F32 v (bits_of_b32 x)) l (Ok v).
Definition one : binary32 := b32_of_bits 0x3f800000.
Definition two : binary32 := b32_of_bits 0x40000000.
Definition pos_zero : binary32 := b32_of_bits 0.
Definition neg_zero : binary32 := b32_of_bits 0x80000000.
Definition nan1 : binary32 := b32_of_bits 0x7fc00000.

(** ** C141 Searching floats *)
(** Full statement: the index of the first element that compares equal, or -1.  False: 0.0 does
    not find -0.0, which is equal; a NaN finds itself, although it is not equal. *)
Theorem C141_find_refuted :
  f_eq neg_zero pos_zero = true /\ f_eq nan1 nan1 = false /\
  (let* v := floats [one; neg_zero] in vec_can_find v (enc F32 (bits_of_b32 pos_zero))) = Ok (-1) /\
  (let* v := floats [one; nan1] in vec_can_find v (enc F32 (bits_of_b32 nan1))) = Ok 1.
Proof. repeat split; vm_compute; reflexivity. Qed.
Print Assumptions C141_find_refuted.

(** Missing: vectors containing zeros or NaNs, searching for them. *)
Theorem C141_find_f32_partial :
  forall xs cap v x, vrep 4 (map (fun a => enc F32 (bits_of_b32 a)) xs) cap v ->
  Forall (fun a => zero_or_nan a = false) xs -> zero_or_nan x = false ->
  exists r, vec_can_find v (enc F32 (bits_of_b32 x)) = Ok r /\
    ((r = -1 /\ Forall (fun a => f_eq a x = false) xs) \/
     (exists p y s, xs = p ++ y :: s /\ r = zlen p /\ f_eq y x = true /\ Forall (fun a => f_eq a x = false) p)).
Proof. exact find32. Qed.
Print Assumptions C141_find_f32_partial.

Theorem C141_find_f64_partial :
  forall xs cap v x, vrep 8 (map (fun a => enc F64 (bits_of_b64 a)) xs) cap v ->
  Forall (fun a => zero_or_nan a = false) xs -> zero_or_nan x = false ->
  exists r, vec_can_find v (enc F64 (bits_of_b64 x)) = Ok r /\
    ((r = -1 /\ Forall (fun a => f_eq a x = false) xs) \/
     (exists p y s, xs = p ++ y :: s /\ r = zlen p /\ f_eq y x = true /\ Forall (fun a => f_eq a x = false) p)).
Proof. exact find64. Qed.
Print Assumptions C141_find_f64_partial.

Example C141_example :
  (let* v := floats [one; two; two] in let* i := vec_can_find v (enc F32 (bits_of_b32 two)) in
   let* j := vec_can_find v (enc F32 (bits_of_b32 nan1)) in Ok (i, j)) = Ok (1, -1) /\
  zero_or_nan one = false /\ zero_or_nan two = false /\ f_eq one two = false.
Proof. repeat split; vm_compute; reflexivity. Qed.
