(** Properties of the floating point functions (binary32, binary64). *)
From Coq Require Import ZArith Bool Reals Lra Lia.
From Flocq Require Import Core IEEE754.BinarySingleNaN IEEE754.Binary IEEE754.Bits.
From Verif Require Import FloatModel FloatFacts FloatProofs MapProofs CarmackGuess CarmackProofs.
Open Scope R_scope.

(** Numbers used in the examples. *)
Definition b32_nan := b32_of_bits 0x7fc00000.
Definition b32_one := b32_of_bits 0x3f800000.
Definition b32_1_5 := b32_of_bits 0x3fc00000.
Definition b32_two := b32_of_bits 0x40000000.
Definition b32_m1 := b32_of_bits 0xbf800000.
Definition b64_0_1 := b64_of_bits 0x3fb999999999999a.
Definition b64_m0_1 := b64_of_bits 0xbfb999999999999a.
Definition b64_zero := b64_of_bits 0.

(** C105: clamping gives a number between the bounds, whatever is clamped (also
    NaN and infinities); what already lies between the bounds is kept.  For every
    IEEE format, in particular float, double and extended precision. *)
Theorem C105_clamp_range :
  forall prec emax (x l h : binary_float prec emax), f_le l h ->
    f_le l (f_clamp x l h) /\ f_le (f_clamp x l h) h.
Proof. exact @f_clamp_range. Qed.
Print Assumptions C105_clamp_range.
Theorem C105_clamp_id :
  forall prec emax (x l h : binary_float prec emax), f_le l x -> f_le x h -> f_eq (f_clamp x l h) x.
Proof. exact @f_clamp_id. Qed.
Print Assumptions C105_clamp_id.
Example C105_example :
  bits_of_b32 (f_clamp b32_nan b32_one b32_two) = 0x40000000%Z /\
  bits_of_b32 (f_clamp b32_m1 b32_one b32_two) = 0x3f800000%Z /\
  bits_of_b32 (f_clamp b32_1_5 b32_one b32_two) = 0x3fc00000%Z /\ f_le b32_one b32_two.
Proof. repeat split; try (vm_compute; reflexivity). left. vm_compute. reflexivity. Qed.

(** C106 (false): the smaller and the larger number do depend on the order of the
    arguments if one is a NaN. *)
Theorem C106_order_refuted :
  exists x y : binary32, is_nan 24 128 (f_min x y) = false /\ is_nan 24 128 (f_min y x) = true /\
    is_nan 24 128 (f_max x y) = false /\ is_nan 24 128 (f_max y x) = true.
Proof. exists b32_nan, b32_one. repeat split; vm_compute; reflexivity. Qed.
Print Assumptions C106_order_refuted.
(** Of two numbers (not NaNs) they are the smaller and the larger one, in any order. *)
Theorem C106_order_partial :
  forall prec emax (x y : binary_float prec emax), is_nan prec emax x = false -> is_nan prec emax y = false ->
    f_eq (f_min x y) (f_min y x) /\ f_eq (f_max x y) (f_max y x).
Proof. exact @f_min_comm. Qed.
Print Assumptions C106_order_partial.
Theorem C106_min_partial :
  forall prec emax (x y : binary_float prec emax), is_nan prec emax x = false -> is_nan prec emax y = false ->
    f_le (f_min x y) x /\ f_le (f_min x y) y /\ (f_min x y = x \/ f_min x y = y).
Proof. exact @f_min_spec. Qed.
Print Assumptions C106_min_partial.
Theorem C106_max_partial :
  forall prec emax (x y : binary_float prec emax), is_nan prec emax x = false -> is_nan prec emax y = false ->
    f_le x (f_max x y) /\ f_le y (f_max x y) /\ (f_max x y = x \/ f_max x y = y).
Proof. exact @f_max_spec. Qed.
Print Assumptions C106_max_partial.
Example C106_example :
  bits_of_b32 (f_min b32_two b32_m1) = 0xbf800000%Z /\ bits_of_b32 (f_max b32_two b32_m1) = 0x40000000%Z.
Proof. split; vm_compute; reflexivity. Qed.

(** C107 (false): the header promises a relative tolerance, and FLT_EPSILON for a
    negative one.  The tolerance is absolute, its sign is dropped, and no number
    is close to itself within 0. *)
Theorem C107_is_close_refuted :
  (* 1 and 1.5 are close for the "automatic" tolerance -1 *)
  is_close b32_one b32_1_5 b32_m1 = true /\
  (* 1e10 and its successor (relative difference 1.03e-7) are not close within 1e-6 *)
  is_close (b32_of_bits 0x501502f9) (b32_of_bits 0x501502fa) (b32_of_bits 0x358637bd) = false /\
  (* 1e-9 and 2e-9 are close within 1e-6 *)
  is_close (b32_of_bits 0x30897063) (b32_of_bits 0x31097063) (b32_of_bits 0x358637bd) = true /\
  (* 1 is not close to itself within 0 *)
  is_close b32_one b32_one (b32_of_bits 0) = false.
Proof. repeat split; vm_compute; reflexivity. Qed.
Print Assumptions C107_is_close_refuted.
(** What it does: the rounded absolute difference is compared. *)
Theorem C107_is_close_partial :
  forall x y t, fin32 x -> fin32 y -> fin32 t ->
    is_close x y t = true <-> rnd32 (Rabs (R32 x - R32 y)) < Rabs (R32 t).
Proof. exact is_close_rounded. Qed.
Print Assumptions C107_is_close_partial.
Theorem C107_is_close_sound_partial :
  forall x y t, fin32 x -> fin32 y -> fin32 t ->
    is_close x y t = true -> Rabs (R32 x - R32 y) < Rabs (R32 t).
Proof. exact is_close_sound. Qed.
Print Assumptions C107_is_close_sound_partial.
Theorem C107_is_close_complete_partial :
  forall x y t, fin32 x -> fin32 y -> fin32 t ->
    Rabs (R32 x - R32 y) < Rabs (R32 t) -> rnd32 (Rabs (R32 x - R32 y)) <> Rabs (R32 t) ->
    is_close x y t = true.
Proof. exact is_close_complete. Qed.
Print Assumptions C107_is_close_complete_partial.
Theorem C107_is_close_sym_partial : forall x y t, is_close x y t = is_close y x t.
Proof. exact is_close_sym. Qed.
Print Assumptions C107_is_close_sym_partial.
Example C107_example :
  is_close b32_one b32_1_5 b32_one = true /\ is_close b32_one b32_two b32_one = false /\
  is_close b32_nan b32_one b32_two = false.
Proof. repeat split; vm_compute; reflexivity. Qed.

(** C108 (false): a number of the input range can be mapped outside the output
    range, even the upper end itself: 0.1 of [0, 0.1] to [-0.1, 0] gives a positive
    number. *)
Theorem C108_map_to_refuted :
  exists x xmin xmax omin omax : binary64,
    f_le xmin x /\ f_le x xmax /\ f_lt omin omax = true /\
    f_lt omax (map_to x xmin xmax omin omax) = true.
Proof.
  exists b64_0_1, b64_zero, b64_0_1, b64_m0_1, b64_zero.
  split; [left; vm_compute; reflexivity|]. split; [right; vm_compute; reflexivity|].
  split; vm_compute; reflexivity.
Qed.
Print Assumptions C108_map_to_refuted.
(** Proved, for finite numbers of magnitude at most 2^510: the lower end is mapped
    to the lower end exactly, the order is kept, no result is below the lower end,
    and the result is the exact one up to a small error. *)
Theorem C108_map_to_low_partial :
  forall x xmin xmax omin omax,
    moderate x -> moderate xmin -> moderate xmax -> moderate omin -> moderate omax ->
    R64 xmin < R64 xmax -> R64 omin <= R64 omax -> R64 x = R64 xmin ->
    fin64 (map_to x xmin xmax omin omax) /\ R64 (map_to x xmin xmax omin omax) = R64 omin.
Proof. exact map_to_low. Qed.
Print Assumptions C108_map_to_low_partial.
Theorem C108_map_to_mono_partial :
  forall x y xmin xmax omin omax,
    moderate x -> moderate y -> moderate xmin -> moderate xmax -> moderate omin -> moderate omax ->
    R64 xmin < R64 xmax -> R64 omin <= R64 omax -> R64 xmin <= R64 x -> R64 x <= R64 y -> R64 y <= R64 xmax ->
    fin64 (map_to x xmin xmax omin omax) /\ fin64 (map_to y xmin xmax omin omax) /\
    R64 omin <= R64 (map_to x xmin xmax omin omax) <= R64 (map_to y xmin xmax omin omax).
Proof. exact map_to_mono. Qed.
Print Assumptions C108_map_to_mono_partial.
Theorem C108_map_to_accurate_partial :
  forall x xmin xmax omin omax,
    moderate x -> moderate xmin -> moderate xmax -> moderate omin -> moderate omax ->
    bpow radix2 (-500) <= R64 xmax - R64 xmin -> R64 xmin <= R64 x <= R64 xmax -> R64 omin <= R64 omax ->
    fin64 (map_to x xmin xmax omin omax) /\
    Rabs (R64 (map_to x xmin xmax omin omax) -
          ((R64 x - R64 xmin) * (R64 omax - R64 omin) / (R64 xmax - R64 xmin) + R64 omin)) <=
    bpow radix2 (-49) * (Rabs (R64 omin) + Rabs (R64 omax)) + bpow radix2 (-570).
Proof. exact map_to_accurate. Qed.
Print Assumptions C108_map_to_accurate_partial.
(** 5 of [0, 10] is 50 of [0, 100]. *)
Example C108_example :
  bits_of_b64 (map_to (b64_of_bits 0x4014000000000000) b64_zero (b64_of_bits 0x4024000000000000)
                      b64_zero (b64_of_bits 0x4059000000000000)) = 0x4049000000000000%Z /\
  bits_of_b64 (map_to b64_0_1 b64_zero b64_0_1 b64_m0_1 b64_zero) = 0x3c70000000000000%Z.
Proof. split; vm_compute; reflexivity. Qed.

(** C109: for every positive normal float the results are within 6 and 5 units of
    2^-24 of the square root and its inverse, relative to the exact value. *)
Theorem C109_sqrt :
  forall v, fin32 v -> bpow radix2 (-126) <= R32 v ->
    fin32 (sqrt_carmack v) /\
    Rabs (R32 (sqrt_carmack v) - sqrt (R32 v)) <= 6 * bpow radix2 (-24) * sqrt (R32 v).
Proof. exact sqrt_accurate. Qed.
Print Assumptions C109_sqrt.
Theorem C109_isqrt :
  forall v, fin32 v -> bpow radix2 (-126) <= R32 v ->
    fin32 (isqrt_carmack v) /\
    Rabs (R32 (isqrt_carmack v) - / sqrt (R32 v)) <= 5 * bpow radix2 (-24) * / sqrt (R32 v).
Proof. exact isqrt_accurate. Qed.
Print Assumptions C109_isqrt.
Example C109_example :
  bits_of_b32 (sqrt_carmack b32_two) = 0x3fb504f3%Z /\          (* 1.4142135 *)
  bits_of_b32 (isqrt_carmack (b32_of_bits 0x40800000)) = 0x3effffff%Z /\  (* 4 -> 0.49999997 *)
  fin32 b32_two /\ bpow radix2 (-126) <= R32 b32_two.
Proof.
  split; [vm_compute; reflexivity|]. split; [vm_compute; reflexivity|]. split; [reflexivity|].
  unfold b32_two. change 0x40000000%Z with (128 * 2 ^ 23 + 0)%Z.
  destruct (of_bits_normal 128 0) as [_ E]; [lia|lia|]. rewrite E.
  apply Rle_trans with (bpow radix2 1); [apply bpow_le; lia|].
  change (bpow radix2 (128 - 150)) with (/ 4194304). change (bpow radix2 1) with 2.
  change (2 ^ 23 + 0)%Z with 8388608%Z. lra.
Qed.

(** C110 (false): sqrt_carmack is not the square root for other floats: +infinity
    becomes -infinity, a negative number becomes +infinity instead of a NaN, and
    the smallest positive number 2^-149 is mapped to 1.2 * 2^-84, although its root
    is above 2^-75. *)
Theorem C110_special_refuted :
  bits_of_b32 (sqrt_carmack (b32_of_bits 0x7f800000)) = 0xff800000%Z /\
  bits_of_b32 (sqrt_carmack b32_m1) = 0x7f800000%Z /\
  f_lt (sqrt_carmack (b32_of_bits 1)) (b32_of_bits ((127 - 83) * 2 ^ 23)) = true.
Proof. repeat split; vm_compute; reflexivity. Qed.
Print Assumptions C110_special_refuted.
(** Zeros are mapped to themselves and NaNs to NaNs. *)
Theorem C110_special_partial :
  (forall s, sqrt_carmack (B754_zero 24 128 s) = B754_zero 24 128 s) /\
  (forall v, is_nan 24 128 v = true -> is_nan 24 128 (sqrt_carmack v) = true).
Proof.
  split.
  - intros []; vm_compute; reflexivity.
  - intros v Hv. unfold sqrt_carmack. destruct v; try discriminate.
    match goal with |- context [f32_mul _ ?x] => destruct x end; reflexivity.
Qed.
Print Assumptions C110_special_partial.
