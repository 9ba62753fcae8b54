(** Models of the floating point parts of src/vita/math/math.c and
    src/vita/algorithm/comparison.c, in Flocq's IEEE 754 binary32 and binary64
    (rounding to nearest, ties to even, every operation evaluated in the type of
    its operands: FLT_EVAL_METHOD = 0, no contraction to fused operations).
    No proofs in this file. *)
From Coq Require Import ZArith Bool.
From Flocq Require Import IEEE754.BinarySingleNaN IEEE754.Binary IEEE754.Bits.
Open Scope Z_scope.

(** C comparison operators: false when an operand is a NaN. *)
Definition f_lt {prec emax} (x y : binary_float prec emax) : bool :=
  match Bcompare prec emax x y with Some Lt => true | _ => false end.

(** Named operations of the two types. *)
Definition f32_add := b32_plus mode_NE.
Definition f32_sub := b32_minus mode_NE.
Definition f32_mul := b32_mult mode_NE.
Definition f32_div := b32_div mode_NE.
Definition f64_add := b64_plus mode_NE.
Definition f64_sub := b64_minus mode_NE.
Definition f64_mul := b64_mult mode_NE.
Definition f64_div := b64_div mode_NE.

(** * comparison.c *)

(** vt_cmp_minT / maxT / clampT for float and double, comparison.c:4-7, 22-25, 40-43. *)
Definition f_min {prec emax} (x y : binary_float prec emax) := if f_lt x y then x else y.
Definition f_max {prec emax} (x y : binary_float prec emax) := if f_lt y x then x else y.
Definition f_clamp {prec emax} (x l h : binary_float prec emax) := f_max l (f_min x h).

(** * math.c *)

(** vt_math_map_to, math.c:15-17. *)
Definition map_to (x xmin xmax omin omax : binary64) : binary64 :=
  f64_add (f64_div (f64_mul (f64_sub x xmin) (f64_sub omax omin)) (f64_sub xmax xmin)) omin.

(** 1.5F and 0.5F. *)
Definition c1_5 : binary32 := b32_of_bits 0x3fc00000.
Definition c0_5 : binary32 := b32_of_bits 0x3f000000.

(** "conv.f *= 1.5F - (v * 0.5F * conv.f * conv.f)", math.c:26-28 and 40-42. *)
Definition newton (v y : binary32) : binary32 :=
  f32_mul y (f32_sub c1_5 (f32_mul (f32_mul (f32_mul v c0_5) y) y)).

(** "conv.i = magic - (conv.i >> 1)" on uint32_t, then read as a float. *)
Definition magic_guess (magic : Z) (v : binary32) : binary32 :=
  b32_of_bits ((magic - Z.shiftr (bits_of_b32 v) 1) mod 2 ^ 32).

(** vt_math_sqrt_carmack, math.c:19-31. *)
Definition sqrt_carmack (v : binary32) : binary32 :=
  let y := magic_guess 0x5f375a86 v in
  f32_mul v (newton v (newton v (newton v y))).

(** vt_math_isqrt_carmack, math.c:33-45. *)
Definition isqrt_carmack (v : binary32) : binary32 :=
  let y := magic_guess 0x5f3759df v in
  newton v (newton v (newton v y)).

(** vt_math_is_close, math.c:94-96.  fabs converts its float argument to double;
    that conversion is exact, so the comparison is one of the floats. *)
Definition is_close (lhs rhs rtol : binary32) : bool :=
  f_lt (b32_abs (f32_sub lhs rhs)) (b32_abs rtol).
