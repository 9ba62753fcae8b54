(** Model of the random floats of src/vita/math/math.c.  No proofs in this file.

    The sine of the C library is a parameter [sn] of the model: [sn n] is what it returns for
    the integer [n] (all arguments are below 2^30, their conversion to double is exact).
    Floating point conventions: FloatModel.v.  vt_math_random_f32_normal: NormModel.v. *)
From Coq Require Import ZArith Bool.
From Flocq Require Import Core IEEE754.BinarySingleNaN IEEE754.Binary IEEE754.Bits.
From Verif Require Import Base NumModel FloatModel.
Open Scope Z_scope.

(** Conversion of double to float, rounding to nearest. *)
Definition f32_of_f64 (x : binary64) : binary32 :=
  match x with
  | B754_zero _ _ s => B754_zero 24 128 s
  | B754_infinity _ _ s => B754_infinity 24 128 s
  | B754_nan _ _ _ _ _ => proj1_sig default_nan_pl32
  | B754_finite _ _ s m e _ => binary_normalize 24 128 eq_refl eq_refl mode_NE (cond_Zopp s (Zpos m)) e s
  end.

(** Conversion of float to double. *)
Definition f64_of_f32 (x : binary32) : binary64 :=
  match x with
  | B754_zero _ _ s => B754_zero 53 1024 s
  | B754_infinity _ _ s => B754_infinity 53 1024 s
  | B754_nan _ _ _ _ _ => proj1_sig default_nan_pl64
  | B754_finite _ _ s m e _ => binary_normalize 53 1024 eq_refl eq_refl mode_NE (cond_Zopp s (Zpos m)) e s
  end.

(** Conversion of uint32_t to double. *)
Definition f64_of_u32 (n : Z) : binary64 := binary_normalize 53 1024 eq_refl eq_refl mode_NE n 0 false.

(** fabs of a float argument: converted to double, sign cleared. *)
Definition fabs32 (x : binary32) : binary64 := b64_abs (f64_of_f32 x).

(** vt_math_random_f32, math.c:59-62; the state and [now] are those of [random_u64]. *)
Definition random_f32 (sn : Z -> binary64) (st : option Z) (now bound : Z) : option Z * binary32 :=
  let '(st, u) := random_u64 st now in
  let randval := f32_of_f64 (sn u) in
  (st, f32_of_f64 (f64_mul (f64_of_u32 bound) (fabs32 randval))).

(** vt_math_random_f32_uniform, math.c:64-67.  The order of the two calls is unspecified but
    does not matter for the product. *)
Definition random_f32_uniform (sn : Z -> binary64) (st : option Z) (now : Z) (lbound ubound : binary32) : option Z * binary32 :=
  let '(st, u1) := random_u64 st now in
  let '(st, u2) := random_u64 st now in
  let randval := f32_of_f64 (sn (w64 (u1 * u2))) in
  (st, f32_of_f64 (f64_add (f64_of_f32 lbound) (f64_mul (f64_of_f32 (f32_sub ubound lbound)) (fabs32 randval)))).
