(** Model of vt_math_random_f32_normal, src/vita/math/math.c.  No proofs in this file.

    The sine and the natural logarithm of the C library are parameters; pow(x, 2) is the
    rounded product and sqrt the rounded root.  RAND_MAX is 2147483647 (glibc); as a float it
    is 2^31.  Floating point conventions: FloatModel.v. *)
From Coq Require Import ZArith Bool.
From Flocq Require Import Core IEEE754.BinarySingleNaN IEEE754.Binary IEEE754.Bits.
From Verif Require Import Base NumModel FloatModel RandModel.
Open Scope Z_scope.

Definition f64_sqrt := b64_sqrt mode_NE.

Definition rand_max : Z := 2147483647.
Definition f32_rand_max : binary32 := b32_of_bits 0x4f000000.   (* (float)RAND_MAX = 2^31 *)
Definition f32_m1 : binary32 := b32_of_bits 0xbf800000.         (* -1 *)
Definition f32_1 : binary32 := b32_of_bits 0x3f800000.          (* 1 *)
Definition f32_2 : binary32 := b32_of_bits 0x40000000.          (* 2 *)
Definition f64_m2 : binary64 := b64_of_bits 0xc000000000000000. (* -2 *)

(** The static variables: that of vt_math_random_u64, call and X2 (X1 is only read in the
    call that assigns it). *)
Record nstate := mk_nstate { n_rand : option Z; n_call : bool; n_x2 : binary32 }.
Definition n_init : nstate := mk_nstate None false (B754_zero 24 128 false).

(** "-1 + (vt_math_random_f32(RAND_MAX) / RAND_MAX) * 2", math.c:80-81. *)
Definition coordinate (sn : Z -> binary64) (st : option Z) (now : Z) : option Z * binary32 :=
  let '(st, x) := random_f32 sn st now rand_max in
  (st, f32_add f32_m1 (f32_mul (f32_div x f32_rand_max) f32_2)).

(** "pow(U1, 2) + pow(U2, 2)", math.c:82. *)
Definition norm2 (u1 u2 : binary32) : binary32 :=
  let sq u := f64_mul (f64_of_f32 u) (f64_of_f32 u) in
  f32_of_f64 (f64_add (sq u1) (sq u2)).

(** C's >= and == of floats. *)
Definition f_ge (x y : binary32) : bool := match b32_compare x y with Some Gt | Some Eq => true | _ => false end.
Definition f_eq (x y : binary32) : bool := match b32_compare x y with Some Eq => true | _ => false end.

(** The loop, math.c:79-84. *)
Fixpoint draw (fuel : nat) (sn : Z -> binary64) (st : option Z) (now : Z) : res (option Z * (binary32 * binary32 * binary32)) :=
  match fuel with
  | O => NoFuel
  | S f =>
      let '(st, u1) := coordinate sn st now in
      let '(st, u2) := coordinate sn st now in
      let w := norm2 u1 u2 in
      if f_ge w f32_1 || f_eq w (B754_zero 24 128 false) then draw f sn st now else Ok (st, (u1, u2, w))
  end.

(** "sqrt((-2 * log(W)) / W)", math.c:86. *)
Definition factor_of (lg : binary64 -> binary64) (w : binary32) : binary32 :=
  f32_of_f64 (f64_sqrt (f64_div (f64_mul f64_m2 (lg (f64_of_f32 w))) (f64_of_f32 w))).

(** vt_math_random_f32_normal, math.c:69-93. *)
Definition random_normal (fuel : nat) (sn : Z -> binary64) (lg : binary64 -> binary64) (s : nstate) (now : Z) (mu std : binary32) : res (nstate * binary32) :=
  if n_call s then Ok (mk_nstate (n_rand s) false (n_x2 s), f32_add mu (f32_mul std (n_x2 s))) else
  let* d := draw fuel sn (n_rand s) now in
  let '(st, (u1, u2, w)) := d in
  let mult := factor_of lg w in
  Ok (mk_nstate st true (f32_mul u2 mult), f32_add mu (f32_mul std (f32_mul u1 mult))).

(** Several calls with the given means and deviations: the values returned. *)
Fixpoint normal_run (fuel : nat) sn lg (s : nstate) (now : Z) (ps : list (binary32 * binary32)) : res (nstate * list binary32) :=
  match ps with
  | nil => Ok (s, nil)
  | (mu, std) :: ps' =>
      let* r := random_normal fuel sn lg s now mu std in
      let* r' := normal_run fuel sn lg (fst r) now ps' in
      Ok (fst r', snd r :: snd r')
  end%list.
