(** Model of the floating point instances of src/vita/core/conv.c.  No proofs in
    this file.

    printf "%f" and strtof/strtod/strtold are modelled by their contract with the
    exact rounding of glibc: round to nearest, ties to even.  A float is printed as
    the double of the same value.  A [real] (long double, inc/vita/core/core.h:107) is
    a number of the extended format of x86-64: 64 bits of precision, below 2^16384.
    Its encodings that stand for no number (bit 63 wrong) do not occur. *)
From Coq Require Import ZArith.
From Flocq Require Import Core IEEE754.BinarySingleNaN IEEE754.Binary IEEE754.Bits.
From Verif Require Import Base StrModel StrModel2 NumModel.

(** The integer nearest to n / d, ties to even. *)
Definition near_div (n d : Z) : Z :=
  let q := n / d in
  let r := n mod d in
  if 2 * r <? d then q else if d <? 2 * r then q + 1 else if Z.even q then q else q + 1.

(** The six digits of a number below 10^6. *)
Definition six (r : Z) : list Z :=
  [48 + r / 100000 mod 10; 48 + r / 10000 mod 10; 48 + r / 1000 mod 10;
   48 + r / 100 mod 10; 48 + r / 10 mod 10; 48 + r mod 10].
(** m * 2^e in millionths. *)
Definition millionths (m e : Z) : Z :=
  if 0 <=? e then m * 2 ^ e * 1000000 else near_div (m * 1000000) (2 ^ (- e)).
Definition fixed6 (n : Z) : list Z := dec_loop 4940 (n / 1000000) [] ++ [46] ++ six (n mod 1000000).
Definition minus (s : bool) : list Z := if s then [45] else [].
(** snprintf("%f"), snprintf("%Lf"). *)
Definition fmt_float {prec emax} (x : binary_float prec emax) : list Z :=
  match x with
  | B754_zero _ _ s => minus s ++ fixed6 0
  | B754_infinity _ _ s => minus s ++ [105; 110; 102]
  | B754_nan _ _ s _ _ => minus s ++ [110; 97; 110]
  | B754_finite _ _ s m e _ => minus s ++ fixed6 (millionths (Zpos m) e)
  end.

(** vt_conv_f_to_str, vt_conv_d_to_str and vt_conv_r_to_str, conv.c:36-45, 54-56. *)
Definition conv_float_to_str {prec emax} (buf : blk) (buf_len : Z) (x : binary_float prec emax) : res blk :=
  let z := fmt_float x in
  let required_len := zlen z + 1 in
  let* _ := enforce (required_len <=? buf_len) in
  let* buf := bwrite buf 0 (zblk z) in
  let* _ := enforce (zlen z =? required_len - 1) in
  Ok buf.

(** The float nearest to n / d (n >= 0, d > 0): n / d is cut to a fixed number of
    binary places, the last one marks a remainder. *)
Definition of_ratio prec emax (Hp : Prec_gt_0 prec) (Hm : Prec_lt_emax prec emax) (n d : Z) : binary_float prec emax :=
  let s := emax + prec in
  let m := 2 * (n * 2 ^ s / d) + (if n * 2 ^ s mod d =? 0 then 0 else 1) in
  binary_normalize prec emax Hp Hm mode_NE m (- (s + 1)) false.

(** The digits in front and the rest. *)
Fixpoint split_digits (z : list Z) : list Z * list Z :=
  match z with
  | c :: z' => if is_digit c then let '(d, r) := split_digits z' in (c :: d, r) else ([], z)
  | [] => ([], [])
  end.
(** strtof / strtod / strtold on a text of digits and dots: digits, a dot, digits.  The caller
    has excluded all other characters. *)
Definition strto_float prec emax (Hp : Prec_gt_0 prec) (Hm : Prec_lt_emax prec emax) (z : list Z) : binary_float prec emax :=
  let '(i, r) := split_digits z in
  let f := match r with 46 :: r' => fst (split_digits r') | _ => [] end in
  of_ratio prec emax Hp Hm (digit_run (i ++ f) 0) (10 ^ zlen f).

(** vt_conv_str_to_f, vt_conv_str_to_d and vt_conv_str_to_r, conv.c:7-22, 31-33. *)
Definition conv_str_to_float prec emax Hp Hm (z : list Z) : res (binary_float prec emax) :=
  let* ok := str_is_numeric (str_create_static z) in
  if negb ok then Ok (B754_zero prec emax false) else Ok (strto_float prec emax Hp Hm z).

Definition conv_str_to_f : list Z -> res binary32 := conv_str_to_float 24 128 eq_refl eq_refl.
Definition conv_str_to_d : list Z -> res binary64 := conv_str_to_float 53 1024 eq_refl eq_refl.
Definition binary80 := binary_float 64 16384.
Definition conv_str_to_r : list Z -> res binary80 := conv_str_to_float 64 16384 eq_refl eq_refl.
