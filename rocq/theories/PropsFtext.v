(** Properties of the floating point conversions of conv.c. *)
From Coq Require Import ZArith Bool Reals Lra Lia List.
From Flocq Require Import Core IEEE754.BinarySingleNaN IEEE754.Binary IEEE754.Bits.
From Verif Require Import Base BaseFacts StrModel StrSpec StrProofs2 NumModel NumProofs FtextModel FtextProofs.
Import ListNotations.
Open Scope R_scope.

Notation fin32 x := (is_finite 24 128 x = true).
Notation fin64 x := (is_finite 53 1024 x = true).
Notation fin80 x := (is_finite 64 16384 x = true).
Notation rnd80 := (round radix2 (FLT_exp (-16445) 64) ZnearestE).
Notation rnd32 := (round radix2 (FLT_exp (-149) 24) ZnearestE).
Notation rnd64 := (round radix2 (FLT_exp (-1074) 53) ZnearestE).

(** C111: digits, a dot and digits are read as the number nearest to the decimal
    fraction (ties to even), or as +infinity if that is beyond the largest one;
    a second dot ends the number.  Any other text gives 0. *)
Theorem C111_read_float :
  forall i f r, Forall digit i -> Forall digit f -> r = [] \/ (exists r', r = 46%Z :: r') -> forallb numch r = true ->
  exists x, conv_str_to_f (i ++ 46%Z :: f ++ r) = Ok x /\
    let v := rnd32 (IZR (dval 0 (i ++ f)) / IZR (10 ^ zlen f)) in
    if Rlt_bool v (bpow radix2 128) then B2R 24 128 x = v /\ fin32 x /\ Bsign 24 128 x = false
    else x = B754_infinity 24 128 false.
Proof. exact (read_dot 24 128 eq_refl). Qed.
Print Assumptions C111_read_float.
Theorem C111_read_double :
  forall i f r, Forall digit i -> Forall digit f -> r = [] \/ (exists r', r = 46%Z :: r') -> forallb numch r = true ->
  exists x, conv_str_to_d (i ++ 46%Z :: f ++ r) = Ok x /\
    let v := rnd64 (IZR (dval 0 (i ++ f)) / IZR (10 ^ zlen f)) in
    if Rlt_bool v (bpow radix2 1024) then B2R 53 1024 x = v /\ fin64 x /\ Bsign 53 1024 x = false
    else x = B754_infinity 53 1024 false.
Proof. exact (read_dot 53 1024 eq_refl). Qed.
Print Assumptions C111_read_double.
Theorem C111_read_long_double :
  forall i f r, Forall digit i -> Forall digit f -> r = [] \/ (exists r', r = 46%Z :: r') -> forallb numch r = true ->
  exists x, conv_str_to_r (i ++ 46%Z :: f ++ r) = Ok x /\
    let v := rnd80 (IZR (dval 0 (i ++ f)) / IZR (10 ^ zlen f)) in
    if Rlt_bool v (bpow radix2 16384) then B2R 64 16384 x = v /\ fin80 x /\ Bsign 64 16384 x = false
    else x = B754_infinity 64 16384 false.
Proof. exact (read_dot 64 16384 eq_refl). Qed.
Print Assumptions C111_read_long_double.
Theorem C111_read_integers :
  forall i, Forall digit i ->
  (exists x, conv_str_to_f i = Ok x /\
    let v := rnd32 (IZR (dval 0 i)) in
    if Rlt_bool v (bpow radix2 128) then B2R 24 128 x = v /\ fin32 x /\ Bsign 24 128 x = false
    else x = B754_infinity 24 128 false) /\
  (exists x, conv_str_to_d i = Ok x /\
    let v := rnd64 (IZR (dval 0 i)) in
    if Rlt_bool v (bpow radix2 1024) then B2R 53 1024 x = v /\ fin64 x /\ Bsign 53 1024 x = false
    else x = B754_infinity 53 1024 false) /\
  (exists x, conv_str_to_r i = Ok x /\
    let v := rnd80 (IZR (dval 0 i)) in
    if Rlt_bool v (bpow radix2 16384) then B2R 64 16384 x = v /\ fin80 x /\ Bsign 64 16384 x = false
    else x = B754_infinity 64 16384 false).
Proof.
  intros i F. exact (conj (read_int 24 128 eq_refl i F) (conj (read_int 53 1024 eq_refl i F) (read_int 64 16384 eq_refl i F))).
Qed.
Print Assumptions C111_read_integers.
Theorem C111_other_text :
  forall z, forallb numch z = false ->
  conv_str_to_f z = Ok (B754_zero 24 128 false) /\ conv_str_to_d z = Ok (B754_zero 53 1024 false) /\
  conv_str_to_r z = Ok (B754_zero 64 16384 false).
Proof. intros z H. exact (conj (read_other 24 128 z H) (conj (read_other 53 1024 z H) (read_other 64 16384 z H))). Qed.
Print Assumptions C111_other_text.
(** Sign, significand and exponent of a long double. *)
Definition parts80 (x : binary80) : option (bool * Z * Z) :=
  match x with
  | B754_zero _ _ s => Some (s, 0, 0)%Z
  | B754_finite _ _ s m e _ => Some (s, Zpos m, e)
  | _ => None
  end.
Example C111_example :
  (let* x := conv_str_to_f [48; 46; 49]%Z in Ok (bits_of_b32 x)) = Ok 0x3dcccccd%Z /\          (* 0.1 *)
  (let* x := conv_str_to_d [51; 46; 50; 53; 46; 57]%Z in Ok (bits_of_b64 x)) = Ok 0x400a000000000000%Z /\  (* 3.25.9 *)
  (let* x := conv_str_to_f (repeat 57%Z 40) in Ok (bits_of_b32 x)) = Ok 0x7f800000%Z /\
  (let* x := conv_str_to_d [49; 101; 51]%Z in Ok (bits_of_b64 x)) = Ok 0%Z /\                  (* 1e3 *)
  (let* x := conv_str_to_r [48; 46; 49]%Z in Ok (parts80 x)) = Ok (Some (false, 0xcccccccccccccccd, -67)%Z).
Proof. repeat split; vm_compute; reflexivity. Qed.

(** C112: a finite number is printed with a minus sign if it is negative, the integer
    part without leading zeros, a dot and six digits, within half a millionth; the
    text and its NUL are written if the size given suffices, else the process ends. *)
Theorem C112_print_float :
  forall x : binary32, fin32 x ->
  exists i f, fmt_float x = (if Bsign 24 128 x then [45%Z] else []) ++ i ++ [46%Z] ++ f /\
    decimal (dval 0 i) i /\ Forall digit f /\ zlen f = 6%Z /\
    Rabs (IZR (dval 0 (i ++ f)) / 1000000 - Rabs (B2R 24 128 x)) <= / 2000000.
Proof. intros x F. apply (fmt_ok6 24 128 (Hp := eq_refl) (Hm := eq_refl) eq_refl x F). lia. Qed.
Print Assumptions C112_print_float.
Theorem C112_print_double :
  forall x : binary64, fin64 x ->
  exists i f, fmt_float x = (if Bsign 53 1024 x then [45%Z] else []) ++ i ++ [46%Z] ++ f /\
    decimal (dval 0 i) i /\ Forall digit f /\ zlen f = 6%Z /\
    Rabs (IZR (dval 0 (i ++ f)) / 1000000 - Rabs (B2R 53 1024 x)) <= / 2000000.
Proof. intros x F. apply (fmt_ok6 53 1024 (Hp := eq_refl) (Hm := eq_refl) eq_refl x F). lia. Qed.
Print Assumptions C112_print_double.
Theorem C112_print_long_double :
  forall x : binary80, fin80 x ->
  exists i f, fmt_float x = (if Bsign 64 16384 x then [45%Z] else []) ++ i ++ [46%Z] ++ f /\
    decimal (dval 0 i) i /\ Forall digit f /\ zlen f = 6%Z /\
    Rabs (IZR (dval 0 (i ++ f)) / 1000000 - Rabs (B2R 64 16384 x)) <= / 2000000.
Proof. intros x F. apply (fmt_ok6 64 16384 (Hp := eq_refl) (Hm := eq_refl) eq_refl x F). lia. Qed.
Print Assumptions C112_print_long_double.
Theorem C112_buffer :
  forall buf buf_len (x : binary64), (buf_len <= zlen buf)%Z ->
  ((zlen (fmt_float x) + 1 <= buf_len)%Z ->
   exists buf', conv_float_to_str buf buf_len x = Ok buf' /\ cstr buf' = Ok (fmt_float x) /\ zlen buf' = zlen buf /\
     skipn (length (fmt_float x) + 1) buf' = skipn (length (fmt_float x) + 1) buf) /\
  ((buf_len < zlen (fmt_float x) + 1)%Z -> conv_float_to_str buf buf_len x = Abort).
Proof.
  intros buf buf_len x Hb. split.
  - apply (float_to_str_ok 53 1024 (Hp := eq_refl) (Hm := eq_refl) eq_refl buf buf_len x); [lia|exact Hb].
  - intros H. apply float_to_str_small. lia.
Qed.
Print Assumptions C112_buffer.
Theorem C112_buffer_float :
  forall buf buf_len (x : binary32), (buf_len <= zlen buf)%Z ->
  ((zlen (fmt_float x) + 1 <= buf_len)%Z ->
   exists buf', conv_float_to_str buf buf_len x = Ok buf' /\ cstr buf' = Ok (fmt_float x) /\ zlen buf' = zlen buf /\
     skipn (length (fmt_float x) + 1) buf' = skipn (length (fmt_float x) + 1) buf) /\
  ((buf_len < zlen (fmt_float x) + 1)%Z -> conv_float_to_str buf buf_len x = Abort).
Proof.
  intros buf buf_len x Hb. split.
  - apply (float_to_str_ok 24 128 (Hp := eq_refl) (Hm := eq_refl) eq_refl buf buf_len x); [lia|exact Hb].
  - intros H. apply float_to_str_small. lia.
Qed.
Print Assumptions C112_buffer_float.
Theorem C112_buffer_long_double :
  forall buf buf_len (x : binary80), (buf_len <= zlen buf)%Z ->
  ((zlen (fmt_float x) + 1 <= buf_len)%Z ->
   exists buf', conv_float_to_str buf buf_len x = Ok buf' /\ cstr buf' = Ok (fmt_float x) /\ zlen buf' = zlen buf /\
     skipn (length (fmt_float x) + 1) buf' = skipn (length (fmt_float x) + 1) buf) /\
  ((buf_len < zlen (fmt_float x) + 1)%Z -> conv_float_to_str buf buf_len x = Abort).
Proof.
  intros buf buf_len x Hb. split.
  - apply (float_to_str_ok 64 16384 (Hp := eq_refl) (Hm := eq_refl) eq_refl buf buf_len x); [lia|exact Hb].
  - intros H. apply float_to_str_small. lia.
Qed.
Print Assumptions C112_buffer_long_double.
Example C112_example :
  fmt_float (b64_of_bits 0xc00a000000000000) = [45; 51; 46; 50; 53; 48; 48; 48; 48]%Z /\   (* -3.25 *)
  conv_float_to_str (repeat None 9) 9 (b64_of_bits 0x400a000000000000) =
    Ok [Some 51; Some 46; Some 50; Some 53; Some 48; Some 48; Some 48; Some 48; Some 0]%Z /\
  conv_float_to_str (repeat None 9) 8 (b64_of_bits 0x400a000000000000) = Abort.
Proof. repeat split; vm_compute; reflexivity. Qed.

(** C113 (false): negative numbers, infinities and NaNs are read back as 0, and so are
    numbers below half a millionth, e.g. 1e-7. *)
Theorem C113_round_trip_refuted :
  (forall x : binary32, Bsign 24 128 x = true \/ is_finite 24 128 x = false ->
    conv_str_to_f (fmt_float x) = Ok (B754_zero 24 128 false)) /\
  conv_str_to_f (fmt_float (b32_of_bits 0x33d6bf95)) = Ok (B754_zero 24 128 false) /\
  fin32 (b32_of_bits 0x33d6bf95) /\ fin32 (b32_of_bits 0xbf800000).
Proof.
  split; [exact (negative_zero 24 128)|]. split; [vm_compute; reflexivity|]. split; reflexivity.
Qed.
Print Assumptions C113_round_trip_refuted.
(** Proved: floats from 16, doubles from 2^33 and long doubles from 2^44 on come back
    exactly. *)
Theorem C113_large_float_partial :
  forall x : binary32, fin32 x -> 16 <= B2R 24 128 x -> conv_str_to_f (fmt_float x) = Ok x.
Proof.
  intros x F H. apply (round_trip_large 24 128 eq_refl x F); [lia|lia|]. exact H.
Qed.
Print Assumptions C113_large_float_partial.
Theorem C113_large_double_partial :
  forall x : binary64, fin64 x -> 8589934592 <= B2R 53 1024 x -> conv_str_to_d (fmt_float x) = Ok x.
Proof.
  intros x F H. apply (round_trip_large 53 1024 eq_refl x F); [lia|lia|]. exact H.
Qed.
Print Assumptions C113_large_double_partial.
Theorem C113_large_long_double_partial :
  forall x : binary80, fin80 x -> 17592186044416 <= B2R 64 16384 x -> conv_str_to_r (fmt_float x) = Ok x.
Proof.
  intros x F H. apply (round_trip_large 64 16384 eq_refl x F); [lia|lia|]. exact H.
Qed.
Print Assumptions C113_large_long_double_partial.
(** Non-negative multiples of 1/64, in particular integers, come back exactly. *)
Theorem C113_multiples_partial :
  (forall x : binary32, fin32 x -> Bsign 24 128 x = false -> (exists k, B2R 24 128 x = IZR k / 64) ->
    conv_str_to_f (fmt_float x) = Ok x) /\
  (forall x : binary64, fin64 x -> Bsign 53 1024 x = false -> (exists k, B2R 53 1024 x = IZR k / 64) ->
    conv_str_to_d (fmt_float x) = Ok x) /\
  (forall x : binary80, fin80 x -> Bsign 64 16384 x = false -> (exists k, B2R 64 16384 x = IZR k / 64) ->
    conv_str_to_r (fmt_float x) = Ok x).
Proof.
  split; [|split]; intros x F S [k H];
    [apply (round_trip_exact 24 128 eq_refl x (k * 15625) F)|apply (round_trip_exact 53 1024 eq_refl x (k * 15625) F)
     |apply (round_trip_exact 64 16384 eq_refl x (k * 15625) F)];
    try lia; auto; rewrite H, mult_IZR; field.
Qed.
Print Assumptions C113_multiples_partial.
(** All other non-negative numbers come back within a millionth. *)
Theorem C113_near_partial :
  (forall x : binary32, fin32 x -> Bsign 24 128 x = false ->
    exists y, conv_str_to_f (fmt_float x) = Ok y /\ fin32 y /\ Rabs (B2R 24 128 y - B2R 24 128 x) <= / 1000000) /\
  (forall x : binary64, fin64 x -> Bsign 53 1024 x = false ->
    exists y, conv_str_to_d (fmt_float x) = Ok y /\ fin64 y /\ Rabs (B2R 53 1024 y - B2R 53 1024 x) <= / 1000000) /\
  (forall x : binary80, fin80 x -> Bsign 64 16384 x = false ->
    exists y, conv_str_to_r (fmt_float x) = Ok y /\ fin80 y /\ Rabs (B2R 64 16384 y - B2R 64 16384 x) <= / 1000000).
Proof.
  split; [|split]; intros x F S;
    [apply (round_trip_near 24 128 eq_refl x F)|apply (round_trip_near 53 1024 eq_refl x F)
     |apply (round_trip_near 64 16384 eq_refl x F)]; auto; lia.
Qed.
Print Assumptions C113_near_partial.
Example C113_example :
  (let* x := conv_str_to_f (fmt_float (b32_of_bits 0x4b3c614f)) in Ok (bits_of_b32 x)) = Ok 0x4b3c614f%Z /\  (* 12345679 *)
  (let* x := conv_str_to_f (fmt_float (b32_of_bits 0x3c800000)) in Ok (bits_of_b32 x)) = Ok 0x3c800000%Z /\  (* 1/64 *)
  (let* x := conv_str_to_r [57; 46; 53]%Z in Ok (fmt_float x)) = Ok [57; 46; 53; 48; 48; 48; 48; 48]%Z.
Proof. repeat split; vm_compute; reflexivity. Qed.
