(** Properties of conv.c, math.c and comparison.c (integer functions).  Statements only;
    each theorem is followed by a non-vacuity example. *)
From Verif Require Import Base BaseFacts StrModel StrModel2 StrSpec NumModel NumProofs.

(** C46: [decimal v z] = [z] is the decimal text of [v] without leading zeros. *)
Theorem C46_unsigned_roundtrip :
  forall w v buf buf_len, width w -> 0 <= v < 2 ^ w -> buf_len <= zlen buf ->
  exists z, decimal v z /\
    (zlen z + 1 <= buf_len ->
     exists buf', conv_to_str buf buf_len v = Ok buf' /\ cstr buf' = Ok z /\ conv_str_to_u w z = Ok v) /\
    (buf_len < zlen z + 1 -> conv_to_str buf buf_len v = Abort).
Proof. exact unsigned_roundtrip. Qed.
Print Assumptions C46_unsigned_roundtrip.

Example C46_example :
  conv_to_str (repeat None 4) 4 255 = Ok [Some 50; Some 53; Some 53; Some 0] /\ conv_to_str (repeat None 4) 3 255 = Abort /\
  conv_str_to_u 8 [50; 53; 53] = Ok 255 /\ conv_str_to_u 64 (fmt_int 18446744073709551615) = Ok 18446744073709551615.
Proof. repeat split; vm_compute; reflexivity. Qed.

(** C47 (false): the text of a negative number is not "numeric", so it reads back as 0. *)
Theorem C47_signed_roundtrip_refuted : forall w v, v < 0 -> conv_str_to_i w (fmt_int v) = Ok 0.
Proof. exact signed_negative_zero. Qed.
Print Assumptions C47_signed_roundtrip_refuted.

Theorem C47_signed_roundtrip_partial :
  forall w v buf buf_len, width w -> 0 <= v < 2 ^ (w - 1) -> buf_len <= zlen buf ->
  zlen (fmt_int v) + 1 <= buf_len ->
  exists buf' z, conv_to_str buf buf_len v = Ok buf' /\ cstr buf' = Ok z /\ conv_str_to_i w z = Ok v.
Proof. exact signed_nonneg_roundtrip. Qed.
Print Assumptions C47_signed_roundtrip_partial.

(** C47: every signed number is printed with its sign and its decimal digits. *)
Theorem C47_signed_text :
  forall w v buf buf_len, width w -> - 2 ^ (w - 1) <= v < 2 ^ (w - 1) -> buf_len <= zlen buf ->
  exists z, decimal (Z.abs v) z /\
    let t := (if v <? 0 then [45] else []) ++ z in
    (zlen t + 1 <= buf_len -> exists buf', conv_to_str buf buf_len v = Ok buf' /\ cstr buf' = Ok t) /\
    (buf_len < zlen t + 1 -> conv_to_str buf buf_len v = Abort).
Proof. exact signed_text. Qed.
Print Assumptions C47_signed_text.

Example C47_example :
  (let* b := conv_to_str (repeat None 5) 5 (-128) in cstr b) = Ok [45; 49; 50; 56] /\ conv_to_str (repeat None 5) 4 (-128) = Abort /\
  fmt_int (-5) = [45; 53] /\ conv_str_to_i 32 [45; 53] = Ok 0 /\ conv_str_to_i 16 (fmt_int 32767) = Ok 32767.
Proof. repeat split; vm_compute; reflexivity. Qed.

(** C80: text to number. *)
Theorem C80_text_to_unsigned :
  forall w z, width w -> Forall digit z -> dval 0 z < 2 ^ w -> conv_str_to_u w z = Ok (dval 0 z).
Proof. exact str_to_u_digits. Qed.
Print Assumptions C80_text_to_unsigned.
Theorem C80_text_to_signed :
  forall w z, width w -> Forall digit z -> dval 0 z < 2 ^ (w - 1) -> conv_str_to_i w z = Ok (dval 0 z).
Proof. exact str_to_i_digits. Qed.
Print Assumptions C80_text_to_signed.
Theorem C80_other_text :
  forall w z, forallb numch z = false -> conv_str_to_u w z = Ok 0 /\ conv_str_to_i w z = Ok 0.
Proof. exact str_to_other. Qed.
Print Assumptions C80_other_text.

Example C80_example :
  conv_str_to_u 16 [48; 48; 55; 49] = Ok 71 /\ conv_str_to_u 8 [49; 97] = Ok 0 /\ conv_str_to_i 8 [] = Ok 0 /\
  forallb numch [49; 97] = false.
Proof. repeat split; vm_compute; reflexivity. Qed.

(** C81 (false): a number that does not fit the type is not reported as a failure (0) but
    wrapped: "300" read as u8 is 44. *)
Theorem C81_out_of_range_refuted :
  conv_str_to_u 8 [51; 48; 48] = Ok 44 /\ conv_str_to_i 8 [50; 48; 48] = Ok (-56).
Proof. split; vm_compute; reflexivity. Qed.
Print Assumptions C81_out_of_range_refuted.
(** What it gives for a text of digits of any length: the number, limited to 64 bits,
    reduced to the type. *)
Theorem C81_unsigned_partial :
  forall w z, Forall digit z -> conv_str_to_u w z = Ok (Z.min (dval 0 z) 18446744073709551615 mod 2 ^ w).
Proof. exact str_to_u_any. Qed.
Print Assumptions C81_unsigned_partial.
Theorem C81_signed_partial :
  forall w z, width w -> Forall digit z ->
  exists r, conv_str_to_i w z = Ok r /\ - 2 ^ (w - 1) <= r < 2 ^ (w - 1) /\
            r mod 2 ^ w = Z.min (dval 0 z) 9223372036854775807 mod 2 ^ w.
Proof. exact str_to_i_any. Qed.
Print Assumptions C81_signed_partial.
Example C81_example :
  conv_str_to_u 64 (repeat 57 30) = Ok 18446744073709551615 /\ conv_str_to_i 32 (repeat 57 30) = Ok (-1) /\
  conv_str_to_u 8 [50; 53; 54] = Ok 0.
Proof. repeat split; vm_compute; reflexivity. Qed.

(** C48: [digits 20 n] are the decimal digits of n, least significant first. *)
Theorem C48_palindrome :
  forall n, 0 <= n < two64 -> exists b, is_palindrome n = Ok b /\ (b = true <-> digits 20 n = rev (digits 20 n)).
Proof. exact palindrome_ok. Qed.
Print Assumptions C48_palindrome.
Theorem C48_digits :
  forall k n, 0 <= n < 10 ^ Z.of_nat k -> Forall small (digits k n) /\ vle (digits k n) = n /\
  (length (digits k n) <= k)%nat /\ last (digits k n) 1 <> 0.
Proof. exact digits_ok. Qed.
Print Assumptions C48_digits.

Example C48_example :
  is_palindrome 12344321 = Ok true /\ is_palindrome 18446744073709551615 = Ok false /\
  is_palindrome 12345678900987654321 = Ok true /\ is_palindrome 10 = Ok false /\ is_palindrome 0 = Ok true.
Proof. repeat split; vm_compute; reflexivity. Qed.

(** C49 (false as stated): a zero argument divides by zero, and (INT64_MIN, -1) overflows. *)
Theorem C49_gcd_refuted :
  (forall b, 0 <= b -> math_gcd 0 b = UB /\ math_gcd b 0 = UB) /\ math_gcd int64_min (-1) = UB.
Proof. split; [exact gcd_zero_ub|vm_compute; reflexivity]. Qed.
Print Assumptions C49_gcd_refuted.

Theorem C49_gcd_partial :
  forall a b, 0 < a <= int64_max -> 0 < b <= int64_max -> math_gcd a b = Ok (Z.gcd a b).
Proof. exact gcd_positive. Qed.
Print Assumptions C49_gcd_partial.

Theorem C49_gcd_signed_partial :
  forall a b, in_i64 a = true -> in_i64 b = true -> a <> 0 -> b <> 0 ->
  ~ (a = int64_min /\ b = -1) -> ~ (b = int64_min /\ a = -1) ->
  exists g, math_gcd a b = Ok g /\ Z.abs g = Z.gcd a b.
Proof. exact math_gcd_ok. Qed.
Print Assumptions C49_gcd_signed_partial.

Theorem C49_lcm :
  forall a b, 0 < a <= int64_max -> 0 < b <= int64_max ->
  math_lcm a b = if Z.lcm a b <=? int64_max then Ok (Z.lcm a b) else UB.
Proof. exact lcm_positive. Qed.
Print Assumptions C49_lcm.

Example C49_example :
  math_gcd 84 36 = Ok 12 /\ math_lcm 84 36 = Ok 252 /\ math_gcd 7540113804746346429 4660046610375530309 = Ok 1 /\
  math_gcd (-6) (-4) = Ok (-2).
Proof. repeat split; vm_compute; reflexivity. Qed.

(** C50 *)
Theorem C50_random_range :
  forall nows st, (match st with Some t => 0 <= t < 4294967295 | None => True end) ->
  Forall (fun r => 0 <= r < 32768) (random_run st nows).
Proof. exact random_run_range. Qed.
Print Assumptions C50_random_range.
Theorem C50_random_seed :
  forall n nows nows', length nows = length nows' -> random_run None (n :: nows) = random_run None (n :: nows').
Proof. exact random_first. Qed.
Print Assumptions C50_random_seed.

Example C50_example : random_run None [1700000000; 0; 0] = random_run None [1700000000; 5; 7] /\
  exists a b c, random_run None [1700000000; 0; 0] = [a; b; c] /\ a <> b /\ b <> c.
Proof. split; [vm_compute; reflexivity|]. do 3 eexists. split; [vm_compute; reflexivity|]. split; discriminate. Qed.

(** C51 (false as stated): with l > h the lower bound wins. *)
Theorem C51_clamp_refuted : exists x l h, x >= l /\ h < x /\ cmp_clamp x l h <> h.
Proof. exists 20, 10, 0. vm_compute. repeat split; congruence. Qed.
Print Assumptions C51_clamp_refuted.

Theorem C51_clamp_partial :
  forall x l h, l <= h -> cmp_clamp x l h = (if x <? l then l else if h <? x then h else x).
Proof.
  intros x l h H. unfold cmp_clamp, cmp_max, cmp_min.
  destruct (Z.ltb_spec x h), (Z.ltb_spec x l), (Z.ltb_spec h x); try lia; destruct (Z.ltb_spec x l); try lia;
  destruct (Z.ltb_spec h l); lia.
Qed.
Print Assumptions C51_clamp_partial.

Theorem C51_min_max : forall x y, cmp_min x y = Z.min x y /\ cmp_max x y = Z.max x y.
Proof. intros x y. unfold cmp_min, cmp_max. destruct (Z.ltb_spec x y), (Z.ltb_spec y x); lia. Qed.
Print Assumptions C51_min_max.

Example C51_example : cmp_clamp 7 0 5 = 5 /\ cmp_clamp (-7) 0 5 = 0 /\ cmp_clamp 3 0 5 = 3.
Proof. repeat split; reflexivity. Qed.
