(** C190: floating point numbers in formatted text. *)
From Coq Require Import ZArith Bool Reals Lra Lia String Ascii List.
From Flocq Require Import Core IEEE754.BinarySingleNaN IEEE754.Binary IEEE754.Bits.
From Verif Require Import Base BaseFacts StrModel StrModel2 StrSpec StrProofs StrProofs2 NumModel NumProofs FtextModel FtextProofs FmtModel FmtProofs PropsFmt FfmtProofs.
Import ListNotations.
Local Open Scope list_scope.
Local Open Scope Z_scope.

Notation fin64 x := (is_finite 53 1024 x = true).
Notation fin80 x := (is_finite 64 16384 x = true).
Notation fin32 x := (is_finite 24 128 x = true).

(** ** C190 Floating point numbers in formatted text *)
(** The sign, the integer part without leading zeros, a dot and [p] digits (no dot if [p] is 0); the
    digits are those of the number nearest to |x| times 10^p, ties to even. *)
Theorem C190_text : forall p (x : binary64), 0 <= p < 2 ^ 31 -> fin64 x ->
  exists i f, format (T "%.*f") [A32 p; AF x] = Ok ((if Bsign 53 1024 x then [45] else []) ++ i ++ (if p =? 0 then [] else 46 :: f)) /\
    decimal (dval 0 i) i /\ Forall digit f /\ zlen f = p /\ dval 0 (i ++ f) = ZnearestE (Rabs (B2R 53 1024 x) * IZR (10 ^ p)).
Proof.
  intros p x P F. destruct (body_ok false p x ltac:(lia) F) as (i & f & E & K). exists i, f. split; [|exact K].
  rewrite <- E. change (format (T "%.*f")) with (eval [Dir (dotted 32) (CFix false)]). rewrite prec_double by (unfold i32; lia). replace (p <? 0) with false by lia. reflexivity.
Qed.
Print Assumptions C190_text.
Theorem C190_text_long : forall p (x : binary80), 0 <= p < 2 ^ 31 -> fin80 x ->
  exists i f, format (T "%.*Lf") [A32 p; AL x] = Ok ((if Bsign 64 16384 x then [45] else []) ++ i ++ (if p =? 0 then [] else 46 :: f)) /\
    decimal (dval 0 i) i /\ Forall digit f /\ zlen f = p /\ dval 0 (i ++ f) = ZnearestE (Rabs (B2R 64 16384 x) * IZR (10 ^ p)).
Proof.
  intros p x P F. destruct (body_ok false p x ltac:(lia) F) as (i & f & E & K). exists i, f. split; [|exact K].
  rewrite <- E. change (format (T "%.*Lf")) with (eval [Dir (dotted 80) (CFix false)]). rewrite prec_long by (unfold i32; lia). replace (p <? 0) with false by lia. reflexivity.
Qed.
Print Assumptions C190_text_long.

(** "%f" and "%Lf" write what vt_conv_d_to_str and vt_conv_r_to_str write, for every number; so does
    a negative number of places. *)
Theorem C190_six : forall (x : binary64) (y : binary80) p, - 2 ^ 31 <= p < 0 ->
  format (T "%f") [AF x] = Ok (fmt_float x) /\ format (T "%Lf") [AL y] = Ok (fmt_float y) /\
  format (T "%.*f") [A32 p; AF x] = Ok (fmt_float x) /\ format (T "%.6f") [AF x] = Ok (fmt_float x).
Proof.
  intros x y p P.
  assert (X : forall sp, sp_zero sp = false -> sp_plus sp = false -> sp_space sp = false -> float_text sp 0 false None false x = fmt_float x) by (intros sp; apply (@float_plain 53 1024 eq_refl eq_refl); discriminate).
  assert (Y : forall sp, sp_zero sp = false -> sp_plus sp = false -> sp_space sp = false -> float_text sp 0 false None false y = fmt_float y) by (intros sp; apply (@float_plain 64 16384 eq_refl eq_refl); discriminate).
  split; [|split; [|split]].
  - change (format (T "%f")) with (eval [Dir spec0 (CFix false)]). apply eval1; [reflexivity|]. exact (X spec0 eq_refl eq_refl eq_refl).
  - change (format (T "%Lf")) with (eval [Dir (mk_spec false false false false NNone NNone 80) (CFix false)]). apply eval1; [reflexivity|]. exact (Y (mk_spec false false false false NNone NNone 80) eq_refl eq_refl eq_refl).
  - change (format (T "%.*f")) with (eval [Dir (dotted 32) (CFix false)]). rewrite prec_double by (unfold i32; lia). replace (p <? 0) with true by lia.
    rewrite <- (X (dotted 32) eq_refl eq_refl eq_refl). reflexivity.
  - change (format (T "%.6f")) with (eval [Dir (mk_spec false false false false NNone (NNum 6) 32) (CFix false)]). apply eval1; [reflexivity|]. rewrite <- (X (dotted 32) eq_refl eq_refl eq_refl). reflexivity.
Qed.
Print Assumptions C190_six.

(** A width pads with spaces, at the left or (negative) at the right, and never cuts. *)
Theorem C190_width : forall w p (x : binary64), - 2 ^ 31 <= w < 2 ^ 31 -> - 2 ^ 31 <= p < 2 ^ 31 ->
  exists t, format (T "%.*f") [A32 p; AF x] = Ok t /\
    format (T "%*.*f") [A32 w; A32 p; AF x] = Ok (if w <? 0 then t ++ repeat 32 (Z.to_nat (- w - zlen t)) else repeat 32 (Z.to_nat (w - zlen t)) ++ t).
Proof.
  intros w p x W P. change (format (T "%.*f")) with (eval [Dir (dotted 32) (CFix false)]). change (format (T "%*.*f")) with (eval [Dir (starred 32) (CFix false)]).
  rewrite prec_double, fixed_double by assumption. eexists. split; [reflexivity|]. unfold padded. set (t := signs x ++ _).
  replace (Z.to_nat (- w - zlen t)) with (Z.to_nat (- w) - List.length t)%nat by (unfold zlen; lia). replace (Z.to_nat (w - zlen t)) with (Z.to_nat w - List.length t)%nat by (unfold zlen; lia). reflexivity.
Qed.
Print Assumptions C190_width.

(** Infinities and not-a-number. *)
Theorem C190_special : forall p s, - 2 ^ 31 <= p < 2 ^ 31 ->
  format (T "%.*f") [A32 p; AF (B754_infinity 53 1024 s)] = Ok ((if s then T "-" else []) ++ T "inf") /\
  format (T "%.*F") [A32 p; AF (B754_infinity 53 1024 s)] = Ok ((if s then T "-" else []) ++ T "INF") /\
  (forall pl H, format (T "%.*f") [A32 p; AF (B754_nan 53 1024 s pl H)] = Ok ((if s then T "-" else []) ++ T "nan") /\
                format (T "%.*F") [A32 p; AF (B754_nan 53 1024 s pl H)] = Ok ((if s then T "-" else []) ++ T "NAN")).
Proof.
  intros p s P. change (format (T "%.*f")) with (eval [Dir (dotted 32) (CFix false)]). change (format (T "%.*F")) with (eval [Dir (dotted 32) (CFix true)]).
  split; [|split; [|intros pl H; split]]; rewrite prec_double by assumption; destruct s; reflexivity.
Qed.
Print Assumptions C190_special.

(** ** Reading it back *)
(** What was written is read back as the same number if two units of the last place written are less
    than one unit of the last place of the number. *)
Theorem C190_back : forall p (x : binary64), 0 <= p < 2 ^ 31 -> fin64 x -> Bsign 53 1024 x = false ->
  (2 * / IZR (10 ^ p) < ulp radix2 (FLT_exp (-1074) 53) (B2R 53 1024 x))%R ->
  (let* t := format (T "%.*f") [A32 p; AF x] in conv_str_to_d t) = Ok x.
Proof.
  intros p x P F S U. change (format (T "%.*f")) with (eval [Dir (dotted 32) (CFix false)]). rewrite prec_double by (unfold i32; lia). replace (p <? 0) with false by lia.
  unfold signs. rewrite S. cbn [bind app]. exact (back 53 1024 (Hp := eq_refl) (Hm := eq_refl) eq_refl x x p false (proj1 P) F S F eq_refl U).
Qed.
Print Assumptions C190_back.
(** 324 places are enough for every double, 46 for every float (passed as the double of the same
    value), 4951 for every long double; one less is not. *)
Theorem C190_enough_double : forall p (x : binary64), 324 <= p < 2 ^ 31 -> fin64 x -> Bsign 53 1024 x = false ->
  (let* t := format (T "%.*f") [A32 p; AF x] in conv_str_to_d t) = Ok x.
Proof. intros p x P F S. apply C190_back; [lia|exact F|exact S|]. apply (enough 53 1024 (Hp := eq_refl) _ p 324); [lia|discriminate|reflexivity]. Qed.
Print Assumptions C190_enough_double.
Theorem C190_enough_float : forall p (x : binary32) (y : binary64), 46 <= p < 2 ^ 31 -> fin32 x -> fin64 y -> B2R 53 1024 y = B2R 24 128 x ->
  Bsign 24 128 x = false -> Bsign 53 1024 y = false ->
  (let* t := format (T "%.*f") [A32 p; AF y] in conv_str_to_f t) = Ok x.
Proof.
  intros p x y P F Fy E S Sy. change (format (T "%.*f")) with (eval [Dir (dotted 32) (CFix false)]). rewrite prec_double by (unfold i32; lia). replace (p <? 0) with false by lia.
  unfold signs. rewrite Sy. cbn [bind app]. apply (back 24 128 (Hp := eq_refl) (Hm := eq_refl) eq_refl x y p false ltac:(lia) F S Fy E).
  apply (enough 24 128 (Hp := eq_refl) _ p 46); [lia|discriminate|reflexivity].
Qed.
Print Assumptions C190_enough_float.
Theorem C190_enough_long_double : forall p (x : binary80), 4951 <= p < 2 ^ 31 -> fin80 x -> Bsign 64 16384 x = false ->
  (let* t := format (T "%.*Lf") [A32 p; AL x] in conv_str_to_r t) = Ok x.
Proof.
  intros p x P F S. change (format (T "%.*Lf")) with (eval [Dir (dotted 80) (CFix false)]). rewrite prec_long by (unfold i32; lia). replace (p <? 0) with false by lia.
  unfold signs. rewrite S. cbn [bind app]. apply (back 64 16384 (Hp := eq_refl) (Hm := eq_refl) eq_refl x x p false ltac:(lia) F S F eq_refl).
  apply (enough 64 16384 (Hp := eq_refl) _ p 4951); [lia|discriminate|]. apply Z.ltb_lt. vm_compute. reflexivity.
Qed.
Print Assumptions C190_enough_long_double.
(** From 1 on, 16 places are enough for a double. *)
Theorem C190_sixteen : forall p (x : binary64), 16 <= p < 2 ^ 31 -> fin64 x -> (1 <= B2R 53 1024 x)%R ->
  (let* t := format (T "%.*f") [A32 p; AF x] in conv_str_to_d t) = Ok x.
Proof.
  intros p x P F B. apply C190_back; [lia|exact F| |].
  - destruct x as [s|s|s pl e|s m e K]; try discriminate; cbn [B2R] in B; [lra|]. destruct s; [|reflexivity]. exfalso. assert (F2R (Float radix2 (cond_Zopp true (Z.pos m)) e) <= 0)%R by (apply F2R_le_0; cbn; lia). lra.
  - apply Rlt_le_trans with (bpow radix2 (-52)).
    + assert (H : 10 ^ 16 <= 10 ^ p) by (apply Z.pow_le_mono_r; lia). apply IZR_le in H. change (bpow radix2 (-52)) with (/ 4503599627370496)%R. change (10 ^ 16) with 10000000000000000 in H.
      apply Rle_lt_trans with (2 * / 10000000000000000)%R; [|lra]. apply Rmult_le_compat_l; [lra|]. apply Rinv_le; lra.
    + apply Rle_trans with (ulp radix2 (FLT_exp (-1074) 53) 1); [right; rewrite ulp_neq_0 by lra; f_equal; unfold cexp; rewrite (mag_unique radix2 1 1); [reflexivity|rewrite Rabs_pos_eq by lra; change (bpow radix2 (1 - 1)) with 1%R; change (bpow radix2 1) with 2%R; lra]|].
      apply ulp_le_pos; [apply (flt_valid 53 1024 (Hp := eq_refl))|apply (FLT_exp_monotone (-1074) 53)|lra|exact B].
Qed.
Print Assumptions C190_sixteen.
(** With one place less the smallest numbers come back as 0; with the six places of "%f" so does 1e-7;
    a negative number comes back as 0 always, as vt_conv_str_to_d knows no sign. *)
Theorem C190_back_refuted :
  exists tiny small neg : binary64, fin64 tiny /\ fin64 small /\ fin64 neg /\
    (0 < B2R 53 1024 tiny)%R /\
    (let* t := format (T "%.*f") [A32 323; AF tiny] in conv_str_to_d t) = Ok (B754_zero 53 1024 false) /\
    (let* t := format (T "%f") [AF small] in conv_str_to_d t) = Ok (B754_zero 53 1024 false) /\ bits_of_b64 small = 0x3e7ad7f29abcaf48 /\
    (let* t := format (T "%f") [AF neg] in conv_str_to_d t) = Ok (B754_zero 53 1024 false) /\ bits_of_b64 neg = 0xbff0000000000000.
Proof.
  exists (B754_finite 53 1024 false 1 (-1074) eq_refl), (b64_of_bits 0x3e7ad7f29abcaf48), (b64_of_bits 0xbff0000000000000).
  split; [reflexivity|]. split; [reflexivity|]. split; [reflexivity|]. split; [cbn [B2R]; apply F2R_gt_0; reflexivity|].
  repeat (split; [vm_compute; reflexivity|]). vm_compute. reflexivity.
Qed.
Print Assumptions C190_back_refuted.

(** In a string. *)
Theorem C190_appendf : forall dbg t cap s p (x : binary64) z, srep t cap s -> 0 <= p < 2 ^ 31 -> fin64 x -> format (T "%.*f") [A32 p; AF x] = Ok z ->
  Z.max cap (zlen t + zlen z) + 1 <= alloc_max ->
  exists s', (let* z := format (T "%.*f") [A32 p; AF x] in str_appendf dbg s z) = Ok s' /\ srep (t ++ z) (Z.max cap (zlen t + zlen z)) s'.
Proof.
  intros dbg t cap s p x z R P F E L. destruct (C190_text p x P F) as (i & f & E' & (Di & _) & Df & _). rewrite E in E'. injection E' as E'.
  assert (D : forall l, Forall digit l -> oks l) by (intros l; apply Forall_impl; unfold digit, okc; lia).
  apply (C178_appendf dbg t cap s _ _ z R E); [|exact L]. rewrite E'. apply Forall_app. split; [destruct (Bsign _ _ x); repeat constructor; unfold okc; lia|].
  apply Forall_app. split; [now apply D|]. destruct (p =? 0); [constructor|]. constructor; [unfold okc; lia|now apply D].
Qed.
Print Assumptions C190_appendf.
Example C190_example :
  format (T "%.3f|%8.2f|%-8.1f|%+.0f|%08.3f|%F|% f") [AF (b64_of_bits 0x400921fb54442d18); AF (b64_of_bits 0xc000000000000000); AF (b64_of_bits 0x3fe0000000000000); AF (b64_of_bits 0x4004000000000000); AF (b64_of_bits 0xbff0000000000000); AF (b64_of_bits 0x7ff0000000000000); AF (b64_of_bits 0x3fb999999999999a)] =
    Ok (T "3.142|   -2.00|0.5     |+2|-001.000|INF| 0.100000") /\
  format (T "%Lf") [AF (b64_of_bits 0)] = UB /\ format (T "%f") [A32 1] = UB.
Proof. repeat (split; [vm_compute; reflexivity|]). vm_compute. reflexivity. Qed.
