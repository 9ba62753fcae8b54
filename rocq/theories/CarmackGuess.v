(** The first approximation of the reciprocal square root by integer arithmetic on
    the bit pattern (math.c:25 and 39): its relative error is below 4 percent. *)
From Coq Require Import ZArith Bool Reals Lra Lia Psatz.
From Flocq Require Import Core IEEE754.BinarySingleNaN IEEE754.Binary IEEE754.Bits.
From Verif Require Import FloatModel FloatFacts.
Open Scope R_scope.

(** A bit pattern with exponent field [E] and fraction field [M]. *)
Lemma of_bits_normal E M : (1 <= E <= 254)%Z -> (0 <= M < 2 ^ 23)%Z ->
  fin32 (b32_of_bits (E * 2 ^ 23 + M)) /\
  R32 (b32_of_bits (E * 2 ^ 23 + M)) = IZR (2 ^ 23 + M) * bpow radix2 (E - 150).
Proof.
  intros HE HM. unfold b32_of_bits, binary_float_of_bits.
  rewrite is_finite_FF2B, B2R_FF2B.
  unfold binary_float_of_bits_aux.
  assert (S : split_bits 23 8 (E * 2 ^ 23 + M) = (false, M, E)).
  { replace (E * 2 ^ 23 + M)%Z with (join_bits 23 8 false M E).
    - apply split_join_bits; change (2 ^ 8)%Z with 256%Z; lia.
    - unfold join_bits. rewrite Z.shiftl_mul_pow2 by lia. lia. }
  rewrite S.
  replace (Zeq_bool E 0) with false by (symmetry; apply Zeq_bool_false; lia).
  replace (Zeq_bool E (2 ^ 8 - 1)) with false by (symmetry; apply Zeq_bool_false; change (2 ^ 8)%Z with 256%Z; lia).
  destruct (M + 2 ^ 23)%Z as [|px|px] eqn:EM; try lia.
  cbn [FF2R is_finite_FF]. split; [reflexivity|]. unfold F2R. cbn [Fnum Fexp cond_Zopp].
  rewrite <- EM, (Z.add_comm (2 ^ 23) M). do 2 f_equal.
  change (E + (-149) - 1 = E - 150)%Z. lia.
Qed.

(** Positive normal numbers have such a pattern. *)
Lemma normal_bits v : fin32 v -> bpow radix2 (-126) <= R32 v ->
  exists E M, (1 <= E <= 254)%Z /\ (0 <= M < 2 ^ 23)%Z /\ bits_of_b32 v = (E * 2 ^ 23 + M)%Z /\
    R32 v = IZR (2 ^ 23 + M) * bpow radix2 (E - 150).
Proof.
  intros Fv Hv. pose proof (bpow_gt_0 radix2 (-126)) as P.
  destruct v as [s|s|s pl e|s m e B]; try discriminate; [cbn in Hv; lra|].
  assert (Hs : s = false).
  { destruct s; auto. cbn [B2R] in Hv. unfold F2R in Hv. cbn [Fnum Fexp cond_Zopp] in Hv.
    assert (IZR (- Z.pos m) * bpow radix2 e < 0); [|lra].
    rewrite <- (Rmult_0_l (bpow radix2 e)). apply Rmult_lt_compat_r; [apply bpow_gt_0|]. apply IZR_lt. lia. }
  subst s.
  assert (D : (2 ^ 23 <= Z.pos m < 2 ^ 24)%Z /\ (-149 <= e <= 104)%Z).
  { pose proof B as B'. unfold SpecFloat.bounded in B'. apply andb_true_iff in B' as [C L].
    apply Zle_bool_imp_le in L. unfold SpecFloat.canonical_mantissa in C. apply Zeq_bool_eq in C.
    rewrite Zpos_digits2_pos in C. rewrite fexp32 in C. unfold FLT_exp in C.
    pose proof (Zdigits_correct radix2 (Z.pos m)) as DC. change (Z.abs (Z.pos m)) with (Z.pos m) in DC.
    set (k := Zdigits radix2 (Z.pos m)) in *.
    assert (k <= 24)%Z by lia.
    assert (HB : (Z.pos m < 2 ^ 24)%Z).
    { eapply Z.lt_le_trans; [apply DC|]. apply (Zpower_le radix2). lia. }
    split; [split; [|assumption]|lia].
    destruct (Z_lt_le_dec k 24) as [K|K].
    - exfalso. assert (e = -149)%Z by lia. subst e. cbn [B2R] in Hv. unfold F2R in Hv.
      cbn [Fnum Fexp cond_Zopp] in Hv.
      assert (Z.pos m < 2 ^ 23)%Z.
      { eapply Z.lt_le_trans; [apply DC|]. apply (Zpower_le radix2). lia. }
      assert (IZR (Z.pos m) < bpow radix2 23) by (rewrite <- IZR_Zpower by lia; apply IZR_lt; assumption).
      change (-126)%Z with (23 + -149)%Z in Hv. rewrite bpow_plus in Hv.
      pose proof (bpow_gt_0 radix2 (-149)). nra.
    - assert (k = 24)%Z by lia. destruct DC as [DC _]. replace (k - 1)%Z with 23%Z in DC by lia. apply DC. }
  destruct D as [D1 D2].
  exists (e + 150)%Z, (Z.pos m - 2 ^ 23)%Z. split; [lia|]. split; [lia|]. split.
  - unfold bits_of_b32, bits_of_binary_float.
    replace (Zle_bool 0 (Z.pos m - 2 ^ 23)) with true by (symmetry; apply Z.leb_le; lia).
    unfold join_bits. rewrite Z.shiftl_mul_pow2 by lia.
    change (SpecFloat.emin (23 + 1) (2 ^ (8 - 1)))%Z with (-149)%Z. lia.
  - cbn [B2R]. unfold F2R. cbn [Fnum Fexp cond_Zopp]. f_equal; [f_equal; lia|f_equal; lia].
Qed.

(** The polynomial bounds behind the magic constants; [c] is the fraction of the
    constant. *)
Section Poly.
Variables (c x b : R).
Hypothesis Hc : 0.4324 <= c <= 0.4326.
Hypothesis Hb : 0 <= b <= 0.000001.

Lemma poly_odd : 0 <= x <= 1 -> 0.93 * 4 <= (1 + x + b) * (1.5 + c - x / 2) ^ 2 <= 1.07 * 4.
Proof.
  intros Hx. split.
  - apply Rle_trans with ((1 + x) * (1.9324 - x / 2) ^ 2).
    + nra.
    + apply Rmult_le_compat; try nra.
  - apply Rle_trans with ((1.000001 + x) * (1.9326 - x / 2) ^ 2).
    + apply Rmult_le_compat; try nra.
    + pose proof (Rmult_le_pos ((x - 0.6216) ^ 2) (5.4 - x) (pow2_ge_0 _) ltac:(lra)). nra.
Qed.

Lemma poly_even : 0 <= x -> x / 2 <= c -> 0.93 * 2 <= (1 + x + b) * (1 + c - x / 2) ^ 2 <= 1.07 * 2.
Proof.
  intros Hx Hxc. split.
  - apply Rle_trans with ((1 + x) * (1.4324 - x / 2) ^ 2).
    + assert (x <= 0.8652) by lra.
      pose proof (Rmult_le_pos _ _ (Rmult_le_pos x (0.8652 - x) ltac:(lra) ltac:(lra)) (ltac:(lra) : 0 <= 3.8 - x)). nra.
    + apply Rmult_le_compat; try nra.
  - apply Rle_trans with ((1.000001 + x) * (1.4326 - x / 2) ^ 2).
    + apply Rmult_le_compat; try nra.
    + assert (x <= 0.8652) by lra.
      pose proof (Rmult_le_pos ((x - 0.2884) ^ 2) (4 - x) (pow2_ge_0 _) ltac:(lra)). nra.
Qed.

Lemma poly_borrow : c <= x / 2 -> x <= 1 -> 0.93 * 8 <= (1 + x + b) * (2 + c - x / 2) ^ 2 <= 1.07 * 8.
Proof.
  intros Hx Hxc. split.
  - apply Rle_trans with ((1 + x) * (2.4324 - x / 2) ^ 2).
    + assert (0.8648 <= x) by lra. nra.
    + apply Rmult_le_compat; try nra.
  - apply Rle_trans with ((1.000001 + x) * (2.4326 - x / 2) ^ 2).
    + apply Rmult_le_compat; try nra.
    + nra.
Qed.
End Poly.

(** [v * y^2] for the first guess [y]. *)
Lemma guess_bound ck v : (3627300 <= ck <= 3628900)%Z -> fin32 v -> bpow radix2 (-126) <= R32 v ->
  let y := magic_guess (190 * 2 ^ 23 + ck) v in
  fin32 y /\ 0 < R32 y /\ 0.93 <= R32 v * R32 y ^ 2 <= 1.07.
Proof.
  intros Hck Fv Hv. destruct (normal_bits v Fv Hv) as (E & M & HE & HM & HB & HR).
  cbv zeta. unfold magic_guess. rewrite HB, Z.shiftr_div_pow2 by lia. change (2 ^ 1)%Z with 2%Z.
  set (f := (M / 2)%Z). set (bb := (M mod 2)%Z).
  assert (HM2 : (M = 2 * f + bb)%Z) by (apply Z.div_mod; lia).
  assert (Hbb : (0 <= bb < 2)%Z) by (apply Z.mod_pos_bound; lia).
  change (2 ^ 23)%Z with 8388608%Z in *.
  assert (Hf : (0 <= f < 4194304)%Z) by lia.
  set (c := IZR ck / 8388608). set (x := 2 * IZR f / 8388608). set (b := IZR bb / 8388608).
  assert (Hc : 0.4324 <= c <= 0.4326).
  { assert (3627300 <= IZR ck <= 3628900) by (split; apply IZR_le; lia). unfold c. lra. }
  assert (Hb : 0 <= b <= 0.000001).
  { assert (0 <= IZR bb <= 1) by (split; apply IZR_le; lia). unfold b. lra. }
  assert (Hx : 0 <= x <= 1).
  { assert (0 <= IZR f <= 4194304) by (split; apply IZR_le; lia). unfold x. lra. }
  assert (HV : IZR (8388608 + M) = 8388608 * (1 + x + b)).
  { rewrite HM2, !plus_IZR, mult_IZR. unfold x, b. lra. }
  (* one case: exponent and fraction of the guess *)
  assert (Done : forall EG MG p lo, (1 <= EG <= 254)%Z -> (0 <= MG < 8388608)%Z ->
    ((190 * 8388608 + ck - (E * 8388608 + M) / 2) mod 2 ^ 32 = EG * 8388608 + MG)%Z ->
    (E - 150 + (EG - 150) + (EG - 150) + 69 = lo)%Z ->
    IZR (8388608 + MG) = 8388608 * p ->
    0.93 <= (1 + x + b) * p ^ 2 * bpow radix2 lo <= 1.07 ->
    fin32 (b32_of_bits ((190 * 8388608 + ck - (E * 8388608 + M) / 2) mod 2 ^ 32)) /\
    0 < R32 (b32_of_bits ((190 * 8388608 + ck - (E * 8388608 + M) / 2) mod 2 ^ 32)) /\
    0.93 <= R32 v * R32 (b32_of_bits ((190 * 8388608 + ck - (E * 8388608 + M) / 2) mod 2 ^ 32)) ^ 2 <= 1.07).
  { intros EG MG p lo HEG HMG -> Hlo Hp HP.
    destruct (of_bits_normal EG MG HEG HMG) as [F1 F2]. change (2 ^ 23)%Z with 8388608%Z in *.
    split; [exact F1|]. rewrite F2, HR. split.
    - apply Rmult_lt_0_compat; [apply IZR_lt; lia|apply bpow_gt_0].
    - replace (IZR (8388608 + M) * bpow radix2 (E - 150) * (IZR (8388608 + MG) * bpow radix2 (EG - 150)) ^ 2)
        with ((1 + x + b) * p ^ 2 * bpow radix2 lo); [exact HP|].
      rewrite HV, Hp, <- Hlo, !bpow_plus.
      replace (bpow radix2 69) with (8388608 * 8388608 * 8388608) by (rewrite <- !mult_IZR; reflexivity). ring. }
  assert (HMod : forall z, (0 <= z < 4294967296)%Z -> (z mod 2 ^ 32 = z)%Z) by (intros; apply Z.mod_small; auto).
  destruct (Z.Even_or_Odd E) as [[k Hk]|[k Hk]]; subst E.
  - replace ((2 * k * 8388608 + M) / 2)%Z with (k * 8388608 + f)%Z in * by
      (rewrite HM2; replace (2 * k * 8388608 + (2 * f + bb))%Z with (bb + (k * 8388608 + f) * 2)%Z by lia;
       rewrite Z.div_add by lia; rewrite Z.div_small; lia).
    destruct (Z_le_gt_dec f ck) as [L|L].
    + apply (Done (190 - k)%Z (ck - f)%Z (1 + c - x / 2) (-1)%Z); try lia.
      * rewrite HMod; lia.
      * rewrite plus_IZR, minus_IZR. unfold c, x. lra.
      * assert (x / 2 <= c) by (apply IZR_le in L; unfold x, c; lra).
        pose proof (poly_even c x b Hc Hb ltac:(lra) H). change (bpow radix2 (-1)) with (/ 2). lra.
    + apply (Done (189 - k)%Z (8388608 + ck - f)%Z (2 + c - x / 2) (-3)%Z); try lia.
      * rewrite HMod; lia.
      * rewrite plus_IZR, minus_IZR, plus_IZR. unfold c, x. lra.
      * assert (c <= x / 2) by (assert (ck <= f)%Z as L' by lia; apply IZR_le in L'; unfold x, c; lra).
        pose proof (poly_borrow c x b Hc Hb H ltac:(lra)). change (bpow radix2 (-3)) with (/ 8). lra.
  - replace (((2 * k + 1) * 8388608 + M) / 2)%Z with (k * 8388608 + 4194304 + f)%Z in * by
      (rewrite HM2; replace ((2 * k + 1) * 8388608 + (2 * f + bb))%Z with (bb + (k * 8388608 + 4194304 + f) * 2)%Z by lia;
       rewrite Z.div_add by lia; rewrite Z.div_small; lia).
    apply (Done (189 - k)%Z (4194304 + ck - f)%Z (1.5 + c - x / 2) (-2)%Z); try lia.
    + rewrite HMod; lia.
    + rewrite plus_IZR, minus_IZR, plus_IZR. unfold c, x. lra.
    + pose proof (poly_odd c x b Hc Hb Hx). change (bpow radix2 (-2)) with (/ 4). lra.
Qed.
