(** Accuracy of vt_math_sqrt_carmack and vt_math_isqrt_carmack. *)
From Coq Require Import ZArith Bool Reals Lra Lia Psatz.
From Flocq Require Import Core IEEE754.BinarySingleNaN IEEE754.Binary IEEE754.Bits Relative.
From Verif Require Import FloatModel FloatFacts CarmackGuess.
Open Scope R_scope.

Local Instance prec24 : Prec_gt_0 24 := eq_refl.

(** Half a unit in the last place of 1. *)
Definition u24 : R := bpow radix2 (-24).

Lemma u24_small : 0 < u24 <= 0.0000001.
Proof.
  unfold u24. split; [apply bpow_gt_0|]. change (bpow radix2 (-24)) with (/ 16777216). lra.
Qed.

(** Relative error of rounding in the normal range; no overflow. *)
Lemma rel32 x : bpow radix2 (-126) <= Rabs x <= bpow radix2 100 ->
  exists e, Rabs e <= u24 /\ rnd32 x = x * (1 + e) /\ Rabs (rnd32 x) < max32.
Proof.
  intros [H1 H2].
  destruct (relative_error_N_FLT_ex radix2 (-149) 24 eq_refl (fun n => negb (Z.even n)) x H1) as (e & He & E).
  exists e. assert (H : Rabs e <= u24).
  { eapply Rle_trans; [exact He|]. unfold u24. change (- (24) + 1)%Z with (-24 + 1)%Z.
    rewrite bpow_plus. change (bpow radix2 1) with 2. lra. }
  split; [exact H|]. split; [exact E|].
  rewrite <- rnd32_abs. apply Rle_lt_trans with (rnd32 (bpow radix2 100)); [apply rnd32_le; assumption|].
  unfold rnd32. rewrite round_generic; [apply bpow_lt; lia|auto with typeclass_instances|].
  apply generic_format_bpow. unfold FLT_exp. lia.
Qed.

(** Halving a normal number, possibly into the subnormal range. *)
Lemma half32 V : bpow radix2 (-126) <= V < max32 ->
  exists e, Rabs e <= 2 * u24 /\ rnd32 (V * / 2) = V / 2 * (1 + e) /\ Rabs (rnd32 (V * / 2)) < max32.
Proof.
  intros [H1 H2]. pose proof (bpow_gt_0 radix2 (-126)) as P. pose proof u24_small.
  assert (L : Rabs (rnd32 (V * / 2)) < max32).
  { rewrite <- rnd32_abs, Rabs_pos_eq by lra.
    apply Rle_lt_trans with (rnd32 (bpow radix2 127)).
    - apply rnd32_le. unfold max32 in H2. change 128%Z with (127 + 1)%Z in H2. rewrite bpow_plus in H2.
      change (bpow radix2 1) with 2 in H2. lra.
    - unfold rnd32. rewrite round_generic; [apply bpow_lt; lia|auto with typeclass_instances|].
      apply generic_format_bpow. unfold FLT_exp. lia. }
  destruct (error_N_FLT radix2 (-149) 24 eq_refl (fun n => negb (Z.even n)) (V * / 2)) as (e & h & He & Hh & Z & E).
  assert (He' : Rabs e <= u24).
  { eapply Rle_trans; [exact He|]. unfold u24. change (- (24) + 1)%Z with (-24 + 1)%Z.
    rewrite bpow_plus. change (bpow radix2 1) with 2. lra. }
  apply Rmult_integral in Z as [-> | ->].
  - exists (h / (V / 2)). split; [|split; [|exact L]].
    + unfold Rdiv. rewrite Rabs_mult, Rabs_inv, (Rabs_pos_eq (V * / 2)) by lra.
      apply (Rmult_le_reg_r (V * / 2)); [lra|]. rewrite Rmult_assoc, Rinv_l by lra.
      assert (bpow radix2 (-149) = 4 * u24 * bpow radix2 (-127)).
      { unfold u24. replace 4 with (bpow radix2 2) by reflexivity. rewrite <- !bpow_plus. reflexivity. }
      assert (bpow radix2 (-126) = 2 * bpow radix2 (-127)).
      { replace 2 with (bpow radix2 1) by reflexivity. rewrite <- bpow_plus. reflexivity. }
      pose proof (bpow_gt_0 radix2 (-127)). nra.
    + unfold rnd32. rewrite E. field. lra.
  - exists e. split; [lra|]. split; [|exact L]. unfold rnd32. rewrite E. lra.
Qed.

Lemma c1_5_val : fin32 c1_5 /\ R32 c1_5 = 1.5.
Proof.
  unfold c1_5. change 0x3fc00000%Z with (127 * 2 ^ 23 + 2 ^ 22)%Z.
  destruct (of_bits_normal 127 (2 ^ 22)) as [F E]; [lia|lia|]. split; [exact F|]. rewrite E.
  change (127 - 150)%Z with (-23)%Z. change (2 ^ 23 + 2 ^ 22)%Z with 12582912%Z.
  change (bpow radix2 (-23)) with (/ 8388608). lra.
Qed.

Lemma c0_5_val : fin32 c0_5 /\ R32 c0_5 = / 2.
Proof.
  unfold c0_5. change 0x3f000000%Z with (126 * 2 ^ 23 + 0)%Z.
  destruct (of_bits_normal 126 0) as [F E]; [lia|lia|]. split; [exact F|]. rewrite E.
  change (126 - 150)%Z with (-24)%Z. change (2 ^ 23 + 0)%Z with 8388608%Z.
  change (bpow radix2 (-24)) with (/ 16777216). lra.
Qed.

(** The range of the square root. *)
Lemma sqrt_range v : fin32 v -> bpow radix2 (-126) <= R32 v ->
  bpow radix2 (-63) <= sqrt (R32 v) <= bpow radix2 64 /\ sqrt (R32 v) * sqrt (R32 v) = R32 v.
Proof.
  intros Fv Hv. pose proof (bpow_gt_0 radix2 (-126)). pose proof (lt32 v) as L.
  rewrite Rabs_pos_eq in L by lra. unfold max32 in L.
  split; [|apply sqrt_sqrt; lra].
  rewrite <- (sqrt_bpow radix2 (-63)), <- (sqrt_bpow radix2 64).
  change (2 * -63)%Z with (-126)%Z. change (2 * 64)%Z with 128%Z.
  split; apply sqrt_le_1; lra.
Qed.

(** The exact Newton step, with rounding errors. *)
Lemma newton_algebra r D Q eps : Rabs (r - 1) <= eps -> eps <= 0.04 ->
  Rabs D <= 4.01 * u24 -> Rabs Q <= 2.01 * u24 ->
  Rabs (r * (1.5 - r * r / 2 * (1 + D)) * (1 + Q) - 1) <= 1.52 * (eps * eps) + 4.5 * u24.
Proof.
  intros Hr He HD HQ. pose proof u24_small as U. pose proof (Rabs_pos (r - 1)) as E0.
  assert (Hr' : 1 - eps <= r <= 1 + eps) by (apply Rabs_le_inv in Hr; lra).
  assert (Hsq : (r - 1) * (r - 1) <= eps * eps).
  { rewrite <- (Rabs_pos_eq ((r - 1) * (r - 1))) by apply Rle_0_sqr. rewrite Rabs_mult.
    apply Rmult_le_compat; auto using Rabs_pos. }
  set (A := r * (1.5 - r * r / 2)).
  assert (HA : 1 - 1.52 * (eps * eps) <= A <= 1).
  { assert (EA : A = 1 - (r - 1) * (r - 1) * ((r + 2) / 2)) by (unfold A; lra). rewrite EA.
    assert (0 <= (r - 1) * (r - 1) * ((r + 2) / 2) <= eps * eps * 1.52); [|lra].
    pose proof (Rle_0_sqr (r - 1)) as Q0. unfold Rsqr in Q0.
    split; [apply Rmult_le_pos; lra|]. apply Rmult_le_compat; lra. }
  assert (He2 : eps * eps <= 0.0016) by nra.
  set (C := r * r * r / 2).
  assert (HC : 0 <= C <= 0.5625).
  { unfold C. assert (0 <= r * r <= 1.0816) by nra. assert (0 <= r * r * r <= 1.125) by nra. lra. }
  replace (r * (1.5 - r * r / 2 * (1 + D)) * (1 + Q) - 1) with ((A - 1) + (- (C * D) + (A - C * D) * Q))
    by (unfold A, C; lra).
  assert (HCD : Rabs (C * D) <= 0.5625 * (4.01 * u24)).
  { rewrite Rabs_mult. apply Rmult_le_compat; auto using Rabs_pos. rewrite Rabs_pos_eq; lra. }
  assert (HAC : Rabs (A - C * D) <= 1.001).
  { apply Rabs_le_inv in HCD. apply Rabs_le. lra. }
  assert (HACQ : Rabs ((A - C * D) * Q) <= 1.001 * (2.01 * u24)).
  { rewrite Rabs_mult. apply Rmult_le_compat; auto using Rabs_pos. }
  apply Rabs_le_inv in HCD, HACQ. apply Rabs_le. lra.
Qed.

Lemma three_factors d1 d2 d3 : Rabs d1 <= 2 * u24 -> Rabs d2 <= u24 -> Rabs d3 <= u24 ->
  Rabs ((1 + d1) * (1 + d2) * (1 + d3) - 1) <= 4.01 * u24.
Proof.
  intros H1 H2 H3. pose proof u24_small as U. set (u := u24) in *. clearbody u.
  assert (UU : 0 <= u * u <= 0.0000001 * u) by (split; nra).
  assert (UUU : 0 <= u * u * u <= 0.0000001 * u) by (split; nra).
  replace ((1 + d1) * (1 + d2) * (1 + d3) - 1) with (d1 + d2 + d3 + (d1 * d2 + d1 * d3 + d2 * d3) + d1 * d2 * d3) by ring.
  assert (A1 : Rabs (d1 * d2) <= 2 * u * u) by (rewrite Rabs_mult; apply Rmult_le_compat; auto using Rabs_pos).
  assert (A2 : Rabs (d1 * d3) <= 2 * u * u) by (rewrite Rabs_mult; apply Rmult_le_compat; auto using Rabs_pos).
  assert (A3 : Rabs (d2 * d3) <= u * u) by (rewrite Rabs_mult; apply Rmult_le_compat; auto using Rabs_pos).
  assert (A4 : Rabs (d1 * d2 * d3) <= 2 * u * u * u) by (rewrite Rabs_mult; apply Rmult_le_compat; auto using Rabs_pos).
  apply Rabs_le_inv in H1, H2, H3, A1, A2, A3, A4. apply Rabs_le. lra.
Qed.

Lemma two_factors d1 d2 : Rabs d1 <= u24 -> Rabs d2 <= u24 -> Rabs ((1 + d1) * (1 + d2) - 1) <= 2.01 * u24.
Proof.
  intros H1 H2. pose proof u24_small as U. set (u := u24) in *. clearbody u.
  assert (UU : 0 <= u * u <= 0.0000001 * u) by (split; nra).
  replace ((1 + d1) * (1 + d2) - 1) with (d1 + d2 + d1 * d2) by ring.
  assert (A1 : Rabs (d1 * d2) <= u * u) by (rewrite Rabs_mult; apply Rmult_le_compat; auto using Rabs_pos).
  apply Rabs_le_inv in H1, H2, A1. apply Rabs_le. lra.
Qed.

(** Bounds for use with [rel32]. *)
Lemma range_pos x lo hi : 0 < lo -> lo <= x <= hi -> bpow radix2 (-126) <= lo -> hi <= bpow radix2 100 ->
  bpow radix2 (-126) <= Rabs x <= bpow radix2 100.
Proof. intros. rewrite Rabs_pos_eq; lra. Qed.

Lemma newton_step v y eps : fin32 v -> bpow radix2 (-126) <= R32 v -> fin32 y ->
  Rabs (R32 y * sqrt (R32 v) - 1) <= eps -> eps <= 0.04 ->
  fin32 (newton v y) /\
  Rabs (R32 (newton v y) * sqrt (R32 v) - 1) <= 1.52 * (eps * eps) + 4.5 * u24.
Proof.
  intros Fv Hv Fy Hr He. pose proof u24_small as U.
  destruct (sqrt_range v Fv Hv) as [[S1 S2] SS].
  pose proof (lt32 v) as Lv. pose proof (bpow_gt_0 radix2 (-126)) as P126.
  rewrite Rabs_pos_eq in Lv by lra.
  set (V := R32 v) in *. set (s := sqrt V) in *. set (Y := R32 y) in *. set (r := Y * s) in *.
  assert (s0 : 0 < s) by (pose proof (bpow_gt_0 radix2 (-63)); lra).
  assert (EY : Y = r / s) by (unfold r; field; lra).
  assert (EV : V = s * s) by lra.
  assert (Hr' : 0.96 <= r <= 1.04) by (apply Rabs_le_inv in Hr; lra).
  assert (P63 : 0 < bpow radix2 (-63)) by apply bpow_gt_0.
  assert (P64 : 0 < bpow radix2 64) by apply bpow_gt_0.
  assert (B1 : bpow radix2 (-126) * 1000 <= bpow radix2 (-63)).
  { change (-63)%Z with (63 + -126)%Z. rewrite bpow_plus.
    assert (1000 <= bpow radix2 63) by (apply Rle_trans with (bpow radix2 10); [unfold bpow; cbn; lra|apply bpow_le; lia]). nra. }
  assert (B2 : bpow radix2 64 * 1000 <= bpow radix2 100).
  { change 100%Z with (64 + 36)%Z. rewrite (bpow_plus radix2 64 36).
    assert (1000 <= bpow radix2 36) by (apply Rle_trans with (bpow radix2 10); [unfold bpow; cbn; lra|apply bpow_le; lia]). nra. }
  assert (B3 : 1000 <= bpow radix2 64).
  { apply Rle_trans with (bpow radix2 10); [unfold bpow; cbn; lra|apply bpow_le; lia]. }
  assert (B4 : bpow radix2 (-63) <= / 1000).
  { apply Rle_trans with (bpow radix2 (-10)); [apply bpow_le; lia|]. change (bpow radix2 (-10)) with (/ 1024). lra. }
  assert (SI : bpow radix2 (-64) <= / s <= bpow radix2 63).
  { split.
    - change (-64)%Z with (- (64))%Z. rewrite bpow_opp. apply Rinv_le; lra.
    - change 63%Z with (- - (63))%Z. rewrite bpow_opp. apply Rinv_le; [apply bpow_gt_0|]. exact S1. }
  (* v * 0.5 *)
  destruct c0_5_val as [F05 E05]. destruct c1_5_val as [F15 E15].
  destruct (half32 V) as (d1 & H1 & E1 & L1); [lra|].
  destruct (f32_mul_ok v c0_5 Fv F05) as [R1 F1]; [rewrite E05; exact L1|].
  rewrite E05 in R1. fold V in R1. rewrite E1 in R1.
  assert (D1 : 0.99 <= 1 + d1 <= 1.01) by (apply Rabs_le_inv in H1; lra).
  (* * y *)
  assert (X2 : V / 2 * (1 + d1) * Y = s * (r / 2 * (1 + d1))) by (rewrite EY, EV; field; lra).
  assert (K2 : 0.4 <= r / 2 * (1 + d1) <= 0.6) by (split; nra).
  destruct (rel32 (V / 2 * (1 + d1) * Y)) as (d2 & H2 & E2 & L2).
  { rewrite X2. apply (range_pos _ (bpow radix2 (-63) * 0.4) (bpow radix2 64 * 0.6)); [lra| |lra|lra].
    split; apply Rmult_le_compat; lra. }
  destruct (f32_mul_ok (f32_mul v c0_5) y F1 Fy) as [R2 F2]; [rewrite R1; exact L2|].
  rewrite R1 in R2. fold Y in R2. rewrite E2, X2 in R2.
  assert (D2 : 0.99 <= 1 + d2 <= 1.01) by (apply Rabs_le_inv in H2; lra).
  (* * y *)
  assert (X3 : s * (r / 2 * (1 + d1)) * (1 + d2) * Y = r * r / 2 * ((1 + d1) * (1 + d2))) by (rewrite EY; field; lra).
  assert (K3 : 0.4 <= r * r / 2 * ((1 + d1) * (1 + d2)) <= 0.6).
  { assert (0.98 <= (1 + d1) * (1 + d2) <= 1.03) by (split; nra). assert (0.46 <= r * r / 2 <= 0.55) by (split; nra).
    split; nra. }
  destruct (rel32 (s * (r / 2 * (1 + d1)) * (1 + d2) * Y)) as (d3 & H3 & E3 & L3).
  { rewrite X3. apply (range_pos _ 0.4 0.6); lra. }
  destruct (f32_mul_ok (f32_mul (f32_mul v c0_5) y) y F2 Fy) as [R3 F3]; [rewrite R2; exact L3|].
  rewrite R2 in R3. fold Y in R3. rewrite E3, X3 in R3.
  set (D := (1 + d1) * (1 + d2) * (1 + d3) - 1).
  assert (R3' : R32 (f32_mul (f32_mul (f32_mul v c0_5) y) y) = r * r / 2 * (1 + D)) by (rewrite R3; unfold D; ring).
  assert (D3 : 0.99 <= 1 + d3 <= 1.01) by (apply Rabs_le_inv in H3; lra).
  assert (K4 : 0.85 <= 1.5 - r * r / 2 * (1 + D) <= 1.15).
  { replace (r * r / 2 * (1 + D)) with (r * r / 2 * ((1 + d1) * (1 + d2)) * (1 + d3)) by (unfold D; ring).
    set (w := r * r / 2 * ((1 + d1) * (1 + d2))) in *. clearbody w. split; nra. }
  (* 1.5 - .. *)
  destruct (rel32 (1.5 - r * r / 2 * (1 + D))) as (d4 & H4 & E4 & L4).
  { apply (range_pos _ 0.85 1.15); lra. }
  destruct (f32_sub_ok c1_5 (f32_mul (f32_mul (f32_mul v c0_5) y) y) F15 F3) as [R4 F4]; [rewrite E15, R3'; exact L4|].
  rewrite E15, R3', E4 in R4.
  assert (D4 : 0.99 <= 1 + d4 <= 1.01) by (apply Rabs_le_inv in H4; lra).
  (* y * .. *)
  set (w := 1.5 - r * r / 2 * (1 + D)) in *.
  assert (X5 : Y * (w * (1 + d4)) = / s * (r * (w * (1 + d4)))) by (rewrite EY; field; lra).
  assert (K5 : 0.7 <= r * (w * (1 + d4)) <= 1.3).
  { clearbody w. assert (0.84 <= w * (1 + d4) <= 1.17) by (split; nra). split; nra. }
  destruct (rel32 (Y * (w * (1 + d4)))) as (d5 & H5 & E5 & L5).
  { rewrite X5. assert (bpow radix2 (-63) = 2 * bpow radix2 (-64)) by (change (-63)%Z with (1 + -64)%Z; rewrite bpow_plus; reflexivity).
    assert (bpow radix2 64 = 2 * bpow radix2 63) by (change 64%Z with (1 + 63)%Z; rewrite (bpow_plus radix2 1 63); reflexivity).
    apply (range_pos _ (bpow radix2 (-64) * 0.7) (bpow radix2 63 * 1.3)); [lra| |lra|lra].
    split; apply Rmult_le_compat; lra. }
  destruct (f32_mul_ok y (f32_sub c1_5 (f32_mul (f32_mul (f32_mul v c0_5) y) y)) Fy F4) as [R5 F5].
  { rewrite R4. exact L5. }
  rewrite R4 in R5. fold Y in R5. rewrite E5, X5 in R5.
  fold (newton v y) in R5, F5. split; [exact F5|].
  set (Q := (1 + d4) * (1 + d5) - 1).
  replace (R32 (newton v y) * s - 1) with (r * (1.5 - r * r / 2 * (1 + D)) * (1 + Q) - 1).
  - apply newton_algebra; auto; [apply three_factors|apply two_factors]; auto.
  - rewrite R5. fold w. unfold Q. field. lra.
Qed.

(** The first guess in terms of the square root. *)
Lemma guess_ratio ck v : (3627300 <= ck <= 3628900)%Z -> fin32 v -> bpow radix2 (-126) <= R32 v ->
  let y := magic_guess (190 * 2 ^ 23 + ck) v in
  fin32 y /\ Rabs (R32 y * sqrt (R32 v) - 1) <= 0.0358.
Proof.
  intros Hck Fv Hv y. destruct (guess_bound ck v Hck Fv Hv) as (F & P & B). fold y in F, P, B.
  split; [exact F|]. destruct (sqrt_range v Fv Hv) as [[S1 _] SS].
  pose proof (bpow_gt_0 radix2 (-63)).
  set (r := R32 y * sqrt (R32 v)). assert (E : R32 v * R32 y ^ 2 = r * r) by (unfold r; rewrite <- SS at 1; ring).
  rewrite E in B. assert (0 < r) by (apply Rmult_lt_0_compat; lra).
  apply Rabs_le. split; nra.
Qed.

Lemma three_steps ck v : (3627300 <= ck <= 3628900)%Z -> fin32 v -> bpow radix2 (-126) <= R32 v ->
  let y := newton v (newton v (newton v (magic_guess (190 * 2 ^ 23 + ck) v))) in
  fin32 y /\ Rabs (R32 y * sqrt (R32 v) - 1) <= 4.6 * u24.
Proof.
  intros Hck Fv Hv y. destruct (guess_ratio ck v Hck Fv Hv) as [F0 E0].
  assert (U : u24 = / 16777216) by reflexivity.
  destruct (newton_step v _ _ Fv Hv F0 E0) as [F1 E1]; [lra|].
  apply Rle_trans with (r3 := 0.00196) in E1; [|rewrite U; lra].
  destruct (newton_step v _ _ Fv Hv F1 E1) as [F2 E2]; [lra|].
  apply Rle_trans with (r3 := 0.000007) in E2; [|rewrite U; lra].
  destruct (newton_step v _ _ Fv Hv F2 E2) as [F3 E3]; [lra|].
  split; [exact F3|]. eapply Rle_trans; [exact E3|]. rewrite U. lra.
Qed.

(** ** Results *)

Lemma isqrt_final v y : fin32 v -> bpow radix2 (-126) <= R32 v ->
  Rabs (R32 y * sqrt (R32 v) - 1) <= 4.6 * u24 ->
  Rabs (R32 y - / sqrt (R32 v)) <= 5 * bpow radix2 (-24) * / sqrt (R32 v).
Proof.
  intros Fv Hv E. destruct (sqrt_range v Fv Hv) as [[S1 _] _]. pose proof (bpow_gt_0 radix2 (-63)).
  set (s := sqrt (R32 v)) in *. clearbody s. assert (0 < / s) by (apply Rinv_0_lt_compat; lra).
  set (Y := R32 y) in *. clearbody Y.
  replace (Y - / s) with ((Y * s - 1) * / s) by (field; lra).
  rewrite Rabs_mult, (Rabs_pos_eq (/ s)) by lra. apply Rmult_le_compat_r; [lra|].
  fold u24. pose proof u24_small. lra.
Qed.

Lemma sqrt_final v y : fin32 v -> bpow radix2 (-126) <= R32 v -> fin32 y ->
  Rabs (R32 y * sqrt (R32 v) - 1) <= 4.6 * u24 ->
  fin32 (f32_mul v y) /\
  Rabs (R32 (f32_mul v y) - sqrt (R32 v)) <= 6 * bpow radix2 (-24) * sqrt (R32 v).
Proof.
  intros Fv Hv F E.
  destruct (sqrt_range v Fv Hv) as [[S1 S2] SS].
  assert (P63 : 0 < bpow radix2 (-63)) by apply bpow_gt_0. pose proof u24_small as U.
  set (s := sqrt (R32 v)) in *. set (r := R32 y * s) in *.
  assert (Hr : 0.99 <= r <= 1.01) by (apply Rabs_le_inv in E; lra).
  assert (X : R32 v * R32 y = s * r) by (unfold r; rewrite <- SS; ring).
  assert (P126 : 0 < bpow radix2 (-126)) by apply bpow_gt_0.
  destruct (rel32 (R32 v * R32 y)) as (d & Hd & Ed & Ld).
  { rewrite X. apply (range_pos _ (bpow radix2 (-63) * 0.99) (bpow radix2 64 * 1.01)); [lra| | |].
    - split; apply Rmult_le_compat; lra.
    - change (-63)%Z with (63 + -126)%Z. rewrite bpow_plus.
      assert (2 <= bpow radix2 63) by (change 2 with (bpow radix2 1); apply bpow_le; lia). nra.
    - change 100%Z with (64 + 36)%Z. rewrite (bpow_plus radix2 64 36). pose proof (bpow_gt_0 radix2 64).
      assert (2 <= bpow radix2 36) by (change 2 with (bpow radix2 1); apply bpow_le; lia). nra. }
  destruct (f32_mul_ok v y Fv F Ld) as [R1 F1]. split; [exact F1|].
  rewrite R1, Ed, X. replace (s * r * (1 + d) - s) with ((r * (1 + d) - 1) * s) by ring.
  rewrite Rabs_mult, (Rabs_pos_eq s) by lra. apply Rmult_le_compat_r; [lra|]. fold u24.
  replace (r * (1 + d) - 1) with ((r - 1) + r * d) by ring.
  assert (Rabs (r * d) <= 1.01 * u24).
  { rewrite Rabs_mult. apply Rmult_le_compat; auto using Rabs_pos. rewrite Rabs_pos_eq; lra. }
  eapply Rle_trans; [apply Rabs_triang|]. lra.
Qed.

Lemma isqrt_accurate v : fin32 v -> bpow radix2 (-126) <= R32 v ->
  fin32 (isqrt_carmack v) /\
  Rabs (R32 (isqrt_carmack v) - / sqrt (R32 v)) <= 5 * bpow radix2 (-24) * / sqrt (R32 v).
Proof.
  intros Fv Hv. destruct (three_steps 3627487 v ltac:(lia) Fv Hv) as [F E].
  change (190 * 2 ^ 23 + 3627487)%Z with 0x5f3759df%Z in F.
  change (190 * 2 ^ 23 + 3627487)%Z with 0x5f3759df%Z in E.
  unfold isqrt_carmack. split; [exact F|]. exact (isqrt_final v _ Fv Hv E).
Qed.

Lemma sqrt_accurate v : fin32 v -> bpow radix2 (-126) <= R32 v ->
  fin32 (sqrt_carmack v) /\
  Rabs (R32 (sqrt_carmack v) - sqrt (R32 v)) <= 6 * bpow radix2 (-24) * sqrt (R32 v).
Proof.
  intros Fv Hv. destruct (three_steps 3627654 v ltac:(lia) Fv Hv) as [F E].
  change (190 * 2 ^ 23 + 3627654)%Z with 0x5f375a86%Z in F.
  change (190 * 2 ^ 23 + 3627654)%Z with 0x5f375a86%Z in E.
  unfold sqrt_carmack. exact (sqrt_final v _ Fv Hv F E).
Qed.
