(** Proofs about vt_math_map_to. *)
From Coq Require Import ZArith Bool Reals Lra Lia Psatz.
From Flocq Require Import Core IEEE754.BinarySingleNaN IEEE754.Binary IEEE754.Bits Relative Plus_error Mult_error.
From Verif Require Import FloatModel FloatFacts FloatProofs.
Open Scope R_scope.

Local Instance prec53 : Prec_gt_0 53 := eq_refl.

(** A finite argument of moderate size: no sum or product of map_to overflows. *)
Definition moderate (x : binary64) : Prop := fin64 x /\ Rabs (R64 x) <= bpow radix2 510.

Lemma bpow64_id e : (-1074 <= e)%Z -> rnd64 (bpow radix2 e) = bpow radix2 e.
Proof.
  intros H. apply round_generic; [auto with typeclass_instances|].
  apply generic_format_bpow. unfold FLT_exp. lia.
Qed.

Lemma rnd64_abs_le x e : (-1074 <= e)%Z -> Rabs x <= bpow radix2 e -> Rabs (rnd64 x) <= bpow radix2 e.
Proof. intros He H. rewrite <- rnd64_abs, <- (bpow64_id e He). apply rnd64_le. assumption. Qed.

Lemma bpow64_lt e : (e < 1024)%Z -> bpow radix2 e < max64.
Proof. apply bpow_lt. Qed.

Lemma sub_moderate x y : moderate x -> moderate y ->
  R64 (f64_sub x y) = rnd64 (R64 x - R64 y) /\ fin64 (f64_sub x y) /\ Rabs (R64 (f64_sub x y)) <= bpow radix2 511.
Proof.
  intros [Fx Bx] [Fy By].
  assert (B : Rabs (rnd64 (R64 x - R64 y)) <= bpow radix2 511).
  { apply rnd64_abs_le; [lia|]. change (511)%Z with (510 + 1)%Z. rewrite bpow_plus.
    change (bpow radix2 1) with 2. apply Rabs_le_inv in Bx, By. apply Rabs_le. lra. }
  destruct (f64_sub_ok x y Fx Fy) as [E F].
  { eapply Rle_lt_trans; [exact B|]. apply bpow64_lt. lia. }
  rewrite E. auto.
Qed.

(** Everything known about one evaluation. *)
Record eval (x xmin xmax omin omax : binary64) (a b d p q r : R) : Prop := {
  ev_a : a = rnd64 (R64 x - R64 xmin);
  ev_b : b = rnd64 (R64 omax - R64 omin);
  ev_d : d = rnd64 (R64 xmax - R64 xmin);
  ev_p : p = rnd64 (a * b);
  ev_q : q = rnd64 (p / d);
  ev_r : r = rnd64 (q + R64 omin);
  ev_fin : fin64 (map_to x xmin xmax omin omax);
  ev_R : R64 (map_to x xmin xmax omin omax) = r;
  ev_a0 : 0 <= a <= d;
  ev_b0 : 0 <= b <= bpow radix2 511;
  ev_d0 : 0 < d;
  ev_p0 : 0 <= p;
  ev_q0 : 0 <= q
}.

Lemma map_eval x xmin xmax omin omax :
  moderate x -> moderate xmin -> moderate xmax -> moderate omin -> moderate omax ->
  R64 xmin < R64 xmax -> R64 xmin <= R64 x <= R64 xmax -> R64 omin <= R64 omax ->
  exists a b d p q r, eval x xmin xmax omin omax a b d p q r.
Proof.
  intros Mx Mn Mm Mo Mp Hlt Hx Ho.
  destruct (sub_moderate x xmin Mx Mn) as (Ea & Fa & Ba).
  destruct (sub_moderate omax omin Mp Mo) as (Eb & Fb & Bb).
  destruct (sub_moderate xmax xmin Mm Mn) as (Ed & Fd & Bd).
  assert (a0 : 0 <= rnd64 (R64 x - R64 xmin)) by (rewrite <- rnd64_0; apply rnd64_le; lra).
  assert (b0 : 0 <= rnd64 (R64 omax - R64 omin)) by (rewrite <- rnd64_0; apply rnd64_le; lra).
  assert (ad : rnd64 (R64 x - R64 xmin) <= rnd64 (R64 xmax - R64 xmin)) by (apply rnd64_le; lra).
  assert (dn : rnd64 (R64 xmax - R64 xmin) <> 0).
  { unfold rnd64, Rminus. apply round_plus_neq_0; auto with typeclass_instances; try apply gen64.
    - apply generic_format_opp. apply gen64.
    - lra. }
  assert (d0 : 0 < rnd64 (R64 xmax - R64 xmin)) by lra.
  rewrite Ea in Ba. rewrite Eb in Bb. rewrite Ed in Bd.
  set (a := rnd64 (R64 x - R64 xmin)) in *. set (b := rnd64 (R64 omax - R64 omin)) in *.
  set (d := rnd64 (R64 xmax - R64 xmin)) in *.
  assert (bb : b <= bpow radix2 511) by (rewrite Rabs_pos_eq in Bb; auto).
  (* the product *)
  assert (Bp : Rabs (rnd64 (a * b)) <= bpow radix2 1022).
  { apply rnd64_abs_le; [lia|]. rewrite Rabs_mult. change 1022%Z with (511 + 511)%Z. rewrite bpow_plus.
    apply Rmult_le_compat; auto using Rabs_pos. }
  destruct (f64_mul_ok (f64_sub x xmin) (f64_sub omax omin) Fa Fb) as [Ep Fp].
  { rewrite Ea, Eb. eapply Rle_lt_trans; [exact Bp|]. apply bpow64_lt. lia. }
  rewrite Ea, Eb in Ep.
  assert (p0 : 0 <= rnd64 (a * b)) by (rewrite <- rnd64_0; apply rnd64_le; nra).
  set (p := rnd64 (a * b)) in *.
  (* the quotient *)
  assert (pd : p <= d * bpow radix2 511).
  { replace (d * bpow radix2 511) with (rnd64 (d * bpow radix2 511)).
    - apply rnd64_le. apply Rmult_le_compat; lra.
    - apply round_generic; [auto with typeclass_instances|].
      apply mult_bpow_pos_exact_FLT; [|lia]. unfold d. apply generic_format_round; auto with typeclass_instances. }
  assert (qd : 0 <= p / d <= bpow radix2 511).
  { split; [apply Rle_mult_inv_pos; lra|]. apply (Rmult_le_reg_r d); [lra|].
    replace (p / d * d) with p by (field; lra). lra. }
  assert (Bq : Rabs (rnd64 (p / d)) <= bpow radix2 511).
  { apply rnd64_abs_le; [lia|]. rewrite Rabs_pos_eq; lra. }
  destruct (f64_div_ok (f64_mul (f64_sub x xmin) (f64_sub omax omin)) (f64_sub xmax xmin) Fp) as [Eq Fq].
  { rewrite Ed. lra. }
  { rewrite Ep, Ed. eapply Rle_lt_trans; [exact Bq|]. apply bpow64_lt. lia. }
  rewrite Ep, Ed in Eq.
  assert (q0 : 0 <= rnd64 (p / d)) by (rewrite <- rnd64_0; apply rnd64_le; lra).
  set (q := rnd64 (p / d)) in *.
  (* the sum *)
  destruct (f64_add_ok (f64_div (f64_mul (f64_sub x xmin) (f64_sub omax omin)) (f64_sub xmax xmin)) omin Fq) as [Er Fr].
  { apply Mo. }
  { rewrite Eq. eapply Rle_lt_trans; [|apply (bpow64_lt 512); lia].
    apply rnd64_abs_le; [lia|]. change 512%Z with (511 + 1)%Z. rewrite bpow_plus. change (bpow radix2 1) with 2.
    destruct Mo as [_ Mo]. eapply Rle_trans; [apply Rabs_triang|].
    assert (bpow radix2 510 <= bpow radix2 511) by (apply bpow_le; lia). lra. }
  rewrite Eq in Er.
  exists a, b, d, p, q, (rnd64 (q + R64 omin)).
  constructor; auto.
Qed.

(** The start of the range is mapped to the start of the target. *)
Lemma map_to_low x xmin xmax omin omax :
  moderate x -> moderate xmin -> moderate xmax -> moderate omin -> moderate omax ->
  R64 xmin < R64 xmax -> R64 omin <= R64 omax -> R64 x = R64 xmin ->
  fin64 (map_to x xmin xmax omin omax) /\ R64 (map_to x xmin xmax omin omax) = R64 omin.
Proof.
  intros Mx Mn Mm Mo Mp Hlt Ho Hx.
  destruct (map_eval x xmin xmax omin omax) as (a & b & d & p & q & r & []); auto; [lra|].
  split; auto. rewrite ev_R0, ev_r0. subst q p. rewrite ev_a1, Hx. unfold Rminus. rewrite Rplus_opp_r, rnd64_0.
  rewrite Rmult_0_l, rnd64_0. unfold Rdiv. rewrite Rmult_0_l, rnd64_0, Rplus_0_l, rnd64_id. reflexivity.
Qed.

(** Order is kept, and no result lies below the target range. *)
Lemma map_to_mono x y xmin xmax omin omax :
  moderate x -> moderate y -> moderate xmin -> moderate xmax -> moderate omin -> moderate omax ->
  R64 xmin < R64 xmax -> R64 omin <= R64 omax -> R64 xmin <= R64 x -> R64 x <= R64 y -> R64 y <= R64 xmax ->
  fin64 (map_to x xmin xmax omin omax) /\ fin64 (map_to y xmin xmax omin omax) /\
  R64 omin <= R64 (map_to x xmin xmax omin omax) <= R64 (map_to y xmin xmax omin omax).
Proof.
  intros Mx My Mn Mm Mo Mp Hlt Ho H1 H2 H3.
  destruct (map_eval x xmin xmax omin omax) as (a & b & d & p & q & r & []); auto; [lra|].
  destruct (map_eval y xmin xmax omin omax) as (a' & b' & d' & p' & q' & r' & []); auto; [lra|].
  split; auto. split; auto. rewrite ev_R0, ev_R1.
  rewrite <- ev_b1 in ev_b3. rewrite <- ev_d1 in ev_d3. subst b' d'.
  assert (a <= a') by (rewrite ev_a1, ev_a3; apply rnd64_le; lra).
  assert (p <= p') by (rewrite ev_p1, ev_p3; apply rnd64_le; apply Rmult_le_compat_r; lra).
  assert (q <= q').
  { rewrite ev_q1, ev_q3. apply rnd64_le. unfold Rdiv. apply Rmult_le_compat_r; [|assumption].
    left. apply Rinv_0_lt_compat. lra. }
  split.
  - rewrite ev_r0, <- (rnd64_id omin). apply rnd64_le. rewrite rnd64_id. lra.
  - rewrite ev_r0, ev_r1. apply rnd64_le. lra.
Qed.

(** * Accuracy *)

Definition u53 : R := bpow radix2 (-53).

(** Sums are rounded with a relative error only. *)
Lemma rnd64_plus_err x y : exists e, Rabs e <= u53 /\ rnd64 (R64 x + R64 y) = (R64 x + R64 y) * (1 + e).
Proof.
  destruct (FLT_plus_error_N_ex radix2 (-1074) 53 (fun n => negb (Z.even n)) (R64 x) (R64 y)) as (e & He & E); try apply gen64.
  exists e. split; [|exact E].
  assert (H : u_ro radix2 53 = u53).
  { unfold u_ro, u53. change (- (53) + 1)%Z with (-53 + 1)%Z. rewrite bpow_plus. change (bpow radix2 1) with 2. lra. }
  rewrite H in He. assert (P : 0 < u53) by apply bpow_gt_0.
  eapply Rle_trans; [exact He|]. apply (Rmult_le_reg_r (1 + u53)); [lra|].
  replace (u53 / (1 + u53) * (1 + u53)) with u53 by (field; lra). nra.
Qed.

Lemma rnd64_err x : exists e h, Rabs e <= u53 /\ Rabs h <= bpow radix2 (-1075) /\ rnd64 x = x * (1 + e) + h.
Proof.
  destruct (error_N_FLT radix2 (-1074) 53 eq_refl (fun n => negb (Z.even n)) x) as (e & h & He & Hh & _ & E).
  exists e, h. split; [|split; [|exact E]].
  - eapply Rle_trans; [exact He|]. unfold u53. change (- (53) + 1)%Z with (-53 + 1)%Z. rewrite bpow_plus. change (bpow radix2 1) with 2. lra.
  - eapply Rle_trans; [exact Hh|]. change (-1074)%Z with (-1075 + 1)%Z. rewrite bpow_plus.
    change (bpow radix2 1) with 2. lra.
Qed.

(** Product of (1 + small) factors over one. *)
Lemma factors e1 e2 e3 e4 e5 : Rabs e1 <= u53 -> Rabs e2 <= u53 -> Rabs e3 <= u53 -> Rabs e4 <= u53 -> Rabs e5 <= u53 ->
  Rabs ((1 + e1) * (1 + e2) * (1 + e4) * (1 + e5) / (1 + e3) - 1) <= 6 * u53.
Proof.
  assert (U : 0 < u53 <= 1 / 1000000).
  { unfold u53. split; [apply bpow_gt_0|]. apply Rle_trans with (bpow radix2 (-20)).
    - apply bpow_le. lia.
    - unfold bpow. cbn -[Rdiv]. lra. }
  intros H1 H2 H3 H4 H5. apply Rabs_le_inv in H1, H2, H3, H4, H5.
  set (u := u53) in *. clearbody u.
  assert (A : Rabs ((1 + e1) * (1 + e2) - 1) <= 2 * u + u * u).
  { apply Rabs_le. split; nra. }
  assert (B : Rabs ((1 + e4) * (1 + e5) - 1) <= 2 * u + u * u).
  { apply Rabs_le. split; nra. }
  set (f := (1 + e1) * (1 + e2)) in *. set (g := (1 + e4) * (1 + e5)) in *.
  replace (f * (1 + e4) * (1 + e5)) with (f * g) by (unfold g; ring).
  apply Rabs_le_inv in A, B. clearbody f g.
  assert (UU : 0 <= u * u <= u / 1000000) by (split; nra).
  assert (C : 1 - 4.1 * u <= f * g <= 1 + 4.1 * u).
  { replace (f * g) with (1 + (f - 1) + (g - 1) + (f - 1) * (g - 1)) by ring.
    assert (D : Rabs ((f - 1) * (g - 1)) <= (2.1 * u) * (2.1 * u)).
    { rewrite Rabs_mult. apply Rmult_le_compat; try apply Rabs_pos; apply Rabs_le; lra. }
    apply Rabs_le_inv in D. lra. }
  set (h := f * g) in *. clearbody h.
  apply Rabs_le. split; apply (Rmult_le_reg_r (1 + e3)); try lra; unfold Rdiv.
  - replace ((h * / (1 + e3) - 1) * (1 + e3)) with (h - (1 + e3)) by (field; lra). nra.
  - replace ((h * / (1 + e3) - 1) * (1 + e3)) with (h - (1 + e3)) by (field; lra). nra.
Qed.

(** The result is within a few units in the last place (of the size of the target
    range) of the exact linear map, unless the source range is extremely small. *)
Definition exact_map (x xmin xmax omin omax : R) : R :=
  (x - xmin) * (omax - omin) / (xmax - xmin) + omin.

Lemma map_to_accurate x xmin xmax omin omax :
  moderate x -> moderate xmin -> moderate xmax -> moderate omin -> moderate omax ->
  bpow radix2 (-500) <= R64 xmax - R64 xmin -> R64 xmin <= R64 x <= R64 xmax -> R64 omin <= R64 omax ->
  fin64 (map_to x xmin xmax omin omax) /\
  Rabs (R64 (map_to x xmin xmax omin omax) -
        exact_map (R64 x) (R64 xmin) (R64 xmax) (R64 omin) (R64 omax)) <=
  bpow radix2 (-49) * (Rabs (R64 omin) + Rabs (R64 omax)) + bpow radix2 (-570).
Proof.
  intros Mx Mn Mm Mo Mp Hlt Hx Ho. pose proof (bpow_gt_0 radix2 (-500)) as P500.
  destruct (map_eval x xmin xmax omin omax) as (a & b & d & p & q & r & []); auto; [lra|].
  split; auto. rewrite ev_R0. unfold exact_map.
  (* the errors of the seven operations *)
  assert (S : forall y z, exists e, Rabs e <= u53 /\ rnd64 (R64 y - R64 z) = (R64 y - R64 z) * (1 + e)).
  { intros y z. destruct (rnd64_plus_err y (b64_opp z)) as (e & He & E).
    exists e. unfold b64_opp in E. rewrite B2R_Bopp in E. unfold Rminus. auto. }
  destruct (S x xmin) as (e1 & H1 & E1). destruct (S omax omin) as (e2 & H2 & E2).
  destruct (S xmax xmin) as (e3 & H3 & E3).
  destruct (rnd64_err (a * b)) as (e4 & h4 & H4 & G4 & E4).
  destruct (rnd64_err (p / d)) as (e5 & h5 & H5 & G5 & E5).
  destruct (rnd64_err (q + R64 omin)) as (e6 & h6 & H6 & G6 & E6).
  rewrite <- ev_a1 in E1. rewrite <- ev_b1 in E2. rewrite <- ev_d1 in E3. rewrite <- ev_p1 in E4.
  rewrite <- ev_q1 in E5. rewrite <- ev_r0 in E6.
  pose proof (factors e1 e2 e3 e4 e5 H1 H2 H3 H4 H5) as HF.
  set (X := R64 x - R64 xmin) in *. set (D := R64 xmax - R64 xmin) in *. set (O := R64 omax - R64 omin) in *.
  assert (X0 : 0 <= X <= D) by (unfold X, D; lra). assert (O0 : 0 <= O) by (unfold O; lra).
  set (F := (1 + e1) * (1 + e2) * (1 + e4) * (1 + e5) / (1 + e3)) in *.
  assert (U : 0 < u53 <= 1 / 1000000).
  { unfold u53. split; [apply bpow_gt_0|]. apply Rle_trans with (bpow radix2 (-20)).
    - apply bpow_le. lia.
    - unfold bpow. cbn -[Rdiv]. lra. }
  assert (N3 : (9 / 10) <= 1 + e3) by (apply Rabs_le_inv in H3; lra).
  set (t := X * O / D) in *.
  assert (D0 : 0 < D) by lra.
  assert (t0 : 0 <= t <= O).
  { unfold t. split.
    - apply Rle_mult_inv_pos; [nra|lra].
    - apply (Rmult_le_reg_r D); [lra|]. replace (X * O / D * D) with (X * O) by (field; lra). nra. }
  set (g := h4 / d * (1 + e5) + h5).
  assert (Eq : q = t * F + g).
  { unfold g, t, F. rewrite E5, E4, E3, E1, E2. field. lra. }
  assert (Hg : Rabs g <= bpow radix2 (-574)).
  { assert (d5 : bpow radix2 (-500) * (9 / 10) <= d) by (rewrite E3; apply Rmult_le_compat; lra).
    assert (A : Rabs (h4 / d * (1 + e5)) <= bpow radix2 (-1075) / (bpow radix2 (-500) * (9 / 10)) * (11 / 10)).
    { rewrite Rabs_mult. apply Rmult_le_compat; try apply Rabs_pos.
      - unfold Rdiv. rewrite Rabs_mult. apply Rmult_le_compat; try apply Rabs_pos; auto.
        rewrite Rabs_inv. rewrite (Rabs_pos_eq d) by lra. apply Rinv_le; nra.
      - apply Rabs_le_inv in H5. apply Rabs_le. lra. }
    unfold g. eapply Rle_trans; [apply Rabs_triang|].
    assert (B1 : bpow radix2 (-1075) = bpow radix2 (-500) * bpow radix2 (-575)) by (rewrite <- bpow_plus; reflexivity).
    assert (B2 : bpow radix2 (-574) = 2 * bpow radix2 (-575)) by (change (-574)%Z with (1 + -575)%Z; rewrite bpow_plus; reflexivity).
    assert (B3 : bpow radix2 (-1075) <= bpow radix2 (-575) / 4).
    { apply Rle_trans with (bpow radix2 (-577)); [apply bpow_le; lia|].
      change (-575)%Z with (2 + -577)%Z. rewrite bpow_plus. change (bpow radix2 2) with 4. lra. }
    replace (bpow radix2 (-1075) / (bpow radix2 (-500) * (9 / 10)) * (11 / 10)) with (bpow radix2 (-575) * (11 / 9)) in A
      by (rewrite B1; field; lra).
    pose proof (bpow_gt_0 radix2 (-575)). lra. }
  fold t.
  assert (Er : r - (t + R64 omin) = t * (F - 1) + g + (t * F + g + R64 omin) * e6 + h6).
  { rewrite E6, Eq. ring. }
  rewrite Er. set (A := Rabs (R64 omin) + Rabs (R64 omax)).
  assert (HO : O <= A).
  { unfold A, O. pose proof (Rle_abs (R64 omax)). pose proof (Rle_abs (- R64 omin)). rewrite Rabs_Ropp in *. lra. }
  assert (HA : Rabs (R64 omin) <= A) by (unfold A; pose proof (Rabs_pos (R64 omax)); lra).
  assert (A0 : 0 <= A) by (pose proof (Rabs_pos (R64 omin)); lra).
  assert (T1 : Rabs (t * (F - 1)) <= A * (6 * u53)).
  { rewrite Rabs_mult. apply Rmult_le_compat; try apply Rabs_pos; auto. rewrite Rabs_pos_eq; lra. }
  assert (T2 : Rabs (t * F + g + R64 omin) <= (11 / 10) * A + bpow radix2 (-574) + A).
  { eapply Rle_trans; [apply Rabs_triang|]. eapply Rle_trans; [apply Rplus_le_compat_r, Rabs_triang|].
    assert (Rabs (t * F) <= (11 / 10) * A).
    { apply Rabs_le_inv in HF. rewrite Rabs_mult, Rmult_comm.
      apply Rmult_le_compat; try apply Rabs_pos; [apply Rabs_le; lra|rewrite Rabs_pos_eq; lra]. }
    lra. }
  assert (T3 : Rabs ((t * F + g + R64 omin) * e6) <= ((11 / 10) * A + bpow radix2 (-574) + A) * u53).
  { rewrite Rabs_mult. apply Rmult_le_compat; try apply Rabs_pos; auto. }
  eapply Rle_trans; [apply Rabs_triang|]. eapply Rle_trans; [apply Rplus_le_compat_r, Rabs_triang|].
  eapply Rle_trans; [apply Rplus_le_compat_r, Rplus_le_compat_r, Rabs_triang|].
  assert (B50 : bpow radix2 (-49) = 16 * u53) by (unfold u53; change (-49)%Z with (4 + -53)%Z; rewrite bpow_plus; reflexivity).
  assert (B70 : bpow radix2 (-570) = 16 * bpow radix2 (-574)) by (change (-570)%Z with (4 + -574)%Z; rewrite bpow_plus; reflexivity).
  assert (B6 : bpow radix2 (-1075) <= bpow radix2 (-574)) by (apply bpow_le; lia).
  pose proof (bpow_gt_0 radix2 (-574)).
  rewrite B50, B70. nra.
Qed.
