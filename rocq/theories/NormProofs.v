(** Proofs about vt_math_random_f32_normal. *)
From Coq Require Import ZArith Bool Reals Lra Lia Psatz.
From Flocq Require Import Core IEEE754.BinarySingleNaN IEEE754.Binary IEEE754.Bits Relative.
From Verif Require Import Base BaseFacts NumModel NumProofs FloatModel FloatFacts RandModel RandProofs.
From Verif Require Import NormModel.
Open Scope R_scope.

Local Instance prec24n : Prec_gt_0 24 := eq_refl.
Local Instance prec53n : Prec_gt_0 53 := eq_refl.

(** * Operations *)
Lemma f32_add_ok x y : fin32 x -> fin32 y -> Rabs (rnd32 (R32 x + R32 y)) < max32 ->
  R32 (f32_add x y) = rnd32 (R32 x + R32 y) /\ fin32 (f32_add x y).
Proof.
  intros Fx Fy H. unfold f32_add, b32_plus.
  match goal with |- context [Bplus _ _ ?p ?q ?n ?m] => pose proof (Bplus_correct 24 128 p q n m x y Fx Fy) as C end.
  rewrite fexp32 in C. cbn [round_mode] in C. fold (rnd32 (R32 x + R32 y)) in C.
  rewrite Rlt_bool_true in C by exact H. destruct C as (C1 & C2 & _). auto.
Qed.
Lemma f32_div_ok x y : fin32 x -> R32 y <> 0 -> Rabs (rnd32 (R32 x / R32 y)) < max32 ->
  R32 (f32_div x y) = rnd32 (R32 x / R32 y) /\ fin32 (f32_div x y).
Proof.
  intros Fx Fy H. unfold f32_div, b32_div.
  match goal with |- context [Bdiv _ _ ?p ?q ?n ?m] => pose proof (Bdiv_correct 24 128 p q n m x y Fy) as C end.
  rewrite fexp32 in C. cbn [round_mode] in C. fold (rnd32 (R32 x / R32 y)) in C.
  rewrite Rlt_bool_true in C by exact H. destruct C as (C1 & C2 & _).
  rewrite Fx in C2. auto.
Qed.
Lemma f64_sqrt_ok x : fin64 x -> 0 <= R64 x -> R64 (f64_sqrt x) = rnd64 (sqrt (R64 x)) /\ fin64 (f64_sqrt x).
Proof.
  intros Fx P. unfold f64_sqrt, b64_sqrt.
  match goal with |- context [Bsqrt _ _ ?p ?q ?n ?m] => pose proof (Bsqrt_correct 53 1024 p q n m x) as C end.
  rewrite fexp64 in C. cbn [round_mode] in C. fold (rnd64 (sqrt (R64 x))) in C.
  destruct C as (C1 & C2 & _). split; [exact C1|]. rewrite C2.
  destruct x as [s|s|s pl e|s m e B]; try discriminate; [destruct s; reflexivity|].
  destruct s; [|reflexivity]. exfalso.
  assert (N : R64 (B754_finite 53 1024 true m e B) < 0) by (apply F2R_lt_0; reflexivity). lra.
Qed.

Lemma b24 : bpow radix2 (-24) = / 16777216.
Proof. reflexivity. Qed.
Lemma b31 : bpow radix2 31 = 2147483648.
Proof. reflexivity. Qed.

(** Rounding. *)
Lemma rnd64_le_gen x y : rnd64 y = y -> x <= y -> rnd64 x <= y.
Proof. intros E H. rewrite <- E. now apply rnd64_le. Qed.
Lemma rnd32_ge_gen x y : rnd32 y = y -> y <= x -> y <= rnd32 x.
Proof. intros E H. rewrite <- E. now apply rnd32_le. Qed.
Lemma rnd64_ge_gen x y : rnd64 y = y -> y <= x -> y <= rnd64 x.
Proof. intros E H. rewrite <- E. now apply rnd64_le. Qed.
Lemma rel32 x : bpow radix2 (-126) <= Rabs x -> Rabs (rnd32 x - x) <= bpow radix2 (-24) * Rabs x.
Proof.
  intros H. pose proof (relative_error_N_FLT radix2 (-149) 24 eq_refl (fun n => negb (Z.even n)) x H) as E.
  unfold rnd32. eapply Rle_trans; [exact E|]. apply Rmult_le_compat_r; [apply Rabs_pos|].
  rewrite bpow_plus. change (bpow radix2 1) with 2. change (- (24))%Z with (-24)%Z. lra.
Qed.
Lemma rel64 x : bpow radix2 (-1022) <= Rabs x -> Rabs (rnd64 x - x) <= bpow radix2 (-53) * Rabs x.
Proof.
  intros H. pose proof (relative_error_N_FLT radix2 (-1074) 53 eq_refl (fun n => negb (Z.even n)) x H) as E.
  unfold rnd64. eapply Rle_trans; [exact E|]. apply Rmult_le_compat_r; [apply Rabs_pos|].
  rewrite bpow_plus. change (bpow radix2 1) with 2. change (- (53))%Z with (-53)%Z. lra.
Qed.
(** Upper bounds go through a rounding with a small factor. *)
Definition e24 : R := bpow radix2 (-24).
Lemma up64 x b : x <= b -> bpow radix2 (-1022) <= b -> rnd64 x <= b * (1 + e24).
Proof.
  intros H B. assert (0 < b) by (eapply Rlt_le_trans; [apply bpow_gt_0|exact B]).
  eapply Rle_trans; [apply rnd64_le, H|]. pose proof (rel64 b) as E. rewrite (Rabs_pos_eq b) in E by lra. specialize (E B).
  apply Rabs_le_inv in E. assert (bpow radix2 (-53) <= e24) by (apply bpow_le; lia). nra.
Qed.
Lemma up32 x b : x <= b -> bpow radix2 (-126) <= b -> rnd32 x <= b * (1 + e24).
Proof.
  intros H B. assert (0 < b) by (eapply Rlt_le_trans; [apply bpow_gt_0|exact B]).
  eapply Rle_trans; [apply rnd32_le, H|]. pose proof (rel32 b) as E. rewrite (Rabs_pos_eq b) in E by lra. specialize (E B).
  apply Rabs_le_inv in E. unfold e24. nra.
Qed.
Lemma e24_val : 0 < e24 <= / 16777216.
Proof. unfold e24. rewrite b24. lra. Qed.

(** * The coordinates *)
Lemma gen_grid x k : x = IZR k * bpow radix2 (-24) -> (Z.abs k <= 2 ^ 24)%Z -> rnd32 x = x.
Proof.
  intros -> K. apply round_generic; [auto with typeclass_instances|].
  destruct (Z.eq_dec (Z.abs k) (2 ^ 24)) as [E|].
  - assert (k = 2 ^ 24 \/ k = - 2 ^ 24)%Z as [->| ->] by lia.
    + replace (IZR (2 ^ 24) * bpow radix2 (-24)) with (bpow radix2 0) by (rewrite b24; change (bpow radix2 0) with 1; change (IZR (2 ^ 24)) with 16777216; field). apply generic_format_bpow. unfold FLT_exp. lia.
    + replace (IZR (- 2 ^ 24) * bpow radix2 (-24)) with (- bpow radix2 0) by (rewrite b24; change (bpow radix2 0) with 1; change (IZR (- 2 ^ 24)) with (-16777216); field). apply generic_format_opp, generic_format_bpow. unfold FLT_exp. lia.
  - apply generic_format_FLT. exists (Float radix2 k (-24)); cbn [Fnum Fexp]; [reflexivity| |lia].
    change (Zpower radix2 24) with (2 ^ 24)%Z. lia.
Qed.

(** Numbers between 1/2 and 2 lie on the grid of 2^-24. *)
Lemma on_grid y : generic_format radix2 (FLT_exp (-149) 24) y -> / 2 <= y -> exists k, y = IZR k * bpow radix2 (-24).
Proof.
  intros G H. assert (0 < y) by lra.
  assert (M : (0 <= mag radix2 y)%Z).
  { replace 0%Z with (mag radix2 (bpow radix2 (-1)) : Z) by (rewrite mag_bpow; reflexivity).
    apply mag_le; [apply bpow_gt_0|]. change (bpow radix2 (-1)) with (/ 2). lra. }
  rewrite G. unfold F2R, cexp. cbn [Fnum Fexp]. set (m := Ztrunc _). 
  assert (E : (-24 <= FLT_exp (-149) 24 (mag radix2 y))%Z) by (unfold FLT_exp; lia).
  set (e := FLT_exp _ _ _) in *. exists (m * radix2 ^ (e + 24))%Z.
  rewrite mult_IZR, IZR_Zpower by lia. rewrite Rmult_assoc, <- bpow_plus. do 2 f_equal. lia.
Qed.

Lemma coord_real y : generic_format radix2 (FLT_exp (-149) 24) y -> 0 <= y <= 2 ->
  let u := rnd32 (-1 + y) in -1 <= u <= 1 /\ (u = 0 \/ bpow radix2 (-24) <= Rabs u).
Proof.
  intros G H u. destruct (Rle_or_lt (/ 2) y) as [H1|H1].
  - destruct (on_grid y G H1) as [k E].
    assert (B : IZR 16777216 * bpow radix2 (-24) = 1) by (rewrite b24; field).
    assert (E1 : -1 + y = IZR (k - 16777216) * bpow radix2 (-24)) by (rewrite minus_IZR, Rmult_minus_distr_r, <- E, B; ring).
    assert (0 < bpow radix2 (-24)) by apply bpow_gt_0.
    assert (KR : Rabs (IZR (k - 16777216)) <= 16777216).
    { assert (A : Rabs (-1 + y) <= 1) by (apply Rabs_le; lra). rewrite E1, Rabs_mult, (Rabs_pos_eq (bpow _ _)) in A by lra.
      rewrite <- B in A. apply Rmult_le_reg_r in A; auto. }
    rewrite <- abs_IZR in KR. apply le_IZR in KR.
    assert (U : u = -1 + y) by (apply (gen_grid _ _ E1); lia).
    split; [lra|]. rewrite U, E1. destruct (Z.eq_dec (k - 16777216) 0) as [->|N]; [left; ring|right].
    rewrite Rabs_mult, (Rabs_pos_eq (bpow _ _)) by lra. rewrite <- abs_IZR.
    rewrite <- (Rmult_1_l (bpow radix2 (-24))) at 1. apply Rmult_le_compat_r; [lra|]. apply IZR_le. lia.
  - assert (A : -1 <= u).
    { apply rnd32_ge_gen; [|lra]. apply (gen_grid _ (-16777216)); [rewrite b24; lra|lia]. }
    assert (B : u <= - / 2).
    { apply rnd32_le_gen; [|lra]. apply (gen_grid _ (-8388608)); [rewrite b24; lra|lia]. }
    split; [lra|]. right. rewrite Rabs_left1 by lra. rewrite b24. lra.
Qed.

Lemma coordinate_ok sn st now : sine_like sn ->
  let u := snd (coordinate sn st now) in
  fin32 u /\ -1 <= R32 u <= 1 /\ (R32 u = 0 \/ bpow radix2 (-24) <= Rabs (R32 u)).
Proof.
  intros S. unfold coordinate. pose proof (random_f32_ok sn st now rand_max S ltac:(unfold rand_max; lia)) as X. cbv zeta in X.
  destruct (random_f32 sn st now rand_max) as [st' x]. cbn [snd] in *. destruct X as (Fx & X0 & X1).
  assert (RM : R32 f32_rand_max = bpow radix2 31) by (change (R32 f32_rand_max) with (8388608 * bpow radix2 8); rewrite b31; change (bpow radix2 8) with 256; lra).
  assert (X2 : R32 x <= bpow radix2 31).
  { eapply Rle_trans; [exact X1|]. apply rnd32_le_gen; [apply rnd32_bpow; lia|]. unfold rand_max. rewrite b31. lra. }
  assert (P31 : 0 < bpow radix2 31) by apply bpow_gt_0.
  assert (Q : 0 <= R32 x / bpow radix2 31 <= 1).
  { split; [apply Rmult_le_pos; [lra|apply Rlt_le, Rinv_0_lt_compat; lra]|].
    apply Rmult_le_reg_r with (bpow radix2 31); [lra|]. unfold Rdiv. rewrite Rmult_assoc, Rinv_l by lra. lra. }
  assert (M1 : 1 < max32) by (change 1 with (bpow radix2 0); apply bpow_lt; lia).
  assert (M2 : 2 < max32) by (change 2 with (bpow radix2 1); apply bpow_lt; lia).
  assert (Q' : 0 <= rnd32 (R32 x / bpow radix2 31) <= 1).
  { split; [rewrite <- rnd32_0; now apply rnd32_le|]. apply rnd32_le_gen; [apply rnd32_1|lra]. }
  destruct (f32_div_ok x f32_rand_max Fx) as [Ed Fd]; [rewrite RM; lra|rewrite RM, Rabs_pos_eq; lra|]. rewrite RM in Ed.
  assert (T : R32 f32_2 = 2) by (change (R32 f32_2) with (8388608 * bpow radix2 (-22)); change (bpow radix2 (-22)) with (/ 4194304); lra).
  assert (Y' : 0 <= rnd32 (R32 (f32_div x f32_rand_max) * 2) <= 2).
  { rewrite Ed. split; [rewrite <- rnd32_0; apply rnd32_le; lra|]. apply rnd32_le_gen; [|lra].
    change 2 with (bpow radix2 1). apply rnd32_bpow. lia. }
  destruct (f32_mul_ok (f32_div x f32_rand_max) f32_2 Fd eq_refl) as [Em Fm]; [rewrite T, Rabs_pos_eq; lra|]. rewrite T in Em.
  set (y := f32_mul _ _) in *. rewrite <- Em in Y'.
  assert (O : R32 f32_m1 = -1) by (change (R32 f32_m1) with (-8388608 * bpow radix2 (-23)); change (bpow radix2 (-23)) with (/ 8388608); lra).
  destruct (coord_real (R32 y) (gen32 y) Y') as [U1 U2].
  destruct (f32_add_ok f32_m1 y eq_refl Fm) as [Ea Fa]; [rewrite O; apply Rabs_lt; lra|]. rewrite O in Ea. rewrite Ea. auto.
Qed.

(** * The loop *)
Definition coord (u : binary32) : Prop :=
  fin32 u /\ -1 <= R32 u <= 1 /\ (R32 u = 0 \/ bpow radix2 (-24) <= Rabs (R32 u)).
Definition weight (u1 u2 w : binary32) : Prop :=
  fin32 w /\ 0 <= R32 w <= 2 /\ (R32 w = 0 \/ bpow radix2 (-48) <= R32 w)
  /\ R32 u1 * R32 u1 <= R32 w * (1 + 4 * e24) /\ R32 u2 * R32 u2 <= R32 w * (1 + 4 * e24).

Lemma square_ok u : coord u -> let a := f64_mul (f64_of_f32 u) (f64_of_f32 u) in
  fin64 a /\ 0 <= R64 a <= 1 /\ (R64 a = 0 /\ R32 u = 0 \/ bpow radix2 (-48) <= R64 a) /\ R32 u * R32 u * (1 - e24) <= R64 a.
Proof.
  intros (F & B & Z) a. destruct (f64_of_f32_ok u F) as [E F'].
  assert (P0 : 0 <= R32 u * R32 u) by nra. assert (P1 : R32 u * R32 u <= 1) by nra.
  assert (R1 : rnd64 1 = 1) by (change 1 with (bpow radix2 0); apply rnd64_bpow; lia).
  assert (Q : 0 <= rnd64 (R32 u * R32 u) <= 1).
  { split; [rewrite <- rnd64_0; now apply rnd64_le|]. now apply rnd64_le_gen. }
  assert (M1 : 1 < max64) by (change 1 with (bpow radix2 0); apply bpow_lt; lia).
  destruct (f64_mul_ok (f64_of_f32 u) (f64_of_f32 u) F' F') as [Em Fm]; [rewrite E, Rabs_pos_eq; lra|]. rewrite E in Em. fold a in Em, Fm.
  rewrite Em. split; [exact Fm|]. split; [exact Q|].
  destruct Z as [Z|Z].
  - rewrite Z, Rmult_0_l, rnd64_0. split; [now left|lra].
  - assert (S : bpow radix2 (-48) <= R32 u * R32 u).
    { change (-48)%Z with (-24 + -24)%Z. rewrite bpow_plus. rewrite <- (Rabs_pos_eq (R32 u * R32 u)) by lra. rewrite Rabs_mult.
      apply Rmult_le_compat; auto; apply bpow_ge_0. }
    split; [right; apply rnd64_ge_gen; [apply rnd64_bpow; lia|exact S]|].
    pose proof (rel64 (R32 u * R32 u)) as RE. rewrite (Rabs_pos_eq (R32 u * R32 u)) in RE by lra.
    assert (bpow radix2 (-1022) <= bpow radix2 (-48)) by (apply bpow_le; lia).
    specialize (RE ltac:(lra)). apply Rabs_le_inv in RE.
    assert (bpow radix2 (-53) <= e24) by (apply bpow_le; lia). nra.
Qed.

Lemma norm2_ok u1 u2 : coord u1 -> coord u2 -> weight u1 u2 (norm2 u1 u2).
Proof.
  intros C1 C2. unfold norm2, weight. cbv zeta.
  destruct (square_ok u1 C1) as (F1 & B1 & Z1 & L1). destruct (square_ok u2 C2) as (F2 & B2 & Z2 & L2). cbv zeta in *.
  set (a := f64_mul (f64_of_f32 u1) _) in *. set (b := f64_mul (f64_of_f32 u2) _) in *.
  assert (R2 : rnd64 2 = 2) by (change 2 with (bpow radix2 1); apply rnd64_bpow; lia).
  assert (R2' : rnd32 2 = 2) by (change 2 with (bpow radix2 1); apply rnd32_bpow; lia).
  assert (Q : 0 <= rnd64 (R64 a + R64 b) <= 2).
  { split; [rewrite <- rnd64_0; apply rnd64_le; lra|]. apply rnd64_le_gen; lra. }
  assert (M2 : 2 < max64) by (change 2 with (bpow radix2 1); apply bpow_lt; lia).
  assert (M2' : 2 < max32) by (change 2 with (bpow radix2 1); apply bpow_lt; lia).
  destruct (f64_add_ok a b F1 F2) as [Es Fs]; [rewrite Rabs_pos_eq; lra|]. set (s := f64_add a b) in *. rewrite <- Es in Q.
  assert (Qa : R64 a <= R64 s) by (rewrite Es, <- (rnd64_id a); apply rnd64_le; rewrite rnd64_id; lra).
  assert (Qb : R64 b <= R64 s) by (rewrite Es, <- (rnd64_id b); apply rnd64_le; rewrite rnd64_id; lra).
  assert (T : 0 <= rnd32 (R64 s) <= 2).
  { split; [rewrite <- rnd32_0; apply rnd32_le; lra|]. apply rnd32_le_gen; lra. }
  destruct (f32_of_f64_ok s Fs) as [Er Fr]; [rewrite Rabs_pos_eq; lra|]. rewrite Er.
  split; [exact Fr|]. split; [exact T|].
  assert (K : forall c u, (R64 c = 0 /\ R32 u = 0 \/ bpow radix2 (-48) <= R64 c) -> R32 u * R32 u * (1 - e24) <= R64 c -> R64 c <= R64 s ->
    R32 u * R32 u <= rnd32 (R64 s) * (1 + 4 * e24) /\ (R64 c = 0 \/ bpow radix2 (-48) <= rnd32 (R64 s))).
  { intros c u Z L Q'. pose proof e24_val as EV. destruct Z as [[Z Z']|Z].
    - rewrite Z'. split; [nra|now left].
    - assert (P48 : 0 < bpow radix2 (-48)) by apply bpow_gt_0.
      assert (W : R64 c * (1 - e24) <= rnd32 (R64 s)).
      { apply Rle_trans with (rnd32 (R64 c)); [|now apply rnd32_le].
        pose proof (rel32 (R64 c)) as RE. rewrite (Rabs_pos_eq (R64 c)) in RE by lra.
        assert (bpow radix2 (-126) <= bpow radix2 (-48)) by (apply bpow_le; lia).
        specialize (RE ltac:(lra)). apply Rabs_le_inv in RE. fold e24 in RE. nra. }
      split.
      + assert (R32 u * R32 u * (1 - e24) * (1 - e24) <= rnd32 (R64 s)) by nra.
        assert (0 <= R32 u * R32 u) by nra.
        assert (1 <= (1 - e24) * (1 - e24) * (1 + 4 * e24)) by nra. nra.
      + right. apply rnd32_ge_gen; [apply rnd32_bpow; lia|]. lra. }
  destruct (K a u1 Z1 L1 Qa) as [K1 K1']. destruct (K b u2 Z2 L2 Qb) as [K2 K2'].
  split; [|split; [exact K1|exact K2]].
  destruct K1' as [K1'|K1']; [|now right]. destruct K2' as [K2'|K2']; [|now right]. left.
  rewrite Es, K1', K2', Rplus_0_r, rnd64_0, rnd32_0. reflexivity.
Qed.

Lemma f_ge_R x y : fin32 x -> fin32 y -> f_ge x y = false -> R32 x < R32 y.
Proof.
  intros Fx Fy. unfold f_ge, b32_compare. rewrite Bcompare_correct by assumption.
  destruct (Rcompare_spec (R32 x) (R32 y)); [auto|discriminate|discriminate].
Qed.
Lemma f_eq_R x y : fin32 x -> fin32 y -> f_eq x y = false -> R32 x <> R32 y.
Proof.
  intros Fx Fy. unfold f_eq, b32_compare. rewrite Bcompare_correct by assumption.
  destruct (Rcompare_spec (R32 x) (R32 y)); [lra|discriminate|lra].
Qed.

Lemma draw_ok fuel sn : sine_like sn -> forall st now st' u1 u2 w, draw fuel sn st now = Ok (st', (u1, u2, w)) ->
  coord u1 /\ coord u2 /\ weight u1 u2 w /\ bpow radix2 (-48) <= R32 w < 1.
Proof.
  intros S. induction fuel as [|f IH]; intros st now st' u1 u2 w; cbn [draw]; [discriminate|].
  pose proof (coordinate_ok sn st now S) as C1. destruct (coordinate sn st now) as [st1 v1]. cbv zeta in C1. cbn [snd] in C1.
  pose proof (coordinate_ok sn st1 now S) as C2. destruct (coordinate sn st1 now) as [st2 v2]. cbv zeta in C2. cbn [snd] in C2.
  destruct (f_ge _ _) eqn:G; [apply IH|]. destruct (f_eq _ _) eqn:Q; [apply IH|]. cbn [orb].
  intros E. injection E as <- <- <- <-. pose proof (norm2_ok v1 v2 C1 C2) as W. pose proof W as (F & B & Z & _).
  apply f_ge_R in G; [|exact F|reflexivity]. apply f_eq_R in Q; [|exact F|reflexivity]. change (R32 (B754_zero 24 128 false)) with 0 in Q.
  assert (O : R32 f32_1 = 1) by (change (R32 f32_1) with (8388608 * bpow radix2 (-23)); change (bpow radix2 (-23)) with (/ 8388608); lra).
  destruct Z as [Z|Z]; [contradiction|]. split; [exact C1|]. split; [exact C2|]. split; [exact W|]. lra.
Qed.

(** * The factor *)
Definition log_like (lg : binary64 -> binary64) : Prop :=
  forall x, fin64 x -> 0 < R64 x <= 1 -> fin64 (lg x) /\ ln (R64 x) - / 1024 <= R64 (lg x) <= 0.

Lemma ln2_lt : ln 2 < 7 / 10.
Proof.
  rewrite <- (ln_exp (7 / 10)). apply ln_increasing; [lra|].
  assert (E : exp (7 / 10) = exp (1 / 100) ^ 70).
  { rewrite <- Rpower_pow by apply exp_pos. unfold Rpower. rewrite ln_exp. f_equal. cbn. lra. }
  rewrite E. pose proof (exp_ineq1 (1 / 100) ltac:(lra)) as H.
  apply Rlt_le_trans with ((101 / 100) ^ 70); [|apply pow_incr; lra]. lra.
Qed.
Lemma ln_low w : bpow radix2 (-48) <= w -> - (336 / 10) <= ln w.
Proof.
  intros H. assert (P : 0 < bpow radix2 (-48)) by apply bpow_gt_0.
  assert (L : ln (bpow radix2 (-48)) = - 48 * ln 2).
  { rewrite bpow_exp, ln_exp. reflexivity. }
  assert (ln (bpow radix2 (-48)) <= ln w).
  { destruct H as [H|<-]; [|lra]. left. now apply ln_increasing. }
  pose proof ln2_lt. lra.
Qed.

(** The numbers that are multiplied with the standard deviation. *)
Definition sample (x : binary32) : Prop := fin32 x /\ Rabs (R32 x) <= 33 / 4.
Lemma sample_ok lg u w : log_like lg -> coord u -> fin32 w -> bpow radix2 (-48) <= R32 w < 1 -> R32 u * R32 u <= R32 w * (1 + 4 * e24) ->
  sample (f32_mul u (factor_of lg w)).
Proof.
  intros LG (Fu & Bu & _) Fw Bw UW. pose proof e24_val as EV.
  destruct (f64_of_f32_ok w Fw) as [Ew Fw']. set (W := f64_of_f32 w) in *.
  assert (P48 : 0 < bpow radix2 (-48)) by apply bpow_gt_0.
  destruct (LG W Fw' ltac:(lra)) as [FL BL]. unfold factor_of. fold W. set (L := lg W) in *.
  pose proof (ln_low (R32 w) ltac:(lra)) as LL. rewrite Ew in BL.
  (* -2 * log(W) *)
  assert (O : R64 f64_m2 = -2) by (change (R64 f64_m2) with (-4503599627370496 * bpow radix2 (-51)); change (bpow radix2 (-51)) with (/ 2251799813685248); lra).
  assert (T0 : 0 <= rnd64 (-2 * R64 L)) by (rewrite <- rnd64_0; apply rnd64_le; lra).
  assert (T1 : rnd64 (-2 * R64 L) <= 67222 / 1000 * (1 + e24)).
  { apply up64; [lra|]. apply Rle_trans with (bpow radix2 0); [apply bpow_le; lia|]. change (bpow radix2 0) with 1. lra. }
  assert (M10 : 128 < max64) by (change 128 with (bpow radix2 7); apply bpow_lt; lia).
  destruct (f64_mul_ok f64_m2 L eq_refl FL) as [ET FT]; [rewrite O, Rabs_pos_eq; nra|]. rewrite O in ET. set (T := f64_mul f64_m2 L) in *.
  rewrite <- ET in T0, T1.
  (* / W *)
  set (q := / sqrt (R32 w)).
  assert (W0 : 0 < R32 w) by lra.
  assert (S0 : 0 < sqrt (R32 w)) by (now apply sqrt_lt_R0).
  assert (SS : sqrt (R32 w) * sqrt (R32 w) = R32 w) by (apply sqrt_def; lra).
  assert (q0 : 0 < q) by (now apply Rinv_0_lt_compat).
  assert (qq : / R32 w = q * q) by (unfold q; rewrite <- SS at 1; rewrite Rinv_mult; reflexivity).
  assert (S1 : sqrt (R32 w) < 1) by (rewrite <- sqrt_1; apply sqrt_lt_1; lra).
  assert (q1 : 1 < q) by (unfold q; rewrite <- Rinv_1; apply Rinv_lt_contravar; lra).
  assert (q2 : q <= bpow radix2 24).
  { unfold q. change 24%Z with (- (-24))%Z. rewrite bpow_opp. apply Rinv_le; [apply bpow_gt_0|].
    rewrite <- (sqrt_square (bpow radix2 (-24))) by apply bpow_ge_0. apply sqrt_le_1_alt. rewrite <- bpow_plus. change (-24 + -24)%Z with (-48)%Z. exact (proj1 Bw). }
  assert (b24' : bpow radix2 24 = 16777216) by reflexivity.
  assert (D0 : 0 <= rnd64 (R64 T / R64 W)).
  { rewrite <- rnd64_0. apply rnd64_le. rewrite Ew. unfold Rdiv. rewrite qq. nra. }
  assert (D1 : rnd64 (R64 T / R64 W) <= 67223 / 1000 * (q * q) * (1 + e24)).
  { apply up64; [rewrite Ew; unfold Rdiv; rewrite qq; nra|].
    apply Rle_trans with (bpow radix2 0); [apply bpow_le; lia|]. change (bpow radix2 0) with 1. nra. }
  assert (DM : rnd64 (R64 T / R64 W) < max64).
  { apply Rle_lt_trans with (bpow radix2 60); [|apply bpow_lt; lia].
    change (bpow radix2 60) with (1152921504606846976). nra. }
  destruct (f64_div_ok T W FT ltac:(lra)) as [ED FD]; [now rewrite Rabs_pos_eq|]. set (D := f64_div T W) in *. rewrite <- ED in D0, D1.
  (* sqrt *)
  destruct (f64_sqrt_ok D FD D0) as [ES FS]. set (s := f64_sqrt D) in *.
  assert (RD : 0 <= sqrt (R64 D) <= 82 / 10 * q).
  { split; [apply sqrt_pos|]. rewrite <- (sqrt_square (82 / 10 * q)) by lra. apply sqrt_le_1_alt. nra. }
  assert (s0 : 0 <= R64 s) by (rewrite ES, <- rnd64_0; apply rnd64_le; lra).
  assert (s1 : R64 s <= 82 / 10 * q * (1 + e24)).
  { rewrite ES. apply up64; [lra|]. apply Rle_trans with (bpow radix2 0); [apply bpow_le; lia|]. change (bpow radix2 0) with 1. nra. }
  (* float *)
  assert (m0 : 0 <= rnd32 (R64 s)) by (rewrite <- rnd32_0; apply rnd32_le; lra).
  assert (m1 : rnd32 (R64 s) <= 82 / 10 * q * (1 + e24) * (1 + e24)).
  { apply up32; [lra|]. apply Rle_trans with (bpow radix2 0); [apply bpow_le; lia|]. change (bpow radix2 0) with 1. nra. }
  assert (m2 : rnd32 (R64 s) <= 8201 / 1000 * q) by nra.
  destruct (f32_of_f64_ok s FS) as [EM FM].
  { rewrite Rabs_pos_eq by exact m0. apply Rle_lt_trans with (bpow radix2 60); [|apply bpow_lt; lia].
    change (bpow radix2 60) with (1152921504606846976). nra. }
  set (m := f32_of_f64 s) in *. rewrite <- EM in m0, m2.
  (* U * mult *)
  assert (U : Rabs (R32 u) <= sqrt (R32 w) * (1 + 4 * e24)).
  { rewrite <- (Rabs_pos_eq (sqrt (R32 w) * (1 + 4 * e24))) by nra. apply Rsqr_le_abs_0. unfold Rsqr.
    apply Rle_trans with (R32 w * (1 + 4 * e24)); [exact UW|]. rewrite <- SS at 1. nra. }
  assert (P : Rabs (R32 u * R32 m) <= 33 / 4).
  { rewrite Rabs_mult, (Rabs_pos_eq (R32 m)) by exact m0.
    apply Rle_trans with (sqrt (R32 w) * (1 + 4 * e24) * (8201 / 1000 * q)); [apply Rmult_le_compat; auto; apply Rabs_pos|].
    replace (sqrt (R32 w) * (1 + 4 * e24) * (8201 / 1000 * q)) with ((sqrt (R32 w) * q) * ((1 + 4 * e24) * (8201 / 1000))) by ring.
    unfold q. rewrite Rinv_r by lra. lra. }
  assert (G : rnd32 (33 / 4) = 33 / 4).
  { apply round_generic; [auto with typeclass_instances|]. apply generic_format_FLT. exists (Float radix2 33 (-2)); [|cbn; lia|cbn; lia].
    unfold F2R. cbn [Fnum Fexp]. change (bpow radix2 (-2)) with (/ 4). lra. }
  assert (X : Rabs (rnd32 (R32 u * R32 m)) <= 33 / 4) by (rewrite <- rnd32_abs; now apply rnd32_le_gen).
  assert (MX : 16 < max32) by (change 16 with (bpow radix2 4); apply bpow_lt; lia).
  destruct (f32_mul_ok u m Fu FM) as [E F]; [lra|]. split; [exact F|]. now rewrite E.
Qed.

(** * The calls *)
Lemma err32 x : Rabs (rnd32 x - x) <= e24 * Rabs x + bpow radix2 (-150).
Proof.
  destruct (error_N_FLT radix2 (-149) 24 eq_refl (fun n => negb (Z.even n)) x) as (e & t & He & Ht & _ & E).
  unfold rnd32. rewrite E. replace (x * (1 + e) + t - x) with (e * x + t) by ring.
  eapply Rle_trans; [apply Rabs_triang|]. rewrite Rabs_mult. apply Rplus_le_compat.
  - apply Rmult_le_compat_r; [apply Rabs_pos|]. eapply Rle_trans; [exact He|].
    rewrite bpow_plus. change (bpow radix2 1) with 2. change (- (24))%Z with (-24)%Z. unfold e24. lra.
  - eapply Rle_trans; [exact Ht|]. change (-150)%Z with (-1 + -149)%Z. rewrite bpow_plus. change (bpow radix2 (-1)) with (/ 2). lra.
Qed.

Definition near_mean (mu std r : binary32) : Prop :=
  fin32 r /\ Rabs (R32 r - R32 mu) <= 9 * Rabs (R32 std) + bpow radix2 (-24) * Rabs (R32 mu) + bpow radix2 (-148).
Definition params_ok (p : binary32 * binary32) : Prop :=
  fin32 (fst p) /\ fin32 (snd p) /\ Rabs (R32 (fst p)) + 9 * Rabs (R32 (snd p)) <= bpow radix2 127.

Lemma result_ok mu std x : params_ok (mu, std) -> sample x -> near_mean mu std (f32_add mu (f32_mul std x)).
Proof.
  intros (Fm & Fs & B) (Fx & X). cbn [fst snd] in *. pose proof e24_val as EV.
  set (a := Rabs (R32 mu)) in *. set (b := Rabs (R32 std)) in *.
  assert (A0 : 0 <= a) by apply Rabs_pos. assert (B0 : 0 <= b) by apply Rabs_pos.
  assert (h0 : 0 < bpow radix2 (-150)) by apply bpow_gt_0.
  assert (h1 : bpow radix2 (-148) = 4 * bpow radix2 (-150)) by (change (-148)%Z with (2 + -150)%Z; rewrite bpow_plus; reflexivity).
  assert (h2 : bpow radix2 (-150) <= 1) by (change 1 with (bpow radix2 0); apply bpow_le; lia).
  assert (h3 : 2 * bpow radix2 127 = max32) by (unfold max32; change 128%Z with (1 + 127)%Z; rewrite bpow_plus; reflexivity).
  assert (h4 : 1024 <= bpow radix2 127) by (change 1024 with (bpow radix2 10); apply bpow_le; lia).
  assert (P : Rabs (R32 std * R32 x) <= 33 / 4 * b).
  { rewrite Rabs_mult. fold b. rewrite Rmult_comm. apply Rmult_le_compat_r; auto. }
  pose proof (err32 (R32 std * R32 x)) as E1.
  assert (P' : Rabs (rnd32 (R32 std * R32 x)) <= 331 / 40 * b + bpow radix2 (-150)).
  { replace (rnd32 (R32 std * R32 x)) with ((rnd32 (R32 std * R32 x) - R32 std * R32 x) + R32 std * R32 x) by ring.
    eapply Rle_trans; [apply Rabs_triang|]. nra. }
  destruct (f32_mul_ok std x Fs Fx) as [Em Fp]; [lra|]. set (p := f32_mul std x) in *. rewrite <- Em in P'.
  pose proof (err32 (R32 mu + R32 p)) as E2.
  assert (S : Rabs (R32 mu + R32 p) <= a + (331 / 40 * b + bpow radix2 (-150))).
  { eapply Rle_trans; [apply Rabs_triang|]. fold a. lra. }
  assert (Q : Rabs (rnd32 (R32 mu + R32 p)) < max32).
  { replace (rnd32 (R32 mu + R32 p)) with ((rnd32 (R32 mu + R32 p) - (R32 mu + R32 p)) + (R32 mu + R32 p)) by ring.
    eapply Rle_lt_trans; [apply Rabs_triang|]. nra. }
  destruct (f32_add_ok mu p Fm Fp Q) as [Er Fr]. split; [exact Fr|]. rewrite Er.
  replace (rnd32 (R32 mu + R32 p) - R32 mu) with ((rnd32 (R32 mu + R32 p) - (R32 mu + R32 p)) + R32 p) by ring.
  eapply Rle_trans; [apply Rabs_triang|]. fold a b e24. rewrite h1. nra.
Qed.

Definition ngood (s : nstate) : Prop := n_call s = true -> sample (n_x2 s).
Definition draws (fuel : nat) sn lg (s : nstate) (now : Z) (s' : nstate) (x : binary32) : Prop :=
  forall mu std, random_normal fuel sn lg s now mu std = Ok (s', f32_add mu (f32_mul std x)).

Lemma normal_step fuel sn lg s now mu std s' r : random_normal fuel sn lg s now mu std = Ok (s', r) ->
  exists x, draws fuel sn lg s now s' x /\ (sine_like sn -> log_like lg -> ngood s -> sample x /\ ngood s').
Proof.
  unfold draws, random_normal. destruct (n_call s) eqn:C.
  - intros E. injection E as <- _. exists (n_x2 s). split; [reflexivity|]. intros _ _ G. split; [exact (G C)|]. intros X. discriminate.
  - destruct (draw _ _ _ _) as [[st [[u1 u2] w]]| | |] eqn:D; try discriminate. cbn [bind]. intros E. injection E as <- _.
    exists (f32_mul u1 (factor_of lg w)). split; [reflexivity|]. intros SL LL _.
    destruct (draw_ok _ _ SL _ _ _ _ _ _ D) as (C1 & C2 & (Fw & _ & _ & W1 & W2) & B).
    split; [now apply sample_ok|]. intros _. now apply sample_ok.
Qed.

Lemma normal_run_seq fuel sn lg now : forall ps s s' rs, normal_run fuel sn lg s now ps = Ok (s', rs) ->
  exists xs, length xs = length ps
  /\ (forall qs, length qs = length ps ->
        normal_run fuel sn lg s now qs = Ok (s', map (fun px => f32_add (fst (fst px)) (f32_mul (snd (fst px)) (snd px))) (combine qs xs)))
  /\ (sine_like sn -> log_like lg -> ngood s -> Forall sample xs).
Proof.
  induction ps as [|[mu std] ps IH]; intros s s' rs; cbn [normal_run].
  - intros E. injection E as <- _. exists nil. split; [reflexivity|]. split; [|intros; constructor].
    intros [|q qs] L; [reflexivity|discriminate].
  - destruct (random_normal _ _ _ _ _ _ _) as [[s1 r]| | |] eqn:R; try discriminate. cbn [bind fst snd].
    destruct (normal_run _ _ _ s1 _ _) as [[s2 rs']| | |] eqn:N; try discriminate. cbn [bind fst snd]. intros E. injection E as <- _.
    destruct (normal_step _ _ _ _ _ _ _ _ _ R) as (x & DX & GX). destruct (IH _ _ _ N) as (xs & L & Q & G).
    exists (x :: xs). split; [cbn; congruence|]. split.
    + intros [|[m d] qs] LQ; [discriminate|]. cbn [normal_run]. rewrite (DX m d). cbn [bind fst snd]. rewrite Q by (cbn in LQ; congruence). reflexivity.
    + intros SL LL GS. destruct (GX SL LL GS). constructor; auto.
Qed.

Lemma normal_run_near fuel sn lg now ps s' rs : sine_like sn -> log_like lg -> Forall params_ok ps ->
  normal_run fuel sn lg n_init now ps = Ok (s', rs) -> Forall2 (fun p r => near_mean (fst p) (snd p) r) ps rs.
Proof.
  intros SL LL FP N. destruct (normal_run_seq _ _ _ _ _ _ _ _ N) as (xs & L & Q & G).
  specialize (Q ps eq_refl). rewrite N in Q. injection Q as ->. specialize (G SL LL ltac:(discriminate)). clear N.
  revert xs L G. induction FP as [|[mu std] ps P FP IH]; intros [|x xs] L G; try discriminate; cbn [combine map]; constructor.
  - inversion G; subst. now apply result_ok.
  - inversion G; subst. apply IH; auto.
Qed.

Lemma no_deviation mu std x : fin32 mu -> fin32 std -> R32 std = 0 -> fin32 x -> R32 (f32_add mu (f32_mul std x)) = R32 mu.
Proof.
  intros Fm Fs Z Fx. assert (M : 0 < max32) by apply bpow_gt_0.
  destruct (f32_mul_ok std x Fs Fx) as [E F]; [rewrite Z, Rmult_0_l, rnd32_0, Rabs_R0; exact M|]. rewrite Z, Rmult_0_l, rnd32_0 in E.
  destruct (f32_add_ok mu (f32_mul std x) Fm F) as [E' _]; rewrite E, Rplus_0_r, rnd32_id in *; [apply lt32|exact E'].
Qed.

Lemma half_lt a b : 0 < b -> b < 2 * a -> / 2 < a * / b.
Proof.
  intros B H. apply Rmult_lt_reg_r with b; [exact B|]. rewrite Rmult_assoc, Rinv_l by lra. lra.
Qed.
(** For the example: a lower bound of the logarithm of 2. *)
Lemma ln2_gt : 69222 / 100000 < ln 2.
Proof.
  apply exp_lt_inv. rewrite exp_ln by lra.
  assert (E : exp (69222 / 100000) <= / (124831 / 125000) ^ 512).
  { replace (69222 / 100000) with (- - (69222 / 100000)) by ring. rewrite exp_Ropp.
    assert (X : (124831 / 125000) ^ 512 <= exp (- (69222 / 100000))).
    { apply Rle_trans with (exp (- (169 / 125000)) ^ 512).
      - apply pow_incr. split; [lra|]. pose proof (exp_ineq1_le (- (169 / 125000))). lra.
      - rewrite <- Rpower_pow by apply exp_pos. unfold Rpower. rewrite ln_exp. 
        replace (INR 512) with 512 by (rewrite INR_IZR_INZ; reflexivity).
        apply Rlt_le, exp_increasing. lra. }
    apply Rinv_le; [apply pow_lt; lra|exact X]. }
  eapply Rle_lt_trans; [exact E|].
  assert (P : 0 < (124831 / 125000) ^ 512) by (apply pow_lt; lra).
  assert (Q : / 2 < (124831 / 125000) ^ 512).
  { unfold Rdiv. rewrite Rpow_mult_distr, pow_inv, !pow_IZR.
    apply half_lt; [apply IZR_lt; vm_compute; reflexivity|].
    rewrite <- mult_IZR. apply IZR_lt. vm_compute. reflexivity. }
  rewrite <- (Rinv_inv 2). apply Rinv_lt_contravar; [nra|exact Q].
Qed.

(** An accepted pair: two successive coordinates with a square sum above 0 and below 1. *)
Lemma draw_pair fuel : forall sn st now st' u1 u2 w, draw fuel sn st now = Ok (st', (u1, u2, w)) ->
  exists sa sb, coordinate sn sa now = (sb, u1) /\ coordinate sn sb now = (st', u2) /\ w = norm2 u1 u2 /\
    f_ge w f32_1 = false /\ f_eq w (B754_zero 24 128 false) = false.
Proof.
  induction fuel as [|f IH]; intros sn st now st' u1 u2 w; [discriminate|]. cbn [draw].
  destruct (coordinate sn st now) as [sb a] eqn:E1. destruct (coordinate sn sb now) as [sc b] eqn:E2.
  destruct (f_ge (norm2 a b) f32_1 || f_eq (norm2 a b) (B754_zero 24 128 false)) eqn:G; [apply IH|].
  intros E. injection E as <- <- <- <-. apply orb_false_iff in G as [G1 G2]. exists st, sb. auto.
Qed.
