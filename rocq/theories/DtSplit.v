(** The decomposition of a difference into days, hours, minutes and seconds in single
    precision (vt_datetime_diff): rounding errors and the ranges of the fields. *)
From Coq Require Import ZArith Reals Lia Lra Psatz Bool.
From Flocq Require Import Core IEEE754.BinarySingleNaN IEEE754.Binary IEEE754.Bits.
From Verif Require Import Base BaseFacts NumModel FloatModel FloatFacts RandProofs NormProofs DtModel.
Open Scope R_scope.

Local Instance prec24d : Prec_gt_0 24 := eq_refl.

Notation fmt32 := (generic_format radix2 (FLT_exp (-149) 24)).

(** Conversions. *)
Lemma f32_to_Z_ok x : f32_to_Z x = Ztrunc (R32 x).
Proof.
  destruct x as [s|s|s pl H|s m e H]; try (symmetry; apply (Ztrunc_IZR 0)).
  cbn [f32_to_Z]. unfold R32. cbn [B2R]. unfold F2R. cbn [Fnum Fexp].
  assert (P : (if 0 <=? e then Z.pos m * 2 ^ e else Z.pos m / 2 ^ (- e))%Z = Ztrunc (IZR (Z.pos m) * bpow radix2 e)).
  { rewrite Ztrunc_floor by (apply Rmult_le_pos; [apply IZR_le; lia|apply bpow_ge_0]).
    destruct (Z.leb_spec 0 e) as [L|L].
    - rewrite <- IZR_Zpower by exact L. rewrite <- mult_IZR, Zfloor_IZR. reflexivity.
    - replace (bpow radix2 e) with (/ IZR (2 ^ (- e))).
      + change (IZR (Z.pos m) * / IZR (2 ^ (- e))) with (IZR (Z.pos m) / IZR (2 ^ (- e))).
        rewrite Zfloor_div by lia. reflexivity.
      + change 2%Z with (radix_val radix2). rewrite IZR_Zpower by lia. rewrite <- bpow_opp. f_equal. lia. }
  rewrite P. destruct s; cbn [cond_Zopp]; [|reflexivity].
  change (Z.neg m) with (- Z.pos m)%Z. rewrite opp_IZR, Ropp_mult_distr_l_reverse, Ztrunc_opp. reflexivity.
Qed.

Lemma f32_of_Z_ok z : (Z.abs z <= 2 ^ 24)%Z -> R32 (f32_of_Z z) = IZR z /\ fin32 (f32_of_Z z).
Proof.
  intros Hz.
  assert (G : rnd32 (IZR z) = IZR z).
  { destruct (Z.le_gt_cases 0 z); [apply rnd32_int; lia|].
    replace z with (- (- z))%Z by lia. rewrite opp_IZR, rnd32_opp, rnd32_int by lia. reflexivity. }
  pose proof (binary_normalize_correct 24 128 eq_refl eq_refl mode_NE z 0 false) as C.
  replace (F2R {| Fnum := z; Fexp := 0 |}) with (IZR z) in C by (unfold F2R; cbn; ring).
  rewrite fexp32 in C. change (round_mode mode_NE) with ZnearestE in C. fold (rnd32 (IZR z)) in C. rewrite G in C.
  rewrite Rlt_bool_true in C.
  - destruct C as (C1 & C2 & _). split; assumption.
  - apply Rle_lt_trans with (IZR (2 ^ 24)); [rewrite <- abs_IZR; apply IZR_le; exact Hz|].
    change (2 ^ 24)%Z with (Zpower radix2 24). rewrite IZR_Zpower by lia. apply bpow_lt. lia.
Qed.

(** The fraction of a float is a float. *)
Lemma frac_fmt x : fmt32 x -> 0 <= x -> fmt32 (x - IZR (Zfloor x)).
Proof.
  intros F P. apply FLT_format_generic in F; [|exact prec24d]. destruct F as [[m e] E Hm He]. cbn [Fnum Fexp] in *.
  unfold F2R in E. cbn [Fnum Fexp] in E.
  destruct (Z.le_gt_cases 0 e) as [L|L].
  - rewrite E, <- IZR_Zpower by exact L. rewrite <- mult_IZR, Zfloor_IZR, Rminus_diag_eq by reflexivity. apply generic_format_0.
  - set (k := (Zfloor x * 2 ^ (- e))%Z).
    assert (K : IZR (Zfloor x) = IZR k * bpow radix2 e).
    { unfold k. rewrite mult_IZR. change 2%Z with (radix_val radix2). rewrite IZR_Zpower by lia.
      rewrite Rmult_assoc, <- bpow_plus. replace (- e + e)%Z with 0%Z by lia. cbn. ring. }
    assert (D : x - IZR (Zfloor x) = F2R (Float radix2 (m - k) e)).
    { unfold F2R. cbn [Fnum Fexp]. rewrite minus_IZR, E at 1. rewrite K. ring. }
    rewrite D. apply generic_format_FLT. exists (Float radix2 (m - k) e); [reflexivity| |exact He]. cbn [Fnum].
    assert (0 <= IZR (m - k)) as A1.
    { apply Rmult_le_reg_r with (bpow radix2 e); [apply bpow_gt_0|]. rewrite Rmult_0_l.
      change (IZR (m - k) * bpow radix2 e) with (F2R (Float radix2 (m - k) e)). rewrite <- D. pose proof (Zfloor_lb x). lra. }
    apply le_IZR in A1.
    assert (0 <= IZR k) as A2.
    { apply Rmult_le_reg_r with (bpow radix2 e); [apply bpow_gt_0|]. rewrite Rmult_0_l, <- K. apply IZR_le. apply Zfloor_lub. exact P. }
    apply le_IZR in A2. change (Zpower radix2 24) with 16777216%Z in *. lia.
Qed.

Lemma fmt_rnd x : fmt32 (rnd32 x).
Proof. apply generic_format_round; [apply FLT_exp_valid; reflexivity|apply valid_rnd_N]. Qed.
Lemma rnd_fmt x : fmt32 x -> rnd32 x = x.
Proof. intros H. apply round_generic; [apply valid_rnd_N|exact H]. Qed.

(** A float below 1 is at most 1 - 2^-24. *)
Lemma below_1 t : fmt32 t -> t < 1 -> t <= 1 - e24.
Proof.
  intros F L. assert (F1 : fmt32 1) by (rewrite <- rnd32_1; apply fmt_rnd).
  assert (H : t <= pred radix2 (FLT_exp (-149) 24) 1) by (apply pred_ge_gt; auto; apply FLT_exp_valid; reflexivity).
  change 1 with (bpow radix2 0) in H. rewrite pred_bpow in H. exact H.
Qed.

Lemma nearest u x : fmt32 u -> Rabs (rnd32 x - x) <= Rabs (u - x).
Proof. intros F. apply (round_N_pt radix2 (FLT_exp (-149) 24) (fun n => negb (Z.even n)) x). exact F. Qed.

(** One step of the decomposition: multiply a fraction by 24 or 60, keep the fraction. *)
Lemma scale_lt c t : (c = 24 \/ c = 60)%Z -> fmt32 t -> 0 <= t < 1 -> 0 <= rnd32 (t * IZR c) < IZR c.
Proof.
  intros Hc F [P L]. apply below_1 in L; [|exact F].
  assert (Hc0 : 0 <= IZR c) by (destruct Hc; subst c; lra).
  split; [rewrite <- rnd32_0; apply rnd32_le; apply Rmult_le_pos; assumption|].
  assert (M : rnd32 (t * IZR c) <= rnd32 (IZR c - IZR c * e24)) by (apply rnd32_le; nra).
  eapply Rle_lt_trans; [exact M|]. unfold e24. rewrite b24.
  destruct Hc; subst c.
  - assert (U : fmt32 (24 - / 524288)).
    { apply generic_format_FLT. exists (Float radix2 12582911 (-19)); [unfold F2R; cbn [Fnum Fexp]; change (bpow radix2 (-19)) with (/ 524288); lra|cbn; lia|cbn; lia]. }
    pose proof (nearest _ (24 - 24 * / 16777216) U) as N.
    rewrite (Rabs_left (24 - / 524288 - _)) in N by lra.
    apply Rabs_le_inv in N. lra.
  - assert (U : fmt32 (60 - / 262144)).
    { apply generic_format_FLT. exists (Float radix2 15728639 (-18)); [unfold F2R; cbn [Fnum Fexp]; change (bpow radix2 (-18)) with (/ 262144); lra|cbn; lia|cbn; lia]. }
    pose proof (nearest _ (60 - 60 * / 16777216) U) as N.
    rewrite (Rabs_left (60 - / 262144 - _)) in N by lra.
    apply Rabs_le_inv in N. lra.
Qed.

Lemma tiny150 : bpow radix2 (-150) <= / 1000000000.
Proof. apply Rle_trans with (bpow radix2 (-30)); [apply bpow_le; lia|]. change (bpow radix2 (-30)) with (/ 1073741824). lra. Qed.

Lemma step_real c t : (c = 24 \/ c = 60)%Z -> fmt32 t -> 0 <= t < 1 ->
  let g := rnd32 (t * IZR c) in let n := Zfloor g in let t' := rnd32 (g - IZR n) in
  (0 <= n < c)%Z /\ fmt32 t' /\ 0 <= t' < 1 /\ Rabs (IZR n + t' - t * IZR c) <= / 100000.
Proof.
  intros Hc F H. pose proof (scale_lt c t Hc F H) as [G0 G1]. intros g n t'.
  assert (T : t' = g - IZR n) by (apply rnd_fmt, frac_fmt; [apply fmt_rnd|exact G0]).
  pose proof (Zfloor_lb g) as B1. pose proof (Zfloor_ub g) as B2. fold n in B1, B2.
  split; [split|split; [apply fmt_rnd|split; [rewrite T; split; lra|]]].
  - apply Zfloor_lub. exact G0.
  - apply lt_IZR. unfold g in *. lra.
  - rewrite T. replace (IZR n + (g - IZR n) - t * IZR c) with (g - t * IZR c) by ring. unfold g.
    eapply Rle_trans; [apply err32|]. rewrite Rabs_pos_eq by (apply Rmult_le_pos; [tauto|destruct Hc; subst c; lra]).
    pose proof tiny150. pose proof e24_val.
    assert (t * IZR c <= 60) by (destruct Hc; subst c; lra).
    assert (e24 * (t * IZR c) <= / 16777216 * 60) by (apply Rmult_le_compat; try lra; apply Rmult_le_pos; [tauto|destruct Hc; subst c; lra]).
    lra.
Qed.

(** * The floats compute the real function *)
Definition rstep (x : R) (c : Z) : R := rnd32 (rnd32 (x - IZR (Ztrunc x)) * IZR c).
Definition fstep (x : binary32) (c : Z) : binary32 := f32_mul (f32_sub x (f32_of_Z (f32_to_Z x))) (f32_of_Z c).

Lemma big : IZR (2 ^ 24) < max32.
Proof. change (2 ^ 24)%Z with (Zpower radix2 24). rewrite IZR_Zpower by lia. apply bpow_lt. lia. Qed.
Lemma trunc_near x : Rabs (x - IZR (Ztrunc x)) < 1.
Proof.
  destruct (Rle_or_lt 0 x) as [P|N].
  - rewrite Ztrunc_floor by exact P. pose proof (Zfloor_lb x). pose proof (Zfloor_ub x). rewrite Rabs_pos_eq; lra.
  - rewrite Ztrunc_ceil by lra. pose proof (Zceil_ub x). unfold Zceil in *. rewrite opp_IZR in *. pose proof (Zfloor_lb (- x)). pose proof (Zfloor_ub (- x)). rewrite Rabs_left1; lra.
Qed.
Lemma trunc_abs x b : Rabs x <= IZR b -> (Z.abs (Ztrunc x) <= b)%Z.
Proof.
  intros H. rewrite <- Ztrunc_abs. apply le_IZR. rewrite Ztrunc_floor by apply Rabs_pos. pose proof (Zfloor_lb (Rabs x)). lra.
Qed.
Lemma rnd_abs_le x b : (0 <= b <= 2 ^ 24)%Z -> Rabs x <= IZR b -> Rabs (rnd32 x) <= IZR b.
Proof. intros Hb H. rewrite <- rnd32_abs. rewrite <- (rnd32_int b) by exact Hb. apply rnd32_le. exact H. Qed.

Lemma fstep_ok x c : fin32 x -> Rabs (R32 x) <= IZR (2 ^ 23) -> (c = 24 \/ c = 60)%Z ->
  fin32 (fstep x c) /\ R32 (fstep x c) = rstep (R32 x) c /\ Rabs (R32 (fstep x c)) <= IZR c.
Proof.
  intros Fx B Hc. unfold fstep. rewrite f32_to_Z_ok.
  pose proof (trunc_abs _ _ B) as BZ.
  destruct (f32_of_Z_ok (Ztrunc (R32 x))) as [En Fn]; [lia|].
  destruct (f32_of_Z_ok c) as [Ec Fc]; [destruct Hc; subst c; lia|].
  assert (Hc2 : (0 <= c <= 2 ^ 24)%Z) by (destruct Hc; subst c; lia).
  assert (B1 : Rabs (rnd32 (R32 x - IZR (Ztrunc (R32 x)))) <= 1) by (apply (rnd_abs_le _ 1); [lia|left; apply trunc_near]).
  pose proof big as BG. assert (B24 : 60 <= IZR (2 ^ 24)) by (apply IZR_le; lia).
  assert (Bc : IZR c <= 60) by (destruct Hc; subst c; lra).
  destruct (f32_sub_ok x (f32_of_Z (Ztrunc (R32 x))) Fx Fn) as [Es Fs]; [rewrite En; lra|]. rewrite En in Es.
  assert (B2 : Rabs (rnd32 (rnd32 (R32 x - IZR (Ztrunc (R32 x))) * IZR c)) <= IZR c).
  { apply rnd_abs_le; [exact Hc2|]. rewrite Rabs_mult, (Rabs_pos_eq (IZR c)) by (apply IZR_le; lia).
    rewrite <- (Rmult_1_l (IZR c)) at 2. apply Rmult_le_compat_r; [apply IZR_le; lia|exact B1]. }
  destruct (f32_mul_ok _ (f32_of_Z c) Fs Fc) as [Em Fm]; [rewrite Es, Ec; lra|]. rewrite Es, Ec in Em.
  split; [exact Fm|]. split; [exact Em|rewrite Em; exact B2].
Qed.

(** The quotient and the three products. *)
Definition rq (d : R) : R := rnd32 (d / 86400).
Definition rh (d : R) : R := rstep (rq d) 24.
Definition rm (d : R) : R := rstep (rh d) 60.
Definition rs (d : R) : R := rstep (rm d) 60.

Lemma quot_ok x d : fin32 x -> R32 x = d -> Rabs d <= 2147483648 ->
  let q := f32_div x (f32_of_Z 86400) in fin32 q /\ R32 q = rq d /\ Rabs (R32 q) <= IZR (2 ^ 15).
Proof.
  intros Fx Ex B q. destruct (f32_of_Z_ok 86400) as [E8 F8]; [lia|].
  assert (Bq : Rabs (rnd32 (d / 86400)) <= IZR (2 ^ 15)).
  { apply rnd_abs_le; [lia|]. change (IZR (2 ^ 15)) with 32768. unfold Rdiv. rewrite Rabs_mult, (Rabs_pos_eq (/ 86400)) by lra. lra. }
  pose proof big. assert (IZR (2 ^ 15) <= IZR (2 ^ 24)) by (apply IZR_le; lia).
  destruct (f32_div_ok x (f32_of_Z 86400) Fx) as [Eq Fq]; [rewrite E8; lra|rewrite E8, Ex; lra|]. rewrite E8, Ex in Eq.
  fold q in Eq, Fq. split; [exact Fq|]. split; [exact Eq|rewrite Eq; exact Bq].
Qed.

Lemma split_ok z d : fin32 (f32_of_Z z) -> R32 (f32_of_Z z) = d -> Rabs d <= 2147483648 ->
  split_secs z = mk_vdt 0 0 (i16 (Ztrunc (rq d))) (i16 (Ztrunc (rh d))) (i16 (Ztrunc (rm d))) (i16 (Ztrunc (rs d))) 0 0.
Proof.
  intros F E B. destruct (quot_ok _ _ F E B) as (Fq & Eq & Bq). unfold split_secs.
  set (q := f32_div (f32_of_Z z) (f32_of_Z 86400)) in *. cbv zeta.
  fold (fstep q 24). fold (fstep (fstep q 24) 60). fold (fstep (fstep (fstep q 24) 60) 60).
  assert (I : IZR (2 ^ 15) <= IZR (2 ^ 23) /\ 60 <= IZR (2 ^ 23)) by (split; apply IZR_le; lia).
  destruct (fstep_ok q 24 Fq) as (Fh & Eh & Bh); [lra|left; reflexivity|].
  destruct (fstep_ok _ 60 Fh) as (Fm & Em & Bm); [change (IZR 24) with 24 in Bh; lra|right; reflexivity|].
  destruct (fstep_ok _ 60 Fm) as (Fs & Es & Bs); [change (IZR 60) with 60 in Bm; lra|right; reflexivity|].
  rewrite !f32_to_Z_ok, Es, Em, Eh, Eq. reflexivity.
Qed.

(** * Signs *)
Lemma rstep_opp x c : rstep (- x) c = - rstep x c.
Proof.
  unfold rstep. rewrite Ztrunc_opp, opp_IZR. replace (- x - - IZR (Ztrunc x)) with (- (x - IZR (Ztrunc x))) by ring.
  rewrite rnd32_opp, Ropp_mult_distr_l_reverse, rnd32_opp. reflexivity.
Qed.
Lemma rq_opp d : rq (- d) = - rq d.
Proof. unfold rq. replace (- d / 86400) with (- (d / 86400)) by field. apply rnd32_opp. Qed.
Lemma rh_opp d : rh (- d) = - rh d.
Proof. unfold rh. rewrite rq_opp. apply rstep_opp. Qed.
Lemma rm_opp d : rm (- d) = - rm d.
Proof. unfold rm. rewrite rh_opp. apply rstep_opp. Qed.
Lemma rs_opp d : rs (- d) = - rs d.
Proof. unfold rs. rewrite rm_opp. apply rstep_opp. Qed.

(** * Error of the decomposition *)
Lemma split_real z : (0 <= z <= 15552000)%Z -> let d := IZR z in
  (0 <= Ztrunc (rq d) <= 180)%Z /\ (0 <= Ztrunc (rh d) < 24)%Z /\ (0 <= Ztrunc (rm d) < 60)%Z /\ (0 <= Ztrunc (rs d) < 60)%Z /\
  (z - 1 <= Ztrunc (rq d) * 86400 + Ztrunc (rh d) * 3600 + Ztrunc (rm d) * 60 + Ztrunc (rs d) <= z)%Z.
Proof.
  intros Hz d. assert (Hd : 0 <= d <= 15552000) by (split; apply IZR_le; lia).
  assert (Q0 : 0 <= rq d) by (unfold rq; rewrite <- rnd32_0; apply rnd32_le; lra).
  assert (Q1 : rq d <= 180) by (unfold rq; rewrite <- (rnd32_int 180) by lia; apply rnd32_le; lra).
  assert (QE : Rabs (rq d - d / 86400) <= / 16777216 * 180 + / 1000000000).
  { unfold rq. eapply Rle_trans; [apply err32|]. apply Rplus_le_compat; [|apply tiny150].
    apply Rmult_le_compat; [pose proof e24_val; lra|apply Rabs_pos|pose proof e24_val; lra|rewrite Rabs_pos_eq; lra]. }
  assert (TQ : Ztrunc (rq d) = Zfloor (rq d)) by (apply Ztrunc_floor; exact Q0).
  set (D := Zfloor (rq d)) in *.
  set (t0 := rnd32 (rq d - IZR D)).
  assert (T0 : t0 = rq d - IZR D) by (apply rnd_fmt, frac_fmt; [apply fmt_rnd|exact Q0]).
  pose proof (Zfloor_lb (rq d)) as LB. pose proof (Zfloor_ub (rq d)) as UB. fold D in LB, UB.
  assert (H0 : 0 <= t0 < 1) by (rewrite T0; split; lra).
  assert (Rh : rh d = rnd32 (t0 * 24)) by (unfold rh, rstep; rewrite TQ; reflexivity).
  destruct (step_real 24 t0 (or_introl eq_refl) (fmt_rnd _) H0) as (NH & Ft1 & H1 & E1). rewrite <- Rh in *.
  assert (TH : Ztrunc (rh d) = Zfloor (rh d)) by (apply Ztrunc_floor; rewrite Rh; apply (scale_lt 24 t0 (or_introl eq_refl) (fmt_rnd _) H0)).
  set (H := Zfloor (rh d)) in *. set (t1 := rnd32 (rh d - IZR H)) in *.
  assert (Rm : rm d = rnd32 (t1 * 60)) by (unfold rm, rstep; rewrite TH; reflexivity).
  destruct (step_real 60 t1 (or_intror eq_refl) (fmt_rnd _) H1) as (NM & Ft2 & H2 & E2). rewrite <- Rm in *.
  assert (TM : Ztrunc (rm d) = Zfloor (rm d)) by (apply Ztrunc_floor; rewrite Rm; apply (scale_lt 60 t1 (or_intror eq_refl) (fmt_rnd _) H1)).
  set (M := Zfloor (rm d)) in *. set (t2 := rnd32 (rm d - IZR M)) in *.
  assert (Rs : rs d = rnd32 (t2 * 60)) by (unfold rs, rstep; rewrite TM; reflexivity).
  destruct (step_real 60 t2 (or_intror eq_refl) (fmt_rnd _) H2) as (NS & Ft3 & H3 & E3). rewrite <- Rs in *.
  assert (TS : Ztrunc (rs d) = Zfloor (rs d)) by (apply Ztrunc_floor; rewrite Rs; apply (scale_lt 60 t2 (or_intror eq_refl) (fmt_rnd _) H2)).
  set (S := Zfloor (rs d)) in *. set (t3 := rnd32 (rs d - IZR S)) in *.
  rewrite TQ, TH, TM, TS.
  split; [split; [apply Zfloor_lub; exact Q0|apply le_IZR; lra]|]. split; [exact NH|]. split; [exact NM|]. split; [exact NS|].
  apply Rabs_le_inv in QE, E1, E2, E3. rewrite T0 in E1.
  set (T := (D * 86400 + H * 3600 + M * 60 + S)%Z).
  assert (ET : IZR T = IZR D * 86400 + IZR H * 3600 + IZR M * 60 + IZR S) by (unfold T; rewrite !plus_IZR, !mult_IZR; reflexivity).
  assert (A : -1 < d - IZR T < 2) by (rewrite ET; lra).
  unfold d in A. rewrite <- minus_IZR in A. destruct A as [A1 A2]. apply lt_IZR in A1, A2. lia.
Qed.

Open Scope Z_scope.
Lemma i16_val z : -32768 <= z < 32768 -> i16 z = z.
Proof. intros H. unfold i16, to_signed. change (2 ^ 16) with 65536. change (2 ^ (16 - 1)) with 32768. destruct (Z.ltb_spec (z mod 65536) 32768) as [L|L]; Z.to_euclidean_division_equations; lia. Qed.

(** The seconds counted by the fields of a difference. *)
Definition total (v : vdt) : Z := month_day v * 86400 + hour v * 3600 + minute v * 60 + second v.

Lemma split_bound d : Z.abs d <= 15552000 ->
  let v := split_secs d in
  (0 <= Z.sgn d * month_day v <= 180 /\ 0 <= Z.sgn d * hour v < 24 /\ 0 <= Z.sgn d * minute v < 60 /\ 0 <= Z.sgn d * second v < 60) /\
  (d = 0 -> v = mk_vdt 0 0 0 0 0 0 0 0) /\
  (total v = d \/ total v = d - Z.sgn d).
Proof.
  intros Hd v. destruct (f32_of_Z_ok d) as [E F]; [lia|].
  assert (EV : v = mk_vdt 0 0 (i16 (Ztrunc (rq (IZR d)))) (i16 (Ztrunc (rh (IZR d)))) (i16 (Ztrunc (rm (IZR d)))) (i16 (Ztrunc (rs (IZR d)))) 0 0).
  { apply split_ok; [exact F|exact E|]. rewrite <- abs_IZR. apply (IZR_le _ 2147483648). lia. }
  split; [|split].
  3: unfold total.
  2: { intros ->. unfold v. vm_compute. reflexivity. }
  all: destruct (Z.lt_trichotomy d 0) as [N|[->|P]].
  2: { rewrite EV. cbn [month_day hour minute second Z.sgn]. lia. }
  4: { left. unfold v. vm_compute. reflexivity. }
  all: pose proof (split_real (Z.abs d)) as Q; cbv zeta in Q; destruct Q as (QD & QH & QM & QS & QT); [lia|].
  1, 3: replace (Z.abs d) with (- d) in * by lia; rewrite opp_IZR in QD, QH, QM, QS, QT; rewrite rq_opp in QD, QT; rewrite rh_opp in QH, QT; rewrite rm_opp in QM, QT; rewrite rs_opp in QS, QT; rewrite !Ztrunc_opp in QT; rewrite Ztrunc_opp in QD, QH, QM, QS.
  3, 4: rewrite Z.abs_eq in * by lia.
  all: rewrite EV; cbn [month_day hour minute second]; rewrite !i16_val by lia.
  1, 2: rewrite Z.sgn_neg by lia; lia.
  all: rewrite Z.sgn_pos by lia; lia.
Qed.

Lemma rstep_int n c : rstep (IZR n) c = 0%R.
Proof. unfold rstep. rewrite Ztrunc_IZR, Rminus_diag_eq, rnd32_0, Rmult_0_l, rnd32_0 by reflexivity. reflexivity. Qed.

Lemma split_days k : Z.abs k <= 24855 -> split_secs (86400 * k) = mk_vdt 0 0 k 0 0 0 0 0.
Proof.
  intros Hk.
  assert (G : rnd32 (IZR (86400 * k)) = IZR (86400 * k)).
  { apply rnd_fmt. apply generic_format_FLT. exists (Float radix2 (675 * k) 7).
    - unfold F2R. cbn [Fnum Fexp]. change (bpow radix2 7) with 128%R. rewrite <- mult_IZR. f_equal. lia.
    - cbn [Fnum]. change (Zpower radix2 24) with 16777216. lia.
    - cbn. lia. }
  pose proof (binary_normalize_correct 24 128 eq_refl eq_refl mode_NE (86400 * k) 0 false) as C.
  replace (F2R {| Fnum := 86400 * k; Fexp := 0 |}) with (IZR (86400 * k)) in C by (unfold F2R; cbn [Fnum Fexp bpow]; ring).
  rewrite fexp32 in C. change (round_mode mode_NE) with ZnearestE in C. fold (rnd32 (IZR (86400 * k))) in C. rewrite G in C.
  assert (B : (Rabs (IZR (86400 * k)) <= 2147483648)%R) by (rewrite <- abs_IZR; apply (IZR_le _ 2147483648); lia).
  rewrite Rlt_bool_true in C.
  2: { eapply Rle_lt_trans; [exact B|]. change 2147483648%R with (IZR (Zpower radix2 31)). rewrite IZR_Zpower by lia. apply bpow_lt. lia. }
  destruct C as (C1 & C2 & _).
  rewrite (split_ok (86400 * k) (IZR (86400 * k)) C2 C1 B).
  assert (Q : rq (IZR (86400 * k)) = IZR k).
  { unfold rq. replace (IZR (86400 * k) / 86400)%R with (IZR k) by (rewrite mult_IZR; field).
    destruct (Z.le_gt_cases 0 k); [apply rnd32_int; lia|].
    replace k with (- - k) by lia. rewrite opp_IZR, rnd32_opp, rnd32_int by lia. reflexivity. }
  unfold rs, rm, rh. rewrite Q, !rstep_int, !Ztrunc_IZR, !i16_val by lia. reflexivity.
Qed.

(** * vt_datetime_diff *)
Lemma diff_bound off a b : let d := diff_secs off a b in let v := dt_diff off a b in
  Z.abs d <= 180 * 86400 ->
  (0 <= Z.sgn d * month_day v <= 180 /\ 0 <= Z.sgn d * hour v < 24 /\ 0 <= Z.sgn d * minute v < 60 /\ 0 <= Z.sgn d * second v < 60) /\
  (d = 0 -> v = mk_vdt 0 0 0 0 0 0 0 0) /\
  (month_day v * 86400 + hour v * 3600 + minute v * 60 + second v = d \/
   month_day v * 86400 + hour v * 3600 + minute v * 60 + second v = d - Z.sgn d).
Proof.
  unfold dt_diff. cbv zeta. generalize (diff_secs off a b). intros d H. fold (total (split_secs d)).
  apply split_bound. lia.
Qed.
Lemma diff_days_exact off a b k : Z.abs k <= 24855 -> diff_secs off a b = 86400 * k -> dt_diff off a b = mk_vdt 0 0 k 0 0 0 0 0.
Proof. intros H E. unfold dt_diff. rewrite E. apply split_days. exact H. Qed.
