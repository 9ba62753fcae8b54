(** Proofs about FtextModel.v. *)
From Coq Require Import ZArith Bool Reals Lra Lia Psatz List.
From Flocq Require Import Core IEEE754.BinarySingleNaN IEEE754.Binary IEEE754.Bits Round_odd.
From Verif Require Import Base BaseFacts StrModel StrModel2 StrSpec StrProofs StrProofs2 NumModel NumProofs FtextModel.
Import ListNotations.
Open Scope R_scope.

(** ** Integer division to nearest *)
Lemma near_div_err n d : (0 < d)%Z -> (2 * Z.abs (near_div n d * d - n) <= d)%Z.
Proof.
  intros Hd. unfold near_div. pose proof (Z.div_mod n d ltac:(lia)) as E. pose proof (Z.mod_pos_bound n d Hd) as B.
  set (q := (n / d)%Z) in *. set (r := (n mod d)%Z) in *. clearbody q r. subst n.
  destruct (Z.ltb_spec (2 * r) d); [nia|]. destruct (Z.ltb_spec d (2 * r)); [nia|]. destruct (Z.even q); nia.
Qed.
Lemma near_div_exact k d : (0 < d)%Z -> near_div (k * d) d = k.
Proof.
  intros Hd. unfold near_div. rewrite Z.div_mul, Z.mod_mul by lia. replace (2 * 0 <? d)%Z with true by lia. reflexivity.
Qed.
Lemma near_div_nonneg n d : (0 <= n)%Z -> (0 < d)%Z -> (0 <= near_div n d)%Z.
Proof.
  intros Hn Hd. unfold near_div. pose proof (Z.div_pos n d Hn Hd).
  destruct (2 * _ <? d)%Z; [lia|]. destruct (d <? _)%Z; [lia|]. destruct (Z.even _); lia.
Qed.

(** ** The decimal text *)
Lemma six_ok r : (0 <= r < 1000000)%Z -> Forall digit (six r) /\ zlen (six r) = 6%Z /\
  forall q, dval q (six r) = (q * 1000000 + r)%Z.
Proof.
  intros H. unfold six. split; [repeat constructor; unfold digit; lia|]. split; [reflexivity|].
  intros q. cbn [dval]. lia.
Qed.
Lemma pow_16384_4940 : (2 ^ 16384 <=? 10 ^ Z.of_nat 4940)%Z = true.
Proof. vm_compute. reflexivity. Qed.
(** [n] millionths: the decimal text of the integer part, a dot, six digits. *)
Lemma fixed6_ok b n : (0 <= b <= 16384)%Z -> (0 <= n < 1000000 * 2 ^ b)%Z ->
  exists i f, fixed6 n = i ++ [46%Z] ++ f /\ decimal (n / 1000000) i /\ Forall digit f /\ zlen f = 6%Z /\
    dval 0 (i ++ f) = n.
Proof.
  intros Hb H.
  assert (Hq : (0 <= n / 1000000 < 10 ^ Z.of_nat 4940)%Z).
  { split; [apply Z.div_pos; lia|]. apply Z.lt_le_trans with (2 ^ b)%Z; [apply Z.div_lt_upper_bound; lia|].
    apply Z.le_trans with (2 ^ 16384)%Z; [apply Z.pow_le_mono_r; lia|]. exact (proj1 (Z.leb_le _ _) pow_16384_4940). }
  pose proof (dec_loop_ok 4939 (n / 1000000) Hq) as D. clear Hq.
  exists (dec_loop 4940 (n / 1000000) []), (six (n mod 1000000)). split; [reflexivity|].
  destruct (six_ok (n mod 1000000)) as (S1 & S2 & S3); [apply Z.mod_pos_bound; lia|].
  split; [exact D|]. split; [exact S1|]. split; [exact S2|].
  rewrite dval_app. destruct D as (_ & _ & -> & _). rewrite S3.
  pose proof (Z.div_mod n 1000000 ltac:(lia)). lia.
Qed.

(** ** Reading *)
Lemma split_digits_ok i r : Forall digit i -> (match r with c :: _ => is_digit c = false | [] => True end) ->
  split_digits (i ++ r) = (i, r).
Proof.
  intros F R. induction F as [|c i D F IH].
  - cbn [app]. destruct r as [|c r]; [reflexivity|]. cbn. rewrite R. reflexivity.
  - cbn [app split_digits]. unfold digit in D. replace (is_digit c) with true by (unfold is_digit; lia).
    rewrite IH. reflexivity.
Qed.

Section Fmt.
Context (prec emax : Z) {Hp : Prec_gt_0 prec} {Hm : Prec_lt_emax prec emax} (Hp1 : (1 < prec)%Z).
Local Notation rnd := (round radix2 (FLT_exp (3 - emax - prec) prec) ZnearestE).
Local Notation fin x := (is_finite prec emax x = true).
Local Notation R_ := (B2R prec emax).

Lemma fexp_eq : SpecFloat.fexp prec emax = FLT_exp (3 - emax - prec) prec.
Proof. reflexivity. Qed.

(** Cutting with a remainder bit is rounding to odd. *)
Lemma odd_ratio n d s : (0 <= n)%Z -> (0 < d)%Z -> (0 <= s)%Z ->
  F2R (Float radix2 (2 * (n * 2 ^ s / d) + (if n * 2 ^ s mod d =? 0 then 0 else 1)) (- (s + 1))) =
  round radix2 (FIX_exp (- (s + 1))) Zrnd_odd (IZR n / IZR d).
Proof.
  intros Hn Hd Hs. unfold round, scaled_mantissa, cexp, FIX_exp. f_equal. f_equal.
  set (k := (n * 2 ^ s)%Z). pose proof (Z.div_mod k d ltac:(lia)) as E. pose proof (Z.mod_pos_bound k d Hd) as B.
  set (q := (k / d)%Z) in *. set (r := (k mod d)%Z) in *.
  assert (D : 0 < IZR d) by (apply IZR_lt; lia).
  assert (Y : IZR n / IZR d * bpow radix2 (- - (s + 1)) = IZR (2 * q) + 2 * (IZR r / IZR d)).
  { rewrite Z.opp_involutive. rewrite <- IZR_Zpower by lia. change (Zaux.radix_val radix2) with 2%Z.
    apply (Rmult_eq_reg_r (IZR d)); [|lra]. field_simplify; [|lra|lra].
    rewrite <- !mult_IZR, <- plus_IZR. f_equal. rewrite Z.pow_add_r, Z.pow_1_r by lia. unfold k in E. nia. }
  rewrite Y. clearbody q r. clear Y.
  assert (Hr : 0 <= IZR r / IZR d < 1).
  { split; [apply Rle_mult_inv_pos; [apply IZR_le; lia|assumption]|].
    apply (Rmult_lt_reg_r (IZR d)); [assumption|]. unfold Rdiv. rewrite Rmult_assoc, Rinv_l, Rmult_1_r, Rmult_1_l by lra. apply IZR_lt. lia. }
  set (t := IZR r / IZR d) in *. assert (T : t * IZR d = IZR r) by (unfold t; field; lra).
  unfold Zrnd_odd. destruct (Z.eqb_spec r 0) as [->|Nr].
  - assert (t0 : t = 0) by (unfold t; lra). rewrite t0. rewrite Rmult_0_r, Rplus_0_r, Zfloor_IZR.
    destruct (Req_EM_T _ _); [lia|congruence].
  - assert (0 < t). { assert (0 < IZR r) by (apply IZR_lt; lia). apply (Rmult_lt_reg_r (IZR d)); [assumption|]. lra. }
    destruct (Rlt_le_dec (2 * t) 1) as [L|L].
    + assert (F : Zfloor (IZR (2 * q) + 2 * t) = (2 * q)%Z) by (apply Zfloor_imp; rewrite plus_IZR; lra).
      rewrite F. destruct (Req_EM_T _ _) as [Q|Q]; [exfalso; lra|].
      replace (Z.even (2 * q)) with true by (rewrite Z.even_mul; reflexivity).
      symmetry. apply Zceil_imp. rewrite minus_IZR, !plus_IZR. lra.
    + assert (F : Zfloor (IZR (2 * q) + 2 * t) = (2 * q + 1)%Z) by (apply Zfloor_imp; rewrite !plus_IZR; lra).
      rewrite F. destruct (Req_EM_T _ _) as [Q|Q]; [reflexivity|].
      replace (Z.even (2 * q + 1)) with false; [reflexivity|]. rewrite Z.even_add, Z.even_mul. reflexivity.
Qed.

(** [of_ratio] is the nearest float. *)
Lemma of_ratio_ok n d : (0 <= n)%Z -> (0 < d)%Z ->
  if Rlt_bool (rnd (IZR n / IZR d)) (bpow radix2 emax)
  then R_ (of_ratio prec emax Hp Hm n d) = rnd (IZR n / IZR d) /\ fin (of_ratio prec emax Hp Hm n d) /\
       Bsign prec emax (of_ratio prec emax Hp Hm n d) = false
  else of_ratio prec emax Hp Hm n d = B754_infinity prec emax false.
Proof.
  intros Hn Hd. assert (Hp0 : (0 < prec)%Z) by exact Hp. assert (Hm0 : (prec < emax)%Z) by exact Hm.
  assert (D : 0 < IZR d) by (apply IZR_lt; lia).
  assert (P : 0 <= IZR n / IZR d) by (apply Rle_mult_inv_pos; [apply IZR_le; lia|assumption]).
  unfold of_ratio. set (s := (emax + prec)%Z).
  set (m := (2 * (n * 2 ^ s / d) + (if n * 2 ^ s mod d =? 0 then 0 else 1))%Z).
  assert (E : round radix2 (FLT_exp (3 - emax - prec) prec) ZnearestE (F2R (Float radix2 m (- (s + 1)))) = rnd (IZR n / IZR d)).
  { unfold m. rewrite odd_ratio by lia. apply round_N_odd; auto with typeclass_instances.
    - intros e. unfold FIX_exp, FLT_exp, s. lia. }
  assert (Pm : 0 <= F2R (Float radix2 m (- (s + 1)))).
  { apply F2R_ge_0. cbn. unfold m. assert (0 <= n * 2 ^ s / d)%Z by (apply Z.div_pos; [nia|lia]). destruct (_ =? _)%Z; lia. }
  pose proof (binary_normalize_correct prec emax Hp Hm mode_NE m (- (s + 1)) false) as C.
  cbn [round_mode] in C. rewrite fexp_eq, E in C.
  assert (Pr : 0 <= rnd (IZR n / IZR d)).
  { rewrite <- (round_0 radix2 (FLT_exp (3 - emax - prec) prec) ZnearestE). apply round_le; auto with typeclass_instances. }
  rewrite Rabs_pos_eq in C by assumption.
  destruct (Rlt_bool _ _).
  - destruct C as (C1 & C2 & C3). split; [exact C1|]. split; [exact C2|]. rewrite C3.
    destruct (Rcompare_spec (F2R (Float radix2 m (- (s + 1)))) 0); try reflexivity. lra.
  - rewrite (Rlt_bool_false (F2R (Float radix2 m (- (s + 1)))) 0) in C by assumption. cbn in C.
    destruct (binary_normalize _ _ _ _ _ _ _ _) as [b|b|b pl e|b mm e e0]; try discriminate. now injection C as ->.
Qed.

(** Reading digits, with or without a dot; what follows a second dot is ignored. *)
Definition nearest (v : R) (x : binary_float prec emax) : Prop :=
  if Rlt_bool (rnd v) (bpow radix2 emax) then R_ x = rnd v /\ fin x /\ Bsign prec emax x = false
  else x = B754_infinity prec emax false.
Lemma digits_nonneg z : Forall digit z -> (0 <= dval 0 z)%Z.
Proof. intros F. apply dval_mono; [assumption|lia]. Qed.

Lemma strto_dot i f r : Forall digit i -> Forall digit f -> (r = [] \/ exists r', r = 46%Z :: r') ->
  strto_float prec emax Hp Hm (i ++ 46%Z :: f ++ r) = of_ratio prec emax Hp Hm (dval 0 (i ++ f)) (10 ^ zlen f).
Proof.
  intros Fi Ff Hr. unfold strto_float. rewrite split_digits_ok by (auto; reflexivity). cbn [fst].
  rewrite split_digits_ok; auto; [|destruct Hr as [->|[r' ->]]; reflexivity].
  cbn [fst]. rewrite digit_run_ok; [reflexivity|]. apply Forall_app. auto.
Qed.
Lemma numeric_dot i f r : Forall digit i -> Forall digit f -> forallb numch r = true ->
  forallb numch (i ++ 46%Z :: f ++ r) = true.
Proof.
  intros Fi Ff Hr. rewrite forallb_app. cbn [forallb]. rewrite forallb_app, !digits_numeric, Hr by assumption. reflexivity.
Qed.
Lemma read_dot i f r : Forall digit i -> Forall digit f -> (r = [] \/ exists r', r = 46%Z :: r') -> forallb numch r = true ->
  exists x, conv_str_to_float prec emax Hp Hm (i ++ 46%Z :: f ++ r) = Ok x /\
    nearest (IZR (dval 0 (i ++ f)) / IZR (10 ^ zlen f)) x.
Proof.
  intros Fi Ff Hr Nr. unfold conv_str_to_float. rewrite static_numeric, numeric_dot by assumption. cbn [bind negb].
  rewrite strto_dot by assumption. eexists. split; [reflexivity|]. apply of_ratio_ok.
  - apply digits_nonneg. apply Forall_app. auto.
  - apply Z.pow_pos_nonneg; [lia|]. apply zlen_nonneg.
Qed.
Lemma read_int i : Forall digit i ->
  exists x, conv_str_to_float prec emax Hp Hm i = Ok x /\ nearest (IZR (dval 0 i)) x.
Proof.
  intros Fi. unfold conv_str_to_float. rewrite static_numeric, digits_numeric by assumption. cbn [bind negb].
  assert (Hs : split_digits i = (i, [])) by (rewrite <- (app_nil_r i) at 1; apply split_digits_ok; auto).
  eexists. split; [reflexivity|]. unfold strto_float. rewrite Hs. cbn [fst]. rewrite app_nil_r, digit_run_ok by assumption.
  change (10 ^ zlen [])%Z with 1%Z. unfold nearest.
  replace (IZR (dval 0 i)) with (IZR (dval 0 i) / IZR 1) by field. apply of_ratio_ok; [|lia]. now apply digits_nonneg.
Qed.
Lemma read_other z : forallb numch z = false -> conv_str_to_float prec emax Hp Hm z = Ok (B754_zero prec emax false).
Proof. intros H. unfold conv_str_to_float. rewrite static_numeric, H. reflexivity. Qed.

(** ** Printing *)
(** The number of millionths printed. *)
Definition printed (x : binary_float prec emax) : Z :=
  match x with B754_finite _ _ _ m e _ => millionths (Zpos m) e | _ => 0%Z end.

Lemma pow2_IZR e : (0 <= e)%Z -> IZR (2 ^ e) = bpow radix2 e.
Proof. intros H. rewrite <- IZR_Zpower by assumption. reflexivity. Qed.

Lemma printed_err x : fin x -> Rabs (IZR (printed x) / 1000000 - Rabs (R_ x)) <= / 2000000.
Proof.
  intros F. destruct x as [s|s|s pl e|s m e B]; try discriminate; cbn [printed].
  - cbn [B2R]. rewrite Rabs_R0. replace (0 / 1000000 - 0) with 0 by lra. rewrite Rabs_R0. lra.
  - assert (E : Rabs (B2R prec emax (B754_finite prec emax s m e B)) = IZR (Zpos m) * bpow radix2 e).
    { cbn [B2R]. unfold F2R. cbn [Fnum Fexp]. rewrite Rabs_mult, (Rabs_pos_eq (bpow radix2 e)) by apply bpow_ge_0.
      f_equal. rewrite <- abs_IZR, abs_cond_Zopp. reflexivity. }
    rewrite E. unfold millionths. destruct (Z.leb_spec 0 e) as [He|He].
    + rewrite !mult_IZR, pow2_IZR by assumption.
      replace (_ / _ - _) with 0 by field. rewrite Rabs_R0. lra.
    + pose proof (near_div_err (Zpos m * 1000000) (2 ^ (- e)) ltac:(apply Z.pow_pos_nonneg; lia)) as N.
      set (n := near_div _ _) in *. clearbody n.
      assert (P : 0 < bpow radix2 e) by apply bpow_gt_0.
      apply IZR_le in N. rewrite mult_IZR, abs_IZR, minus_IZR, !mult_IZR, pow2_IZR in N by lia.
      rewrite bpow_opp in N. set (b := bpow radix2 e) in *. set (M := IZR (Zpos m)) in *.
      assert (0 < / b) by (apply Rinv_0_lt_compat; assumption).
      replace (IZR n / 1000000 - M * b) with ((IZR n * / b - M * 1000000) * (b / 1000000)) by (field; lra).
      rewrite Rabs_mult, (Rabs_pos_eq (b / 1000000)) by (apply Rle_mult_inv_pos; lra).
      apply (Rmult_le_compat_r (b / 2000000)) in N; [|apply Rle_mult_inv_pos; lra].
      replace (/ b * (b / 2000000)) with (/ 2000000) in N by (field; lra).
      eapply Rle_trans; [|exact N]. right. field.
Qed.

(** A number of millionths is printed exactly. *)
Lemma printed_exact x k : fin x -> Rabs (R_ x) = IZR k / 1000000 -> printed x = k.
Proof.
  intros F. destruct x as [s|s|s pl e|s m e B]; try discriminate; cbn [printed].
  - cbn [B2R]. rewrite Rabs_R0. intros H. assert (IZR k = 0) by lra. symmetry. now apply eq_IZR.
  - assert (E : Rabs (B2R prec emax (B754_finite prec emax s m e B)) = IZR (Zpos m) * bpow radix2 e).
    { cbn [B2R]. unfold F2R. cbn [Fnum Fexp]. rewrite Rabs_mult, (Rabs_pos_eq (bpow radix2 e)) by apply bpow_ge_0.
      f_equal. rewrite <- abs_IZR, abs_cond_Zopp. reflexivity. }
    rewrite E. clear E. intros H. unfold millionths. destruct (Z.leb_spec 0 e) as [He|He].
    + apply eq_IZR. rewrite !mult_IZR, pow2_IZR by assumption. lra.
    + assert (K : (Zpos m * 1000000 = k * 2 ^ (- e))%Z).
      { apply eq_IZR. rewrite !mult_IZR, pow2_IZR, bpow_opp by lia.
        assert (P : 0 < bpow radix2 e) by apply bpow_gt_0. set (b := bpow radix2 e) in *.
        apply (Rmult_eq_reg_r (b / 1000000)); [|apply Rgt_not_eq; apply Rdiv_lt_0_compat; lra].
        replace (IZR k * / b * (b / 1000000)) with (IZR k / 1000000) by (field; lra). rewrite <- H. field. }
      rewrite K. apply near_div_exact. apply Z.pow_pos_nonneg; lia.
Qed.

Lemma printed_range x : fin x -> (0 <= printed x < 1000000 * 2 ^ emax)%Z.
Proof.
  intros F. split.
  - destruct x as [s|s|s pl e|s m e B]; try discriminate F; cbn [printed]; [lia|]. unfold millionths.
    destruct (Z.leb_spec 0 e); [|apply near_div_nonneg; [lia|apply Z.pow_pos_nonneg; lia]].
    assert (0 < 2 ^ e)%Z by (apply Z.pow_pos_nonneg; lia). nia.
  - assert (Hm0 : (prec < emax)%Z) by exact Hm. assert (Hp0 : (0 < prec)%Z) by exact Hp.
    destruct (Z.le_gt_cases (printed x) 999999) as [S|S].
    { assert (0 < 2 ^ emax)%Z by (apply Z.pow_pos_nonneg; lia). lia. }
    apply lt_IZR. rewrite mult_IZR, pow2_IZR by lia.
    pose proof (printed_err x F) as N. apply Rabs_le_inv in N.
    pose proof (abs_B2R_lt_emax prec emax x) as L.
    (* the exact case: x is an integer number of units of its last place *)
    destruct x as [s|s|s pl e|s m e B]; try discriminate F; cbn [printed] in *; [lia|].
    unfold millionths in *. destruct (Z.leb_spec 0 e) as [E0|E0].
    + rewrite !mult_IZR, pow2_IZR by assumption.
      assert (E : Rabs (B2R prec emax (B754_finite prec emax s m e B)) = IZR (Zpos m) * bpow radix2 e).
      { cbn [B2R]. unfold F2R. cbn [Fnum Fexp]. rewrite Rabs_mult, (Rabs_pos_eq (bpow radix2 e)) by apply bpow_ge_0.
        f_equal. rewrite <- abs_IZR, abs_cond_Zopp. reflexivity. }
      rewrite E in L. lra.
    + (* e < 0: x < 2^prec *)
      assert (E : Rabs (B2R prec emax (B754_finite prec emax s m e B)) <= bpow radix2 (emax - 1)).
      { cbn [B2R]. unfold F2R. cbn [Fnum Fexp]. rewrite Rabs_mult, (Rabs_pos_eq (bpow radix2 e)) by apply bpow_ge_0.
        rewrite <- abs_IZR, abs_cond_Zopp. cbn [Z.abs].
        assert (Bm : (Zpos m < 2 ^ prec)%Z).
        { pose proof B as B0. unfold SpecFloat.bounded, bounded in B0. apply andb_prop in B0 as [B0 _]. unfold SpecFloat.canonical_mantissa in B0. apply Zeq_bool_eq in B0.
          rewrite Digits.Zpos_digits2_pos in B0. unfold SpecFloat.fexp in B0.
          pose proof (Digits.Zdigits_correct radix2 (Zpos m)) as [_ ZD]. change (Zaux.radix_val radix2) with 2%Z in ZD. rewrite Z.abs_eq in ZD by lia.
          eapply Z.lt_le_trans; [exact ZD|]. apply Z.pow_le_mono_r; [lia|]. lia. }
        apply IZR_lt in Bm. rewrite pow2_IZR in Bm by lia.
        apply Rle_trans with (bpow radix2 prec * bpow radix2 (-1)).
        - apply Rmult_le_compat; [apply IZR_le; lia|apply bpow_ge_0|lra|apply bpow_le; lia].
        - rewrite <- bpow_plus. apply bpow_le. lia. }
      assert (bpow radix2 emax = 2 * bpow radix2 (emax - 1)).
      { replace emax with (1 + (emax - 1))%Z at 1 by lia. rewrite bpow_plus. reflexivity. }
      assert (1 <= bpow radix2 (emax - 1)) by (apply (bpow_le radix2 0); lia). lra.
Qed.

Lemma emax_range : (emax <= 16384)%Z -> (0 <= emax <= 16384)%Z.
Proof. intros He. assert (Hm0 : (prec < emax)%Z) by exact Hm. assert (Hp0 : (0 < prec)%Z) by exact Hp. lia. Qed.
Lemma fmt_finite x : fin x -> fmt_float x = minus (Bsign prec emax x) ++ fixed6 (printed x).
Proof. destruct x; try discriminate; reflexivity. Qed.

(** What is printed: a minus sign for negative numbers (and -0), the integer part
    without leading zeros, a dot, six digits; the nearest number of millionths. *)
Lemma fmt_ok6 x : fin x -> (emax <= 16384)%Z ->
  exists i f, fmt_float x = minus (Bsign prec emax x) ++ i ++ [46%Z] ++ f /\
    decimal (dval 0 i) i /\ Forall digit f /\ zlen f = 6%Z /\
    Rabs (IZR (dval 0 (i ++ f)) / 1000000 - Rabs (R_ x)) <= / 2000000.
Proof.
  intros F He. destruct (fixed6_ok emax (printed x) (emax_range He) (printed_range x F)) as (i & f & E & D & Ff & Lf & V).
  exists i, f. rewrite fmt_finite by assumption. rewrite E. split; [reflexivity|]. split.
  { destruct D as (D1 & D2 & D3 & D4). rewrite D3. repeat split; auto. }
  split; [assumption|]. split; [assumption|]. rewrite V. now apply printed_err.
Qed.

Lemma fmt_oks (x : binary_float prec emax) : (emax <= 16384)%Z -> oks (fmt_float x).
Proof.
  intros He. assert (Hs : forall s, oks (minus s)) by (intros []; repeat constructor; unfold okc; lia).
  destruct (is_finite prec emax x) eqn:F.
  - destruct (fmt_ok6 x F He) as (i & f & -> & (D & _) & Ff & _). unfold oks in *. rewrite !Forall_app.
    split; [apply Hs|]. split; [now apply digits_oks|]. split; [repeat constructor; unfold okc; lia|now apply digits_oks].
  - destruct x; try discriminate; cbn [fmt_float]; apply Forall_app; (split; [apply Hs|repeat constructor; unfold okc; lia]).
Qed.
Lemma float_to_str_ok buf buf_len (x : binary_float prec emax) : (emax <= 16384)%Z -> (buf_len <= zlen buf)%Z ->
  (zlen (fmt_float x) + 1 <= buf_len)%Z ->
  exists buf', conv_float_to_str buf buf_len x = Ok buf' /\ cstr buf' = Ok (fmt_float x) /\ zlen buf' = zlen buf /\
    skipn (length (fmt_float x) + 1) buf' = skipn (length (fmt_float x) + 1) buf.
Proof.
  intros He Hb Hl. unfold conv_float_to_str. rewrite enforce_true by lia. cbn [bind].
  pose proof (fmt_oks x He) as D. set (z := fmt_float x) in *.
  pose proof (zlen_nonneg z). assert (zlen (zblk z) = zlen z + 1)%Z as Lz by (unfold zblk; autorewrite with zlen; unfold zlen; cbn [length]; lia).
  unfold bwrite. replace (_ && _) with true by lia. cbn [bind]. rewrite enforce_true by lia. cbn [bind].
  change (Z.to_nat 0) with 0%nat. cbn [firstn app Nat.add]. eexists. split; [reflexivity|].
  assert (length (zblk z) = length z + 1)%nat as Lz' by (unfold zblk; rewrite app_length, map_length; reflexivity).
  split; [|split].
  - now apply cstr_zblk.
  - unfold zlen in *. rewrite app_length, skipn_length. lia.
  - rewrite Lz'. rewrite skipn_app. rewrite skipn_all2 by lia. rewrite Lz'. rewrite Nat.sub_diag. reflexivity.
Qed.
Lemma float_to_str_small buf buf_len (x : binary_float prec emax) :
  (buf_len <= zlen (fmt_float x))%Z -> conv_float_to_str buf buf_len x = Abort.
Proof. intros H. unfold conv_float_to_str, enforce. replace (_ <=? buf_len)%Z with false by lia. reflexivity. Qed.

(** ** Round trip *)
Lemma flt_valid : Valid_exp (FLT_exp (3 - emax - prec) prec).
Proof. apply FLT_exp_valid. exact Hp. Qed.
Lemma gen_B2R (x : binary_float prec emax) : generic_format radix2 (FLT_exp (3 - emax - prec) prec) (R_ x).
Proof. apply (generic_format_B2R prec emax x). Qed.

(** Reading what was printed. *)
Lemma read_printed x : fin x -> (emax <= 16384)%Z -> Bsign prec emax x = false ->
  exists y, conv_str_to_float prec emax Hp Hm (fmt_float x) = Ok y /\ nearest (IZR (printed x) / 1000000) y.
Proof.
  intros F He S. destruct (fixed6_ok emax (printed x) (emax_range He) (printed_range x F)) as (i & f & E & D & Ff & Lf & V).
  rewrite fmt_finite, S, E by assumption. cbn [minus app].
  destruct (read_dot i f []) as (y & Ey & Ny); auto; [apply D|]. rewrite app_nil_r in Ey. exists y. split; [exact Ey|].
  rewrite V, Lf in Ny. exact Ny.
Qed.

Lemma same_float x y : fin x -> Bsign prec emax x = false -> (if Rlt_bool (R_ x) (bpow radix2 emax) then R_ y = R_ x /\ fin y /\ Bsign prec emax y = false else y = B754_infinity prec emax false) -> y = x.
Proof.
  intros F S. rewrite Rlt_bool_true.
  - intros (H & Fy & Sy). apply B2R_Bsign_inj; congruence.
  - eapply Rle_lt_trans; [apply Rle_abs|]. apply abs_B2R_lt_emax.
Qed.

(** Numbers that are whole numbers of millionths. *)
Lemma round_trip_exact x k : fin x -> (emax <= 16384)%Z -> Bsign prec emax x = false ->
  R_ x = IZR k / 1000000 -> conv_str_to_float prec emax Hp Hm (fmt_float x) = Ok x.
Proof.
  intros F He S H. destruct (read_printed x F He S) as (y & -> & N). f_equal.
  assert (P : 0 <= R_ x).
  { destruct x as [s|s|s pl e|s m e B]; try discriminate; cbn in S; subst s; cbn [B2R]; [lra|]. apply F2R_ge_0. cbn. lia. }
  rewrite (printed_exact x k) in N by (auto; rewrite Rabs_pos_eq; auto).
  unfold nearest in N. rewrite <- H, round_generic in N by (auto using gen_B2R with typeclass_instances).
  now apply same_float.
Qed.

(** Numbers so large that the units of their last place are above a millionth. *)
Lemma round_trip_large x : fin x -> (20 <= prec)%Z -> (emax <= 16384)%Z ->
  bpow radix2 (prec - 20) <= R_ x -> conv_str_to_float prec emax Hp Hm (fmt_float x) = Ok x.
Proof.
  intros F Hp20 He H. pose proof flt_valid as FV.
  assert (P : 0 < R_ x) by (pose proof (bpow_gt_0 radix2 (prec - 20)); lra).
  assert (S : Bsign prec emax x = false).
  { destruct x as [s|s|s pl e|[] m e B]; try discriminate; auto; cbn [B2R] in P; [lra|].
    exfalso. assert (F2R (Float radix2 (Zneg m) e) < 0) by (apply F2R_lt_0; cbn; lia). change (cond_Zopp true (Zpos m)) with (Zneg m) in P. lra. }
  assert (Hmag : (prec - 19 <= mag radix2 (R_ x))%Z).
  { assert (prec - 20 < mag radix2 (R_ x))%Z; [|lia]. apply mag_gt_bpow. rewrite Rabs_pos_eq; lra. }
  assert (Hm0 : (prec < emax)%Z) by exact Hm. assert (Hp0 : (0 < prec)%Z) by exact Hp.
  destruct (Req_dec (R_ x) (bpow radix2 (mag radix2 (R_ x) - 1))) as [E|E].
  - (* a power of two *)
    apply (round_trip_exact x (2 ^ (mag radix2 (R_ x) - 1) * 1000000)); auto.
    rewrite mult_IZR, pow2_IZR by lia. rewrite <- E. field.
  - destruct (read_printed x F He S) as (y & -> & N). f_equal.
    pose proof (printed_err x F) as PE. rewrite (Rabs_pos_eq (R_ x)) in PE by lra. apply Rabs_le_inv in PE.
    set (v := IZR (printed x) / 1000000) in *.
    assert (U : bpow radix2 (-19) <= ulp radix2 (FLT_exp (3 - emax - prec) prec) (R_ x)).
    { rewrite ulp_neq_0 by lra. apply bpow_le. unfold cexp, FLT_exp. lia. }
    change (bpow radix2 (-19)) with (/ 524288) in U.
    assert (rnd v = R_ x).
    { apply Rle_antisym.
      - apply round_N_le_midp; [auto|apply gen_B2R|]. rewrite succ_eq_pos by lra. lra.
      - apply round_N_ge_midp; [auto|apply gen_B2R|]. rewrite pred_eq_pos by lra. unfold pred_pos.
        rewrite Req_bool_false by assumption. lra. }
    unfold nearest in N. rewrite H0 in N. now apply same_float.
Qed.

(** All others come back within a millionth. *)
Lemma round_trip_near x : fin x -> (20 <= prec)%Z -> (emax <= 16384)%Z -> Bsign prec emax x = false ->
  exists y, conv_str_to_float prec emax Hp Hm (fmt_float x) = Ok y /\ fin y /\ Rabs (R_ y - R_ x) <= / 1000000.
Proof.
  intros F Hp20 He S. pose proof flt_valid as FV.
  assert (P : 0 <= R_ x).
  { destruct x as [s|s|s pl e|s m e B]; try discriminate; cbn in S; subst s; cbn [B2R]; [lra|]. apply F2R_ge_0. cbn. lia. }
  destruct (Rle_lt_dec (bpow radix2 (prec - 20)) (R_ x)) as [L|L].
  - rewrite round_trip_large by assumption. exists x. split; [reflexivity|]. split; [assumption|].
    unfold Rminus. rewrite Rplus_opp_r, Rabs_R0. lra.
  - destruct (read_printed x F He S) as (y & -> & N). exists y. split; [reflexivity|].
    pose proof (printed_err x F) as PE. rewrite (Rabs_pos_eq (R_ x)) in PE by lra.
    set (v := IZR (printed x) / 1000000) in *.
    destruct (round_N_pt radix2 (FLT_exp (3 - emax - prec) prec) (fun n => negb (Z.even n)) v) as [_ NP].
    specialize (NP (R_ x) (gen_B2R x)). rewrite (Rabs_minus_sym (R_ x) v) in NP.
    assert (C : Rabs (rnd v - R_ x) <= / 1000000).
    { apply Rabs_le_inv in PE. assert (NP' : Rabs (rnd v - v) <= / 2000000).
      { eapply Rle_trans; [exact NP|]. apply Rabs_le. lra. }
      apply Rabs_le_inv in NP'. apply Rabs_le. lra. }
    assert (Hm0 : (prec < emax)%Z) by exact Hm.
    assert (B : rnd v < bpow radix2 emax).
    { apply Rabs_le_inv in C. assert (bpow radix2 emax = 2 * bpow radix2 (emax - 1)).
      { replace emax with (1 + (emax - 1))%Z at 1 by lia. rewrite bpow_plus. reflexivity. }
      assert (1 <= bpow radix2 (emax - 1)) by (apply (bpow_le radix2 0); lia).
      assert (bpow radix2 (prec - 20) <= bpow radix2 (emax - 1)) by (apply bpow_le; lia). lra. }
    unfold nearest in N. rewrite Rlt_bool_true in N by assumption. destruct N as (-> & Fy & _). auto.
Qed.

(** Negative numbers, infinities and NaNs do not come back. *)
Lemma negative_zero x : Bsign prec emax x = true \/ is_finite prec emax x = false ->
  conv_str_to_float prec emax Hp Hm (fmt_float x) = Ok (B754_zero prec emax false).
Proof.
  intros H. apply read_other.
  destruct x as [s|s|s pl e|s m e B]; cbn in H; destruct s; destruct H as [H|H]; try discriminate; reflexivity.
Qed.
End Fmt.
