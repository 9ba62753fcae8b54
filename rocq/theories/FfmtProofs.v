(** Proofs about the floating conversions of FmtModel.v. *)
From Coq Require Import ZArith Bool Reals Lra Lia Psatz List.
From Flocq Require Import Core IEEE754.BinarySingleNaN IEEE754.Binary IEEE754.Bits Round_odd.
From Verif Require Import Base BaseFacts StrModel StrModel2 StrSpec StrProofs StrProofs2 NumModel NumProofs FtextModel FtextProofs FmtModel FmtProofs.
Import ListNotations.
Open Scope R_scope.

(** ** Rounding *)
Lemma near_div_NE n d : (0 < d)%Z -> near_div n d = ZnearestE (IZR n / IZR d).
Proof.
  intros Hd. unfold near_div, Znearest. rewrite Zfloor_div by lia.
  pose proof (Z.div_mod n d ltac:(lia)) as E. pose proof (Z.mod_pos_bound n d Hd) as B.
  assert (D : 0 < IZR d) by now apply IZR_lt.
  assert (F : IZR n / IZR d - IZR (n / d) = IZR (n mod d) / IZR d).
  { rewrite E at 1. rewrite plus_IZR, mult_IZR. field. lra. }
  assert (C : (n mod d <> 0)%Z -> Zceil (IZR n / IZR d) = (n / d + 1)%Z).
  { intros N. rewrite Zceil_floor_neq; rewrite Zfloor_div by lia; [reflexivity|]. intros K. apply N. apply eq_IZR. rewrite <- K in F.
    replace (IZR (n / d) - IZR (n / d)) with 0 in F by ring. apply (Rmult_eq_reg_r (/ IZR d)); [|apply Rinv_neq_0_compat; lra]. unfold Rdiv in F. rewrite <- F. ring. }
  rewrite F. destruct (Rcompare_spec (IZR (n mod d) / IZR d) (/ 2)) as [L|L|L].
  - replace (2 * (n mod d) <? d)%Z with true; [reflexivity|]. symmetry. apply Z.ltb_lt. apply lt_IZR. rewrite mult_IZR. apply (Rmult_lt_compat_r (2 * IZR d)) in L; [|lra]. replace (IZR (n mod d) / IZR d * (2 * IZR d)) with (2 * IZR (n mod d)) in L by (field; lra). lra.
  - assert (2 * (n mod d) = d)%Z. { apply eq_IZR. rewrite mult_IZR. apply (f_equal (fun v => v * (2 * IZR d))) in L. replace (IZR (n mod d) / IZR d * (2 * IZR d)) with (2 * IZR (n mod d)) in L by (field; lra). lra. }
    replace (2 * (n mod d) <? d)%Z with false by lia. replace (d <? 2 * (n mod d))%Z with false by lia. rewrite C by lia. destruct (Z.even (n / d)); reflexivity.
  - assert (d < 2 * (n mod d))%Z. { apply lt_IZR. rewrite mult_IZR. apply (Rmult_lt_compat_r (2 * IZR d)) in L; [|lra]. replace (IZR (n mod d) / IZR d * (2 * IZR d)) with (2 * IZR (n mod d)) in L by (field; lra). lra. }
    replace (2 * (n mod d) <? d)%Z with false by lia. replace (d <? 2 * (n mod d))%Z with true by lia. rewrite C by lia. reflexivity.
Qed.
(** The number printed, in units of the last place. *)
Definition units {prec emax} (p : Z) (x : binary_float prec emax) : Z :=
  match x with B754_finite _ _ _ m e _ => scaled p (Zpos m) e | _ => 0%Z end.
Lemma units_NE {prec emax} p (x : binary_float prec emax) : (0 <= p)%Z -> is_finite prec emax x = true ->
  units p x = ZnearestE (Rabs (B2R prec emax x) * IZR (10 ^ p)).
Proof.
  intros P F. destruct x as [s|s|s pl e|s m e B]; try discriminate; cbn [units].
  - cbn [B2R]. rewrite Rabs_R0, Rmult_0_l. change 0 with (IZR 0). now rewrite Znearest_imp with (n := 0%Z) by (rewrite Rminus_0_r, Rabs_R0; lra).
  - assert (E : Rabs (B2R prec emax (B754_finite prec emax s m e B)) = IZR (Zpos m) * bpow radix2 e).
    { cbn [B2R]. unfold F2R. cbn [Fnum Fexp]. rewrite Rabs_mult, (Rabs_pos_eq (bpow radix2 e)) by apply bpow_ge_0. f_equal. rewrite <- abs_IZR, abs_cond_Zopp. reflexivity. }
    rewrite E. unfold scaled. destruct (Z.leb_spec 0 e) as [He|He].
    + symmetry. replace (IZR (Zpos m) * bpow radix2 e * IZR (10 ^ p)) with (IZR (Zpos m * 2 ^ e * 10 ^ p)); [|rewrite !mult_IZR, pow2_IZR by assumption; reflexivity].
      apply (@Zrnd_IZR ZnearestE). apply valid_rnd_N.
    + rewrite near_div_NE by (apply Z.pow_pos_nonneg; lia). f_equal. rewrite mult_IZR, pow2_IZR, bpow_opp by lia. pose proof (bpow_gt_0 radix2 e). field. lra.
Qed.
Lemma units_nonneg {prec emax} p (x : binary_float prec emax) : (0 <= p)%Z -> (0 <= units p x)%Z.
Proof.
  intros P. destruct x as [s|s|s pl e|s m e B]; cbn [units]; try lia. unfold scaled.
  assert (0 < 10 ^ p)%Z by (apply Z.pow_pos_nonneg; lia).
  destruct (Z.leb_spec 0 e); [assert (0 < 2 ^ e)%Z by (apply Z.pow_pos_nonneg; lia); nia|]. apply near_div_nonneg; [nia|apply Z.pow_pos_nonneg; lia].
Qed.

(** ** Digits *)
Lemma places_app k : forall r acc, places k r acc = places k r [] ++ acc.
Proof. induction k as [|k IH]; intros r acc; [reflexivity|]. cbn [places]. rewrite IH, (IH _ [_]), <- app_assoc. reflexivity. Qed.
Lemma places_ok k : forall r, (0 <= r < 10 ^ Z.of_nat k)%Z -> Forall digit (places k r []) /\ length (places k r []) = k /\ forall q, dval q (places k r []) = (q * 10 ^ Z.of_nat k + r)%Z.
Proof.
  induction k as [|k IH]; intros r H.
  - cbn in H. split; [constructor|]. split; [reflexivity|]. intros q. cbn. lia.
  - rewrite Nat2Z.inj_succ, Z.pow_succ_r in * by lia. cbn [places]. rewrite places_app.
    destruct (IH (r / 10)%Z) as (A & B & C); [split; [apply Z.div_pos; lia|apply Z.div_lt_upper_bound; lia]|].
    pose proof (Z.mod_pos_bound r 10 ltac:(lia)). split; [apply Forall_app; split; [exact A|constructor; [unfold digit; lia|constructor]]|].
    split; [rewrite app_length, B; cbn; lia|]. intros q. rewrite dval_app, C. cbn [dval]. pose proof (Z.div_mod r 10 ltac:(lia)). lia.
Qed.
Lemma fixed_text_ok p n : (0 <= p)%Z -> (0 <= n)%Z ->
  exists i f, fixed_text p n = i ++ (if (p =? 0)%Z then [] else 46%Z :: f) /\ decimal (n / 10 ^ p) i /\ Forall digit f /\ zlen f = p /\ dval 0 (i ++ f) = n.
Proof.
  intros P N. assert (T : (0 < 10 ^ p)%Z) by (apply Z.pow_pos_nonneg; lia).
  exists (digits_of (S (Z.to_nat (Z.log2 n))) 10 false (n / 10 ^ p) []), (places (Z.to_nat p) (n mod 10 ^ p) []).
  destruct (places_ok (Z.to_nat p) (n mod 10 ^ p)) as (A & B & C); [rewrite Z2Nat.id by lia; apply Z.mod_pos_bound; lia|]. rewrite Z2Nat.id in C by lia.
  assert (Q : (0 <= n / 10 ^ p < 10 ^ Z.of_nat (S (Z.to_nat (Z.log2 n))))%Z).
  { split; [apply Z.div_pos; lia|]. rewrite Nat2Z.inj_succ, Z2Nat.id by apply Z.log2_nonneg. apply Z.le_lt_trans with n; [apply Z.div_le_upper_bound; nia|].
    destruct (Z.eq_dec n 0) as [->|N0]; [reflexivity|]. pose proof (Z.log2_spec n ltac:(lia)) as [_ L]. pose proof (Z.log2_nonneg n). eapply Z.lt_le_trans; [exact L|]. apply Z.pow_le_mono_l. lia. }
  assert (D : decimal (n / 10 ^ p) (digits_of (S (Z.to_nat (Z.log2 n))) 10 false (n / 10 ^ p) [])).
  { rewrite (digits_dec _ (S (Z.to_nat (Z.log2 n)))) by (try lia; apply Q). apply dec_loop_ok. exact Q. }
  split; [reflexivity|]. split; [exact D|]. split; [exact A|]. split; [unfold zlen; rewrite B; lia|].
  rewrite dval_app. destruct D as (_ & _ & -> & _). rewrite C. pose proof (Z.div_mod n (10 ^ p) ltac:(lia)). lia.
Qed.
Lemma body_finite {prec emax} up p (x : binary_float prec emax) : is_finite prec emax x = true -> body_text up p x = fixed_text p (units p x).
Proof. destruct x; try discriminate; reflexivity. Qed.

(** ** Reading back *)
Section Back.
Context (prec emax : Z) {Hp : Prec_gt_0 prec} {Hm : Prec_lt_emax prec emax} (Hp1 : (1 < prec)%Z).
Local Notation fexp := (FLT_exp (3 - emax - prec) prec).
Local Notation rnd := (round radix2 fexp ZnearestE).
Local Notation R_ := (B2R prec emax).
Lemma read_fixed p n : (0 <= p)%Z -> (0 <= n)%Z ->
  exists y, conv_str_to_float prec emax Hp Hm (fixed_text p n) = Ok y /\ nearest prec emax (IZR n / IZR (10 ^ p)) y.
Proof.
  intros P N. destruct (fixed_text_ok p n P N) as (i & f & -> & (Di & _) & Ff & Lf & V). destruct (Z.eqb_spec p 0) as [->|P0].
  - rewrite app_nil_r. destruct f; [|unfold zlen in Lf; cbn in Lf; lia]. rewrite app_nil_r in V.
    destruct (read_int prec emax Hp1 i Di) as (y & E & K). exists y. split; [exact E|]. rewrite V in K. replace (IZR n / IZR (10 ^ 0)) with (IZR n); [exact K|]. change (10 ^ 0)%Z with 1%Z. field.
  - destruct (read_dot prec emax Hp1 i f [] Di Ff (or_introl eq_refl) eq_refl) as (y & E & K). rewrite app_nil_r in E. exists y. split; [exact E|]. now rewrite V, Lf in K.
Qed.
(** The units of the last place of x are more than twice those printed. *)
Lemma back_near (x : binary_float prec emax) v p : is_finite prec emax x = true -> 0 < R_ x -> 2 * / IZR (10 ^ p) < ulp radix2 fexp (R_ x) -> Rabs (v - R_ x) <= / 2 * / IZR (10 ^ p) -> rnd v = R_ x.
Proof.
  intros F P U V. pose proof (flt_valid prec emax) as FV. apply Rabs_le_inv in V. set (t := / IZR (10 ^ p)) in *. clearbody t.
  apply Rle_antisym.
  - apply round_N_le_midp; [exact FV|apply gen_B2R|]. rewrite succ_eq_pos by lra. lra.
  - apply round_N_ge_midp; [exact FV|apply gen_B2R|]. rewrite pred_eq_pos by lra. unfold pred_pos. destruct (Req_bool_spec (R_ x) (bpow radix2 (mag radix2 (R_ x) - 1))) as [E|E]; [|lra].
    assert (K : ulp radix2 fexp (R_ x) <= 2 * bpow radix2 (fexp (mag radix2 (R_ x) - 1))).
    { rewrite ulp_neq_0 by lra. replace (2 * bpow radix2 (fexp (mag radix2 (R_ x) - 1))) with (bpow radix2 (1 + fexp (mag radix2 (R_ x) - 1))) by (rewrite bpow_plus; reflexivity). apply bpow_le. unfold cexp, FLT_exp. lia. }
    lra.
Qed.
Lemma back (x : binary_float prec emax) {prec' emax'} (x' : binary_float prec' emax') p up : (0 <= p)%Z -> is_finite prec emax x = true -> Bsign prec emax x = false ->
  is_finite prec' emax' x' = true -> B2R prec' emax' x' = R_ x ->
  2 * / IZR (10 ^ p) < ulp radix2 fexp (R_ x) ->
  conv_str_to_float prec emax Hp Hm (body_text up p x') = Ok x.
Proof.
  intros P F S F' E U. rewrite body_finite by exact F'. assert (T : (0 < 10 ^ p)%Z) by (apply Z.pow_pos_nonneg; lia). apply IZR_lt in T.
  assert (R0 : 0 <= R_ x) by (destruct x as [s|s|s pl e|s m e B]; try discriminate; cbn in S; subst s; cbn [B2R]; [lra|]; apply F2R_ge_0; cbn; lia).
  pose proof (units_NE p x' P F') as N. rewrite E, (Rabs_pos_eq _ R0) in N.
  destruct (read_fixed p (units p x') P (units_nonneg p x' P)) as (y & -> & K). f_equal. rewrite N in K.
  assert (V : rnd (IZR (ZnearestE (R_ x * IZR (10 ^ p))) / IZR (10 ^ p)) = R_ x).
  { destruct (Rle_lt_or_eq_dec 0 (R_ x) R0) as [R1|R1].
    - apply (back_near x _ p); trivial. pose proof (Znearest_half (fun t => negb (Z.even t)) (R_ x * IZR (10 ^ p))) as H. fold ZnearestE in H.
      replace (IZR (ZnearestE (R_ x * IZR (10 ^ p))) / IZR (10 ^ p) - R_ x) with (- (R_ x * IZR (10 ^ p) - IZR (ZnearestE (R_ x * IZR (10 ^ p)))) * / IZR (10 ^ p)) by (field; lra).
      rewrite Rabs_mult, Rabs_Ropp, (Rabs_pos_eq (/ IZR (10 ^ p))) by (left; now apply Rinv_0_lt_compat). apply Rmult_le_compat_r; [left; now apply Rinv_0_lt_compat|exact H].
    - rewrite <- R1, Rmult_0_l. rewrite Znearest_imp with (n := 0%Z) by (rewrite Rminus_0_r, Rabs_R0; lra). unfold Rdiv. rewrite Rmult_0_l. apply round_0. apply valid_rnd_N. }
  unfold nearest in K. rewrite V in K. now apply (same_float prec emax).
Qed.
End Back.

(** ** The texts of formats *)
Section Text.
Open Scope Z_scope.
Lemma places6 r : places 6 r [] = six r.
Proof. cbn [places]. unfold six. rewrite !Z.div_div by lia. reflexivity. Qed.
Lemma log_bound n : 0 <= n -> n < 10 ^ Z.of_nat (S (Z.to_nat (Z.log2 n))).
Proof.
  intros N. rewrite Nat2Z.inj_succ, Z2Nat.id by apply Z.log2_nonneg. destruct (Z.eq_dec n 0) as [->|N0]; [reflexivity|].
  pose proof (Z.log2_spec n ltac:(lia)) as [_ L]. pose proof (Z.log2_nonneg n). eapply Z.lt_le_trans; [exact L|]. apply Z.pow_le_mono_l. lia.
Qed.
Lemma fixed6_text n b : 0 <= b <= 16384 -> 0 <= n < 1000000 * 2 ^ b -> fixed_text 6 n = fixed6 n.
Proof.
  intros B (N0 & N1). unfold fixed_text, fixed6. change (10 ^ 6) with 1000000. change (6 =? 0) with false. change (Z.to_nat 6) with 6%nat. cbv iota. rewrite places6. change ([46] ++ six (n mod 1000000)) with (46 :: six (n mod 1000000)). f_equal.
  assert (Q0 : 0 <= n / 1000000) by (apply Z.div_pos; [assumption|reflexivity]).
  apply digits_dec; [| |apply Nat.lt_0_succ|apply Nat.lt_0_succ].
  - split; [assumption|]. apply Z.le_lt_trans with n; [|now apply log_bound]. apply Z.div_le_upper_bound; [reflexivity|]. clear -N0. lia.
  - apply Z.lt_le_trans with (2 ^ b); [apply Z.div_lt_upper_bound; [reflexivity|assumption]|]. apply Z.le_trans with (2 ^ 16384); [apply Z.pow_le_mono_r; [reflexivity|apply B]|]. apply Z.leb_le. vm_compute. reflexivity.
Qed.
Lemma float_plain {prec emax} (Hp : Prec_gt_0 prec) (Hm : Prec_lt_emax prec emax) (Hp1 : 20 <= prec) (He : emax <= 16384) (x : binary_float prec emax) sp :
  sp_zero sp = false -> sp_plus sp = false -> sp_space sp = false -> float_text sp 0 false None false x = fmt_float x.
Proof.
  intros H1 H2 H3. unfold float_text. rewrite H1, H2, H3. cbn [andb]. unfold pad. change (Z.to_nat 0) with 0%nat. cbn [Nat.sub repeat app].
  destruct (is_finite prec emax x) eqn:F.
  - rewrite body_finite by exact F. rewrite (fmt_finite prec emax) by exact F. unfold minus. f_equal.
    assert (E : units 6 x = printed prec emax x) by (destruct x; reflexivity).
    rewrite E. apply (fixed6_text _ emax); [apply (emax_range prec emax); [lia|exact He]|]. apply (printed_range prec emax); [lia|exact F].
  - destruct x; try discriminate; reflexivity.
Qed.
(** With the width: at least as many characters, filled with spaces. *)
Definition padded (w : Z) (t : list Z) : list Z := if w <? 0 then t ++ repeat 32 (Z.to_nat (- w) - length t) else repeat 32 (Z.to_nat w - length t) ++ t.
Definition signs {prec emax} (x : binary_float prec emax) : list Z := if Bsign prec emax x then [45] else [].
Definition i32 (n : Z) : Prop := - 2 ^ 31 <= n < 2 ^ 31.
Lemma i32_b n : i32 n -> (- 2 ^ 31 <=? n) && (n <? 2 ^ 31) = true.
Proof. unfold i32. intros H. apply andb_true_intro. split; lia. Qed.
Lemma eval1 sp k args t : all_of args (wants (Dir sp k)) = true -> dir_text sp k (firstn (length (wants (Dir sp k))) args) = t -> eval [Dir sp k] args = Ok t.
Proof. intros A <-. cbn [eval]. rewrite A. cbn [bind]. now rewrite app_nil_r. Qed.
Definition starred (s : Z) : spec := mk_spec false false false false NStar NStar s.
Lemma fixed_double w p x args up : i32 w -> i32 p -> eval [Dir (starred 32) (CFix up)] (A32 w :: A32 p :: AF x :: args) =
  Ok (padded w (signs x ++ body_text up (if p <? 0 then 6 else p) x)).
Proof.
  intros W P. apply eval1; [cbn [starred wants sp_width sp_prec sp_size Z.eqb Pos.eqb app all_of of_type]; rewrite !i32_b by assumption; destruct args; reflexivity|].
  cbn [starred wants sp_width sp_prec sp_size app length Z.eqb Pos.eqb firstn]. unfold dir_text. cbn [starred sp_width sp_prec sp_minus hd tl as_z fst snd orb].
  unfold float_text, starred, signs. cbn [sp_zero sp_plus sp_space andb]. destruct (p <? 0); unfold pad, padded; destruct (w <? 0) eqn:E.
  1, 3: replace (Z.abs w) with (- w) by lia; reflexivity. all: replace (Z.abs w) with w by lia; reflexivity.
Qed.
Lemma fixed_long w p x args up : i32 w -> i32 p -> eval [Dir (starred 80) (CFix up)] (A32 w :: A32 p :: AL x :: args) =
  Ok (padded w (signs x ++ body_text up (if p <? 0 then 6 else p) x)).
Proof.
  intros W P. apply eval1; [cbn [starred wants sp_width sp_prec sp_size Z.eqb Pos.eqb app all_of of_type]; rewrite !i32_b by assumption; destruct args; reflexivity|].
  cbn [starred wants sp_width sp_prec sp_size app length Z.eqb Pos.eqb firstn]. unfold dir_text. cbn [starred sp_width sp_prec sp_minus hd tl as_z fst snd orb].
  unfold float_text, starred, signs. cbn [sp_zero sp_plus sp_space andb]. destruct (p <? 0); unfold pad, padded; destruct (w <? 0) eqn:E.
  1, 3: replace (Z.abs w) with (- w) by lia; reflexivity. all: replace (Z.abs w) with w by lia; reflexivity.
Qed.
Definition dotted (s : Z) : spec := mk_spec false false false false NNone NStar s.
Lemma prec_double p x args up : i32 p -> eval [Dir (dotted 32) (CFix up)] (A32 p :: AF x :: args) = Ok (signs x ++ body_text up (if p <? 0 then 6 else p) x).
Proof.
  intros P. apply eval1; [cbn [dotted wants sp_width sp_prec sp_size Z.eqb Pos.eqb app all_of of_type]; rewrite !i32_b by assumption; destruct args; reflexivity|].
  cbn [dotted wants sp_width sp_prec sp_size app length Z.eqb Pos.eqb firstn]. unfold dir_text. cbn [dotted sp_width sp_prec sp_minus hd tl as_z fst snd orb].
  unfold float_text, dotted, signs. cbn [sp_zero sp_plus sp_space andb]. destruct (p <? 0); reflexivity.
Qed.
Lemma prec_long p x args up : i32 p -> eval [Dir (dotted 80) (CFix up)] (A32 p :: AL x :: args) = Ok (signs x ++ body_text up (if p <? 0 then 6 else p) x).
Proof.
  intros P. apply eval1; [cbn [dotted wants sp_width sp_prec sp_size Z.eqb Pos.eqb app all_of of_type]; rewrite !i32_b by assumption; destruct args; reflexivity|].
  cbn [dotted wants sp_width sp_prec sp_size app length Z.eqb Pos.eqb firstn]. unfold dir_text. cbn [dotted sp_width sp_prec sp_minus hd tl as_z fst snd orb].
  unfold float_text, dotted, signs. cbn [sp_zero sp_plus sp_space andb]. destruct (p <? 0); reflexivity.
Qed.
(** The text of a finite number. *)
Lemma body_ok {prec emax} up p (x : binary_float prec emax) : 0 <= p -> is_finite prec emax x = true ->
  exists i f, body_text up p x = i ++ (if p =? 0 then [] else 46 :: f) /\ decimal (dval 0 i) i /\ Forall digit f /\ zlen f = p /\
    dval 0 (i ++ f) = ZnearestE (Rabs (B2R prec emax x) * IZR (10 ^ p)).
Proof.
  intros P F. rewrite body_finite by exact F. destruct (fixed_text_ok p (units p x) P (units_nonneg p x P)) as (i & f & E & D & Ff & Lf & V).
  exists i, f. split; [exact E|]. split; [pose proof D as (_ & _ & K & _); now rewrite K|]. split; [exact Ff|]. split; [exact Lf|]. rewrite V. now apply units_NE.
Qed.
End Text.

(** ** Enough places *)
Section Enough.
Context (prec emax : Z) {Hp : Prec_gt_0 prec} {Hm : Prec_lt_emax prec emax}.
Local Notation fexp := (FLT_exp (3 - emax - prec) prec).
Lemma ulp_least x : bpow radix2 (3 - emax - prec) <= ulp radix2 fexp x.
Proof.
  destruct (Req_dec x 0) as [->|N].
  - rewrite ulp_FLT_small; [lra|exact Hp|]. rewrite Rabs_R0. apply bpow_gt_0.
  - rewrite ulp_neq_0 by exact N. apply bpow_le. unfold cexp, FLT_exp. lia.
Qed.
Lemma enough x p k : (0 <= k <= p)%Z -> (0 <= emax + prec - 3)%Z -> (2 * 2 ^ (emax + prec - 3) < 10 ^ k)%Z -> 2 * / IZR (10 ^ p) < ulp radix2 fexp x.
Proof.
  intros K E L. eapply Rlt_le_trans; [|apply ulp_least]. replace (3 - emax - prec)%Z with (- (emax + prec - 3))%Z by lia. rewrite bpow_opp, <- pow2_IZR by exact E.
  assert (H : (2 * 2 ^ (emax + prec - 3) < 10 ^ p)%Z) by (eapply Z.lt_le_trans; [exact L|apply Z.pow_le_mono_r; lia]).
  apply IZR_lt in H. rewrite mult_IZR in H. assert (A : 0 < IZR (2 ^ (emax + prec - 3))) by (apply IZR_lt, Z.pow_pos_nonneg; lia). set (a := IZR (2 ^ (emax + prec - 3))) in *. clearbody a.
  apply (Rmult_lt_reg_r (IZR (10 ^ p))); [lra|]. rewrite Rmult_assoc, Rinv_l by lra. apply (Rmult_lt_reg_l a); [lra|]. replace (a * (/ a * IZR (10 ^ p))) with (IZR (10 ^ p)) by (field; lra). lra.
Qed.
End Enough.
