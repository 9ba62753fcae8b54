(** Facts about binary32 / binary64 operations used in the float proofs. *)
From Coq Require Import ZArith Bool Reals Lra Lia.
From Flocq Require Import Core IEEE754.BinarySingleNaN IEEE754.Binary IEEE754.Bits Relative.
From Verif Require Import FloatModel.
Open Scope R_scope.

Notation fin32 x := (is_finite 24 128 x = true).
Notation fin64 x := (is_finite 53 1024 x = true).
Notation R32 := (B2R 24 128).
Notation R64 := (B2R 53 1024).

(** Rounding of the two types. *)
Definition rnd32 (x : R) : R := round radix2 (FLT_exp (-149) 24) ZnearestE x.
Definition rnd64 (x : R) : R := round radix2 (FLT_exp (-1074) 53) ZnearestE x.

Definition max32 : R := bpow radix2 128.
Definition max64 : R := bpow radix2 1024.

Lemma fexp32 : SpecFloat.fexp 24 128 = FLT_exp (-149) 24.
Proof. reflexivity. Qed.
Lemma fexp64 : SpecFloat.fexp 53 1024 = FLT_exp (-1074) 53.
Proof. reflexivity. Qed.

Local Instance prec24 : Prec_gt_0 24 := eq_refl.
Local Instance prec53 : Prec_gt_0 53 := eq_refl.

Lemma rnd32_le x y : x <= y -> rnd32 x <= rnd32 y.
Proof. apply round_le; auto with typeclass_instances. Qed.
Lemma rnd64_le x y : x <= y -> rnd64 x <= rnd64 y.
Proof. apply round_le; auto with typeclass_instances. Qed.
Lemma rnd32_0 : rnd32 0 = 0.
Proof. apply round_0; auto with typeclass_instances. Qed.
Lemma rnd64_0 : rnd64 0 = 0.
Proof. apply round_0; auto with typeclass_instances. Qed.

Lemma rnd32_opp x : rnd32 (- x) = - rnd32 x.
Proof. apply round_NE_opp. Qed.
Lemma rnd64_opp x : rnd64 (- x) = - rnd64 x.
Proof. apply round_NE_opp. Qed.
Lemma rnd32_abs x : rnd32 (Rabs x) = Rabs (rnd32 x).
Proof. apply round_NE_abs. auto with typeclass_instances. Qed.
Lemma rnd64_abs x : rnd64 (Rabs x) = Rabs (rnd64 x).
Proof. apply round_NE_abs. auto with typeclass_instances. Qed.

Lemma gen32 x : generic_format radix2 (FLT_exp (-149) 24) (R32 x).
Proof. apply (generic_format_B2R 24 128). Qed.
Lemma gen64 x : generic_format radix2 (FLT_exp (-1074) 53) (R64 x).
Proof. apply (generic_format_B2R 53 1024). Qed.

Lemma rnd32_id x : rnd32 (R32 x) = R32 x.
Proof. apply round_generic; [auto with typeclass_instances|apply gen32]. Qed.
Lemma rnd64_id x : rnd64 (R64 x) = R64 x.
Proof. apply round_generic; [auto with typeclass_instances|apply gen64]. Qed.

Lemma lt32 x : Rabs (R32 x) < max32.
Proof. apply (abs_B2R_lt_emax 24 128). Qed.
Lemma lt64 x : Rabs (R64 x) < max64.
Proof. apply (abs_B2R_lt_emax 53 1024). Qed.

Lemma f32_mul_ok x y : fin32 x -> fin32 y -> Rabs (rnd32 (R32 x * R32 y)) < max32 ->
  R32 (f32_mul x y) = rnd32 (R32 x * R32 y) /\ fin32 (f32_mul x y).
Proof.
  intros Fx Fy H. unfold f32_mul, b32_mult.
  match goal with |- context [Bmult _ _ ?p ?q ?n ?m] => pose proof (Bmult_correct 24 128 p q n m x y) as C end.
  rewrite fexp32 in C. cbn [round_mode] in C. fold (rnd32 (R32 x * R32 y)) in C.
  rewrite Rlt_bool_true in C by exact H. destruct C as (C1 & C2 & _).
  rewrite Fx, Fy in C2. auto.
Qed.

Lemma f32_sub_ok x y : fin32 x -> fin32 y -> Rabs (rnd32 (R32 x - R32 y)) < max32 ->
  R32 (f32_sub x y) = rnd32 (R32 x - R32 y) /\ fin32 (f32_sub x y).
Proof.
  intros Fx Fy H. unfold f32_sub, b32_minus.
  match goal with |- context [Bminus _ _ ?p ?q ?n ?m] => pose proof (Bminus_correct 24 128 p q n m x y Fx Fy) as C end.
  rewrite fexp32 in C. cbn [round_mode] in C. fold (rnd32 (R32 x - R32 y)) in C.
  rewrite Rlt_bool_true in C by exact H. destruct C as (C1 & C2 & _). auto.
Qed.

Lemma f64_mul_ok x y : fin64 x -> fin64 y -> Rabs (rnd64 (R64 x * R64 y)) < max64 ->
  R64 (f64_mul x y) = rnd64 (R64 x * R64 y) /\ fin64 (f64_mul x y).
Proof.
  intros Fx Fy H. unfold f64_mul, b64_mult.
  match goal with |- context [Bmult _ _ ?p ?q ?n ?m] => pose proof (Bmult_correct 53 1024 p q n m x y) as C end.
  rewrite fexp64 in C. cbn [round_mode] in C. fold (rnd64 (R64 x * R64 y)) in C.
  rewrite Rlt_bool_true in C by exact H. destruct C as (C1 & C2 & _).
  rewrite Fx, Fy in C2. auto.
Qed.

Lemma f64_sub_ok x y : fin64 x -> fin64 y -> Rabs (rnd64 (R64 x - R64 y)) < max64 ->
  R64 (f64_sub x y) = rnd64 (R64 x - R64 y) /\ fin64 (f64_sub x y).
Proof.
  intros Fx Fy H. unfold f64_sub, b64_minus.
  match goal with |- context [Bminus _ _ ?p ?q ?n ?m] => pose proof (Bminus_correct 53 1024 p q n m x y Fx Fy) as C end.
  rewrite fexp64 in C. cbn [round_mode] in C. fold (rnd64 (R64 x - R64 y)) in C.
  rewrite Rlt_bool_true in C by exact H. destruct C as (C1 & C2 & _). auto.
Qed.

Lemma f64_add_ok x y : fin64 x -> fin64 y -> Rabs (rnd64 (R64 x + R64 y)) < max64 ->
  R64 (f64_add x y) = rnd64 (R64 x + R64 y) /\ fin64 (f64_add x y).
Proof.
  intros Fx Fy H. unfold f64_add, b64_plus.
  match goal with |- context [Bplus _ _ ?p ?q ?n ?m] => pose proof (Bplus_correct 53 1024 p q n m x y Fx Fy) as C end.
  rewrite fexp64 in C. cbn [round_mode] in C. fold (rnd64 (R64 x + R64 y)) in C.
  rewrite Rlt_bool_true in C by exact H. destruct C as (C1 & C2 & _). auto.
Qed.

Lemma f64_div_ok x y : fin64 x -> R64 y <> 0 -> Rabs (rnd64 (R64 x / R64 y)) < max64 ->
  R64 (f64_div x y) = rnd64 (R64 x / R64 y) /\ fin64 (f64_div x y).
Proof.
  intros Fx Fy H. unfold f64_div, b64_div.
  match goal with |- context [Bdiv _ _ ?p ?q ?n ?m] => pose proof (Bdiv_correct 53 1024 p q n m x y Fy) as C end.
  rewrite fexp64 in C. cbn [round_mode] in C. fold (rnd64 (R64 x / R64 y)) in C.
  rewrite Rlt_bool_true in C by exact H. destruct C as (C1 & C2 & _).
  rewrite Fx in C2. auto.
Qed.

(** Comparison of finite numbers. *)
Lemma f_lt_R prec emax (x y : binary_float prec emax) :
  is_finite prec emax x = true -> is_finite prec emax y = true ->
  f_lt x y = Rlt_bool (B2R prec emax x) (B2R prec emax y).
Proof.
  intros Fx Fy. unfold f_lt. rewrite Bcompare_correct by assumption.
  destruct (Rcompare_spec (B2R prec emax x) (B2R prec emax y)).
  - rewrite Rlt_bool_true; auto.
  - rewrite Rlt_bool_false; auto; lra.
  - rewrite Rlt_bool_false; auto; lra.
Qed.
