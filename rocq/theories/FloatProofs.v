(** Proofs about float comparison, vt_math_is_close and vt_math_map_to. *)
From Coq Require Import ZArith Bool Reals Lra Lia.
From Flocq Require Import Core IEEE754.BinarySingleNaN IEEE754.Binary IEEE754.Bits Relative Plus_error.
From Verif Require Import FloatModel FloatFacts.
Open Scope R_scope.

(** * Comparison *)

(** [x <= y] as in C: false when an operand is a NaN. *)
Definition f_le {prec emax} (x y : binary_float prec emax) : Prop :=
  Bcompare prec emax x y = Some Lt \/ Bcompare prec emax x y = Some Eq.
Definition f_eq {prec emax} (x y : binary_float prec emax) : Prop :=
  Bcompare prec emax x y = Some Eq.

Section Cmp.
Context {prec emax : Z}.
Implicit Types x y l h : binary_float prec emax.

Lemma cmp_nan_l x y : is_nan prec emax x = true -> Bcompare prec emax x y = None.
Proof. destruct x; try discriminate. intros _. destruct y; reflexivity. Qed.
Lemma cmp_nan_r x y : is_nan prec emax y = true -> Bcompare prec emax x y = None.
Proof. destruct y; try discriminate. intros _. destruct x as [s0|[]| |]; reflexivity. Qed.

Lemma cmp_some x y : is_nan prec emax x = false -> is_nan prec emax y = false ->
  exists c, Bcompare prec emax x y = Some c.
Proof.
  intros Hx Hy. unfold Bcompare, BinarySingleNaN.Bcompare.
  destruct x as [s|s|s pl e|s m e B], y as [s'|s'|s' pl' e'|s' m' e' B']; try discriminate;
    cbn; destruct s; try destruct s'; eauto; destruct (e ?= e')%Z; eauto.
Qed.

Lemma cmp_nonnan x y c : Bcompare prec emax x y = Some c ->
  is_nan prec emax x = false /\ is_nan prec emax y = false.
Proof.
  intros H. split.
  - destruct (is_nan prec emax x) eqn:E; auto. rewrite (cmp_nan_l x y E) in H. discriminate.
  - destruct (is_nan prec emax y) eqn:E; auto. rewrite (cmp_nan_r x y E) in H. discriminate.
Qed.

Lemma cmp_swap x y : Bcompare prec emax y x =
  match Bcompare prec emax x y with Some c => Some (CompOpp c) | None => None end.
Proof. apply Bcompare_swap. Qed.

Lemma cmp_refl x : is_nan prec emax x = false -> Bcompare prec emax x x = Some Eq.
Proof.
  intros Hx. destruct (cmp_some x x Hx Hx) as [c Hc]. pose proof (cmp_swap x x) as S. rewrite Hc in S.
  rewrite Hc. destruct c; auto; discriminate.
Qed.

(** The smaller / larger of two numbers. *)
Lemma f_min_spec x y : is_nan prec emax x = false -> is_nan prec emax y = false ->
  f_le (f_min x y) x /\ f_le (f_min x y) y /\ (f_min x y = x \/ f_min x y = y).
Proof.
  intros Hx Hy. destruct (cmp_some x y Hx Hy) as [c Hc]. unfold f_min, f_lt. rewrite Hc.
  pose proof (cmp_swap x y) as S. rewrite Hc in S.
  destruct c; cbn in S; unfold f_le; rewrite ?Hc, ?S, ?(cmp_refl x Hx), ?(cmp_refl y Hy); auto.
Qed.

Lemma f_max_spec x y : is_nan prec emax x = false -> is_nan prec emax y = false ->
  f_le x (f_max x y) /\ f_le y (f_max x y) /\ (f_max x y = x \/ f_max x y = y).
Proof.
  intros Hx Hy. destruct (cmp_some x y Hx Hy) as [c Hc]. unfold f_max, f_lt.
  pose proof (cmp_swap x y) as S. rewrite Hc in S. rewrite S.
  destruct c; cbn in S |- *; unfold f_le; rewrite ?Hc, ?S, ?(cmp_refl x Hx), ?(cmp_refl y Hy); auto.
Qed.

Lemma f_min_comm x y : is_nan prec emax x = false -> is_nan prec emax y = false ->
  f_eq (f_min x y) (f_min y x) /\ f_eq (f_max x y) (f_max y x).
Proof.
  intros Hx Hy. destruct (cmp_some x y Hx Hy) as [c Hc]. unfold f_min, f_max, f_lt, f_eq.
  pose proof (cmp_swap x y) as S. rewrite Hc in S. rewrite S, Hc.
  destruct c; cbn in S |- *; rewrite ?S, ?Hc, ?(cmp_refl x Hx), ?(cmp_refl y Hy); auto.
Qed.

(** Whatever is clamped, also a NaN, the result lies between the bounds. *)
Lemma f_clamp_range x l h : f_le l h -> f_le l (f_clamp x l h) /\ f_le (f_clamp x l h) h.
Proof.
  intros H. assert (N : is_nan prec emax l = false /\ is_nan prec emax h = false)
    by (destruct H as [H|H]; apply cmp_nonnan in H; auto).
  destruct N as [Nl Nh].
  assert (Hm : exists m, f_min x h = m /\ f_le m h /\ is_nan prec emax m = false).
  { unfold f_min, f_lt. destruct (Bcompare prec emax x h) as [[]|] eqn:E;
      try (exists h; split; [reflexivity|]; split; [right; apply cmp_refl|]; auto).
    exists x. split; [reflexivity|]. split; [left; auto|]. apply cmp_nonnan in E. tauto. }
  destruct Hm as (m & Em & Hm & Nm). unfold f_clamp. rewrite Em. unfold f_max, f_lt.
  pose proof (cmp_swap m l) as S. destruct (cmp_some m l Nm Nl) as [c Hc]. rewrite Hc in S. rewrite Hc.
  destruct c; cbn in S; split; auto; unfold f_le; rewrite ?S, ?(cmp_refl l Nl); auto.
Qed.

(** Numbers and infinities as real numbers, in the order of [Bcompare]. *)
Definition EV x : R :=
  match x with
  | B754_infinity _ _ true => - bpow radix2 emax
  | B754_infinity _ _ false => bpow radix2 emax
  | _ => B2R prec emax x
  end.

Lemma cmp_EV x y : is_nan prec emax x = false -> is_nan prec emax y = false ->
  Bcompare prec emax x y = Some (Rcompare (EV x) (EV y)).
Proof.
  intros Hx Hy. pose proof (bpow_gt_0 radix2 emax) as P.
  pose proof (abs_B2R_lt_emax prec emax x) as Ax. pose proof (abs_B2R_lt_emax prec emax y) as Ay.
  apply Rabs_def2 in Ax, Ay.
  destruct x as [s|s|s pl e|s m e B] eqn:Ex; try discriminate;
  destruct y as [s'|s'|s' pl' e'|s' m' e' B'] eqn:Ey; try discriminate;
    try (rewrite Bcompare_correct by reflexivity; reflexivity).
  all: unfold EV; unfold Bcompare, BinarySingleNaN.Bcompare; cbn [B2BSN BinarySingleNaN.B2SF SpecFloat.SFcompare].
  all: try destruct s; try destruct s'; f_equal; symmetry;
    first [apply Rcompare_Eq; reflexivity | apply Rcompare_Lt; cbn [B2R] in *; lra | apply Rcompare_Gt; cbn [B2R] in *; lra].
Qed.

(** A value already between the bounds is kept. *)
Lemma f_clamp_id x l h : f_le l x -> f_le x h -> f_eq (f_clamp x l h) x.
Proof.
  intros Hl Hh. assert (N : is_nan prec emax l = false /\ is_nan prec emax x = false)
    by (destruct Hl as [H|H]; apply cmp_nonnan in H; auto).
  destruct N as [Nl Nx].
  assert (Nh : is_nan prec emax h = false) by (destruct Hh as [H|H]; apply cmp_nonnan in H; tauto).
  unfold f_le in *. rewrite !cmp_EV in Hl, Hh by auto.
  assert (Hl' : EV l <= EV x) by (destruct (Rcompare_spec (EV l) (EV x)); destruct Hl; try discriminate; lra).
  assert (Hh' : EV x <= EV h) by (destruct (Rcompare_spec (EV x) (EV h)); destruct Hh; try discriminate; lra).
  unfold f_clamp, f_min, f_lt, f_eq. rewrite (cmp_EV x h) by auto.
  destruct (Rcompare_spec (EV x) (EV h)); unfold f_max, f_lt.
  - rewrite (cmp_EV x l) by auto.
    destruct (Rcompare_spec (EV x) (EV l)); [lra| |]; apply cmp_refl; auto.
  - rewrite (cmp_EV h l) by auto.
    destruct (Rcompare_spec (EV h) (EV l)); rewrite cmp_EV by auto; f_equal; apply Rcompare_Eq; lra.
  - rewrite (cmp_EV h l) by auto.
    destruct (Rcompare_spec (EV h) (EV l)); rewrite cmp_EV by auto; f_equal; apply Rcompare_Eq; lra.
Qed.

End Cmp.

(** * vt_math_is_close *)

Lemma abs32_R x : R32 (b32_abs x) = Rabs (R32 x).
Proof. apply B2R_Babs. Qed.
Lemma abs32_fin x : is_finite 24 128 (b32_abs x) = is_finite 24 128 x.
Proof. apply is_finite_Babs. Qed.

(** The difference of finite floats: the rounded one, or an infinity. *)
Lemma sub_cases x y : fin32 x -> fin32 y ->
  (R32 (f32_sub x y) = rnd32 (R32 x - R32 y) /\ fin32 (f32_sub x y) /\ Rabs (rnd32 (R32 x - R32 y)) < max32) \/
  (exists s, f32_sub x y = B754_infinity 24 128 s) /\ max32 <= Rabs (rnd32 (R32 x - R32 y)).
Proof.
  intros Fx Fy. destruct (Rlt_le_dec (Rabs (rnd32 (R32 x - R32 y))) max32) as [H|H].
  - left. destruct (f32_sub_ok x y Fx Fy H). auto.
  - right. split; [|assumption]. unfold f32_sub, b32_minus.
    match goal with |- context [Bminus _ _ ?p ?q ?n ?m] => pose proof (Bminus_correct 24 128 p q n m x y Fx Fy) as C end.
    rewrite fexp32 in C. cbn [round_mode] in C. fold (rnd32 (R32 x - R32 y)) in C.
    rewrite Rlt_bool_false in C by exact H. destruct C as [C _]. exists (Bsign 24 128 x).
    apply B2FF_inj. rewrite C. reflexivity.
Qed.

Lemma lt_inf_l s (x : binary32) : fin32 x -> f_lt (b32_abs (B754_infinity 24 128 s)) x = false.
Proof. destruct x; try discriminate; reflexivity. Qed.

(** Exactly when the rounded difference is below the tolerance. *)
Lemma is_close_rounded x y t : fin32 x -> fin32 y -> fin32 t ->
  is_close x y t = true <-> rnd32 (Rabs (R32 x - R32 y)) < Rabs (R32 t).
Proof.
  intros Fx Fy Ft. unfold is_close. rewrite rnd32_abs. pose proof (lt32 t) as Lt.
  destruct (sub_cases x y Fx Fy) as [(E & F & L)|((s & E) & L)].
  - rewrite f_lt_R by (rewrite abs32_fin; assumption). rewrite !abs32_R, E.
    destruct (Rlt_bool_spec (Rabs (rnd32 (R32 x - R32 y))) (Rabs (R32 t))); split; intros; auto; try discriminate; lra.
  - rewrite E, lt_inf_l by (rewrite abs32_fin; assumption). split; [discriminate|lra].
Qed.

(** Numbers reported close differ by less than the tolerance. *)
Lemma is_close_sound x y t : fin32 x -> fin32 y -> fin32 t ->
  is_close x y t = true -> Rabs (R32 x - R32 y) < Rabs (R32 t).
Proof.
  intros Fx Fy Ft H. apply is_close_rounded in H; auto.
  apply Rnot_le_lt. intros L. apply rnd32_le in L.
  rewrite (rnd32_abs (R32 t)), rnd32_id in L. lra.
Qed.

(** And a difference below the tolerance is reported, unless it rounds to it. *)
Lemma is_close_complete x y t : fin32 x -> fin32 y -> fin32 t ->
  Rabs (R32 x - R32 y) < Rabs (R32 t) -> rnd32 (Rabs (R32 x - R32 y)) <> Rabs (R32 t) ->
  is_close x y t = true.
Proof.
  intros Fx Fy Ft L N. apply is_close_rounded; auto.
  assert (L' : rnd32 (Rabs (R32 x - R32 y)) <= rnd32 (Rabs (R32 t))) by (apply rnd32_le; lra).
  rewrite (rnd32_abs (R32 t)), rnd32_id in L'. lra.
Qed.

Lemma is_close_nan x y t : is_nan 24 128 x = true \/ is_nan 24 128 y = true \/ is_nan 24 128 t = true ->
  is_close x y t = false.
Proof.
  intros H. unfold is_close, f_lt.
  assert (N : is_nan 24 128 (b32_abs (f32_sub x y)) = true \/ is_nan 24 128 (b32_abs t) = true).
  { destruct H as [H|[H|H]].
    - left. destruct x; try discriminate. destruct y; reflexivity.
    - left. destruct y; try discriminate. destruct x; reflexivity.
    - right. destruct t; try discriminate. reflexivity. }
  destruct N as [N|N]; [rewrite cmp_nan_l by auto|rewrite cmp_nan_r by auto]; reflexivity.
Qed.

Lemma is_close_sym x y t : is_close x y t = is_close y x t.
Proof.
  destruct (is_nan 24 128 x) eqn:Nx; [rewrite !is_close_nan by auto; reflexivity|].
  destruct (is_nan 24 128 y) eqn:Ny; [rewrite !is_close_nan by auto; reflexivity|].
  unfold is_close.
  destruct (is_finite 24 128 x) eqn:Fx; [destruct (is_finite 24 128 y) eqn:Fy|].
  - f_equal.
    assert (A : forall u v, Rabs (rnd32 (u - v)) = Rabs (rnd32 (v - u))).
    { intros u v. rewrite <- !rnd32_abs, Rabs_minus_sym. reflexivity. }
    destruct (sub_cases x y Fx Fy) as [(E & F & L)|((s & E) & L)],
             (sub_cases y x Fy Fx) as [(E' & F' & L')|((s' & E') & L')].
    + apply B2R_Bsign_inj; rewrite ?abs32_fin; auto.
      * rewrite !abs32_R, E, E'. apply A.
      * unfold b32_abs. rewrite !Bsign_Babs; auto; [destruct (f32_sub y x)|destruct (f32_sub x y)]; auto; discriminate.
    + rewrite A in L. lra.
    + rewrite A in L. lra.
    + rewrite E, E'. reflexivity.
  - destruct y; try discriminate. destruct x; try discriminate; reflexivity.
  - destruct x as [|s| |]; try discriminate. destruct y as [|s'| |]; try discriminate; try reflexivity.
    destruct s, s'; reflexivity.
Qed.
