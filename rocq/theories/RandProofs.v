(** Proofs about the random floats. *)
From Coq Require Import ZArith Bool Reals Lra Lia Psatz.
From Flocq Require Import Core IEEE754.BinarySingleNaN IEEE754.Binary IEEE754.Bits.
From Verif Require Import Base BaseFacts NumModel NumProofs FloatModel FloatFacts RandModel.
Open Scope R_scope.

Local Instance prec24' : Prec_gt_0 24 := eq_refl.
Local Instance prec53' : Prec_gt_0 53 := eq_refl.

Lemma max_lt : max32 <= max64.
Proof. apply bpow_le. lia. Qed.

(** Conversions. *)
Lemma f32_of_f64_ok x : fin64 x -> Rabs (rnd32 (R64 x)) < max32 ->
  R32 (f32_of_f64 x) = rnd32 (R64 x) /\ fin32 (f32_of_f64 x).
Proof.
  destruct x as [s|s|s pl e|s m e B]; intros F H; try discriminate.
  - cbn. now rewrite rnd32_0.
  - cbn [f32_of_f64].
    pose proof (binary_normalize_correct 24 128 eq_refl eq_refl mode_NE (cond_Zopp s (Zpos m)) e s) as C.
    cbv zeta in C. change (F2R {| Fnum := cond_Zopp s (Z.pos m); Fexp := e |}) with (R64 (B754_finite 53 1024 s m e B)) in C.
    rewrite fexp32 in C. change (round_mode mode_NE) with ZnearestE in C. fold (rnd32 (R64 (B754_finite 53 1024 s m e B))) in C.
    rewrite Rlt_bool_true in C by exact H. tauto.
Qed.

Lemma gen_32_64 x : generic_format radix2 (FLT_exp (-149) 24) x -> generic_format radix2 (FLT_exp (-1074) 53) x.
Proof.
  apply generic_inclusion_mag. intros _. unfold FLT_exp. lia.
Qed.

Lemma f64_of_f32_ok x : fin32 x -> R64 (f64_of_f32 x) = R32 x /\ fin64 (f64_of_f32 x).
Proof.
  intros F. pose proof (gen32 x) as G. pose proof (lt32 x) as L.
  assert (E : rnd64 (R32 x) = R32 x) by (apply round_generic; [auto with typeclass_instances|now apply gen_32_64]).
  destruct x as [s|s|s pl e|s m e B]; try discriminate; [now cbn|].
  cbn [f64_of_f32].
  pose proof (binary_normalize_correct 53 1024 eq_refl eq_refl mode_NE (cond_Zopp s (Zpos m)) e s) as C.
  cbv zeta in C. change (F2R {| Fnum := cond_Zopp s (Z.pos m); Fexp := e |}) with (R32 (B754_finite 24 128 s m e B)) in C.
  rewrite fexp64 in C. change (round_mode mode_NE) with ZnearestE in C. fold (rnd64 (R32 (B754_finite 24 128 s m e B))) in C.
  rewrite E in C. rewrite Rlt_bool_true in C by (eapply Rlt_le_trans; [exact L|exact max_lt]). tauto.
Qed.

Lemma gen_int x n : (0 <= n < 2 ^ 53)%Z -> x = IZR n -> generic_format radix2 (FLT_exp (-1074) 53) x.
Proof.
  intros Hn ->. apply generic_format_FLT. exists (Float radix2 n 0).
  - unfold F2R. cbn. ring.
  - cbn [Fnum]. rewrite Z.abs_eq by lia. change (Zpower radix2 53) with (2 ^ 53)%Z. lia.
  - cbn. lia.
Qed.

Lemma f64_of_u32_ok n : (0 <= n < 2 ^ 32)%Z -> R64 (f64_of_u32 n) = IZR n /\ fin64 (f64_of_u32 n).
Proof.
  intros Hn. unfold f64_of_u32.
  pose proof (binary_normalize_correct 53 1024 eq_refl eq_refl mode_NE n 0 false) as C. cbv zeta in C.
  assert (EF : F2R (Float radix2 n 0) = IZR n) by (unfold F2R; cbn; ring).
  rewrite EF in C. rewrite fexp64 in C. change (round_mode mode_NE) with ZnearestE in C. fold (rnd64 (IZR n)) in C.
  assert (E : rnd64 (IZR n) = IZR n) by (apply round_generic; [auto with typeclass_instances|apply (gen_int _ n); [lia|reflexivity]]).
  rewrite E in C. rewrite Rlt_bool_true in C; [tauto|].
  rewrite Rabs_pos_eq by (apply IZR_le; lia).
  apply Rlt_le_trans with (IZR (2 ^ 32)); [apply IZR_lt; lia|]. change (2 ^ 32)%Z with (Zpower radix2 32). rewrite IZR_Zpower by lia. apply bpow_le. lia.
Qed.

(** The contract of the sine. *)
Definition sine_like (sn : Z -> binary64) : Prop := forall n, fin64 (sn n) /\ Rabs (R64 (sn n)) <= 1.

Lemma rnd32_1 : rnd32 1 = 1.
Proof. apply round_generic; [auto with typeclass_instances|]. change 1 with (bpow radix2 0). apply generic_format_bpow. unfold FLT_exp. cbn. lia. Qed.

Lemma factor x : fin64 x -> Rabs (R64 x) <= 1 ->
  fin64 (fabs32 (f32_of_f64 x)) /\ 0 <= R64 (fabs32 (f32_of_f64 x)) <= 1 /\ R64 (fabs32 (f32_of_f64 x)) = rnd32 (Rabs (R64 x)).
Proof.
  intros F H.
  assert (H1 : rnd32 (Rabs (R64 x)) <= 1) by (rewrite <- rnd32_1; now apply rnd32_le).
  assert (H0 : 0 <= rnd32 (Rabs (R64 x))) by (rewrite <- rnd32_0; apply rnd32_le, Rabs_pos).
  destruct (f32_of_f64_ok x F) as [E1 F1].
  { rewrite <- rnd32_abs. eapply Rle_lt_trans; [exact H1|]. change 1 with (bpow radix2 0). apply bpow_lt. lia. }
  destruct (f64_of_f32_ok _ F1) as [E2 F2].
  unfold fabs32, b64_abs. rewrite is_finite_Babs, B2R_Babs, E2, E1, <- rnd32_abs. auto.
Qed.

Lemma gen_bpow e : (-1074 <= e)%Z -> generic_format radix2 (FLT_exp (-1074) 53) (bpow radix2 e).
Proof. intros H. apply generic_format_bpow. unfold FLT_exp. lia. Qed.

Lemma rnd64_bpow e : (-1074 <= e)%Z -> rnd64 (bpow radix2 e) = bpow radix2 e.
Proof. intros H. apply round_generic; [auto with typeclass_instances|now apply gen_bpow]. Qed.
Lemma rnd32_bpow e : (-149 <= e)%Z -> rnd32 (bpow radix2 e) = bpow radix2 e.
Proof. intros H. apply round_generic; [auto with typeclass_instances|]. apply generic_format_bpow. unfold FLT_exp. lia. Qed.

Lemma rnd32_le_gen x y : rnd32 y = y -> x <= y -> rnd32 x <= y.
Proof. intros E H. rewrite <- E. now apply rnd32_le. Qed.

(** vt_math_random_f32. *)
Lemma random_f32_ok sn st now bound : sine_like sn -> (0 <= bound < 2 ^ 32)%Z ->
  let r := snd (random_f32 sn st now bound) in fin32 r /\ 0 <= R32 r <= rnd32 (IZR bound).
Proof.
  intros S B. unfold random_f32. destruct (random_u64 st now) as [st' u]. cbn [snd].
  destruct (S u) as [F H]. destruct (factor _ F H) as (Ff & [F0 F1] & _). set (a := fabs32 _) in *.
  destruct (f64_of_u32_ok bound B) as [Eb Fb]. set (x := f64_of_u32 bound) in *.
  assert (B0 : 0 <= IZR bound) by (apply IZR_le; lia).
  assert (B1 : IZR bound <= bpow radix2 32).
  { rewrite <- IZR_Zpower by lia. apply IZR_le. change (Zpower radix2 32) with (2 ^ 32)%Z. lia. }
  assert (P0 : 0 <= R64 x * R64 a) by (rewrite Eb; nra).
  assert (P1 : R64 x * R64 a <= R64 x) by (rewrite Eb; nra).
  assert (Q0 : 0 <= rnd64 (R64 x * R64 a)) by (rewrite <- rnd64_0; now apply rnd64_le).
  assert (Q1 : rnd64 (R64 x * R64 a) <= IZR bound) by (rewrite <- Eb; apply Rle_trans with (rnd64 (R64 x)); [now apply rnd64_le|rewrite rnd64_id; lra]).
  destruct (f64_mul_ok x a Fb Ff) as [Em Fm].
  { rewrite Rabs_pos_eq by exact Q0. eapply Rle_lt_trans; [exact Q1|]. eapply Rle_lt_trans; [exact B1|]. apply bpow_lt. lia. }
  assert (T0 : 0 <= rnd32 (R64 (f64_mul x a))) by (rewrite <- rnd32_0, Em; now apply rnd32_le).
  assert (T1 : rnd32 (R64 (f64_mul x a)) <= rnd32 (IZR bound)) by (rewrite Em; now apply rnd32_le).
  destruct (f32_of_f64_ok _ Fm) as [Er Fr].
  { rewrite Rabs_pos_eq by exact T0. eapply Rle_lt_trans; [exact T1|]. eapply Rle_lt_trans; [apply rnd32_le, B1|].
    rewrite rnd32_bpow by lia. apply bpow_lt. lia. }
  rewrite Er. auto.
Qed.

Lemma rnd32_int n : (0 <= n <= 2 ^ 24)%Z -> rnd32 (IZR n) = IZR n.
Proof.
  intros Hn. destruct (Z.eq_dec n (2 ^ 24)) as [->|].
  - change (2 ^ 24)%Z with (Zpower radix2 24). rewrite IZR_Zpower by lia. apply rnd32_bpow. lia.
  - apply round_generic; [auto with typeclass_instances|]. apply generic_format_FLT. exists (Float radix2 n 0).
    + unfold F2R. cbn. ring.
    + cbn [Fnum]. rewrite Z.abs_eq by lia. change (Zpower radix2 24) with (2 ^ 24)%Z. lia.
    + cbn. lia.
Qed.

(** vt_math_random_f32_uniform. *)
Lemma uniform_ok sn st now l u : sine_like sn -> fin32 l -> fin32 u -> R32 l <= R32 u ->
  let d := rnd32 (R32 u - R32 l) in let top := rnd32 (rnd64 (R32 l + d)) in d < max32 -> top < max32 ->
  let r := snd (random_f32_uniform sn st now l u) in fin32 r /\ R32 l <= R32 r <= top.
Proof.
  intros S Fl Fu LU d top D T. unfold random_f32_uniform.
  destruct (random_u64 st now) as [st1 u1]. destruct (random_u64 st1 now) as [st2 u2]. cbn [snd].
  destruct (S (w64 (u1 * u2))) as [F H]. destruct (factor _ F H) as (Ff & [F0 F1] & _). set (a := fabs32 _) in *.
  assert (D0 : 0 <= d) by (unfold d; rewrite <- rnd32_0; apply rnd32_le; lra).
  destruct (f32_sub_ok u l Fu Fl) as [Ed Fd]; [fold d; now rewrite Rabs_pos_eq|]. fold d in Ed.
  destruct (f64_of_f32_ok _ Fd) as [Ed' Fd']. rewrite Ed in Ed'. set (x := f64_of_f32 (f32_sub u l)) in *.
  destruct (f64_of_f32_ok _ Fl) as [El Fl']. set (y := f64_of_f32 l) in *.
  assert (P0 : 0 <= R64 x * R64 a) by (rewrite Ed'; nra).
  assert (P1 : R64 x * R64 a <= R64 x) by (rewrite Ed'; nra).
  assert (Q0 : 0 <= rnd64 (R64 x * R64 a)) by (rewrite <- rnd64_0; now apply rnd64_le).
  assert (Q1 : rnd64 (R64 x * R64 a) <= d) by (rewrite <- Ed'; apply Rle_trans with (rnd64 (R64 x)); [now apply rnd64_le|rewrite rnd64_id; lra]).
  destruct (f64_mul_ok x a Fd' Ff) as [Em Fm].
  { rewrite Rabs_pos_eq by exact Q0. eapply Rle_lt_trans; [exact Q1|]. eapply Rlt_le_trans; [exact D|exact max_lt]. }
  set (m := f64_mul x a) in *. rewrite <- Em in Q0, Q1.
  assert (S0 : R32 l <= rnd64 (R64 y + R64 m)).
  { rewrite <- El, <- (rnd64_id y). apply rnd64_le. rewrite (rnd64_id y). lra. }
  assert (S1 : rnd64 (R64 y + R64 m) <= rnd64 (R32 l + d)) by (apply rnd64_le; rewrite El; lra).
  assert (L1 : Rabs (R32 l) <= bpow radix2 128) by (apply Rlt_le, lt32).
  destruct (f64_add_ok y m Fl' Fm) as [Ea Fa].
  { rewrite <- rnd64_abs. apply Rle_lt_trans with (rnd64 (bpow radix2 129)).
    - apply rnd64_le. eapply Rle_trans; [apply Rabs_triang|]. rewrite El, (Rabs_pos_eq (R64 m)) by exact Q0.
      change (bpow radix2 129) with (2 * bpow radix2 128). unfold max32 in D. lra.
    - rewrite rnd64_bpow by lia. apply bpow_lt. lia. }
  assert (T0 : R32 l <= rnd32 (R64 (f64_add y m))) by (rewrite <- (rnd32_id l), Ea; now apply rnd32_le).
  assert (T1 : rnd32 (R64 (f64_add y m)) <= top) by (rewrite Ea; now apply rnd32_le).
  destruct (f32_of_f64_ok _ Fa) as [Er Fr].
  { apply Rabs_lt. pose proof (Rabs_lt_inv _ _ (lt32 l)). lra. }
  rewrite Er. auto.
Qed.

(** With an exact difference the result never leaves the bounds. *)
Lemma uniform_exact sn st now l u : sine_like sn -> fin32 l -> fin32 u -> R32 l <= R32 u ->
  rnd32 (R32 u - R32 l) = R32 u - R32 l -> R32 u - R32 l < max32 ->
  let r := snd (random_f32_uniform sn st now l u) in fin32 r /\ R32 l <= R32 r <= R32 u.
Proof.
  intros S Fl Fu LU E D.
  assert (EU : rnd32 (rnd64 (R32 l + rnd32 (R32 u - R32 l))) = R32 u).
  { rewrite E. replace (R32 l + (R32 u - R32 l)) with (R32 u) by ring.
    destruct (f64_of_f32_ok u Fu) as [<- _]. rewrite rnd64_id. destruct (f64_of_f32_ok u Fu) as [-> _]. apply rnd32_id. }
  pose proof (uniform_ok sn st now l u S Fl Fu LU) as G. cbv zeta in G. rewrite EU in G.
  apply G; [rewrite E; exact D|]. pose proof (Rabs_lt_inv _ _ (lt32 u)). lra.
Qed.

(** Bounds so far apart that the difference overflows. *)
Definition far_l : binary32 := b32_of_bits 0xff61b1e6.   (* -3e38 *)
Definition far_u : binary32 := b32_of_bits 0x7f61b1e6.   (*  3e38 *)
Lemma far_overflow sn st now : sine_like sn ->
  (forall n, (0 < n < 2 ^ 30)%Z -> bpow radix2 (-100) <= Rabs (R64 (sn n))) ->
  (match st with Some t => 0 <= t < 4294967295 | None => True end)%Z ->
  (let '(st, u1) := random_u64 st now in let '(_, u2) := random_u64 st now in u1 * u2 <> 0)%Z ->
  snd (random_f32_uniform sn st now far_l far_u) = B754_infinity 24 128 false.
Proof.
  intros S N R NZ. unfold random_f32_uniform.
  destruct (random_range st now R) as (t1 & E1 & R1 & U1). destruct (random_u64 st now) as [st1 u1]. cbn [fst snd] in *. subst st1.
  destruct (random_range (Some t1) now R1) as (t2 & E2 & R2 & U2). destruct (random_u64 (Some t1) now) as [st2 u2]. cbn [fst snd] in *.
  assert (PB : (0 < u1 * u2 < 2 ^ 30)%Z) by nia.
  unfold w64; rewrite Z.mod_small by (unfold two64; lia).
  destruct (S (u1 * u2)%Z) as [F H]. destruct (factor _ F H) as (Ff & _ & Fe). set (a := fabs32 _) in *.
  assert (A : 0 < R64 a).
  { rewrite Fe. apply Rlt_le_trans with (bpow radix2 (-100)); [apply bpow_gt_0|].
    rewrite <- (rnd32_bpow (-100)) by lia. apply rnd32_le, N, PB. }
  replace (f64_of_f32 (f32_sub far_u far_l)) with (B754_infinity 53 1024 false) by (vm_compute; reflexivity).
  destruct a as [s|s|s pl e|s m e B]; try discriminate; [cbn in A; lra|].
  destruct s; [exfalso|].
  - revert A. apply Rle_not_lt. apply F2R_le_0. cbn. lia.
  - vm_compute. reflexivity.
Qed.
