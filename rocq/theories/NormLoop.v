(** Proofs about how long the loop of vt_math_random_f32_normal (math.c:79-84) runs. *)
From Coq Require Import ZArith Bool.
From Flocq Require Import Core IEEE754.BinarySingleNaN IEEE754.Binary IEEE754.Bits.
From Verif Require Import Base BaseFacts NumModel FloatModel RandModel NormModel RandPeriod.
Open Scope Z_scope.

(** The coordinate made of a number, and whether a pair of them is refused. *)
Definition cv (sn : Z -> binary64) (n : Z) : binary32 :=
  f32_add f32_m1 (f32_mul (f32_div (f32_of_f64 (f64_mul (f64_of_u32 rand_max) (fabs32 (f32_of_f64 (sn n))))) f32_rand_max) f32_2).
Definition refused (sn : Z -> binary64) (n1 n2 : Z) : bool :=
  let w := norm2 (cv sn n1) (cv sn n2) in f_ge w f32_1 || f_eq w (B754_zero 24 128 false).
Definition seed_ok (s : option Z) (now : Z) : Prop := match s with Some t => 0 <= t < 2 ^ 46 | None => time_ok now end.
Definition seed (s : option Z) (now : Z) : Z := match s with Some t => t | None => now end.
Lemma coordinate_st sn s now : seed_ok s now -> coordinate sn s now = (Some (step (seed s now)), cv sn (out (step (seed s now)))).
Proof.
  intros H. unfold coordinate, random_f32. destruct s as [t|]; cbn [seed seed_ok] in *.
  - rewrite u64_some by assumption. reflexivity.
  - rewrite u64_none by assumption. reflexivity.
Qed.
Lemma draw_step f sn s now : seed_ok s now -> draw (S f) sn s now =
  let a := step (seed s now) in let b := step a in
  if refused sn (out a) (out b) then draw f sn (Some b) now else Ok (Some b, (cv sn (out a), cv sn (out b), norm2 (cv sn (out a)) (cv sn (out b)))).
Proof.
  intros H. cbn [draw]. rewrite (coordinate_st sn s now H). rewrite coordinate_st by (apply md_lt, step_range). reflexivity.
Qed.
(** [twice k t]: the state after [k] rounds. *)
Fixpoint twice (k : nat) (t : Z) : Z := match k with O => t | S k => twice k (step (step t)) end.
Lemma twice_st k t : twice (S k) t = st (2 * k + 1) t.
Proof.
  revert t. induction k as [|k IH]; intros t; [reflexivity|]. change (twice (S (S k)) t) with (twice (S k) (step (step t))).
  rewrite IH. rewrite !st_shift. f_equal. lia.
Qed.
Lemma twice_range k t : 0 <= t < md -> 0 <= twice k t < md.
Proof. revert t. induction k as [|k IH]; intros t H; [exact H|]. apply IH, step_range. Qed.
Lemma draw_more k sn now : forall n t, 0 <= t < md -> draw n sn (Some t) now = NoFuel -> draw (n + k) sn (Some t) now = draw k sn (Some (twice n t)) now.
Proof.
  induction n as [|n IH]; intros t H D; [reflexivity|]. change (S n + k)%nat with (S (n + k)).
  rewrite draw_step in D |- * by now apply md_lt. cbv zeta in *. cbn [seed] in *.
  destruct (refused _ _ _); [|discriminate]. apply IH; [apply step_range|exact D].
Qed.
Lemma draw_less sn now : forall n k s, draw (n + k) sn s now = NoFuel -> draw n sn s now = NoFuel.
Proof.
  induction n as [|n IH]; intros k s D; [reflexivity|]. change (S n + k)%nat with (S (n + k)) in D. cbn [draw] in *.
  destruct (coordinate sn s now) as [s1 u1]. destruct (coordinate sn s1 now) as [s2 u2]. destruct (_ || _); [|discriminate]. now apply IH with k.
Qed.
(** A loop that comes back to its state without an end has none. *)
Lemma draw_cycle n sn now t : 0 <= t < md -> (0 < n)%nat -> twice n t = t -> draw n sn (Some t) now = NoFuel -> forall f, draw f sn (Some t) now = NoFuel.
Proof.
  intros R N C D. assert (forall k, draw (k * n) sn (Some t) now = NoFuel) as A.
  { induction k as [|k IH]; [reflexivity|]. cbn [Nat.mul]. rewrite draw_more by assumption. now rewrite C. }
  intros f. specialize (A f). replace (f * n)%nat with (f + (f * n - f))%nat in A by nia. now apply draw_less in A.
Qed.
Lemma draw_first sn s now n : seed_ok s now -> draw (S n) sn s now = NoFuel ->
  (forall f, draw f sn (Some (step (step (seed s now)))) now = NoFuel) -> forall f, draw f sn s now = NoFuel.
Proof.
  intros H D A [|f]; [reflexivity|]. rewrite draw_step in D |- * by assumption. cbv zeta in *. destruct (refused _ _ _); [|discriminate]. apply A.
Qed.
Lemma draw_tail sn s now n : seed_ok s now -> draw (S n) sn s now = NoFuel -> draw n sn (Some (step (step (seed s now)))) now = NoFuel.
Proof. intros H D. rewrite draw_step in D by assumption. cbv zeta in *. now destruct (refused _ _ _). Qed.
Lemma draw_bound sn s now : seed_ok s now -> draw (Z.to_nat 32769) sn s now = NoFuel -> forall f, draw f sn s now = NoFuel.
Proof.
  intros H D. replace (Z.to_nat 32769) with (S (Z.to_nat 32768)) in D by lia.
  apply (draw_first sn s now _ H D). set (t := step (step (seed s now))).
  apply (draw_cycle (Z.to_nat 32768)); [apply step_range|lia| |now apply draw_tail].
  replace (Z.to_nat 32768) with (S (Z.to_nat 32767)) by lia. rewrite twice_st. unfold t. rewrite !st_shift.
  replace (S (S (2 * Z.to_nat 32767 + 1))) with (1 + Z.to_nat 65536)%nat by lia. rewrite st_period. reflexivity.
Qed.
Lemma step_stuck t : t mod 252645135 = 232232777 -> step t = fx.
Proof. exact (st_stuck 0 t). Qed.
Lemma draw_stuck sn s now : seed_ok s now -> seed s now mod 252645135 = 232232777 ->
  (refused sn 16724 16724 = true -> forall f, draw f sn s now = NoFuel) /\
  (refused sn 16724 16724 = false -> draw 1 sn s now = Ok (Some fx, (cv sn 16724, cv sn 16724, norm2 (cv sn 16724) (cv sn 16724)))).
Proof.
  intros H M. assert (step fx = fx) as F by (apply step_stuck; reflexivity).
  assert (forall f, draw (S f) sn s now = if refused sn 16724 16724 then draw f sn (Some fx) now else Ok (Some fx, (cv sn 16724, cv sn 16724, norm2 (cv sn 16724) (cv sn 16724)))) as E.
  { intros f. rewrite draw_step by assumption. cbv zeta. rewrite (step_stuck _ M), F. reflexivity. }
  split; intros R.
  - assert (forall f, draw f sn (Some fx) now = NoFuel) as A.
    { apply (draw_cycle 1); [unfold fx, md; lia|lia|cbn [twice]; now rewrite !F|].
      rewrite draw_step by (cbn [seed_ok]; unfold fx; change (2 ^ 46) with 70368744177664; lia). cbv zeta. cbn [seed]. rewrite !F.
      change (out fx) with 16724. now rewrite R. }
    intros [|f]; [reflexivity|]. rewrite E, R. apply A.
  - now rewrite E, R.
Qed.
(** The float nearest to the sine of 16724 is -0.96417218. *)
Lemma sine_refused sn : bits_of_b32 (f32_of_f64 (sn 16724)) = 0xbf76d3fd -> refused sn 16724 16724 = true.
Proof.
  intros E. assert (f32_of_f64 (sn 16724) = b32_of_bits 0xbf76d3fd) as F.
  { rewrite <- E. symmetry. exact (binary_float_of_bits_of_binary_float 23 8 eq_refl eq_refl eq_refl (f32_of_f64 (sn 16724))). }
  unfold refused, cv. rewrite F. vm_compute. reflexivity.
Qed.
(** A call that has a sample in store returns at once; otherwise it returns if the loop does. *)
Lemma normal_loops fuel sn lg s now mu std : n_call s = false ->
  (draw fuel sn (n_rand s) now = NoFuel <-> random_normal fuel sn lg s now mu std = NoFuel).
Proof.
  intros C. unfold random_normal. rewrite C. destruct (draw fuel sn (n_rand s) now) as [[s' [[u1 u2] w]]| | |] eqn:E; cbn [bind]; split; try discriminate; reflexivity.
Qed.
