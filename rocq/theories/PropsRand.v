(** Properties of the random floats.  Statements only.  [random_u64]: NumModel.v; the sine of
    the C library is any function whose values are finite and between -1 and 1. *)
From Coq Require Import ZArith Bool Reals Lra Lia.
From Flocq Require Import Core IEEE754.BinarySingleNaN IEEE754.Binary IEEE754.Bits.
From Verif Require Import Base NumModel FloatModel FloatFacts RandModel RandProofs.
Open Scope R_scope.

(** ** C124 Random floats below a bound *)
(** vt_math_random_f32 returns a finite number from 0 to the float nearest to the bound. *)
Theorem C124_random_float :
  forall sn st now bound,
  (forall n, is_finite 53 1024 (sn n) = true /\ Rabs (B2R 53 1024 (sn n)) <= 1) -> (0 <= bound < 2 ^ 32)%Z ->
  let r := snd (random_f32 sn st now bound) in
  is_finite 24 128 r = true /\ 0 <= B2R 24 128 r <= round radix2 (FLT_exp (-149) 24) ZnearestE (IZR bound).
Proof. exact random_f32_ok. Qed.
Print Assumptions C124_random_float.
(** Up to 2^24 that is the bound itself. *)
Theorem C124_small_bound :
  forall sn st now bound,
  (forall n, is_finite 53 1024 (sn n) = true /\ Rabs (B2R 53 1024 (sn n)) <= 1) -> (0 <= bound <= 2 ^ 24)%Z ->
  0 <= B2R 24 128 (snd (random_f32 sn st now bound)) <= IZR bound.
Proof.
  intros sn st now bound S B. rewrite <- (rnd32_int bound B). destruct (random_f32_ok sn st now bound S) as [_ H]; [lia|exact H].
Qed.
Print Assumptions C124_small_bound.
(** The same state and the same sine give the same numbers: nothing else is used. *)
Definition half : binary64 := b64_of_bits 0x3fe0000000000000.
Example C124_example :
  bits_of_b32 (snd (random_f32 (fun _ => half) None 1700000000 10)) = 0x40a00000%Z /\             (* 5 *)
  bits_of_b32 (snd (random_f32 (fun _ => b64_opp half) (Some 7%Z) 0 4294967295)) = 0x4f000000%Z.  (* 2^31 *)
Proof. split; vm_compute; reflexivity. Qed.

(** ** C125 Random floats in an interval *)
(** Full statement: vt_math_random_f32_uniform(lbound, ubound) with finite lbound <= ubound
    returns a number between them.  False: if they are so far apart that the difference
    overflows, the result is infinite, whatever the state (unless the sine is taken of 0;
    the sine of an integer up to 2^30 is otherwise never as small as 2^-100). *)
Theorem C125_uniform_refuted :
  forall sn st now,
  (forall n, is_finite 53 1024 (sn n) = true /\ Rabs (B2R 53 1024 (sn n)) <= 1) ->
  (forall n, (0 < n < 2 ^ 30)%Z -> bpow radix2 (-100) <= Rabs (B2R 53 1024 (sn n))) ->
  (match st with Some t => 0 <= t < 4294967295 | None => True end)%Z ->
  (let '(st, u1) := random_u64 st now in let '(_, u2) := random_u64 st now in u1 * u2 <> 0)%Z ->
  let l := b32_of_bits 0xff61b1e6 in let u := b32_of_bits 0x7f61b1e6 in      (* -3e38 and 3e38 *)
  is_finite 24 128 l = true /\ is_finite 24 128 u = true /\
  snd (random_f32_uniform sn st now l u) = B754_infinity 24 128 false.
Proof. intros sn st now S N R NZ l u. split; [reflexivity|]. split; [reflexivity|]. now apply far_overflow. Qed.
Print Assumptions C125_uniform_refuted.
Example C125_refuted_example :
  (let '(st, u1) := random_u64 None 1700000000 in let '(_, u2) := random_u64 st 1700000000 in u1 * u2 <> 0)%Z /\
  snd (random_f32_uniform (fun _ => half) None 1700000000 (b32_of_bits 0xff61b1e6) (b32_of_bits 0x7f61b1e6)) = B754_infinity 24 128 false.
Proof. split; [vm_compute; discriminate|vm_compute; reflexivity]. Qed.

(** True whenever the difference of the bounds is a float. *)
Theorem C125_uniform_partial :
  forall sn st now l u,
  (forall n, is_finite 53 1024 (sn n) = true /\ Rabs (B2R 53 1024 (sn n)) <= 1) ->
  is_finite 24 128 l = true -> is_finite 24 128 u = true -> B2R 24 128 l <= B2R 24 128 u ->
  round radix2 (FLT_exp (-149) 24) ZnearestE (B2R 24 128 u - B2R 24 128 l) = B2R 24 128 u - B2R 24 128 l ->
  B2R 24 128 u - B2R 24 128 l < bpow radix2 128 ->
  let r := snd (random_f32_uniform sn st now l u) in
  is_finite 24 128 r = true /\ B2R 24 128 l <= B2R 24 128 r <= B2R 24 128 u.
Proof. exact uniform_exact. Qed.
Print Assumptions C125_uniform_partial.
(** Otherwise, without overflow, the lower bound still holds and the upper one is exceeded at
    most by what the rounding of the difference adds.  Missing: overflowing differences. *)
Theorem C125_rounded_partial :
  forall sn st now l u,
  (forall n, is_finite 53 1024 (sn n) = true /\ Rabs (B2R 53 1024 (sn n)) <= 1) ->
  is_finite 24 128 l = true -> is_finite 24 128 u = true -> B2R 24 128 l <= B2R 24 128 u ->
  let d := round radix2 (FLT_exp (-149) 24) ZnearestE (B2R 24 128 u - B2R 24 128 l) in
  let top := round radix2 (FLT_exp (-149) 24) ZnearestE (round radix2 (FLT_exp (-1074) 53) ZnearestE (B2R 24 128 l + d)) in
  d < bpow radix2 128 -> top < bpow radix2 128 ->
  let r := snd (random_f32_uniform sn st now l u) in
  is_finite 24 128 r = true /\ B2R 24 128 l <= B2R 24 128 r <= top.
Proof. exact uniform_ok. Qed.
Print Assumptions C125_rounded_partial.
Example C125_example :
  bits_of_b32 (snd (random_f32_uniform (fun _ => half) None 1700000000 (b32_of_bits 0xbf800000) (b32_of_bits 0x40400000))) = 0x3f800000%Z.
  (* half way between -1 and 3 *)
Proof. vm_compute. reflexivity. Qed.
