(** Proofs about the sequence of vt_math_random_u64 (math.c:47-57): its modulus 2^32 - 1 is
    3 * 5 * 17 * 257 * 65537 and its multiplier is divisible by 17. *)
From Coq Require Import Zpow_facts Znumtheory.
From Verif Require Import Base BaseFacts NumModel NumProofs.

Definition md : Z := 4294967295.
Definition step (t : Z) : Z := (214013 * t + 2531011) mod md.
Definition out (x : Z) : Z := Z.shiftr (Z.land x 1073709056) 15.
(** The state after [k + 1] calls of a program started at [now]. *)
Fixpoint st (k : nat) (now : Z) : Z := match k with O => step now | S k => step (st k now) end.
Definition time_ok (now : Z) : Prop := 0 <= now < 2 ^ 46.

Lemma step_range t : 0 <= step t < md.
Proof. apply Z.mod_pos_bound. reflexivity. Qed.
Lemma st_range k now : 0 <= st k now < md.
Proof. destruct k; apply step_range. Qed.
Lemma w64_small x : 0 <= x < two64 -> w64 x = x.
Proof. intros H. unfold w64. now apply Z.mod_small. Qed.
Lemma u64_some t now : 0 <= t < 2 ^ 46 -> random_u64 (Some t) now = (Some (step t), out (step t)).
Proof.
  intros H. unfold random_u64, step, out, md. change (2 ^ 46) with 70368744177664 in H. unfold two64 in *.
  rewrite (w64_small t), (w64_small (214013 * t)), (w64_small (214013 * t + 2531011)) by (unfold two64; lia). reflexivity.
Qed.
Lemma u64_none now : time_ok now -> random_u64 None now = (Some (step now), out (step now)).
Proof. intros H. now rewrite <- (u64_some now now H). Qed.
Lemma md_lt t : 0 <= t < md -> 0 <= t < 2 ^ 46.
Proof. unfold md. change (2 ^ 46) with 70368744177664. lia. Qed.
Lemma run_some nows : forall t, 0 <= t < md -> random_run (Some t) nows = map (fun k => out (st k t)) (seq 0 (length nows)).
Proof.
  induction nows as [|n nows IH]; intros t H; [reflexivity|]. cbn [random_run length seq map].
  rewrite u64_some by now apply md_lt. rewrite IH by apply step_range. cbn [st]. f_equal.
  rewrite <- seq_shift, map_map. apply map_ext. intros k. f_equal. induction k as [|k IHk]; [reflexivity|]. cbn [st] in *. now rewrite IHk.
Qed.
Lemma st_shift k now : st k (step now) = st (S k) now.
Proof. induction k as [|k IH]; [reflexivity|]. cbn [st] in *. now rewrite IH. Qed.
Lemma run_none now nows : time_ok now -> random_run None (now :: nows) = map (fun k => out (st k now)) (seq 0 (S (length nows))).
Proof.
  intros H. cbn [random_run]. rewrite u64_none by assumption. rewrite run_some by apply step_range.
  cbn [seq map]. cbn [st]. f_equal. rewrite <- seq_shift, map_map. apply map_ext. intros k. now rewrite st_shift.
Qed.
Lemma run_nth now nows i : time_ok now -> (i < S (length nows))%nat -> nth_error (random_run None (now :: nows)) i = Some (out (st i now)).
Proof.
  intros H L. rewrite run_none by assumption. rewrite nth_error_map, nth_error_nth' with (d := O) by (rewrite seq_length; lia).
  rewrite seq_nth by lia. reflexivity.
Qed.

(** ** The states *)
(** The state that stays. *)
Definition fx : Z := 3769264667.
Lemma st_closed k now : st k now = (fx + 214013 ^ (Z.of_nat k + 1) * (now - fx)) mod md.
Proof.
  induction k as [|k IH]; cbn [st]; unfold step.
  - change (214013 ^ (Z.of_nat 0 + 1)) with 214013.
    replace (214013 * now + 2531011) with (fx + 214013 * (now - fx) + 187817 * md) by (unfold fx, md; ring). apply Z_mod_plus_full.
  - rewrite IH. rewrite Zplus_mod, Zmult_mod_idemp_r, <- Zplus_mod.
    replace (Z.of_nat (S k) + 1) with (Z.succ (Z.of_nat k + 1)) by lia. rewrite Z.pow_succ_r by lia.
    set (x := 214013 ^ (Z.of_nat k + 1)).
    replace (214013 * (fx + x * (now - fx)) + 2531011) with (fx + 214013 * x * (now - fx) + 187817 * md) by (unfold fx, md; ring).
    apply Z_mod_plus_full.
Qed.
Lemma pow_div b n r M : 0 <= n -> 1 < M -> Zpow_mod b n M = r mod M -> (M | b ^ n - r).
Proof.
  intros N B H. rewrite Zpow_mod_correct in H by lia. exists (b ^ n / M - r / M).
  rewrite (Z.div_mod (b ^ n) M) at 1 by lia. rewrite (Z.div_mod r M) at 1 by lia. rewrite H. ring.
Qed.
Lemma mod_eq x y : (md | x - y) -> x mod md = y mod md.
Proof. intros (q & E). replace x with (y + q * md) by lia. apply Z_mod_plus_full. Qed.
(** States [n] calls apart. *)
Lemma st_apart n k now : (md | (214013 ^ (n + 1) - 214013) * (now - fx)) -> 0 <= n -> st (k + Z.to_nat n) now = st k now.
Proof.
  intros (q & E) N. rewrite !st_closed. apply mod_eq.
  replace (Z.of_nat (k + Z.to_nat n) + 1) with (Z.of_nat k + (n + 1)) by lia. rewrite Z.pow_add_r by lia.
  rewrite (Z.pow_add_r _ (Z.of_nat k) 1) by lia. change (214013 ^ 1) with 214013.
  exists (214013 ^ Z.of_nat k * q). set (x := 214013 ^ Z.of_nat k) in *. set (y := 214013 ^ (n + 1)) in *.
  transitivity (x * ((y - 214013) * (now - fx))); [ring|]. rewrite E. ring.
Qed.
Lemma st_period k now : st (k + Z.to_nat 65536) now = st k now.
Proof.
  apply st_apart; [|lia]. apply Z.divide_mul_l. apply pow_div; [lia|reflexivity|]. vm_compute. reflexivity.
Qed.
(** Start times that are in step with the fixed state. *)
Lemma div_md p q x y : md = p * q -> (p | x) -> (q | y) -> (md | x * y).
Proof. intros E (a & ->) (b & ->). rewrite E. exists (a * b). ring. Qed.
Lemma st_short k now : now mod 65537 = 35186 -> st (k + Z.to_nat 32) now = st k now.
Proof.
  intros H. apply st_apart; [|lia]. apply (div_md 65535 65537); [reflexivity| |].
  - apply pow_div; [lia|lia|]. vm_compute. reflexivity.
  - exists ((now - fx) / 65537). pose proof (Z.div_mod now 65537 ltac:(lia)). rewrite H in *. unfold fx.
    replace now with (35186 + (now / 65537) * 65537) at 1 2 by lia.
    replace (35186 + now / 65537 * 65537 - 3769264667) with ((now / 65537 - 57513) * 65537) by ring. now rewrite Z.div_mul by lia.
Qed.
Lemma st_stuck k now : now mod 252645135 = 232232777 -> st k now = fx.
Proof.
  intros H. rewrite st_closed. rewrite <- (Z.mod_small fx md) at 3 by (unfold fx, md; lia). apply mod_eq.
  replace (fx + 214013 ^ (Z.of_nat k + 1) * (now - fx) - fx) with (214013 ^ (Z.of_nat k + 1) * (now - fx)) by ring.
  apply (div_md 17 252645135); [reflexivity| |].
  - rewrite Z.pow_add_r by lia. exists (214013 ^ Z.of_nat k * 12589). change (214013 ^ 1) with (12589 * 17). ring.
  - pose proof (Z.div_mod now 252645135 ltac:(lia)). rewrite H in *. exists (now / 252645135 - 14). unfold fx. lia.
Qed.

(** ** The numbers *)
Lemma out_div x : 0 <= x -> out x = (x / 32768) mod 32768.
Proof.
  intros H. unfold out. change 1073709056 with (Z.shiftl (Z.ones 15) 15). rewrite Z.shiftr_land, Z.shiftr_shiftl_l by lia.
  change (Z.shiftl (Z.ones 15) (15 - 15)) with (Z.ones 15). rewrite Z.land_ones by lia. rewrite Z.shiftr_div_pow2 by lia. reflexivity.
Qed.
(** Two states with the same number: they differ by nearly a multiple of 2^30. *)
Lemma out_near x y : 0 <= x -> 0 <= y -> out x = out y -> exists z s, x - y = 1073741824 * z + s /\ - 32768 < s < 32768.
Proof.
  intros X Y. rewrite !out_div by assumption. intros E.
  pose proof (Z.div_mod x 32768 ltac:(lia)). pose proof (Z.div_mod y 32768 ltac:(lia)).
  pose proof (Z.mod_pos_bound x 32768 ltac:(lia)). pose proof (Z.mod_pos_bound y 32768 ltac:(lia)).
  pose proof (Z.div_mod (x / 32768) 32768 ltac:(lia)). pose proof (Z.div_mod (y / 32768) 32768 ltac:(lia)).
  exists (x / 32768 / 32768 - y / 32768 / 32768), (x mod 32768 - y mod 32768). lia.
Qed.
(** Bounds of a difference taken modulo 2^32 - 1. *)
Definition near (d : Z) : Prop := exists z s, d = 1073741824 * z + s /\ - 32768 <= s < 32768.
Lemma diff_near x y : 0 <= x < md -> 0 <= y < md -> out x = out y -> near ((x - y) mod md).
Proof.
  intros X Y E. destruct (out_near x y ltac:(lia) ltac:(lia) E) as (z & s & D & B).
  unfold md in *. destruct (Z_lt_le_dec x y).
  - exists (z + 4), (s - 1). replace ((x - y) mod 4294967295) with (x - y + 4294967295); [lia|].
    rewrite <- (Z_mod_plus_full _ 1). rewrite Z.mod_small; lia.
  - exists z, s. rewrite Z.mod_small; lia.
Qed.

(** ** 32768 calls apart *)
Lemma near_k k : 1 <= k <= 65536 -> near (65535 * k) -> k mod 16384 = 0 \/ k mod 16384 = 1.
Proof.
  intros K (z & s & E & B). pose proof (Z.div_mod k 16384 ltac:(lia)) as D. pose proof (Z.mod_pos_bound k 16384 ltac:(lia)) as M.
  set (j := k / 16384) in *. set (q := k mod 16384) in *. lia.
Qed.
Lemma st_half i now : (st (i + Z.to_nat 32768) now - st i now) mod md = 65535 * ((214013 ^ Z.of_nat i * 17402 * (now - fx)) mod 65537).
Proof.
  rewrite !st_closed. rewrite <- Zminus_mod. replace (Z.of_nat (i + Z.to_nat 32768) + 1) with (Z.of_nat i + 32769) by lia.
  rewrite (Z.pow_add_r _ _ 32769), (Z.pow_add_r _ _ 1) by lia. change (214013 ^ 1) with 214013.
  assert ((md | 214013 ^ 32769 - (214013 + 65535 * 17402))) as (w & W) by (apply pow_div; [lia|reflexivity|vm_compute; reflexivity]).
  set (p := 214013 ^ 32769) in *. clearbody p. set (x := 214013 ^ Z.of_nat i). clearbody x.
  replace (fx + x * p * (now - fx) - (fx + x * 214013 * (now - fx))) with (65535 * (x * 17402 * (now - fx)) + (x * w * (now - fx)) * md)
    by (replace p with (214013 + 65535 * 17402 + w * md) by lia; ring).
  rewrite Z_mod_plus_full. change md with (65535 * 65537). rewrite Z.mul_mod_distr_l by lia. reflexivity.
Qed.
Lemma half_differs now : now mod 65537 <> 35186 -> exists i, (i < 2)%nat /\ out (st (i + Z.to_nat 32768) now) <> out (st i now).
Proof.
  intros H.
  destruct (Z.eq_dec (out (st (0 + Z.to_nat 32768) now)) (out (st 0 now))) as [E0|N]; [|exists 0%nat; split; [lia|exact N]].
  destruct (Z.eq_dec (out (st (1 + Z.to_nat 32768) now)) (out (st 1 now))) as [E1|N]; [|exists 1%nat; split; [lia|exact N]].
  exfalso. apply diff_near in E0; [|apply st_range|apply st_range]. apply diff_near in E1; [|apply st_range|apply st_range].
  rewrite st_half in E0, E1. change (214013 ^ Z.of_nat 0) with 1 in E0. change (214013 ^ Z.of_nat 1) with 214013 in E1.
  rewrite Z.mul_1_l in E0. set (k := (17402 * (now - fx)) mod 65537) in *.
  assert ((214013 * 17402 * (now - fx)) mod 65537 = (17402 * k) mod 65537) as K1.
  { unfold k. rewrite <- Z.mul_assoc. rewrite <- Zmult_mod_idemp_l. change (214013 mod 65537) with 17402. now rewrite Zmult_mod_idemp_r. }
  rewrite K1 in E1. pose proof (Z.mod_pos_bound (17402 * (now - fx)) 65537 ltac:(lia)) as KB. fold k in KB.
  assert (k <> 0) as K0.
  { intros Z0. apply H. assert ((35465 * k) mod 65537 = (now - fx) mod 65537) as I.
    { unfold k. rewrite Zmult_mod_idemp_r. replace (35465 * (17402 * (now - fx))) with (now - fx + 9417 * (now - fx) * 65537) by ring. apply Z_mod_plus_full. }
    rewrite Z0 in I. change ((35465 * 0) mod 65537) with 0 in I. symmetry in I. unfold fx in I.
    pose proof (Z.div_mod (now - 3769264667) 65537 ltac:(lia)) as D. rewrite I in D.
    replace now with (35186 + (57513 + (now - 3769264667) / 65537) * 65537) by lia. rewrite Z_mod_plus_full. reflexivity. }
  apply near_k in E0; [|lia]. pose proof (Z.div_mod k 16384 ltac:(lia)) as D.
  assert (k = 1 \/ k = 16384 \/ k = 16385 \/ k = 32768 \/ k = 32769 \/ k = 49152 \/ k = 49153 \/ k = 65536) as C by lia.
  clear K1 KB H D E0. 
  assert (forall r, 1 <= r <= 65536 -> r mod 16384 <> 0 -> r mod 16384 <> 1 -> ~ near (65535 * r)) as G.
  { intros r R R0 R1 NR. apply near_k in NR; [|exact R]. tauto. }
  clearbody k. repeat (destruct C as [C|C]; [subst k; revert E1; apply G; vm_compute; (congruence || (split; congruence))|]).
  subst k; revert E1; apply G; vm_compute; (congruence || (split; congruence)).
Qed.

(** No number of calls below 65536 gives the same numbers again. *)
Lemma search n (P : nat -> bool) : (exists i, (i < n)%nat /\ P i = false) \/ (forall i, (i < n)%nat -> P i = true).
Proof.
  induction n as [|n IH]; [right; lia|]. destruct IH as [(i & L & E)|A]; [left; exists i; split; [lia|exact E]|].
  destruct (P n) eqn:E; [right|left; exists n; split; [lia|exact E]]. intros i L.
  destruct (Nat.eq_dec i n) as [->|N]; [exact E|apply A; lia].
Qed.
Lemma half_divides g : 0 < g < 65536 -> (g | 65536) -> (g | 32768).
Proof.
  intros G (h & E). destruct (Zeven_odd_dec h) as [V|O].
  - apply Zeven_ex in V. destruct V as (j & ->). exists j. lia.
  - exfalso. assert (rel_prime h (2 ^ 16)) as R.
    { apply rel_prime_Zpower_r; [lia|]. apply rel_prime_sym. apply prime_rel_prime; [exact prime_2|]. intros (j & ->).
      apply Zodd_ex in O. destruct O as (i & O). lia. }
    change (2 ^ 16) with 65536 in R. destruct R as [_ _ R]. specialize (R h ltac:(apply Z.divide_refl) ltac:(exists g; lia)).
    apply Z.divide_1_r_nonneg in R; nia.
Qed.
Lemma per_mul (f : nat -> Z) d n i : (forall i, f (i + d)%nat = f i) -> f (i + n * d)%nat = f i.
Proof. intros P. induction n as [|n IH]; [f_equal; lia|]. cbn [Nat.mul]. replace (i + (d + n * d))%nat with (i + n * d + d)%nat by lia. now rewrite P. Qed.
Lemma not_sooner now d : now mod 65537 <> 35186 -> 0 < d < 65536 ->
  exists i, (i < Z.to_nat 65536)%nat /\ out (st (i + Z.to_nat d) now) <> out (st i now).
Proof.
  intros H D. destruct (search (Z.to_nat 65536) (fun i => out (st (i + Z.to_nat d) now) =? out (st i now))) as [(i & L & E)|A].
  - exists i. split; [exact L|]. now apply Z.eqb_neq.
  - exfalso. set (f := fun i => out (st i now)). set (N := Z.to_nat 65536) in *. set (d' := Z.to_nat d) in *.
    assert (forall i, f (i + N)%nat = f i) as PN by (intros i; unfold f, N; now rewrite st_period).
    assert (N <> 0)%nat as N0 by (unfold N; lia).
    assert (forall i, f (i + d')%nat = f i) as PD.
    { intros i. rewrite (Nat.div_mod i N N0). rewrite (Nat.mul_comm N). 
      replace (i / N * N + i mod N + d')%nat with (i mod N + d' + i / N * N)%nat by lia. rewrite (Nat.add_comm (i / N * N)).
      rewrite !(per_mul f N) by exact PN. specialize (A (i mod N)%nat (Nat.mod_upper_bound i N N0)). now apply Z.eqb_eq in A. }
    destruct (Nat.gcd_bezout_pos d' N ltac:(unfold d'; lia)) as (u & v & B). set (g := Nat.gcd d' N) in *.
    assert (forall i, f (i + g)%nat = f i) as PG.
    { intros i. rewrite <- (per_mul f N v (i + g)) by exact PN. replace (i + g + v * N)%nat with (i + u * d')%nat by lia. now apply per_mul. }
    assert ((Z.of_nat g | 32768)) as (j & J).
    { apply half_divides.
      - pose proof (Nat.gcd_divide_l d' N) as (a & Ea). fold g in Ea. assert (g <> 0)%nat by (intros Z0; rewrite Z0 in Ea; unfold d' in *; lia). split; [lia|].
        assert (g <= d')%nat by (apply Nat.divide_pos_le; [unfold d'; lia|exists a; exact Ea]). unfold d' in *; lia.
      - pose proof (Nat.gcd_divide_r d' N) as (a & Ea). fold g in Ea. exists (Z.of_nat a). rewrite <- Nat2Z.inj_mul, <- Ea. unfold N. lia. }
    destruct (half_differs now H) as (i & _ & X). apply X. fold (f i). change (out (st (i + Z.to_nat 32768) now)) with (f (i + Z.to_nat 32768)%nat).
    replace (Z.to_nat 32768) with (Z.to_nat j * g)%nat by (rewrite <- (Nat2Z.id g), <- Z2Nat.inj_mul by nia; f_equal; lia). now apply per_mul.
Qed.
