(** Proofs about vt_math_random_u64 in programs started at different times, and about the loop of
    vt_math_random_f32_normal. *)
From Verif Require Import Base BaseFacts NumModel NumProofs RandPeriod.

(** ** Two start times *)
Lemma st_two k t t' : (st k t - st k t') mod md = (214013 ^ (Z.of_nat k + 1) * (t - t')) mod md.
Proof. rewrite !st_closed, <- Zminus_mod. f_equal. ring. Qed.
Lemma st_same k t t' : (252645135 | t - t') -> st k t = st k t'.
Proof.
  intros (q & E). pose proof (st_range k t) as R. pose proof (st_range k t') as R'.
  assert ((st k t - st k t') mod md = 0) as Z0.
  { rewrite st_two, E. rewrite Z.pow_add_r by lia. change (214013 ^ 1) with (12589 * 17).
    replace (214013 ^ Z.of_nat k * (12589 * 17) * (q * 252645135)) with (214013 ^ Z.of_nat k * 12589 * q * md) by (unfold md; ring). apply Z_mod_mult. }
  apply Z.mod_divide in Z0; [|unfold md; lia]. destruct Z0 as (w & W). unfold md in *. nia.
Qed.
(** Which differences can give three equal numbers: a search. *)
Definition nearb (d : Z) : bool := Z.land (d + 32768) 1073741823 <? 65536.
Lemma near_nearb d : near d -> nearb d = true.
Proof.
  intros (z & s & -> & B). unfold nearb. change 1073741823 with (Z.ones 30). rewrite Z.land_ones by lia. change (2 ^ 30) with 1073741824.
  replace (1073741824 * z + s + 32768) with (s + 32768 + z * 1073741824) by ring.
  rewrite Z_mod_plus_full, Z.mod_small by lia. lia.
Qed.
(** [e] is 214013 * d modulo 2^32 - 1. *)
Definition fine3 (d e : Z) : bool := if nearb e then (if (d <=? 0) || (md <=? d) then true else negb (nearb ((214013 * e) mod md))) else true.
Fixpoint scan (k : nat) (d e : Z) : bool :=
  match k with
  | O => true
  | S k => if fine3 d e then scan k (d + 1) (let x := e + 214013 in if x <? md then x else x - md) else false
  end.
Lemma scan_ok k : forall d e, e = (214013 * d) mod md -> scan k d e = true -> forall x, d <= x < d + Z.of_nat k -> fine3 x ((214013 * x) mod md) = true.
Proof.
  induction k as [|k IH]; intros d e E H x X; [lia|]. cbn [scan] in H. destruct (fine3 d e) eqn:A; [|discriminate].
  destruct (Z.eq_dec x d) as [->|N]; [now rewrite <- E|]. apply (IH (d + 1) _ eq_refl); [|lia].
  revert H. cbv zeta. match goal with |- scan _ _ ?a = true -> scan _ _ ?b = true => replace b with a; [tauto|] end.
  pose proof (Z.mod_pos_bound (214013 * d) md eq_refl) as R. rewrite <- E in R.
  replace (214013 * (d + 1)) with (214013 * d + 214013) by ring. rewrite <- Zplus_mod_idemp_l, <- E. unfold md in *.
  destruct (Z.ltb_spec (e + 214013) 4294967295); [now rewrite Z.mod_small by lia|].
  rewrite <- (Z_mod_plus_full _ (-1)). rewrite Z.mod_small; lia.
Qed.
Lemma scan_all : forallb (fun z => scan (Z.to_nat 65536) (1073741824 * z - 32768) ((214013 * (1073741824 * z - 32768)) mod md)) [0; 1; 2; 3; 4] = true.
Proof. vm_compute. reflexivity. Qed.
Lemma three_equal d : 0 <= d < md -> near d -> near ((214013 * d) mod md) -> near ((214013 * ((214013 * d) mod md)) mod md) -> d = 0.
Proof.
  intros D (z & s & E & B) N1 N2. destruct (Z.eq_dec d 0) as [->|NZ]; [reflexivity|exfalso].
  assert (fine3 d ((214013 * d) mod md) = true) as H.
  { pose proof scan_all as A. rewrite forallb_forall in A. specialize (A z). unfold md in D.
    apply (scan_ok _ _ _ eq_refl (A ltac:(cbn [In]; lia))). lia. }
  unfold fine3 in H. rewrite (near_nearb _ N1), (near_nearb _ N2) in H. unfold md in *.
  destruct (Z.leb_spec d 0); [lia|]. destruct (Z.leb_spec 4294967295 d); [lia|]. discriminate.
Qed.
Lemma numbers_differ t t' : ~ (252645135 | t - t') -> exists k, (k < 3)%nat /\ out (st k t) <> out (st k t').
Proof.
  intros H. assert (forall k, out (st k t) = out (st k t') -> near ((214013 ^ (Z.of_nat k + 1) * (t - t')) mod md)) as G.
  { intros k E. rewrite <- st_two. apply diff_near; [apply st_range|apply st_range|exact E]. }
  destruct (Z.eq_dec (out (st 0 t)) (out (st 0 t'))) as [E0|N]; [|exists 0%nat; split; [lia|exact N]].
  destruct (Z.eq_dec (out (st 1 t)) (out (st 1 t'))) as [E1|N]; [|exists 1%nat; split; [lia|exact N]].
  destruct (Z.eq_dec (out (st 2 t)) (out (st 2 t'))) as [E2|N]; [|exists 2%nat; split; [lia|exact N]].
  exfalso. apply G in E0, E1, E2. change (214013 ^ (Z.of_nat 0 + 1)) with 214013 in E0.
  change (214013 ^ (Z.of_nat 1 + 1)) with (214013 * 214013) in E1. change (214013 ^ (Z.of_nat 2 + 1)) with (214013 * (214013 * 214013)) in E2.
  rewrite <- Z.mul_assoc, <- Zmult_mod_idemp_r in E1.
  rewrite <- Z.mul_assoc, <- Z.mul_assoc, <- Zmult_mod_idemp_r in E2. rewrite <- (Zmult_mod_idemp_r (214013 * (t - t'))) in E2.
  pose proof (three_equal _ (Z.mod_pos_bound (214013 * (t - t')) md eq_refl) E0 E1 E2) as Z0.
  apply H. apply Z.mod_divide in Z0; [|unfold md; lia]. destruct Z0 as (w & W).
  exists (79050694 * w - 3939 * (t - t')). unfold md in W. lia.
Qed.
Lemma next_second now : (out (step (now + 1)) - out (step now)) mod 32768 = 6 \/ (out (step (now + 1)) - out (step now)) mod 32768 = 7.
Proof.
  pose proof (step_range now) as R. pose proof (step_range (now + 1)) as R'.
  assert (exists j, step (now + 1) - step now = 214013 + md * j /\ (j = 0 \/ j = -1)) as (j & E & J).
  { unfold step in *. pose proof (Z.div_mod (214013 * now + 2531011) md ltac:(unfold md; lia)).
    pose proof (Z.div_mod (214013 * (now + 1) + 2531011) md ltac:(unfold md; lia)).
    exists ((214013 * now + 2531011) / md - (214013 * (now + 1) + 2531011) / md). unfold md in *. split; lia. }
  rewrite !out_div by lia. set (x := step now) in *. set (y := step (now + 1)) in *. clearbody x y. unfold md in *.
  rewrite <- Zminus_mod.
  pose proof (Z.div_mod x 32768 ltac:(lia)). pose proof (Z.div_mod y 32768 ltac:(lia)).
  pose proof (Z.mod_pos_bound x 32768 ltac:(lia)). pose proof (Z.mod_pos_bound y 32768 ltac:(lia)).
  set (p := x / 32768) in *. set (q := y / 32768) in *.
  assert (q - p = 6 + (4 * j) * 32768 \/ q - p = 7 + (4 * j) * 32768) as [-> | ->] by (destruct J; subst j; lia).
  - left. now rewrite Z_mod_plus_full.
  - right. now rewrite Z_mod_plus_full.
Qed.
