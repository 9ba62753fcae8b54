(** Properties of the sequence of random numbers (C200-C202).  Statements only.  A program is started at [now] (seconds since 1970,
    below 2^46); what the clock says later does not matter. *)
From Coq Require Import ZArith Bool.
From Flocq Require Import Core IEEE754.BinarySingleNaN IEEE754.Binary IEEE754.Bits.
From Verif Require Import Base BaseFacts NumModel FloatModel RandModel NormModel RandPeriod RandSeeds NormLoop.
Open Scope Z_scope.

(** ** C200 Random numbers do not start over *)
(** Full statement: not before 2^32 - 1 calls, the number of states.  False: the modulus 2^32 - 1 is a product of small primes, and the numbers start over
    after 65536 calls; for one start time in 65537 after 32; and for one in 252645135 (8 years; 24 May 2025, 16:19:47 UTC is one) they are all equal. *)
Theorem C200_period_refuted :
  forall now nows, time_ok now ->
  let r := random_run None (now :: nows) in
  (forall i, (i + Z.to_nat 65536 < List.length r)%nat -> nth_error r (i + Z.to_nat 65536) = nth_error r i) /\
  (now mod 65537 = 35186 -> forall i, (i + 32 < List.length r)%nat -> nth_error r (i + 32) = nth_error r i) /\
  (now mod 252645135 = 232232777 -> Forall (eq 16724) r).
Proof.
  intros now nows T r. assert (List.length r = S (List.length nows)) as L by (unfold r; rewrite run_none by exact T; now rewrite map_length, seq_length).
  split; [|split].
  - intros i I. unfold r. rewrite !run_nth by (try exact T; lia). now rewrite st_period.
  - intros H i I. unfold r. rewrite !run_nth by (try exact T; lia). change 32%nat with (Z.to_nat 32). now rewrite st_short.
  - intros H. unfold r. rewrite run_none by exact T. apply Forall_map, Forall_forall. intros k _. rewrite (st_stuck k now H). reflexivity.
Qed.
Print Assumptions C200_period_refuted.
(** Missing: the start times in step with a fixed state, above.  For all others the numbers do not start over before 65536 calls. *)
Theorem C200_period_partial :
  forall now d, time_ok now -> now mod 65537 <> 35186 -> 0 < d < 65536 ->
  exists i x y, (i < Z.to_nat 65536)%nat /\ x <> y /\
    forall nows, (i + Z.to_nat d <= List.length nows)%nat ->
      let r := random_run None (now :: nows) in nth_error r i = Some x /\ nth_error r (i + Z.to_nat d) = Some y.
Proof.
  intros now d T H D. destruct (not_sooner now d H D) as (i & I & X).
  exists i, (out (st i now)), (out (st (i + Z.to_nat d) now)). split; [exact I|]. split; [congruence|].
  intros nows L. cbv zeta. rewrite !run_nth by (try exact T; lia). split; reflexivity.
Qed.
Print Assumptions C200_period_partial.
Example C200_example :
  random_run None (1748103587 :: repeat 0 5) = [16724; 16724; 16724; 16724; 16724; 16724] /\ 1748103587 mod 252645135 = 232232777 /\
  List.length (nodup Z.eq_dec (random_run None (1700000000 :: repeat 0 40))) = 41%nat /\
  List.length (nodup Z.eq_dec (random_run None (1700030000 - (1700030000 mod 65537) + 35186 :: repeat 0 99))) = 32%nat.
Proof. repeat (split; [vm_compute; reflexivity|]). vm_compute. reflexivity. Qed.

(** ** C201 Programs started at different times get different numbers *)
(** Full statement: whenever the times differ.  False: 252645135 seconds (8 years) apart they are the same. *)
Theorem C201_starts_refuted :
  forall t t' nows, time_ok t -> time_ok t' -> (t - t') mod 252645135 = 0 -> random_run None (t :: nows) = random_run None (t' :: nows).
Proof.
  intros t t' nows T T' H. apply Z.mod_divide in H; [|lia]. rewrite !run_none by assumption. apply map_ext. intros k. now rewrite (st_same k t t' H).
Qed.
Print Assumptions C201_starts_refuted.
(** Missing: times 8 years apart.  One of the first three numbers is different. *)
Theorem C201_starts_partial :
  forall t t' n1 n2 nows n1' n2' nows', time_ok t -> time_ok t' -> (t - t') mod 252645135 <> 0 ->
  firstn 3 (random_run None (t :: n1 :: n2 :: nows)) <> firstn 3 (random_run None (t' :: n1' :: n2' :: nows')).
Proof.
  intros t t' n1 n2 nows n1' n2' nows' T T' H E. destruct (numbers_differ t t') as (k & K & X).
  { intros V. apply H. apply Z.mod_divide in V; [exact V|lia]. }
  apply X. rewrite !run_none in E by assumption. cbn [List.length seq map firstn] in E. injection E as E0 E1 E2.
  destruct k as [|[|[|k]]]; [exact E0|exact E1|exact E2|lia].
Qed.
Print Assumptions C201_starts_partial.
(** The first number tells the time: a second later it is 6 or 7 more, modulo 32768. *)
Theorem C201_clock :
  forall now a b, time_ok now -> time_ok (now + 1) -> random_run None [now] = [a] -> random_run None [now + 1] = [b] ->
  (b - a) mod 32768 = 6 \/ (b - a) mod 32768 = 7.
Proof.
  intros now a b T T' A B. rewrite run_none in A, B by assumption. cbn [List.length seq map st] in A, B. injection A as <-. injection B as <-. apply next_second.
Qed.
Print Assumptions C201_clock.
Example C201_example :
  random_run None [1700000000; 0; 0] = random_run None [1700000000 + 252645135; 0; 0] /\
  map (fun t => hd 0 (random_run None [t])) [1700000000; 1700000001; 1700000002; 1700000003] = [24160; 24166; 24173; 24179].
Proof. split; vm_compute; reflexivity. Qed.

(** ** C202 Every call for a normal sample returns *)
(** Full statement: for every state.  False: a program started at one of the times above loops forever in its first call if the sine of 16724 is
    rounded to the nearest float, -0.96417218. *)
Theorem C202_return_refuted :
  forall fuel sn lg now mu std, time_ok now -> now mod 252645135 = 232232777 -> bits_of_b32 (f32_of_f64 (sn 16724)) = 0xbf76d3fd ->
  random_normal fuel sn lg n_init now mu std = NoFuel.
Proof.
  intros fuel sn lg now mu std T H S. apply normal_loops; [reflexivity|]. apply draw_stuck; [exact T|exact H|]. now apply sine_refused.
Qed.
Print Assumptions C202_return_refuted.
(** Missing: that a pair is accepted at all, which depends on the sine.  A call returns within 32769 rounds or never; all calls for the second
    of two samples return at once. *)
Theorem C202_return_partial :
  forall sn lg s now mu std, match n_rand s with Some t => 0 <= t < 4294967295 | None => time_ok now end ->
  (n_call s = true -> exists s' r, forall fuel, random_normal fuel sn lg s now mu std = Ok (s', r)) /\
  (n_call s = false -> random_normal (Z.to_nat 32769) sn lg s now mu std = NoFuel -> forall fuel, random_normal fuel sn lg s now mu std = NoFuel).
Proof.
  intros sn lg s now mu std H. split.
  - intros C. unfold random_normal. rewrite C. do 2 eexists. intros fuel. reflexivity.
  - intros C N fuel. apply (normal_loops fuel sn lg s now mu std C). apply (normal_loops (Z.to_nat 32769) sn lg s now mu std C) in N. apply draw_bound; [|exact N].
    destruct (n_rand s) as [t|]; cbn [seed_ok]; [|exact H]. apply md_lt. exact H.
Qed.
Print Assumptions C202_return_partial.
(** What a call returns when it returns does not depend on the fuel, so "within 32769 rounds" is about the loop of the code. *)
Theorem C202_fuel :
  forall f k sn lg s now mu std r, random_normal f sn lg s now mu std = Ok r -> random_normal (f + k) sn lg s now mu std = Ok r.
Proof.
  intros f k sn lg s now mu std r. unfold random_normal. destruct (n_call s); [tauto|].
  assert (forall f st d, draw f sn st now = Ok d -> draw (f + k) sn st now = Ok d) as G.
  { clear f. induction f as [|f IH]; intros st d; [discriminate|]. change (S f + k)%nat with (S (f + k)). cbn [draw].
    destruct (coordinate sn st now) as [s1 u1]. destruct (coordinate sn s1 now) as [s2 u2]. destruct (_ || _); [apply IH|tauto]. }
  destruct (draw f sn (n_rand s) now) as [d| | |] eqn:E; [|discriminate|discriminate|discriminate]. now rewrite (G _ _ _ E).
Qed.
Print Assumptions C202_fuel.
Example C202_example :
  let sn := fun n => if n =? 16724 then b64_of_bits 0xbfeeda7fa55d054a else b64_of_bits 0x3fe8000000000000 in
  bits_of_b32 (f32_of_f64 (sn 16724)) = 0xbf76d3fd /\
  (match random_normal 1 sn (fun _ => b64_of_bits 0xbfe62e42fefa39ef) n_init 1700000000 f32_1 f32_1 with Ok r => bits_of_b32 (snd r) | _ => 0 end) = 0x3fea9126 /\
  (match random_normal 100 sn (fun _ => b64_of_bits 0xbfe62e42fefa39ef) n_init 1748103587 f32_1 f32_1 with NoFuel => true | _ => false end) = true.
Proof. cbv zeta. split; [vm_compute; reflexivity|]. split; [vm_compute; reflexivity|]. vm_compute. reflexivity. Qed.
