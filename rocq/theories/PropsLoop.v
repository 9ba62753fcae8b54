(** C172, C173: loop macros and the name of the source file. *)
From Verif Require Import Base BaseFacts LoopModel.
From Coq Require Import String.
Local Open Scope list_scope.
Local Open Scope Z_scope.

(** The numbers from, from + step, ... (n of them). *)
Definition steps (n : nat) (from step : Z) : list Z := map (fun k => from + step * Z.of_nat k) (seq 0 n).

Lemma steps_S n from step : steps (S n) from step = from :: steps n (from + step) step.
Proof.
  unfold steps. cbn [seq map]. f_equal; [lia|]. rewrite <- seq_shift, map_map. apply map_ext. intros k. lia.
Qed.

Lemma step_ok : forall n fuel from to step, 0 <= from -> 0 < step -> to + step <= two64 ->
  from + step * Z.of_nat n >= to -> (forall k, 0 <= k < Z.of_nat n -> from + step * k < to) -> (n < fuel)%nat ->
  foreach_step fuel from to step = Ok (steps n from step).
Proof.
  induction n as [|n IH]; intros fuel from to step Hf Hs W E B F; (destruct fuel as [|fuel]; [lia|]); cbn [foreach_step].
  - replace (from <? to) with false by lia. reflexivity.
  - pose proof (B 0 ltac:(lia)) as B0. replace (from <? to) with true by lia. rewrite w64_small by lia.
    rewrite (IH fuel (from + step) to step); try lia; [cbn [bind]; now rewrite steps_S|].
    intros k Hk. pose proof (B (k + 1) ltac:(lia)). lia.
Qed.

(** ** C172 Loop macros *)
(** VT_FOREACH visits from, from + 1, ..., to - 1 and ends. *)
Theorem C172_foreach : forall from to, 0 <= from -> to < two64 ->
  exists fuel, foreach fuel from to = Ok (steps (Z.to_nat (to - from)) from 1).
Proof.
  intros from to Hf Ht. exists (S (Z.to_nat (to - from))). unfold foreach. apply step_ok; try lia.
Qed.
Print Assumptions C172_foreach.
(** VT_FOREACH_R visits the same numbers from the last to the first.  Refuted: all are one larger. *)
Theorem C172_reverse_refuted :
  exists fuel, foreach fuel 0 3 = Ok [0; 1; 2] /\ foreach_r fuel 0 3 = Ok [3; 2; 1].
Proof. exists 5%nat. split; vm_compute; reflexivity. Qed.
Print Assumptions C172_reverse_refuted.
(** What it visits: one more than each, in reverse. *)
Theorem C172_reverse_partial : forall from to, 0 <= from -> to < two64 ->
  exists fuel l, foreach fuel from to = Ok l /\ foreach_r fuel from to = Ok (rev (map (fun i => i + 1) l)).
Proof.
  intros from to Hf Ht. set (n := Z.to_nat (to - from)). exists (S n), (steps n from 1). split; [unfold foreach; apply step_ok; lia|].
  assert (forall n fuel to, 0 <= to < two64 -> n = Z.to_nat (to - from) -> (n < fuel)%nat -> foreach_r fuel from to = Ok (rev (map (fun i => i + 1) (steps n from 1)))) as K.
  { clear to Ht n. induction n as [|n IH]; intros fuel to Ht E F; (destruct fuel as [|fuel]; [lia|]); cbn [foreach_r].
    - replace (from <? to) with false by lia. reflexivity.
    - replace (from <? to) with true by lia. rewrite w64_small by lia. rewrite (IH fuel (to - 1)) by lia. cbn [bind].
      unfold steps. rewrite seq_S, !map_app, rev_app_distr. cbn [map rev app Nat.add]. f_equal. f_equal. lia. }
  destruct (Z.ltb_spec to 0) as [N|N].
  - assert (n = 0%nat) as -> by lia. cbn [foreach_r]. replace (from <? to) with false by lia. reflexivity.
  - apply K; lia.
Qed.
Print Assumptions C172_reverse_partial.
(** VT_FOREACH_STEP visits from, from + step, ... below to, and ends.  Refuted: near the end of
    size_t the variable starts again, ... *)
Theorem C172_step_refuted : forall fuel, foreach_step fuel 0 (two64 - 1) (two64 / 2) = NoFuel.
Proof.
  assert (forall fuel, foreach_step fuel 0 (two64 - 1) (two64 / 2) = NoFuel /\ foreach_step fuel (two64 / 2) (two64 - 1) (two64 / 2) = NoFuel) as K.
  { induction fuel as [|fuel [I1 I2]]; [now split|]. split; cbn [foreach_step].
    - change (0 <? two64 - 1) with true. cbv iota. change (w64 (0 + two64 / 2)) with (two64 / 2). now rewrite I2.
    - change (two64 / 2 <? two64 - 1) with true. cbv iota. change (w64 (two64 / 2 + two64 / 2)) with 0. now rewrite I1. }
  intros fuel. apply K.
Qed.
Print Assumptions C172_step_refuted.
(** ... and a step of 0 never ends. *)
Theorem C172_step_zero_refuted : forall fuel from to, 0 <= from < two64 -> from < to -> foreach_step fuel from to 0 = NoFuel.
Proof.
  induction fuel as [|fuel IH]; intros from to Hf H; [reflexivity|]. cbn [foreach_step]. replace (from <? to) with true by lia.
  rewrite Z.add_0_r, w64_small by lia. now rewrite IH by lia.
Qed.
Print Assumptions C172_step_zero_refuted.
(** What holds: with a step of at least 1 that does not lead beyond size_t. *)
Theorem C172_step_partial : forall from to step, 0 <= from -> 0 < step -> to + step <= two64 ->
  exists fuel, foreach_step fuel from to step = Ok (steps (Z.to_nat ((to - from + step - 1) / step)) from step).
Proof.
  intros from to step Hf Hs W. set (q := (to - from + step - 1) / step).
  assert (step * q <= to - from + step - 1 < step * q + step) as Q.
  { unfold q. pose proof (Z.mul_div_le (to - from + step - 1) step Hs). pose proof (Z.mul_succ_div_gt (to - from + step - 1) step Hs). lia. }
  exists (S (Z.to_nat q)). destruct (Z.ltb_spec q 0) as [N|N].
  - replace (Z.to_nat q) with 0%nat by lia. apply step_ok; lia.
  - apply step_ok; try lia. intros k Hk. assert (k + 1 <= q) by lia. nia.
Qed.
Print Assumptions C172_step_partial.
Example C172_example :
  foreach_step 9 1 10 4 = Ok [1; 5; 9] /\ steps (Z.to_nat ((10 - 1 + 4 - 1) / 4)) 1 4 = [1; 5; 9] /\ foreach 9 5 5 = Ok [].
Proof. repeat split. Qed.

(** ** C173 The name of the source file *)
(** The name written in messages is the part of the path of the source file after the last separator. *)
Theorem C173_source : forall c file,
  ~ In c (source_filename c file) /\ exists d, file = d ++ source_filename c file /\ (d = [] \/ exists d', d = d' ++ [c]).
Proof.
  intros c file. unfold source_filename.
  assert (match after_last c file with Some r => ~ In c r /\ exists d, file = d ++ [c] ++ r | None => ~ In c file end) as K.
  { induction file as [|x file IH]; cbn [after_last]; [now intros []|]. destruct (after_last c file) as [r|].
    - destruct IH as [N [d ->]]. split; [exact N|]. now exists (x :: d).
    - destruct (Z.eqb_spec x c) as [->|Hx]; [split; [exact IH|]; now exists []|]. intros [->|H]; [now apply Hx|now apply IH]. }
  destruct (after_last c file) as [r|].
  - destruct K as [N [d ->]]. split; [exact N|]. exists (d ++ [c]). rewrite <- app_assoc. split; [reflexivity|]. right. now exists d.
  - split; [exact K|]. exists []. split; [reflexivity|now left].
Qed.
Print Assumptions C173_source.
Example C173_example :
  source_filename 47 (map (fun a => Z.of_nat (Ascii.nat_of_ascii a)) (list_ascii_of_string "src/vita/core/core.c")) =
  map (fun a => Z.of_nat (Ascii.nat_of_ascii a)) (list_ascii_of_string "core.c") /\ source_filename 47 [97; 98] = [97; 98] /\ source_filename 92 [97; 92] = [].
Proof. repeat split. Qed.
