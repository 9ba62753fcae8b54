(** Algebra of vt_datetime_op: adding one duration after the other, taking it away, order (C203, C204). *)
From Coq Require Import ZArith Bool Lia List.
From Verif Require Import Base BaseFacts DtModel DtProofs.
Open Scope Z_scope.

(** Durations, as vt_datetime_op takes them: the week day and the day of the year are not read. *)
Definition opposite (d : vdt) : vdt := mk_vdt (- year d) (- month d) (- month_day d) (- hour d) (- minute d) (- second d) 0 0.
Definition sum_of (d e : vdt) : vdt :=
  mk_vdt (year d + year e) (month d + month e) (month_day d + month_day e) (hour d + hour e) (minute d + minute e) (second d + second e) 0 0.
(** Days, hours, minutes and seconds only; their number of seconds. *)
Definition days_only (d : vdt) : Prop := year d = 0 /\ month d = 0.
Definition duration (d : vdt) : Z := 86400 * month_day d + 3600 * hour d + 60 * minute d + second d.
(** Years and months only; the number of months. *)
Definition months_only (d : vdt) : Prop := month_day d = 0 /\ hour d = 0 /\ minute d = 0 /\ second d = 0.
Definition months_of (d : vdt) : Z := 12 * year d + month d.

Lemma secs_same off a b : valid a -> valid b -> to_secs off a = to_secs off b -> same_time a b.
Proof.
  intros A B E. destruct (before_total a b) as [H|[H|H]]; [| |exact H]; apply (secs_order off) in H; try assumption; lia.
Qed.
Lemma valid_first : valid (mk_vdt 1 1 1 0 0 0 0 0).
Proof. unfold valid. cbn [year month month_day hour minute second]. vm_compute. intuition congruence. Qed.
Lemma valid_last : valid (mk_vdt 32767 12 31 23 59 59 0 0).
Proof. unfold valid. cbn [year month month_day hour minute second]. vm_compute. intuition congruence. Qed.
Lemma secs_shift off v : valid v -> to_secs off v = to_secs 0 v - off.
Proof. intros (Y & M & _). rewrite !to_secs_val by lia. lia. Qed.
Lemma valid_time_ok off v : valid v -> time_ok off (to_secs off v).
Proof.
  intros V. unfold time_ok. rewrite secs_shift by exact V.
  assert (to_secs 0 (mk_vdt 1 1 1 0 0 0 0 0) = - 62135596800) as F by (vm_compute; reflexivity).
  assert (to_secs 0 (mk_vdt 32767 12 31 23 59 59 0 0) = 971890963199) as L by (vm_compute; reflexivity).
  assert (~ to_secs 0 v < to_secs 0 (mk_vdt 1 1 1 0 0 0 0 0)) as A.
  { rewrite secs_order by (assumption || apply valid_first). destruct V as (Y & M & D & H & I & S). unfold before. cbn [year month month_day hour minute second]. lia. }
  assert (~ to_secs 0 (mk_vdt 32767 12 31 23 59 59 0 0) < to_secs 0 v) as B.
  { rewrite secs_order by (assumption || apply valid_last). pose proof V as (Y & M & D & H & I & S). unfold before. cbn [year month month_day hour minute second].
    pose proof (mlen_pos (leap (year v)) (month v - 1)). lia. }
  rewrite F in A. rewrite L in B. lia.
Qed.

Lemma op_days off v d : valid v -> days_only d -> time_ok off (to_secs off v + duration d) ->
  valid (dt_op off v d) /\ to_secs off (dt_op off v d) = to_secs off v + duration d.
Proof.
  intros V [E1 E2] T. unfold duration in *. destruct (op_days_time off v d V E1 E2) as [A B].
  - replace (to_secs off v + 86400 * month_day d + 3600 * hour d + 60 * minute d + second d) with (to_secs off v + (86400 * month_day d + 3600 * hour d + 60 * minute d + second d)) by lia. exact T.
  - split; [exact A|]. rewrite B. lia.
Qed.
Lemma days_undo off v d : valid v -> days_only d -> time_ok off (to_secs off v + duration d) ->
  same_time (dt_op off (dt_op off v d) (opposite d)) v.
Proof.
  intros V D T. destruct (op_days off v d V D T) as [W E].
  assert (days_only (opposite d)) as D' by (destruct D; split; cbn [opposite year month]; lia).
  assert (duration (opposite d) = - duration d) as N by (unfold duration, opposite; cbn [month_day hour minute second]; lia).
  destruct (op_days off (dt_op off v d) (opposite d) W D') as [W' E'].
  - rewrite N, E. replace (to_secs off v + duration d + - duration d) with (to_secs off v) by lia. now apply valid_time_ok.
  - apply (secs_same off); [exact W'|exact V|lia].
Qed.
Lemma days_sum off v d e : valid v -> days_only d -> days_only e -> time_ok off (to_secs off v + duration d) -> time_ok off (to_secs off v + duration d + duration e) ->
  same_time (dt_op off (dt_op off v d) e) (dt_op off v (sum_of d e)).
Proof.
  intros V D E T1 T2. destruct (op_days off v d V D T1) as [W X].
  destruct (op_days off (dt_op off v d) e W E) as [W' X']; [rewrite X; exact T2|].
  assert (days_only (sum_of d e)) as DS by (destruct D, E; split; cbn [sum_of year month]; lia).
  assert (duration (sum_of d e) = duration d + duration e) as N by (unfold duration, sum_of; cbn [month_day hour minute second]; lia).
  destruct (op_days off v (sum_of d e) V DS) as [W2 X2]; [rewrite N; replace (to_secs off v + (duration d + duration e)) with (to_secs off v + duration d + duration e) by lia; exact T2|].
  apply (secs_same off); [exact W'|exact W2|lia].
Qed.
Lemma days_order off a b d : valid a -> valid b -> days_only d -> time_ok off (to_secs off a + duration d) -> time_ok off (to_secs off b + duration d) ->
  (before (dt_op off a d) (dt_op off b d) <-> before a b).
Proof.
  intros A B D Ta Tb. destruct (op_days off a d A D Ta) as [Wa Xa]. destruct (op_days off b d B D Tb) as [Wb Xb].
  rewrite <- (secs_order off a b) by assumption. rewrite <- (secs_order off) by assumption. lia.
Qed.

(** Months. *)
Definition shift_months (v : vdt) (k : Z) : vdt :=
  let n := 12 * year v + (month v - 1) + k in
  mk_vdt (n / 12) (n mod 12 + 1) (month_day v) (hour v) (minute v) (second v) 0 0.
Lemma shift_valid v k : valid v -> month_day v <= 28 -> 1 <= year (shift_months v k) <= 32767 -> valid (shift_months v k).
Proof.
  intros (Y & M & D & H & I & S) L R. unfold valid, shift_months in *. cbn [year month month_day hour minute second] in *.
  pose proof (mlen_pos (leap ((12 * year v + (month v - 1) + k) / 12)) ((12 * year v + (month v - 1) + k) mod 12 + 1 - 1)). repeat split; lia.
Qed.
Lemma op_months off v d : valid v -> months_only d -> month_day v <= 28 -> 1 <= (12 * year v + (month v - 1) + months_of d) / 12 <= 32767 ->
  same_time (dt_op off v d) (shift_months v (months_of d)) /\ valid (dt_op off v d).
Proof.
  intros V (D1 & D2 & D3 & D4) L R. pose proof (shift_valid v (months_of d) V L R) as W. pose proof V as (Y & M & _).
  destruct (op_ok off v d ltac:(lia)) as [A B].
  - pose proof (valid_time_ok off _ W) as T. rewrite to_secs_val in T by (destruct W as (? & ? & _); lia).
    unfold epoch_day, shift_months in T. cbn [year month month_day hour minute second] in T. unfold months_of in *. rewrite D1, D2, D3, D4, !Z.add_0_r.
    replace (12 * (year v + year d) + (month v - 1) + month d) with (12 * year v + (month v - 1) + (12 * year d + month d)) by lia.
    replace ((12 * year v + (month v - 1) + (12 * year d + month d)) mod 12 + 1 - 1) with ((12 * year v + (month v - 1) + (12 * year d + month d)) mod 12) in T by lia. exact T.
  - split; [|exact A]. apply (secs_same off); [exact A|exact W|]. rewrite B.
    rewrite to_secs_val by (destruct W as (? & ? & _); lia).
    unfold epoch_day, shift_months. cbn [year month month_day hour minute second]. unfold months_of in *. rewrite D1, D2, D3, D4, !Z.add_0_r.
    replace (12 * (year v + year d) + (month v - 1) + month d) with (12 * year v + (month v - 1) + (12 * year d + month d)) by lia.
    replace ((12 * year v + (month v - 1) + (12 * year d + month d)) mod 12 + 1 - 1) with ((12 * year v + (month v - 1) + (12 * year d + month d)) mod 12) by lia. reflexivity.
Qed.
Lemma shift_place v w k : 1 <= month v <= 12 -> same_time w (shift_months v k) ->
  12 * year w + (month w - 1) = 12 * year v + (month v - 1) + k /\ month_day w = month_day v.
Proof. intros M (Y1 & M1 & D1 & _). unfold shift_months in *. cbn [year month month_day] in *. lia. Qed.
Lemma shift_twice v w1 w2 w3 k1 k2 : 1 <= month v <= 12 -> same_time w1 (shift_months v k1) -> same_time w2 (shift_months w1 k2) ->
  same_time w3 (shift_months v (k1 + k2)) -> same_time w2 w3.
Proof.
  intros M S1 S2 S3. pose proof (shift_place v w1 k1 M S1) as [N _].
  unfold same_time, shift_months in *. cbn [year month month_day hour minute second] in *. rewrite N in S2. rewrite Z.add_assoc in S3. lia.
Qed.
Lemma shift_none v w : 1 <= month v <= 12 -> same_time w (shift_months v 0) -> same_time w v.
Proof. intros M S. unfold same_time, shift_months in *. cbn [year month month_day hour minute second] in *. lia. Qed.
Lemma same_trans a b c : same_time a b -> same_time b c -> same_time a c.
Proof. unfold same_time. lia. Qed.
Lemma same_sym a b : same_time a b -> same_time b a.
Proof. unfold same_time. lia. Qed.
Lemma sum_months d e : months_only d -> months_only e -> months_only (sum_of d e) /\ months_of (sum_of d e) = months_of d + months_of e.
Proof. unfold months_only, months_of, sum_of. cbn [year month month_day hour minute second]. lia. Qed.
Lemma opp_months d : months_only d -> months_only (opposite d) /\ months_of (opposite d) = - months_of d.
Proof. unfold months_only, months_of, opposite. cbn [year month month_day hour minute second]. lia. Qed.
Lemma months_sum off v d e : valid v -> months_only d -> months_only e -> month_day v <= 28 ->
  1 <= (12 * year v + (month v - 1) + months_of d) / 12 <= 32767 -> 1 <= (12 * year v + (month v - 1) + months_of d + months_of e) / 12 <= 32767 ->
  same_time (dt_op off (dt_op off v d) e) (dt_op off v (sum_of d e)).
Proof.
  intros V D E L R1 R2. destruct (op_months off v d V D L R1) as [S1 W1]. pose proof V as (_ & M & _).
  destruct (shift_place _ _ _ M S1) as [N1 L1].
  destruct (op_months off (dt_op off v d) e W1 E) as [S2 W2]; [rewrite L1; exact L|rewrite N1; exact R2|].
  destruct (sum_months d e D E) as [DS NS].
  destruct (op_months off v (sum_of d e) V DS L) as [S3 W3]; [rewrite NS, Z.add_assoc; exact R2|]. rewrite NS in S3.
  exact (shift_twice _ _ _ _ _ _ M S1 S2 S3).
Qed.
Lemma op_zero off v d : valid v -> months_only d -> months_of d = 0 -> month_day v <= 28 -> same_time (dt_op off v d) v.
Proof.
  intros V D N L. pose proof V as (Y & M & _). destruct (op_months off v d V D L) as [S _]; [rewrite N; lia|].
  rewrite N in S. exact (shift_none _ _ M S).
Qed.
Lemma months_undo off v d : valid v -> months_only d -> month_day v <= 28 -> 1 <= (12 * year v + (month v - 1) + months_of d) / 12 <= 32767 ->
  same_time (dt_op off (dt_op off v d) (opposite d)) v.
Proof.
  intros V D L R. destruct (opp_months d D) as [D' N]. destruct (sum_months d (opposite d) D D') as [DS NS]. pose proof V as (Y & M & _).
  pose proof (months_sum off v d (opposite d) V D D' L R) as S. rewrite N in S, NS.
  refine (same_trans _ _ _ (S _) (op_zero off v _ V DS _ L)); [|rewrite NS; lia]. clear - Y M.
  replace (12 * year v + (month v - 1) + months_of d + - months_of d) with (12 * year v + (month v - 1)) by lia. lia.
Qed.
Lemma shift_order a b wa wb k : 1 <= month a <= 12 -> 1 <= month b <= 12 -> same_time wa (shift_months a k) -> same_time wb (shift_months b k) ->
  (before wa wb <-> before a b).
Proof.
  intros Ma Mb (a1 & a2 & a3 & a4 & a5 & a6) (b1 & b2 & b3 & b4 & b5 & b6). unfold before. rewrite a1, a2, a3, a4, a5, a6, b1, b2, b3, b4, b5, b6.
  unfold shift_months. cbn [year month month_day hour minute second]. clear - Ma Mb.
  remember (12 * year a + (month a - 1) + k) as na. remember (12 * year b + (month b - 1) + k) as nb.
  assert (na < nb <-> year a < year b \/ year a = year b /\ month a < month b) as X by lia.
  assert (na = nb <-> year a = year b /\ month a = month b) as X' by lia.
  assert (na < nb <-> na / 12 < nb / 12 \/ na / 12 = nb / 12 /\ na mod 12 + 1 < nb mod 12 + 1) as Q by lia.
  assert (na = nb <-> na / 12 = nb / 12 /\ na mod 12 + 1 = nb mod 12 + 1) as Q' by lia.
  clear Heqna Heqnb. intuition lia.
Qed.
Lemma months_order off a b d : valid a -> valid b -> months_only d -> month_day a <= 28 -> month_day b <= 28 ->
  1 <= (12 * year a + (month a - 1) + months_of d) / 12 <= 32767 -> 1 <= (12 * year b + (month b - 1) + months_of d) / 12 <= 32767 ->
  (before (dt_op off a d) (dt_op off b d) <-> before a b).
Proof.
  intros A B D La Lb Ra Rb. destruct (op_months off a d A D La Ra) as [Sa _]. destruct (op_months off b d B D Lb Rb) as [Sb _].
  pose proof A as (_ & Ma & _). pose proof B as (_ & Mb & _). exact (shift_order _ _ _ _ _ Ma Mb Sa Sb).
Qed.
