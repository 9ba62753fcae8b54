(** C203, C204: adding durations to dates with vt_datetime_op.  Statements and witnesses.  [off] is the offset of the time zone (no daylight saving:
    for that see C150). *)
From Coq Require Import ZArith Bool Lia List.
From Verif Require Import Base BaseFacts DtModel DtProofs DtAlgebra.
Open Scope Z_scope.

(** ** C203 Adding and taking away *)
(** Full statement: adding two durations one after the other is adding their sum, and taking a duration away again gives the date back.  False: a day
    that the month does not have is a day of the next month.  31 January and one month is 2 March; a month before that is 2 February; and a
    second month after it is 2 April, but two months after 31 January are 31 March. *)
Theorem C203_add_refuted :
  let jan31 := mk_vdt 2024 1 31 12 0 0 0 0 in let month1 := mk_vdt 0 1 0 0 0 0 0 0 in
  valid jan31 /\
  same_time (dt_op 0 jan31 month1) (mk_vdt 2024 3 2 12 0 0 0 0) /\
  same_time (dt_op 0 (dt_op 0 jan31 month1) (opposite month1)) (mk_vdt 2024 2 2 12 0 0 0 0) /\
  same_time (dt_op 0 (dt_op 0 jan31 month1) month1) (mk_vdt 2024 4 2 12 0 0 0 0) /\
  same_time (dt_op 0 jan31 (sum_of month1 month1)) (mk_vdt 2024 3 31 12 0 0 0 0).
Proof. unfold valid, same_time. vm_compute. intuition congruence. Qed.
Print Assumptions C203_add_refuted.
(** Missing: the 29th to the 31st of a month with durations of months or years, and durations of both kinds.  Days, hours, minutes and seconds, of
    any sign and size. *)
Theorem C203_days_partial :
  forall off v d, valid v -> year d = 0 -> month d = 0 ->
  (let s := to_secs off v + 86400 * month_day d + 3600 * hour d + 60 * minute d + second d in - 62135596800 <= s + off < 971890963200) ->
  same_time (dt_op off (dt_op off v d) (opposite d)) v /\
  forall e, year e = 0 -> month e = 0 ->
  (let s := to_secs off v + 86400 * (month_day d + month_day e) + 3600 * (hour d + hour e) + 60 * (minute d + minute e) + (second d + second e) in
   - 62135596800 <= s + off < 971890963200) ->
  same_time (dt_op off (dt_op off v d) e) (dt_op off v (sum_of d e)).
Proof.
  intros off v d V D1 D2 T. cbv zeta in T. assert (time_ok off (to_secs off v + duration d)) as T' by (unfold time_ok, duration; lia).
  split; [exact (days_undo off v d V (conj D1 D2) T')|].
  intros e E1 E2 U. cbv zeta in U. apply (days_sum off v d e V (conj D1 D2) (conj E1 E2) T'). unfold time_ok, duration. lia.
Qed.
Print Assumptions C203_days_partial.
(** Years and months, up to the 28th: only the year and the month change. *)
Theorem C203_months_partial :
  forall off v d, valid v -> month_day v <= 28 -> month_day d = 0 -> hour d = 0 -> minute d = 0 -> second d = 0 ->
  let n := 12 * year v + (month v - 1) + 12 * year d + month d in 1 <= n / 12 <= 32767 ->
  same_time (dt_op off v d) (mk_vdt (n / 12) (n mod 12 + 1) (month_day v) (hour v) (minute v) (second v) 0 0) /\
  same_time (dt_op off (dt_op off v d) (opposite d)) v /\
  forall e, month_day e = 0 -> hour e = 0 -> minute e = 0 -> second e = 0 -> 1 <= (n + 12 * year e + month e) / 12 <= 32767 ->
  same_time (dt_op off (dt_op off v d) e) (dt_op off v (sum_of d e)).
Proof.
  intros off v d V L D1 D2 D3 D4. cbv zeta. intros R.
  assert (12 * year v + (month v - 1) + 12 * year d + month d = 12 * year v + (month v - 1) + months_of d) as N by (unfold months_of; lia).
  assert (months_only d) as D by (unfold months_only; auto). rewrite N in *.
  split; [exact (proj1 (op_months off v d V D L R))|]. split; [exact (months_undo off v d V D L R)|].
  intros e E1 E2 E3 E4 R2. assert (months_only e) as E by (unfold months_only; auto). apply (months_sum off v d e V D E L R).
  replace (12 * year v + (month v - 1) + months_of d + months_of e) with (12 * year v + (month v - 1) + months_of d + 12 * year e + month e) by (unfold months_of; lia). exact R2.
Qed.
Print Assumptions C203_months_partial.
Example C203_example :
  let v := mk_vdt 2024 2 28 23 59 59 0 0 in
  same_time (dt_op 3600 v (mk_vdt 0 0 0 0 0 1 0 0)) (mk_vdt 2024 2 29 0 0 0 0 0) /\
  same_time (dt_op 3600 v (mk_vdt (-1) 11 0 0 0 0 0 0)) (mk_vdt 2024 1 28 23 59 59 0 0) /\
  same_time (dt_op 3600 v (mk_vdt 0 0 1000000 0 0 0 0 0)) (mk_vdt 4762 1 25 23 59 59 0 0).
Proof. unfold same_time. vm_compute. intuition congruence. Qed.

(** ** C204 Adding keeps the order *)
(** Full statement: of two dates the earlier one stays the earlier one when the same duration is added to both.  False: 31 January is before 1
    February; a month later they are 2 March and 1 March. *)
Theorem C204_order_refuted :
  let a := mk_vdt 2024 1 31 0 0 0 0 0 in let b := mk_vdt 2024 2 1 0 0 0 0 0 in let month1 := mk_vdt 0 1 0 0 0 0 0 0 in
  valid a /\ valid b /\ before a b /\ same_time (dt_op 0 a month1) (mk_vdt 2024 3 2 0 0 0 0 0) /\ same_time (dt_op 0 b month1) (mk_vdt 2024 3 1 0 0 0 0 0) /\
  before (dt_op 0 b month1) (dt_op 0 a month1).
Proof. unfold valid, before, same_time. vm_compute. intuition congruence. Qed.
Print Assumptions C204_order_refuted.
(** Missing: as above. *)
Theorem C204_order_partial :
  forall off a b d, valid a -> valid b ->
  (year d = 0 -> month d = 0 ->
   (forall v, v = a \/ v = b -> - 62135596800 <= to_secs off v + 86400 * month_day d + 3600 * hour d + 60 * minute d + second d + off < 971890963200) ->
   (before (dt_op off a d) (dt_op off b d) <-> before a b)) /\
  (month_day d = 0 -> hour d = 0 -> minute d = 0 -> second d = 0 ->
   (forall v, v = a \/ v = b -> month_day v <= 28 /\ 1 <= (12 * year v + (month v - 1) + 12 * year d + month d) / 12 <= 32767) ->
   (before (dt_op off a d) (dt_op off b d) <-> before a b)).
Proof.
  intros off a b d A B. split.
  - intros D1 D2 T. pose proof (T a (or_introl eq_refl)). pose proof (T b (or_intror eq_refl)).
    apply (days_order off a b d A B (conj D1 D2)); unfold time_ok, duration; lia.
  - intros D1 D2 D3 D4 T. destruct (T a (or_introl eq_refl)) as [La Ra]. destruct (T b (or_intror eq_refl)) as [Lb Rb].
    assert (months_only d) as D by (unfold months_only; auto). unfold before at 1.
    apply (months_order off a b d A B D La Lb); unfold months_of; [rewrite Z.add_assoc; exact Ra|rewrite Z.add_assoc; exact Rb].
Qed.
Print Assumptions C204_order_partial.
Example C204_example :
  before (dt_op 0 (mk_vdt 2023 12 28 0 0 0 0 0) (mk_vdt 1 2 0 0 0 0 0 0)) (dt_op 0 (mk_vdt 2024 1 1 0 0 0 0 0) (mk_vdt 1 2 0 0 0 0 0 0)).
Proof. unfold before. vm_compute. intuition congruence. Qed.
