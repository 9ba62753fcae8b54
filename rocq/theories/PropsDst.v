(** Properties of datetime.c in time zones with daylight saving (C149-C152). *)
From Verif Require Import Base NumModel DtModel DtProofs DstModel DstProofs.

(** Central Europe in 2024: UTC+1, an hour more from March 31 01:00 UTC to October 27 01:00 UTC. *)
Definition cet : zone := mk_zone 3600 3600 (fun s => (1711846800 <=? s) && (s <? 1729990800)).
(** 2024-07-01 22:30:00 UTC, on the wall 00:30 of July 2. *)
Definition july : Z := 1719873000.
(** 2024-12-01 12:00:00 UTC. *)
Definition december : Z := 1733054400.

(** C149 (false in summer): a time turned into a date and back is the same time, in particular
    the current time; a date turned into a time and back is the same date. *)
Theorem C149_seconds_refuted :
  forall z s, time_ok (z_off z s) s -> z_dst z s = true ->
  to_secs_z z (from_secs_z z s) = s + z_save z /\ to_secs_z z (get_now_z z s) = s + z_save z.
Proof. intros z s H D. split; now apply secs_summer. Qed.
Print Assumptions C149_seconds_refuted.
Theorem C149_seconds_partial :
  forall z s, time_ok (z_off z s) s -> z_dst z s = false ->
  to_secs_z z (from_secs_z z s) = s /\ to_secs_z z (get_now_z z s) = s.
Proof. intros z s H D. split; now apply secs_winter. Qed.
Print Assumptions C149_seconds_partial.
Theorem C149_dates_refuted :
  forall z v, valid v -> z_dst z (to_secs_z z v) = true -> z_save z <> 0 ->
  time_ok (z_off z (to_secs_z z v)) (to_secs_z z v) -> ~ same_time (from_secs_z z (to_secs_z z v)) v.
Proof. exact date_summer. Qed.
Print Assumptions C149_dates_refuted.
Theorem C149_dates_partial :
  forall z v, valid v -> z_dst z (to_secs_z z v) = false -> same_time (from_secs_z z (to_secs_z z v)) v.
Proof. exact date_winter. Qed.
Print Assumptions C149_dates_partial.

Example C149_example :
  from_secs_z cet july = mk_vdt 2024 7 2 0 30 0 2 184 /\ time_ok (z_off cet july) july /\ z_dst cet july = true /\
  to_secs_z cet (from_secs_z cet july) = july + 3600 /\
  from_secs_z cet (to_secs_z cet (mk_vdt 2024 7 1 12 0 0 0 0)) = mk_vdt 2024 7 1 13 0 0 1 183 /\
  from_secs_z cet december = mk_vdt 2024 12 1 13 0 0 7 336 /\ z_dst cet december = false /\
  to_secs_z cet (from_secs_z cet december) = december.
Proof. unfold time_ok. repeat split; vm_compute; congruence. Qed.

(** C150 (false in summer): adding days, hours, minutes and seconds to a date moves it by that
    long; adding nothing leaves it as it is. *)
Theorem C150_add_refuted :
  forall z s, time_ok (z_off z s) s -> z_dst z s = true ->
  dt_op_z z (from_secs_z z s) (mk_vdt 0 0 0 0 0 0 0 0) = from_secs_z z (s + z_save z).
Proof. exact op_zero_summer. Qed.
Print Assumptions C150_add_refuted.
Theorem C150_add_partial :
  forall z s d, time_ok (z_off z s) s -> z_dst z s = false -> year d = 0 -> month d = 0 ->
  dt_op_z z (from_secs_z z s) d = from_secs_z z (s + 86400 * month_day d + 3600 * hour d + 60 * minute d + second d).
Proof. exact op_winter. Qed.
Print Assumptions C150_add_partial.
Theorem C150_add_secs :
  forall z v d, valid v -> year d = 0 -> month d = 0 ->
  dt_op_z z v d = from_secs_z z (to_secs_z z v + 86400 * month_day d + 3600 * hour d + 60 * minute d + second d).
Proof. exact op_any. Qed.
Print Assumptions C150_add_secs.

Example C150_example :
  dt_op_z cet (mk_vdt 2024 7 1 12 0 0 1 183) (mk_vdt 0 0 0 0 0 0 0 0) = mk_vdt 2024 7 1 13 0 0 1 183 /\
  dt_op_z cet (mk_vdt 2024 12 1 13 0 0 7 336) (mk_vdt 0 0 0 0 0 0 0 0) = mk_vdt 2024 12 1 13 0 0 7 336 /\
  dt_op_z cet (mk_vdt 2024 3 30 12 0 0 6 90) (mk_vdt 0 0 1 0 0 0 0 0) = mk_vdt 2024 3 31 13 0 0 7 91.
Proof. repeat split; vm_compute; reflexivity. Qed.

(** C151 (false when one date is in summer and the other is not): the difference of two dates is
    the time that passed. *)
Theorem C151_difference_refuted :
  forall z a b, time_ok (z_off z a) a -> time_ok (z_off z b) b -> z_dst z a = true -> z_dst z b = false ->
  diff_secs_z z (from_secs_z z a) (from_secs_z z b) = a - b + z_save z.
Proof. exact diff_other. Qed.
Print Assumptions C151_difference_refuted.
Theorem C151_difference_partial :
  forall z a b, time_ok (z_off z a) a -> time_ok (z_off z b) b -> z_dst z a = z_dst z b ->
  diff_secs_z z (from_secs_z z a) (from_secs_z z b) = a - b.
Proof. exact diff_same. Qed.
Print Assumptions C151_difference_partial.

(** One second before and at the switch to daylight saving: an hour and a second apart. *)
Example C151_example :
  from_secs_z cet 1711846799 = mk_vdt 2024 3 31 1 59 59 7 91 /\ from_secs_z cet 1711846800 = mk_vdt 2024 3 31 3 0 0 7 91 /\
  diff_secs_z cet (from_secs_z cet 1711846800) (from_secs_z cet 1711846799) = 3601 /\
  diff_secs_z cet (from_secs_z cet (july + 86400)) (from_secs_z cet july) = 86400.
Proof. repeat split; vm_compute; reflexivity. Qed.

(** C152 (false late on a summer day): the week day and the day of the year are those of the
    date. *)
Theorem C152_days_refuted :
  forall z v, valid v -> 0 <= to_secs_z z v -> z_dst z (to_secs_z z v) = true ->
  86400 <= 3600 * hour v + 60 * minute v + second v + z_save z < 172800 ->
  find_week_day_z z v = true_week_day v mod 7 + 1 /\ find_week_day_z z v <> true_week_day v.
Proof.
  intros z v V H D C. rewrite (week_day_late z v V H D C). split; [reflexivity|].
  destruct (true_days_range v V) as [R _]. set (x := true_week_day v) in *. clearbody x. lia.
Qed.
Print Assumptions C152_days_refuted.
Theorem C152_days_partial :
  forall z v, valid v -> 0 <= to_secs_z z v ->
  z_dst z (to_secs_z z v) = false \/ 0 <= 3600 * hour v + 60 * minute v + second v + z_save z < 86400 ->
  find_week_day_z z v = true_week_day v /\ find_year_day_z z v = true_year_day v.
Proof. exact days_kept. Qed.
Print Assumptions C152_days_partial.

(** Monday 2024-07-01. *)
Example C152_example :
  find_week_day_z cet (mk_vdt 2024 7 1 22 59 59 0 0) = 1 /\ find_week_day_z cet (mk_vdt 2024 7 1 23 0 0 0 0) = 2 /\
  find_year_day_z cet (mk_vdt 2024 7 1 23 0 0 0 0) = 184 /\ true_year_day (mk_vdt 2024 7 1 23 0 0 0 0) = 183 /\
  find_week_day_z cet (mk_vdt 2024 12 1 23 0 0 0 0) = 7.
Proof. repeat split; vm_compute; reflexivity. Qed.
