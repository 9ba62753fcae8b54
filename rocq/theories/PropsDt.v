(** Properties of datetime.c.  Statements only; each theorem is followed by a non-vacuity
    example.  [off] is the (constant) offset of local time from UTC. *)
From Verif Require Import Base BaseFacts StrModel StrModel2 StrSpec NumModel NumProofs DtModel DtProofs DtProofs2 DtSplit.

(** C52 (false): 1900 and every other century not divisible by 400 counts as a leap year. *)
Theorem C52_leap_refuted :
  forall y, 0 <= y -> y mod 100 = 0 -> y mod 400 <> 0 -> is_leap_year y = true /\ leap y = false.
Proof. exact leap_wrong. Qed.
Print Assumptions C52_leap_refuted.
Theorem C52_leap_witness_refuted : exists y, is_leap_year y = true /\ ~ (y mod 4 = 0 /\ (y mod 100 <> 0 \/ y mod 400 = 0)).
Proof. exists 1900. split; [vm_compute; reflexivity|]. change (1900 mod 100) with 0. change (1900 mod 400) with 300. lia. Qed.
Print Assumptions C52_leap_witness_refuted.

Theorem C52_leap_partial :
  forall y, 0 <= y -> ~ (y mod 100 = 0 /\ y mod 400 <> 0) ->
  (is_leap_year y = true <-> y mod 4 = 0 /\ (y mod 100 <> 0 \/ y mod 400 = 0)).
Proof. exact leap_partial. Qed.
Print Assumptions C52_leap_partial.

Example C52_example : is_leap_year 2024 = true /\ is_leap_year 2023 = false /\ is_leap_year 2000 = true.
Proof. repeat split; vm_compute; reflexivity. Qed.

(** C53 (false): February 1900 and the year 1900 have one day too many; a negative year
    gives 29, although datetime.h:236 promises 28. *)
Theorem C53_month_days_refuted :
  find_days_in_month 1900 2 = 29 /\ find_days_in_year 1900 = 366 /\ find_days_in_month (-1) 2 = 29.
Proof. repeat split; vm_compute; reflexivity. Qed.
Print Assumptions C53_month_days_refuted.

(** [mlen lp m] = length of month [m] (0 = January). *)
Theorem C53_month_days_partial :
  forall y m, 0 < y -> ~ (y mod 100 = 0 /\ y mod 400 <> 0) ->
  find_days_in_month y m = mlen (leap y) (Z.max 1 (Z.min 12 m) - 1) /\ find_days_in_year y = (if leap y then 366 else 365).
Proof. exact days_in_month_ok. Qed.
Print Assumptions C53_month_days_partial.

Example C53_example :
  map (find_days_in_month 2024) [0; 1; 2; 3; 4; 5; 6; 7; 8; 9; 10; 11; 12; 13]
  = [31; 31; 29; 31; 30; 31; 30; 31; 31; 30; 31; 30; 31; 31] /\ find_days_in_month 2023 2 = 28.
Proof. split; vm_compute; reflexivity. Qed.

(** C54: text and back ([doc_text] is the documented text). *)
Theorem C54_text_roundtrip :
  forall dbg f v buf len, text_ok v -> 26 <= len -> len <= zlen buf ->
  exists b, to_text dbg f v buf len = Ok b /\ cstr b = Ok (doc_text f v) /\ zlen b = zlen buf /\
    exists v', from_text f b = Ok v' /\ same_time v' v.
Proof. exact text_roundtrip. Qed.
Print Assumptions C54_text_roundtrip.

Definition feb29 : vdt := mk_vdt 2024 2 29 5 7 9 4 60.
Example C54_example :
  (let* b := to_text true Plain feb29 (repeat None 26) 26 in cstr b)
  = Ok [50;48;50;52;45;48;50;45;50;57;32;48;53;58;48;55;58;48;57] /\
  (let* b := to_text true Iso feb29 (repeat None 26) 26 in from_text Iso b) = Ok (mk_vdt 2024 2 29 5 7 9 7 1).
Proof. split; vm_compute; reflexivity. Qed.

(** C55 (false): separators are not checked, trailing text is accepted, and text shorter
    than the format is read past its end. *)
Theorem C55_validation_refuted :
  (exists z, is_valid_text Iso (zblk z) = Ok true /\ ~ has_shape Iso z) /\
  (exists z, is_valid_text Plain (zblk z) = UB).
Proof.
  split.
  - exists [50;48;50;52;48;50;50;57;33;48;53;48;55;48;57]. split; [vm_compute; reflexivity|].
    intros H. unfold has_shape, shape in H. cbn [app] in H. do 8 (inversion H as [|? ? ? ? _ H']; subst; clear H; rename H' into H).
    inversion H as [|? ? ? ? X _]. discriminate X.
  - exists [50;48;50;52]. vm_compute. reflexivity.
Qed.
Print Assumptions C55_validation_refuted.

Theorem C55_validation_partial :
  forall f z q, (length (shape f) <= length z)%nat ->
  exists b, is_valid_text f (zblk z ++ q) = Ok b /\
    (b = true <-> forall i, nth_error (shape f) i = Some None -> exists c, nth_error z i = Some c /\ digit c).
Proof. exact valid_iff. Qed.
Print Assumptions C55_validation_partial.
Theorem C55_complete :
  forall f z q, has_shape f z -> is_valid_text f (zblk z ++ q) = Ok true.
Proof. exact valid_complete. Qed.
Print Assumptions C55_complete.

Example C55_example :
  is_valid_text Iso (zblk [50;48;50;52;48;50;50;57;84;48;53;48;55;48;57]) = Ok true /\
  is_valid_text Iso (zblk [50;48;50;97;48;50;50;57;84;48;53;48;55;48;57]) = Ok false /\
  has_shape IsoExt (doc_text IsoExt feb29).
Proof.
  repeat split; try (vm_compute; reflexivity). apply doc_has_shape. unfold text_ok, feb29. cbn. lia.
Qed.

(** C56 (false): the week day and the day of the year of a date before 1970 stay at -1. *)
Theorem C56_create_refuted :
  week_day (dt_create 0 1969 12 31 0 0 0 (-1) (-1)) = -1 /\ year_day (dt_create 0 1969 12 31 0 0 0 (-1) (-1)) = -1.
Proof. split; vm_compute; reflexivity. Qed.
Print Assumptions C56_create_refuted.

Theorem C56_create_partial :
  forall off y mo md h mi s wd yd, in16 y ->
  let v := dt_create off y mo md h mi s wd yd in
  fields_ok v /\
  (0 <= y -> year v = y) /\ (y < 0 -> year v = 1900) /\
  month v = clamp 1 12 mo /\ hour v = clamp 0 23 h /\ minute v = clamp 0 59 mi /\ second v = clamp 0 60 s /\
  (1 <= md <= 31 -> month_day v = md) /\ (md < 1 -> month_day v = 1) /\ (31 < md -> month_day v = find_days_in_month y mo) /\
  (1 <= wd <= 7 -> week_day v = wd) /\ (1 <= yd <= 366 -> year_day v = yd).
Proof. exact create_fields. Qed.
Print Assumptions C56_create_partial.
Theorem C56_create_days_partial :
  forall off y mo md h mi s wd yd,
  let v := dt_create off y mo md h mi s wd yd in
  0 <= to_secs off v -> 1 <= week_day v <= 7 /\ 1 <= year_day v <= 366.
Proof. exact create_days. Qed.
Print Assumptions C56_create_days_partial.

Example C56_example :
  dt_create 0 2024 2 40 99 (-3) 61 (-1) (-1) = mk_vdt 2024 2 29 23 0 60 4 60 /\
  dt_create 0 2024 3 15 1 2 3 2 9 = mk_vdt 2024 3 15 1 2 3 2 9.
Proof. split; vm_compute; reflexivity. Qed.

(** C57: seconds and back, order, addition. *)
Theorem C57_seconds_roundtrip :
  forall off v, valid v -> same_time (from_secs off (to_secs off v)) v /\
  week_day (from_secs off (to_secs off v)) = true_week_day v /\ year_day (from_secs off (to_secs off v)) = true_year_day v.
Proof. exact secs_roundtrip. Qed.
Print Assumptions C57_seconds_roundtrip.
Theorem C57_order : forall off a b, valid a -> valid b -> (to_secs off a < to_secs off b <-> before a b).
Proof. exact secs_order. Qed.
Print Assumptions C57_order.
Theorem C57_op :
  forall off v d, valid v -> year d = 0 -> month d = 0 ->
  let s := to_secs off v + 86400 * month_day d + 3600 * hour d + 60 * minute d + second d in
  time_ok off s -> valid (dt_op off v d) /\ to_secs off (dt_op off v d) = s.
Proof. exact op_days_time. Qed.
Print Assumptions C57_op.

Example C57_example :
  valid feb29 /\ to_secs 0 feb29 = 1709183229 /\ from_secs 0 1709183229 = feb29 /\
  dt_op 0 feb29 (mk_vdt 0 0 1 20 0 0 0 0) = mk_vdt 2024 3 2 1 7 9 6 62 /\
  time_ok 0 (1709183229 + 158400).
Proof. unfold valid, time_ok. repeat split; vm_compute; congruence. Qed.

(** C82 (false before 1970): the week day (Monday = 1) and the day of the year. *)
Theorem C82_calendar_days_refuted :
  forall off v, to_secs off v < 0 -> find_week_day off v = -1 /\ find_year_day off v = -1.
Proof. exact find_days_early. Qed.
Print Assumptions C82_calendar_days_refuted.
Theorem C82_calendar_days_partial :
  forall off v, valid v -> 0 <= to_secs off v ->
  find_week_day off v = true_week_day v /\ find_year_day off v = true_year_day v.
Proof. exact find_days_ok. Qed.
Print Assumptions C82_calendar_days_partial.
Theorem C82_calendar_days_range : forall v, valid v -> 1 <= true_week_day v <= 7 /\ 1 <= true_year_day v <= 366.
Proof. exact true_days_range. Qed.
Print Assumptions C82_calendar_days_range.

Example C82_example :
  find_week_day 0 (mk_vdt 2024 2 29 5 7 9 0 0) = 4 /\ find_year_day 0 (mk_vdt 2024 12 31 0 0 0 0 0) = 366 /\
  find_week_day 0 (mk_vdt 1969 12 31 0 0 0 0 0) = -1 /\ true_week_day (mk_vdt 1969 12 31 0 0 0 0 0) = 3.
Proof. repeat split; vm_compute; reflexivity. Qed.

(** C83: the pretty text. *)
Theorem C83_pretty :
  forall dbg v buf len, text_ok v -> 1 <= week_day v <= 7 -> 26 <= len -> len <= zlen buf ->
  exists b, to_text_pretty dbg v buf len = Ok b /\ cstr b = Ok (pretty v) /\ zlen b = zlen buf.
Proof. exact pretty_ok. Qed.
Print Assumptions C83_pretty.

Example C83_example :
  (let* b := to_text_pretty true (mk_vdt 2024 3 2 1 7 9 6 62) (repeat None 26) 26 in cstr b)
  = Ok [83;97;116;32;77;97;114;32;32;50;32;48;49;58;48;55;58;48;57;32;50;48;50;52].
Proof. vm_compute. reflexivity. Qed.

(** C84 (false): parsing sets the week day to Sunday and the day of the year to 1. *)
Theorem C84_parsed_days_refuted :
  forall f v q, text_ok v -> exists v', from_text f (zblk (doc_text f v) ++ q) = Ok v' /\ week_day v' = 7 /\ year_day v' = 1.
Proof. intros f v q T. rewrite from_text_val by assumption. eexists. repeat split. Qed.
Print Assumptions C84_parsed_days_refuted.
Theorem C84_parsed_days_witness_refuted :
  exists v v', text_ok v /\ from_text Plain (zblk (doc_text Plain v)) = Ok v' /\ week_day v' <> true_week_day v.
Proof.
  exists feb29. eexists. split; [unfold text_ok, feb29; cbn; lia|]. split; [vm_compute; reflexivity|]. vm_compute. discriminate.
Qed.
Print Assumptions C84_parsed_days_witness_refuted.
(** All other fields are those of the text. *)
Theorem C84_parsed_days_partial :
  forall f v q, text_ok v ->
  from_text f (zblk (doc_text f v) ++ q) = Ok (mk_vdt (year v) (month v) (month_day v) (hour v) (minute v) (second v) 7 1).
Proof. exact from_text_val. Qed.
Print Assumptions C84_parsed_days_partial.

(** C85: every time of the years 1 to 32767 gives a valid date naming that time. *)
Theorem C85_from_seconds : forall off s, time_ok off s -> valid (from_secs off s) /\ to_secs off (from_secs off s) = s.
Proof. exact time_valid. Qed.
Print Assumptions C85_from_seconds.

Example C85_example : time_ok 3600 951782400 /\ from_secs 3600 951782400 = mk_vdt 2000 2 29 1 0 0 2 60.
Proof. unfold time_ok. split; [lia|vm_compute; reflexivity]. Qed.

(** C86: adding years and months: months carry into years, then the day of the month and
    the time are counted from the first of that month. *)
Theorem C86_op_calendar :
  forall off v d, year v <> 0 ->
  let months := 12 * (year v + year d) + (month v - 1) + month d in
  let s := 86400 * day_number (months / 12) (months mod 12) (month_day v + month_day d)
           + 3600 * (hour v + hour d) + 60 * (minute v + minute d) + (second v + second d) - off in
  time_ok off s -> valid (dt_op off v d) /\ to_secs off (dt_op off v d) = s.
Proof. exact op_ok. Qed.
Print Assumptions C86_op_calendar.

Example C86_example :
  dt_op 0 (mk_vdt 2023 11 30 0 0 0 0 0) (mk_vdt 0 3 0 0 0 0 0 0) = mk_vdt 2024 3 1 0 0 0 5 61 /\
  dt_op 0 feb29 (mk_vdt (-1) 0 0 0 0 0 0 0) = mk_vdt 2023 3 1 5 7 9 3 60.
Proof. split; vm_compute; reflexivity. Qed.

(** C58: differences. *)
Theorem C58_diff_units :
  forall off a b, diff_minutes off a b = Z.quot (diff_secs off a b) 60 /\ diff_hours off a b = Z.quot (diff_secs off a b) 3600 /\
  diff_days off a b = Z.quot (diff_secs off a b) 86400.
Proof. exact diffs_ok. Qed.
Print Assumptions C58_diff_units.

(** C58 (false for vt_datetime_diff): 3661 seconds are reported as 1 h 1 min 0 s. *)
Theorem C58_diff_refuted :
  exists a b, valid a /\ valid b /\ diff_secs 0 a b = 3661 /\ dt_diff 0 a b = mk_vdt 0 0 0 1 1 0 0 0.
Proof.
  exists (mk_vdt 2024 1 1 1 1 1 1 1), (mk_vdt 2024 1 1 0 0 0 1 1). unfold valid. repeat split; vm_compute; congruence.
Qed.
Print Assumptions C58_diff_refuted.
(** Missing: the exact second.  Up to 180 days the fields are in range and count the
    difference or one second less (toward zero); whole days are exact up to 24855 days (68
    years). *)
Theorem C58_diff_partial :
  forall off a b, let d := diff_secs off a b in let v := dt_diff off a b in
  Z.abs d <= 180 * 86400 ->
  (0 <= Z.sgn d * month_day v <= 180 /\ 0 <= Z.sgn d * hour v < 24 /\ 0 <= Z.sgn d * minute v < 60 /\ 0 <= Z.sgn d * second v < 60) /\
  (d = 0 -> v = mk_vdt 0 0 0 0 0 0 0 0) /\
  (month_day v * 86400 + hour v * 3600 + minute v * 60 + second v = d \/
   month_day v * 86400 + hour v * 3600 + minute v * 60 + second v = d - Z.sgn d).
Proof. exact diff_bound. Qed.
Print Assumptions C58_diff_partial.
Theorem C58_days_partial :
  forall off a b k, Z.abs k <= 24855 -> diff_secs off a b = 86400 * k -> dt_diff off a b = mk_vdt 0 0 k 0 0 0 0 0.
Proof. exact diff_days_exact. Qed.
Print Assumptions C58_days_partial.

Example C58_example :
  diff_days 0 (mk_vdt 2024 3 1 0 0 0 0 0) feb29 = 0 /\ diff_minutes 0 (mk_vdt 2024 3 1 0 0 0 0 0) feb29 = 1132 /\
  diff_minutes 0 feb29 (mk_vdt 2024 3 1 0 0 0 0 0) = -1132 /\
  dt_diff 0 (mk_vdt 2025 2 28 5 7 9 0 0) feb29 = mk_vdt 0 0 365 0 0 0 0 0.
Proof. repeat split; vm_compute; reflexivity. Qed.
