(** Properties promised by comments of the header files str.h and datetime.h (C153-C157). *)
From Verif Require Import Base BaseFacts StrModel StrModel2 StrSpec StrProofs2 StrMain NumModel DtModel DtProofs PropsStr DocProofs.
From Coq Require Import String Ascii.
Local Open Scope list_scope.

(** C153 (false for seconds and differences, datetime.h:225-283): an invalid year (zero or
    negative) counts as 1900. *)
Theorem C153_zero_refuted :
  forall off v, year v = 0 -> to_secs off v = to_secs off (set_year v 3800).
Proof. exact year_zero. Qed.
Print Assumptions C153_zero_refuted.
Theorem C153_negative_refuted :
  forall off v, year v < 0 -> 1 <= month v <= 12 ->
  to_secs off v < to_secs off (set_year v 1900) - 86400 * 365 * 1899.
Proof. exact year_negative. Qed.
Print Assumptions C153_negative_refuted.
Theorem C153_leap_partial :
  forall y, y < 0 -> is_leap_year y = is_leap_year 1900 /\ find_days_in_year y = find_days_in_year 1900.
Proof. exact year_1900. Qed.
Print Assumptions C153_leap_partial.

Example C153_example :
  to_secs 0 (mk_vdt 1900 1 1 0 0 0 0 0) = -2208988800 /\ to_secs 0 (mk_vdt 0 1 1 0 0 0 0 0) = 57749241600 /\
  to_secs 0 (mk_vdt (-4) 1 1 0 0 0 0 0) = -62293449600 /\ is_leap_year (-3) = true /\ is_leap_year 1900 = true /\ is_leap_year 3 = false.
Proof. repeat split; vm_compute; reflexivity. Qed.

(** C154 (false for negative years, datetime.h:176-177): February of an invalid year has 28
    days; months outside 1 to 12 count as the nearest month. *)
Theorem C154_february_refuted : forall y, y < 0 -> find_days_in_month y 2 = 29.
Proof. exact february. Qed.
Print Assumptions C154_february_refuted.
Theorem C154_february_partial : find_days_in_month 0 2 = 28.
Proof. exact february_zero. Qed.
Print Assumptions C154_february_partial.
Theorem C154_months :
  forall y m, (m < 1 -> find_days_in_month y m = find_days_in_month y 1) /\ (12 < m -> find_days_in_month y m = find_days_in_month y 12).
Proof. exact month_clamped. Qed.
Print Assumptions C154_months.

Example C154_example :
  find_days_in_month (-1) 2 = 29 /\ find_days_in_month 2023 2 = 28 /\ find_days_in_month 2023 (-7) = 31 /\ find_days_in_month 2023 13 = 31.
Proof. repeat split; vm_compute; reflexivity. Qed.

(** C155 (false, datetime.h:160,168): for an invalid date the week day and the day of the year
    are -1.  The answer is -1 exactly for dates before 1970; a later invalid date is answered for
    the valid date of the same second. *)
Theorem C155_invalid_refuted :
  forall off v, (find_week_day off v = -1 <-> to_secs off v < 0) /\ (find_year_day off v = -1 <-> to_secs off v < 0).
Proof. exact minus_one. Qed.
Print Assumptions C155_invalid_refuted.
Theorem C155_invalid_partial :
  forall off v, 0 <= to_secs off v -> time_ok off (to_secs off v) ->
  let w := from_secs off (to_secs off v) in
  valid w /\ to_secs off w = to_secs off v /\ find_week_day off v = true_week_day w /\ find_year_day off v = true_year_day w.
Proof. exact days_normalised. Qed.
Print Assumptions C155_invalid_partial.

Example C155_example :
  let v := mk_vdt 2023 2 31 25 61 0 0 0 in
  find_week_day 0 v = 6 /\ find_year_day 0 v = 63 /\ from_secs 0 (to_secs 0 v) = mk_vdt 2023 3 4 2 1 0 6 63 /\
  find_week_day 0 (mk_vdt 2023 13 1 0 0 0 0 0) = 1 /\ find_week_day 0 (mk_vdt 1969 7 20 20 17 40 0 0) = -1.
Proof. repeat split; vm_compute; reflexivity. Qed.

(** C156 (false, str.h:364): stripping removes white space and control symbols from both ends.
    Control symbols that are no white space stay. *)
Theorem C156_control_refuted :
  forall c m cap s, control c = true -> ~ 9 <= c <= 13 -> srep (c :: m ++ [c]) cap s ->
  exists s', str_strip (lf s) s = Ok s' /\ srep (c :: m ++ [c]) cap s'.
Proof. intros c m cap s. exact (strip_control c m s cap). Qed.
Print Assumptions C156_control_refuted.
Theorem C156_control_partial :
  forall t cap s, srep t cap s -> (forall x, In x t -> control x = true -> 9 <= x <= 13) ->
  forallb (fun c => white c || control c) t = false ->
  exists s', str_strip (lf s) s = Ok s' /\ srep (strip_text (fun c => white c || control c) t) cap s'.
Proof. exact strip_control_partial. Qed.
Print Assumptions C156_control_partial.

Example C156_example :
  txt (let* s := str_create true [27; 104; 105; 27] in str_strip (lf s) s) = Ok [27; 104; 105; 27] /\
  control 27 = true /\
  txt (let* s := str_create true [9; 32; 104; 32; 105; 10] in str_strip (lf s) s) = Ok (T "h i").
Proof. repeat split; vm_compute; reflexivity. Qed.

(** C157 (false, str.h:498-510): a string is numeric if and only if all of it is a number.
    Unsigned numbers are recognised; negative numbers are not, and texts like "1.2.3", "." and ""
    are taken for numbers.  A text taken for a number that has a digit and at most one dot is one. *)
Theorem C157_numeric_refuted :
  (forall t cap s, srep (45 :: t) cap s -> str_is_numeric s = Ok false) /\
  on "1.2.3" (fun s => str_is_numeric s) = Ok true /\ on "." (fun s => str_is_numeric s) = Ok true /\
  (forall cap s, srep [] cap s -> str_is_numeric s = Ok true).
Proof. split; [exact numeric_signed|]. split; [vm_compute; reflexivity|]. split; [vm_compute; reflexivity|exact (numeric_ok [])]. Qed.
Print Assumptions C157_numeric_refuted.
Theorem C157_numeric_partial :
  forall t cap s, srep t cap s ->
  (plain_number t -> str_is_numeric s = Ok true) /\
  (str_is_numeric s = Ok true -> dots t <= 1 -> existsb digit t = true -> plain_number t).
Proof. exact numeric_partial. Qed.
Print Assumptions C157_numeric_partial.

Example C157_example :
  number (T "-5") /\ on "-5" (fun s => str_is_numeric s) = Ok false /\ plain_number (T "12.50") /\
  on "12.50" (fun s => str_is_numeric s) = Ok true /\ on "1e5" (fun s => str_is_numeric s) = Ok false.
Proof.
  split; [right; exists (T "5"); split; [right; reflexivity|exists (T "5"), []; repeat split; [now left|discriminate]]|].
  split; [vm_compute; reflexivity|].
  split; [exists (T "12"), (T "50"); repeat split; [now right|discriminate]|].
  split; vm_compute; reflexivity.
Qed.
