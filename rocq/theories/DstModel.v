(** Model of src/vita/time/datetime.c in time zones with daylight saving.  No proofs in this
    file.

    Contract of the C library: localtime gives the standard time or, while daylight saving is
    in force, the standard time plus the saving.  mktime takes the fields as standard time when
    tm_isdst is 0, as it always is here (datetime.c:336, 377), and normalises them to what
    localtime gives for the result. *)
From Verif Require Import Base NumModel DtModel.

(** A time zone: the offset of its standard time in seconds east of UTC, the saving, and when
    daylight saving is in force. *)
Record zone := mk_zone { z_std : Z; z_save : Z; z_dst : Z -> bool }.
Definition z_off (z : zone) (s : Z) : Z := z_std z + (if z_dst z s then z_save z else 0).
Definition localtime_z (z : zone) (s : Z) : tm := localtime (z_off z s) s.
Definition mktime_z (z : zone) (t : tm) : Z * tm := let s := tm_secs (z_std z) t in (s, localtime_z z s).

(** vt_datetime_get_now, datetime.c:9-13. *)
Definition get_now_z (z : zone) (now : Z) : vdt := tm_to_vdt (localtime_z z now).
(** vt_datetime_find_year_day, datetime.c:152-161 (release build, see DtBuild.v). *)
Definition find_year_day_z (z : zone) (v : vdt) : Z :=
  let '(ret, t) := mktime_z z (vdt_to_tm v) in
  if ret <? 0 then -1 else i16 (tm_yday t + 1).
(** vt_datetime_find_week_day, datetime.c:163-172 (release build). *)
Definition find_week_day_z (z : zone) (v : vdt) : Z :=
  let '(ret, t) := mktime_z z (vdt_to_tm v) in
  if ret <? 0 then -1 else i16 (if tm_wday t =? 0 then 7 else tm_wday t).
(** vt_datetime_to_secs, datetime.c:229-232. *)
Definition to_secs_z (z : zone) (v : vdt) : Z := fst (mktime_z z (vdt_to_tm v)).
(** vt_datetime_from_secs, datetime.c:234-237. *)
Definition from_secs_z (z : zone) (s : Z) : vdt := tm_to_vdt (localtime_z z s).
(** vt_datetime_op, datetime.c:239-254. *)
Definition dt_op_z (z : zone) (v d : vdt) : vdt :=
  let t := vdt_to_tm v in
  let t := mk_tm (tm_year t + year d) (tm_mon t + month d) (tm_mday t + month_day d)
                 (tm_hour t + hour d) (tm_min t + minute d) (tm_sec t + second d) (tm_wday t) (tm_yday t) in
  tm_to_vdt (snd (mktime_z z t)).
(** vt_datetime_diff_secs, datetime.c:256-258. *)
Definition diff_secs_z (z : zone) (a b : vdt) : Z := to_secs_z z a - to_secs_z z b.
