(** Model of src/vita/time/datetime.c, continued: what the queries for the days do in debug
    builds, and the clock.  No proofs in this file.

    [now] is the value of time(NULL). *)
From Verif Require Import Base StrModel StrModel2 NumModel DtModel.

(** The statement 'VT_DEBUG_PRINTF("%s: Invalid datetime format.\n")', datetime.c:156 and
    167: in debug builds vt_debug_printf formats a %s without an argument, which is
    undefined; in release builds the macro is empty (debug.h:32, 36). *)
Definition invalid_format (dbg : bool) : res unit := if dbg then UB else Ok tt.
(** vt_datetime_find_year_day, datetime.c:152-161. *)
Definition find_year_day_b (dbg : bool) (off : Z) (v : vdt) : res Z :=
  let '(ret, t) := mktime off (vdt_to_tm v) in
  if ret <? 0 then let* _ := invalid_format dbg in Ok (-1) else Ok (i16 (tm_yday t + 1)).
(** vt_datetime_find_week_day, datetime.c:163-172. *)
Definition find_week_day_b (dbg : bool) (off : Z) (v : vdt) : res Z :=
  let '(ret, t) := mktime off (vdt_to_tm v) in
  if ret <? 0 then let* _ := invalid_format dbg in Ok (-1) else Ok (i16 (if tm_wday t =? 0 then 7 else tm_wday t)).
(** vt_datetime_create, datetime.c:38-67. *)
Definition dt_create_b (dbg : bool) (off y mo md h mi s wd yd : Z) : res vdt :=
  let v := mk_vdt
    (if y <? 0 then min_year else y)
    (if mo <? 1 then 1 else if 12 <? mo then 12 else mo)
    (if md <? 1 then 1 else if 31 <? md then find_days_in_month y mo else md)
    (if h <? 0 then 0 else if 23 <? h then 23 else h)
    (if mi <? 0 then 0 else if 59 <? mi then 59 else mi)
    (if s <? 0 then 0 else if 60 <? s then 60 else s)
    (if (wd <? 1) || (7 <? wd) then -1 else wd)
    (if (yd <? 1) || (366 <? yd) then -1 else yd) in
  let* v :=
    (if week_day v <? 0 then
       let* w := find_week_day_b dbg off v in
       Ok (mk_vdt (year v) (month v) (month_day v) (hour v) (minute v) (second v) w (year_day v))
     else Ok v) in
  if year_day v <? 0 then
    let* d := find_year_day_b dbg off v in
    Ok (mk_vdt (year v) (month v) (month_day v) (hour v) (minute v) (second v) (week_day v) d)
  else Ok v.

(** vt_datetime_get_now, datetime.c:9-13. *)
Definition get_now (off now : Z) : vdt := tm_to_vdt (localtime off now).
(** vt_datetime_get_now_as_text, datetime.c:15-24; strftime as in DtModel.to_text. *)
Definition get_now_as_text (dbg : bool) (off now : Z) (buf : blk) (len : Z) : res blk :=
  let* _ := dassert dbg (buffer_size <=? len) in
  let txt := strftime_text Plain (localtime off now) in
  if zlen txt + 1 <=? len then bwrite buf 0 (zblk txt)
  else let* b := bwrite buf 0 (repeat None (Z.to_nat len)) in bwrite b 0 [Some 0].
(** vt_datetime_get_now_as_text_pretty, datetime.c:26-36. *)
Definition get_now_as_text_pretty (dbg : bool) (off now : Z) (buf : blk) (len : Z) : res blk :=
  let* _ := dassert dbg (buffer_size <=? len) in
  to_text_pretty dbg (tm_to_vdt (localtime off now)) buf len.
