(** Model of src/vita/time/datetime.c.

    The C library is modelled by its contract: mktime, localtime (proleptic Gregorian
    calendar, time zone with a constant offset [off] in seconds east of UTC, no daylight
    saving), strftime, sscanf and asctime_r in the C locale.  The clock is in DtBuild.v, as
    is what vt_datetime_create and the queries for the days do in debug builds; here they
    are those of release builds. *)
From Flocq Require Import IEEE754.BinarySingleNaN IEEE754.Binary IEEE754.Bits.
From Verif Require Import Base StrModel StrModel2 NumModel FloatModel.

(** inc/vita/time/datetime.h:41-42 *)
Definition buffer_size : Z := 26.
Definition min_year : Z := 1900.

(** struct VitaDateTime, datetime.h:57-61: eight int16_t. *)
Record vdt := mk_vdt {
  year : Z; month : Z; month_day : Z;
  hour : Z; minute : Z; second : Z;
  week_day : Z; year_day : Z }.

(** struct tm (the fields used): int. *)
Record tm := mk_tm {
  tm_year : Z; tm_mon : Z; tm_mday : Z;
  tm_hour : Z; tm_min : Z; tm_sec : Z;
  tm_wday : Z; tm_yday : Z }.

Definition i16 (z : Z) : Z := to_signed 16 z.

(** * Calendar (contract of mktime and localtime) *)
Definition leap (y : Z) : bool := (y mod 4 =? 0) && (negb (y mod 100 =? 0) || (y mod 400 =? 0)).
(** Days from 0001-01-01 to the first day of year [y]. *)
Definition dby (y : Z) : Z := 365 * (y - 1) + (y - 1) / 4 - (y - 1) / 100 + (y - 1) / 400.
(** Lengths of the months (0 = January). *)
Definition mlen (lp : bool) (m : Z) : Z :=
  if m =? 1 then (if lp then 29 else 28)
  else if (m =? 3) || (m =? 5) || (m =? 8) || (m =? 10) then 30 else 31.
(** Days of the year before month [m]. *)
Fixpoint dbm_nat (lp : bool) (m : nat) : Z :=
  match m with O => 0 | S m' => dbm_nat lp m' + mlen lp (Z.of_nat m') end.
Definition dbm (lp : bool) (m : Z) : Z := dbm_nat lp (Z.to_nat m).
(** Day number of year, month (0-11) and day, counted from 1970-01-01. *)
Definition day_number (y m d : Z) : Z := dby y + dbm (leap y) m + (d - 1) - dby 1970.

(** Year containing the [n]-th day after 0001-01-01. *)
Definition year_of (n : Z) : Z :=
  let e := n / 146097 in let r := n mod 146097 in
  let c := Z.min (r / 36524) 3 in let r := r - c * 36524 in
  let q := r / 1461 in let r := r - q * 1461 in
  400 * e + 100 * c + 4 * q + Z.min (r / 365) 3 + 1.
(** Month of the [n]-th day of a year. *)
Fixpoint month_of (k : nat) (lp : bool) (m n : Z) : Z :=
  match k with
  | O => m
  | S k' => if n <? mlen lp m then m else month_of k' lp (m + 1) (n - mlen lp m)
  end.

Definition localtime (off secs : Z) : tm :=
  let s := secs + off in
  let d := s / 86400 in let r := s mod 86400 in
  let n := d + dby 1970 in
  let y := year_of n in
  let yd := n - dby y in
  let m := month_of 11 (leap y) 0 yd in
  mk_tm (y - 1900) m (yd - dbm (leap y) m + 1) (r / 3600) (r mod 3600 / 60) (r mod 60) ((d + 4) mod 7) yd.

(** mktime: the fields may be out of range; the result is the time and the normalised
    structure. *)
Definition tm_secs (off : Z) (t : tm) : Z :=
  let y := tm_year t + 1900 + tm_mon t / 12 in
  86400 * day_number y (tm_mon t mod 12) (tm_mday t)
  + 3600 * tm_hour t + 60 * tm_min t + tm_sec t - off.
Definition mktime (off : Z) (t : tm) : Z * tm := let s := tm_secs off t in (s, localtime off s).

(** * Conversions *)

(** vt_datetime_tm_to_vdt, datetime.c:297-320. *)
Definition tm_to_vdt (t : tm) : vdt :=
  mk_vdt (i16 (tm_year t + min_year)) (i16 (tm_mon t + 1)) (i16 (tm_mday t))
         (i16 (tm_hour t)) (i16 (tm_min t)) (i16 (tm_sec t))
         (i16 (if tm_wday t =? 0 then 7 else tm_wday t)) (i16 (tm_yday t + 1)).
(** vt_datetime_vdt_to_tm, datetime.c:326-338. *)
Definition vdt_to_tm (v : vdt) : tm :=
  mk_tm (if year v =? 0 then min_year else year v - min_year) (month v - 1) (month_day v)
        (hour v) (minute v) (second v) (if week_day v =? 7 then 0 else week_day v) (year_day v - 1).

(** * Calendar queries *)

(** vt_datetime_is_leap_year, datetime.c:200-203 (C remainder). *)
Definition is_leap_year (y : Z) : bool :=
  let y := if y <? 0 then min_year else y in Z.rem y 4 =? 0.
(** vt_datetime_find_days_in_year, datetime.c:196-198. *)
Definition find_days_in_year (y : Z) : Z := if is_leap_year y then 366 else 365.
(** vt_datetime_find_days_in_month, datetime.c:174-194. *)
Definition find_days_in_month (y m : Z) : Z :=
  let mo := if m <? 1 then 1 else if 12 <? m then 12 else m in
  let yr := if y <? 0 then min_year else y in
  if (mo =? 1) || (mo =? 3) || (mo =? 5) || (mo =? 7) || (mo =? 8) || (mo =? 10) || (mo =? 12) then 31
  else if (mo =? 4) || (mo =? 6) || (mo =? 9) || (mo =? 11) then 30
  else if (0 <? yr) && is_leap_year y then 29 else 28.
(** vt_datetime_find_year_day, datetime.c:152-161. *)
Definition find_year_day (off : Z) (v : vdt) : Z :=
  let '(ret, t) := mktime off (vdt_to_tm v) in
  if ret <? 0 then -1 else i16 (tm_yday t + 1).
(** vt_datetime_find_week_day, datetime.c:163-172. *)
Definition find_week_day (off : Z) (v : vdt) : Z :=
  let '(ret, t) := mktime off (vdt_to_tm v) in
  if ret <? 0 then -1 else i16 (if tm_wday t =? 0 then 7 else tm_wday t).

(** vt_datetime_create, datetime.c:38-67. *)
Definition dt_create (off y mo md h mi s wd yd : Z) : vdt :=
  let v := mk_vdt
    (if y <? 0 then min_year else y)
    (if mo <? 1 then 1 else if 12 <? mo then 12 else mo)
    (if md <? 1 then 1 else if 31 <? md then find_days_in_month y mo else md)
    (if h <? 0 then 0 else if 23 <? h then 23 else h)
    (if mi <? 0 then 0 else if 59 <? mi then 59 else mi)
    (if s <? 0 then 0 else if 60 <? s then 60 else s)
    (if (wd <? 1) || (7 <? wd) then -1 else wd)
    (if (yd <? 1) || (366 <? yd) then -1 else yd) in
  let v := if week_day v <? 0
           then mk_vdt (year v) (month v) (month_day v) (hour v) (minute v) (second v) (find_week_day off v) (year_day v)
           else v in
  if year_day v <? 0
  then mk_vdt (year v) (month v) (month_day v) (hour v) (minute v) (second v) (week_day v) (find_year_day off v)
  else v.

(** * Text *)

(** strftime's numeric conversions in the C locale: %Y unpadded, the others padded to two
    digits. *)
Definition pad2 (n : Z) : list Z := if (0 <=? n) && (n <? 10) then [48; 48 + n] else fmt_int n.

(** The three formats of vt_datetime_to_text, _iso and _iso_ext, datetime.c:73, 80, 87. *)
Inductive dfmt := Plain | Iso | IsoExt.
Definition strftime_text (f : dfmt) (t : tm) : list Z :=
  let Y := fmt_int (tm_year t + 1900) in
  let M := pad2 (tm_mon t + 1) in let D := pad2 (tm_mday t) in
  let h := pad2 (tm_hour t) in let m := pad2 (tm_min t) in let s := pad2 (tm_sec t) in
  match f with
  | Plain => Y ++ [45] ++ M ++ [45] ++ D ++ [32] ++ h ++ [58] ++ m ++ [58] ++ s
  | Iso => Y ++ M ++ D ++ [84] ++ h ++ m ++ s
  | IsoExt => Y ++ [45] ++ M ++ [45] ++ D ++ [84] ++ h ++ [58] ++ m ++ [58] ++ s
  end.
(** vt_datetime_to_text_fmt, datetime.c:348-357, with the checks of the callers 69-88.
    strftime returns 0 when the text and its NUL do not fit (the buffer is then
    indeterminate, and its first byte is set to NUL). *)
Definition to_text (dbg : bool) (f : dfmt) (v : vdt) (buf : blk) (len : Z) : res blk :=
  let* _ := dassert dbg (buffer_size <=? len) in
  let txt := strftime_text f (vdt_to_tm v) in
  if zlen txt + 1 <=? len then bwrite buf 0 (zblk txt)
  else let* b := bwrite buf 0 (repeat None (Z.to_nat len)) in bwrite b 0 [Some 0].

(** isalpha in the C locale. *)
Definition is_alpha (c : Z) : bool := ((65 <=? c) && (c <=? 90)) || ((97 <=? c) && (c <=? 122)).
(** vt_datetime_is_valid_fmt, datetime.c:391-403: [fmt] with its NUL, [i] the index. *)
Fixpoint valid_loop (fmt : list Z) (tb : blk) (i : Z) : res bool :=
  match fmt with
  | [] => Ok true
  | f :: fmt' =>
      if negb (f =? 84) && is_alpha f then
        let* c := bbyte tb i in
        if negb (is_digit c) then Ok false else valid_loop fmt' tb (i + 1)
      else valid_loop fmt' tb (i + 1)
  end.
(** The format strings of datetime.c:209, 217, 225. *)
Definition fmt_of (f : dfmt) : list Z :=
  let Y := [89; 89; 89; 89] in let M := [77; 77] in let D := [68; 68] in let H := [72; 72] in let S := [83; 83] in
  match f with
  | Plain => Y ++ [45] ++ M ++ [45] ++ D ++ [32] ++ H ++ [58] ++ M ++ [58] ++ S ++ [0]
  | Iso => Y ++ M ++ D ++ [84] ++ H ++ M ++ S ++ [0]
  | IsoExt => Y ++ [45] ++ M ++ [45] ++ D ++ [84] ++ H ++ [58] ++ M ++ [58] ++ D ++ [0]
  end.
(** vt_datetime_is_valid_text, _iso, _iso_ext, datetime.c:205-227. *)
Definition is_valid_text (f : dfmt) (tb : blk) : res bool := valid_loop (fmt_of f) tb 0.

(** sscanf with %<w>d, literal characters and white space. *)
Inductive sdir := SInt (w : nat) | SLit (c : Z) | SSpace.
Fixpoint scan_digits (w : nat) (z : list Z) (acc : Z) : Z * list Z :=
  match w, z with
  | S w', c :: z' => if is_digit c then scan_digits w' z' (10 * acc + (c - 48)) else (acc, z)
  | _, _ => (acc, z)
  end.
Definition starts_digit (z : list Z) : bool := match z with c :: _ => is_digit c | [] => false end.
Definition scan_int (w : nat) (z : list Z) : option (Z * list Z) :=
  let z := skip_space z in
  match z, w with
  | 45 :: z', S (S w') => if starts_digit z' then let '(v, r) := scan_digits (S w') z' 0 in Some (- v, r) else None
  | 43 :: z', S (S w') => if starts_digit z' then let '(v, r) := scan_digits (S w') z' 0 in Some (v, r) else None
  | _, _ => if starts_digit z then Some (scan_digits w z 0) else None
  end.
Fixpoint sscanf (ds : list sdir) (z : list Z) : list Z :=
  match ds with
  | [] => []
  | SInt w :: ds' => match scan_int w z with Some (v, r) => v :: sscanf ds' r | None => [] end
  | SLit c :: ds' => match z with x :: r => if x =? c then sscanf ds' r else [] | [] => [] end
  | SSpace :: ds' => sscanf ds' (skip_space z)
  end.
(** The scan formats of datetime.c:123, 136, 149. *)
Definition scan_fmt (f : dfmt) : list sdir :=
  match f with
  | Plain => [SInt 4; SLit 45; SInt 2; SLit 45; SInt 2; SSpace; SInt 2; SLit 58; SInt 2; SLit 58; SInt 2]
  | Iso => [SInt 4; SInt 2; SInt 2; SLit 84; SInt 2; SInt 2; SInt 2]
  | IsoExt => [SInt 4; SLit 45; SInt 2; SLit 45; SInt 2; SLit 84; SInt 2; SLit 58; SInt 2; SLit 58; SInt 2]
  end.
(** vt_datetime_from_text, _iso, _iso_ext, datetime.c:113-150, and
    vt_datetime_from_text_fmt, 365-380. *)
Definition from_text (f : dfmt) (tb : blk) : res vdt :=
  let* ok := is_valid_text f tb in
  let* _ := enforce ok in
  let* z := cstr tb in
  let l := sscanf (scan_fmt f) z in
  Ok (tm_to_vdt (mk_tm (nth 0 l 0 - min_year) (nth 1 l 0 - 1) (nth 2 l 0) (nth 3 l 0) (nth 4 l 0) (nth 5 l 0) 0 0)).

(** asctime_r: "Www Mmm dd hh:mm:ss yyyy\n" and a NUL; unknown names print as "???".
    Simplification: only for four-digit years and two-digit fields is the buffer of
    26 bytes enough; otherwise UB. *)
Definition wnames : list (list Z) :=
  [[83;117;110]; [77;111;110]; [84;117;101]; [87;101;100]; [84;104;117]; [70;114;105]; [83;97;116]].
Definition mnames : list (list Z) :=
  [[74;97;110]; [70;101;98]; [77;97;114]; [65;112;114]; [77;97;121]; [74;117;110];
   [74;117;108]; [65;117;103]; [83;101;112]; [79;99;116]; [78;111;118]; [68;101;99]].
Definition name_of (l : list (list Z)) (i : Z) : list Z := if i <? 0 then [63; 63; 63] else nth (Z.to_nat i) l [63; 63; 63].
Definition pad_day (n : Z) : list Z := if (0 <=? n) && (n <? 10) then [32; 48 + n] else fmt_int n.
Definition asctime_text (t : tm) : list Z :=
  name_of wnames (tm_wday t) ++ [32] ++ name_of mnames (tm_mon t) ++ [32] ++ pad_day (tm_mday t) ++ [32]
  ++ pad2 (tm_hour t) ++ [58] ++ pad2 (tm_min t) ++ [58] ++ pad2 (tm_sec t) ++ [32] ++ fmt_int (tm_year t + 1900) ++ [10].
(** vt_datetime_to_text_pretty, datetime.c:90-111. *)
Definition to_text_pretty (dbg : bool) (v : vdt) (buf : blk) (len : Z) : res blk :=
  let* _ := dassert dbg (buffer_size <=? len) in
  let txt := asctime_text (vdt_to_tm v) in
  if negb (zlen txt + 1 =? 26) then UB else
  let* b := bwrite buf 0 (zblk txt) in
  let* c := bbyte b 8 in
  let* b := if c =? 48 then bwrite b 8 [Some 32] else Ok b in
  let* b := bwrite b (len - 1) [Some 0] in
  let* c := bbyte b (buffer_size - 1) in
  if c =? 10 then bwrite b (buffer_size - 1) [Some 0] else bwrite b (buffer_size - 2) [Some 0].

(** * Arithmetic *)

(** vt_datetime_to_secs, datetime.c:229-232. *)
Definition to_secs (off : Z) (v : vdt) : Z := fst (mktime off (vdt_to_tm v)).
(** vt_datetime_from_secs, datetime.c:234-237. *)
Definition from_secs (off s : Z) : vdt := tm_to_vdt (localtime off s).
(** vt_datetime_op, datetime.c:239-254. *)
Definition dt_op (off : Z) (v d : vdt) : vdt :=
  let t := vdt_to_tm v in
  let t := mk_tm (tm_year t + year d) (tm_mon t + month d) (tm_mday t + month_day d)
                 (tm_hour t + hour d) (tm_min t + minute d) (tm_sec t + second d) (tm_wday t) (tm_yday t) in
  tm_to_vdt (snd (mktime off t)).
(** vt_datetime_diff_secs / minutes / hours / days, datetime.c:256-270. *)
Definition diff_secs (off : Z) (a b : vdt) : Z := to_secs off a - to_secs off b.
Definition diff_minutes (off : Z) (a b : vdt) : Z := Z.quot (diff_secs off a b) 60.
Definition diff_hours (off : Z) (a b : vdt) : Z := Z.quot (diff_minutes off a b) 60.
Definition diff_days (off : Z) (a b : vdt) : Z := Z.quot (diff_hours off a b) 24.

(** Conversion from an integer type to float (FloatModel.v: round to nearest even). *)
Definition f32_of_Z (z : Z) : binary32 := binary_normalize 24 128 eq_refl eq_refl mode_NE z 0 false.
(** Conversion to an integer type: toward zero; undefined for infinities and NaN (never
    reached here). *)
Definition f32_to_Z (f : binary32) : Z :=
  match f with
  | B754_finite _ _ s m e _ =>
      let v := if 0 <=? e then Z.pos m * 2 ^ e else Z.pos m / 2 ^ (- e) in
      if s then - v else v
  | _ => 0
  end.
(** vt_datetime_diff, datetime.c:272-289, from the difference in seconds. *)
Definition split_secs (d : Z) : vdt :=
  let q := f32_div (f32_of_Z d) (f32_of_Z 86400) in
  let days := f32_to_Z q in
  let h := f32_mul (f32_sub q (f32_of_Z days)) (f32_of_Z 24) in
  let hours := f32_to_Z h in
  let m := f32_mul (f32_sub h (f32_of_Z hours)) (f32_of_Z 60) in
  let minutes := f32_to_Z m in
  let s := f32_mul (f32_sub m (f32_of_Z minutes)) (f32_of_Z 60) in
  mk_vdt 0 0 (i16 days) (i16 hours) (i16 minutes) (i16 (f32_to_Z s)) 0 0.
Definition dt_diff (off : Z) (a b : vdt) : vdt := split_secs (diff_secs off a b).
