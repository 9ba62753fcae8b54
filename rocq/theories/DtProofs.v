(** Proofs about the calendar and datetime.c. *)
From Verif Require Import Base BaseFacts StrModel StrModel2 StrSpec StrProofs StrProofs2 NumModel NumProofs DtModel.

Ltac ltb := repeat match goal with
  | |- context [?a <? ?b] => destruct (Z.ltb_spec a b); try lia
  | |- context [?a <=? ?b] => destruct (Z.leb_spec a b); try lia
  | |- context [?a =? ?b] => destruct (Z.eqb_spec a b); try lia
  end.

(** * Calendar *)
Lemma dby_step y : dby (y + 1) = dby y + (if leap y then 366 else 365).
Proof.
  unfold dby, leap. replace (y + 1 - 1) with y by lia.
  destruct (Z.eqb_spec (y mod 4) 0), (Z.eqb_spec (y mod 100) 0), (Z.eqb_spec (y mod 400) 0); cbn [andb orb negb]; lia.
Qed.
Lemma dby_mono y y' : y < y' -> dby (y + 1) <= dby y'.
Proof. intros H. unfold dby. lia. Qed.
Lemma year_of_ok n : dby (year_of n) <= n < dby (year_of n + 1).
Proof.
  unfold year_of. set (e := n / 146097). set (r := n mod 146097). set (c := Z.min (r / 36524) 3).
  set (r1 := r - c * 36524). set (q := r1 / 1461). set (r2 := r1 - q * 1461). set (yy := Z.min (r2 / 365) 3).
  assert (n = 146097 * e + r /\ 0 <= r < 146097) as [N Hr] by (unfold e, r; lia).
  assert (0 <= c <= 3 /\ 0 <= r1 /\ (c < 3 -> r1 < 36524) /\ (c = 3 -> r1 <= 36524)) as (Hc & Hr1 & Hr1a & Hr1b) by (unfold r1, c; lia).
  assert (0 <= q <= 24 /\ 0 <= r2 < 1461 /\ (c < 3 -> q = 24 -> r2 < 1460)) as (Hq & Hr2 & Hr2a) by (unfold r2, q; lia).
  assert (0 <= yy <= 3 /\ 0 <= r2 - 365 * yy <= 365 /\ (yy < 3 -> r2 - 365 * yy < 365)) as (Hy & Hd & Hd2) by (unfold yy; lia).
  assert (r = 36524 * c + r1) as R1 by (unfold r1; lia). assert (r1 = 1461 * q + r2) as R2 by (unfold r2; lia).
  clearbody e r c r1 q r2 yy.
  assert (dby (400 * e + 100 * c + 4 * q + yy + 1) = 146097 * e + 36524 * c + 1461 * q + 365 * yy) as D.
  { unfold dby. replace (400 * e + 100 * c + 4 * q + yy + 1 - 1) with (400 * e + 100 * c + 4 * q + yy) by lia.
    replace ((400 * e + 100 * c + 4 * q + yy) / 4) with (100 * e + 25 * c + q) by lia.
    replace ((400 * e + 100 * c + 4 * q + yy) / 100) with (4 * e + c) by lia.
    replace ((400 * e + 100 * c + 4 * q + yy) / 400) with e by lia. lia. }
  split; [lia|]. rewrite dby_step, D.
  destruct (Z.eq_dec (r2 - 365 * yy) 365) as [E|E]; [|destruct (leap _); lia].
  assert (yy = 3) by lia. subst yy.
  replace (leap _) with true; [lia|]. symmetry. unfold leap. replace (400 * e + 100 * c + 4 * q + 3 + 1) with (400 * e + 100 * c + 4 * q + 4) by lia.
  destruct (Z.eq_dec q 24) as [->|Q].
  - assert (c = 3) by lia. subst c. replace (400 * e + 100 * 3 + 4 * 24 + 4) with (400 * (e + 1)) by lia.
    replace ((400 * (e + 1)) mod 4) with 0 by lia. replace ((400 * (e + 1)) mod 400) with 0 by lia. now rewrite orb_true_r.
  - replace ((400 * e + 100 * c + 4 * q + 4) mod 4) with 0 by lia.
    replace ((400 * e + 100 * c + 4 * q + 4) mod 100) with (4 * q + 4) by lia. replace (4 * q + 4 =? 0) with false by lia. reflexivity.
Qed.
Lemma year_of_unique n y : dby y <= n < dby (y + 1) -> year_of n = y.
Proof.
  intros H. pose proof (year_of_ok n) as K. destruct (Z.lt_trichotomy (year_of n) y) as [X|[X|X]]; [|assumption|];
  apply dby_mono in X; lia.
Qed.

Lemma mlen_pos lp m : 28 <= mlen lp m <= 31.
Proof. unfold mlen. repeat match goal with |- context [if ?b then _ else _] => destruct b end; lia. Qed.
Lemma dbm_nat_mono lp i j : (i <= j)%nat -> dbm_nat lp i <= dbm_nat lp j.
Proof.
  induction 1 as [|j L IH]; [lia|]. cbn [dbm_nat]. pose proof (mlen_pos lp (Z.of_nat j)). lia.
Qed.
Lemma month_of_ok lp : forall k i j r, (i <= j <= i + k)%nat -> 0 <= r < mlen lp (Z.of_nat j) ->
  month_of k lp (Z.of_nat i) (dbm_nat lp j - dbm_nat lp i + r) = Z.of_nat j.
Proof.
  induction k as [|k IH]; intros i j r H Hr; cbn [month_of].
  - f_equal. lia.
  - destruct (Nat.eq_dec i j) as [->|N].
    + replace (_ <? _) with true; [reflexivity|]. symmetry. apply Z.ltb_lt. lia.
    + pose proof (dbm_nat_mono lp (S i) j ltac:(lia)) as M. cbn [dbm_nat] in M.
      replace (_ <? _) with false by (symmetry; apply Z.ltb_ge; lia).
      replace (Z.of_nat i + 1) with (Z.of_nat (S i)) by lia.
      replace (dbm_nat lp j - dbm_nat lp i + r - mlen lp (Z.of_nat i)) with (dbm_nat lp j - dbm_nat lp (S i) + r) by (cbn [dbm_nat]; lia).
      apply IH; [lia|assumption].
Qed.
Lemma dbm_12 (lp : bool) : dbm lp 12 = if lp then 366 else 365.
Proof. destruct lp; reflexivity. Qed.
Lemma month_split (lp : bool) n : 0 <= n < (if lp then 366 else 365) ->
  exists m d, 0 <= m <= 11 /\ 1 <= d <= mlen lp m /\ n = dbm lp m + (d - 1).
Proof.
  intros H. assert (forall k : nat, (k <= 12)%nat -> n < dbm_nat lp k -> exists m d, 0 <= m <= 11 /\ 1 <= d <= mlen lp m /\ n = dbm lp m + (d - 1)) as G.
  { induction k as [|k IH]; intros Hk Hn; [cbn in Hn; lia|]. cbn [dbm_nat] in Hn.
    destruct (Z_lt_ge_dec n (dbm_nat lp k)) as [L|L]; [apply IH; lia|].
    exists (Z.of_nat k), (n - dbm_nat lp k + 1). unfold dbm. rewrite Nat2Z.id. lia. }
  apply (G 12%nat); [lia|]. pose proof (dbm_12 lp) as E. unfold dbm in E. change (Z.to_nat 12) with 12%nat in E. rewrite E. lia.
Qed.
Lemma dbm_bound (lp : bool) m d : 0 <= m <= 11 -> 1 <= d <= mlen lp m -> 0 <= dbm lp m + (d - 1) < (if lp then 366 else 365).
Proof.
  intros Hm Hd. pose proof (dbm_nat_mono lp 0 (Z.to_nat m) ltac:(lia)). cbn [dbm_nat] in *.
  pose proof (dbm_nat_mono lp (S (Z.to_nat m)) 12 ltac:(lia)) as M.
  change (dbm_nat lp 12) with (dbm lp 12) in M. rewrite dbm_12 in M. cbn [dbm_nat] in M. rewrite Z2Nat.id in M by lia. unfold dbm. lia.
Qed.

(** A normal date. *)
Definition date_ok (y m d : Z) : Prop := 0 <= m <= 11 /\ 1 <= d <= mlen (leap y) m.

(** localtime recovers the date and time. *)
Lemma localtime_ok off y m d h mi s : date_ok y m d -> 0 <= h <= 23 -> 0 <= mi <= 59 -> 0 <= s <= 59 ->
  localtime off (86400 * day_number y m d + 3600 * h + 60 * mi + s - off)
  = mk_tm (y - 1900) m d h mi s ((day_number y m d + 4) mod 7) (dbm (leap y) m + (d - 1)).
Proof.
  intros [Hm Hd] Hh Hi Hs. unfold localtime.
  replace (86400 * day_number y m d + 3600 * h + 60 * mi + s - off + off) with (86400 * day_number y m d + (3600 * h + 60 * mi + s)) by lia.
  set (D := day_number y m d). set (t := 3600 * h + 60 * mi + s).
  assert ((86400 * D + t) / 86400 = D) as -> by (unfold t; lia).
  assert ((86400 * D + t) mod 86400 = t) as -> by (unfold t; lia).
  pose proof (dbm_bound (leap y) m d Hm Hd) as B.
  assert (year_of (D + dby 1970) = y) as ->.
  { apply year_of_unique. rewrite dby_step. unfold D, day_number. lia. }
  replace (D + dby 1970 - dby y) with (dbm (leap y) m + (d - 1)) by (unfold D, day_number; lia).
  assert (month_of 11 (leap y) 0 (dbm (leap y) m + (d - 1)) = m) as ->.
  { unfold dbm. change 0 with (Z.of_nat 0) at 1. replace (dbm_nat (leap y) (Z.to_nat m) + (d - 1)) with (dbm_nat (leap y) (Z.to_nat m) - dbm_nat (leap y) 0 + (d - 1)) by (cbn [dbm_nat]; lia).
    rewrite month_of_ok; rewrite ?Z2Nat.id by lia; lia. }
  f_equal; unfold t; lia.
Qed.

(** Every time has a date. *)
Lemma time_split off s : exists y m d h mi sc, date_ok y m d /\ 0 <= h <= 23 /\ 0 <= mi <= 59 /\ 0 <= sc <= 59 /\
  s = 86400 * day_number y m d + 3600 * h + 60 * mi + sc - off.
Proof.
  set (D := (s + off) / 86400). set (t := (s + off) mod 86400).
  pose proof (year_of_ok (D + dby 1970)) as Y. set (y := year_of (D + dby 1970)) in *. rewrite dby_step in Y.
  destruct (month_split (leap y) (D + dby 1970 - dby y)) as (m & d & Hm & Hd & E); [lia|].
  exists y, m, d, (t / 3600), (t mod 3600 / 60), (t mod 60). split; [split; assumption|].
  unfold day_number. assert (s + off = 86400 * D + t /\ 0 <= t < 86400) by (unfold D, t; lia). clearbody t D. lia.
Qed.

(** * VitaDateTime *)
Lemma i16_small z : -32768 <= z <= 32767 -> i16 z = z.
Proof.
  intros H. unfold i16, to_signed. change (2 ^ 16) with 65536. change (2 ^ (16 - 1)) with 32768.
  destruct (Z_lt_ge_dec z 0).
  - replace (z mod 65536) with (z + 65536) by lia. ltb.
  - rewrite Z.mod_small by lia. ltb.
Qed.

(** A valid datetime (any weekday/yearday fields). *)
Definition valid (v : vdt) : Prop :=
  1 <= year v <= 32767 /\ 1 <= month v <= 12 /\ 1 <= month_day v <= mlen (leap (year v)) (month v - 1) /\
  0 <= hour v <= 23 /\ 0 <= minute v <= 59 /\ 0 <= second v <= 59.
Definition same_time (a b : vdt) : Prop :=
  year a = year b /\ month a = month b /\ month_day a = month_day b /\
  hour a = hour b /\ minute a = minute b /\ second a = second b.
(** Days from 1970-01-01; Monday = 1 .. Sunday = 7 (1970-01-01 was a Thursday). *)
Definition epoch_day (v : vdt) : Z := day_number (year v) (month v - 1) (month_day v).
Definition true_week_day (v : vdt) : Z := (epoch_day v + 3) mod 7 + 1.
Definition true_year_day (v : vdt) : Z := epoch_day v - day_number (year v) 0 1 + 1.

Lemma to_secs_val off v : year v <> 0 -> 1 <= month v <= 12 ->
  to_secs off v = 86400 * epoch_day v + 3600 * hour v + 60 * minute v + second v - off.
Proof.
  intros Hy Hm. unfold to_secs, mktime, tm_secs, vdt_to_tm. cbn [fst tm_year tm_mon tm_mday tm_hour tm_min tm_sec].
  replace (year v =? 0) with false by lia. unfold min_year. replace ((month v - 1) / 12) with 0 by lia.
  replace ((month v - 1) mod 12) with (month v - 1) by lia. unfold epoch_day.
  replace (year v - 1900 + 1900 + 0) with (year v) by lia. reflexivity.
Qed.
Lemma from_secs_val off v : valid v ->
  from_secs off (to_secs off v) = mk_vdt (year v) (month v) (month_day v) (hour v) (minute v) (second v) (true_week_day v) (true_year_day v).
Proof.
  intros (Y & M & D & Hh & Hi & Hs). unfold from_secs. rewrite to_secs_val by lia. unfold epoch_day.
  rewrite localtime_ok by (try split; lia). unfold tm_to_vdt. cbn [tm_year tm_mon tm_mday tm_hour tm_min tm_sec tm_wday tm_yday].
  pose proof (dbm_bound (leap (year v)) (month v - 1) (month_day v) ltac:(lia) D) as B.
  pose proof (mlen_pos (leap (year v)) (month v - 1)).
  unfold min_year. rewrite !i16_small; try lia.
  - f_equal; try lia.
    + unfold true_week_day, epoch_day. set (x := day_number _ _ _). clearbody x. ltb.
    + unfold true_year_day, epoch_day, day_number. change (dbm (leap (year v)) 0) with 0. lia.
  - destruct (leap (year v)); lia.
  - set (x := day_number _ _ _). clearbody x. ltb.
Qed.
Lemma secs_roundtrip off v : valid v -> same_time (from_secs off (to_secs off v)) v /\
  week_day (from_secs off (to_secs off v)) = true_week_day v /\ year_day (from_secs off (to_secs off v)) = true_year_day v.
Proof. intros V. rewrite from_secs_val by assumption. cbn. repeat split. Qed.

(** Times of the years 1 to 32767. *)
Definition time_ok (off s : Z) : Prop := - 62135596800 <= s + off < 971890963200.
Lemma time_valid off s : time_ok off s -> valid (from_secs off s) /\ to_secs off (from_secs off s) = s.
Proof.
  intros H. destruct (time_split off s) as (y & m & d & h & mi & sc & [Hm Hd] & Hh & Hi & Hs & E).
  pose proof (localtime_ok off y m d h mi sc (conj Hm Hd) Hh Hi Hs) as LT. rewrite <- E in LT.
  unfold from_secs. rewrite LT.
  pose proof (dbm_bound (leap y) m d Hm Hd) as B. pose proof (mlen_pos (leap y) m).
  assert (1 <= y <= 32767) as Y.
  { unfold time_ok in H. assert (day_number y m d * 86400 <= s + off < (day_number y m d + 1) * 86400) as T by lia. unfold day_number in T.
    pose proof (dby_step y) as St. change (dby 1970) with 719162 in T.
    split.
    - destruct (Z_lt_ge_dec y 1) as [L|L]; [|lia]. apply dby_mono in L. change (dby 1) with 0 in L. lia.
    - destruct (Z_lt_ge_dec 32767 y) as [L|L]; [|lia]. apply dby_mono in L. change (dby (32767 + 1)) with 11967900 in L. lia. }
  set (v := tm_to_vdt _).
  assert (v = mk_vdt y (m + 1) d h mi sc (i16 (if (day_number y m d + 4) mod 7 =? 0 then 7 else (day_number y m d + 4) mod 7)) (i16 (dbm (leap y) m + (d - 1) + 1))) as V.
  { unfold v, tm_to_vdt, min_year. cbn [tm_year tm_mon tm_mday tm_hour tm_min tm_sec tm_wday tm_yday].
    rewrite (i16_small (y - 1900 + 1900)), (i16_small (m + 1)), (i16_small d), (i16_small h), (i16_small mi), (i16_small sc) by lia. f_equal. lia. }
  split.
  - rewrite V. unfold valid. cbn [year month month_day hour minute second]. replace (m + 1 - 1) with m by lia. lia.
  - rewrite to_secs_val; rewrite V; cbn [year month month_day hour minute second]; try lia. unfold epoch_day. cbn [year month month_day].
    replace (m + 1 - 1) with m by lia. lia.
Qed.

(** Chronological order. *)
Definition before (a b : vdt) : Prop :=
  year a < year b \/ (year a = year b /\
  (month a < month b \/ (month a = month b /\
  (month_day a < month_day b \/ (month_day a = month_day b /\
  (hour a < hour b \/ (hour a = hour b /\
  (minute a < minute b \/ (minute a = minute b /\ second a < second b))))))))).
Lemma day_before a b : valid a -> valid b ->
  year a < year b \/ (year a = year b /\ (month a < month b \/ (month a = month b /\ month_day a < month_day b))) ->
  epoch_day a < epoch_day b.
Proof.
  intros (Ya & Ma & Da & _) (Yb & Mb & Db & _) H. unfold epoch_day, day_number.
  pose proof (dbm_bound (leap (year a)) (month a - 1) (month_day a) ltac:(lia) Da) as Ba. pose proof (dbm_bound (leap (year b)) (month b - 1) (month_day b) ltac:(lia) Db) as Bb.
  destruct H as [H|[E [H|[E2 H]]]].
  - apply dby_mono in H. rewrite dby_step in H. lia.
  - rewrite E in *. pose proof (dbm_nat_mono (leap (year b)) (S (Z.to_nat (month a - 1))) (Z.to_nat (month b - 1)) ltac:(lia)) as M.
    cbn [dbm_nat] in M. rewrite Z2Nat.id in M by lia. unfold dbm. lia.
  - rewrite E, E2. lia.
Qed.
Lemma secs_mono off a b : valid a -> valid b -> before a b -> to_secs off a < to_secs off b.
Proof.
  intros Va Vb H. pose proof (day_before a b Va Vb) as D. pose proof Va as (Ya & Ma & Da & Ha & Ia & Sa). pose proof Vb as (Yb & Mb & Db & Hb & Ib & Sb).
  rewrite !to_secs_val by lia. unfold before in H.
  assert (epoch_day a < epoch_day b \/ (year a = year b /\ month a = month b /\ month_day a = month_day b /\
    (hour a < hour b \/ (hour a = hour b /\ (minute a < minute b \/ (minute a = minute b /\ second a < second b)))))) as [L|(E1 & E2 & E3 & L)].
  { destruct H as [H|[E [H|[E2 [H|[E3 H]]]]]]; [left; apply D; tauto|left; apply D; tauto|left; apply D; tauto|right; tauto]. }
  - lia.
  - unfold epoch_day. rewrite E1, E2, E3. lia.
Qed.
Lemma before_total a b : before a b \/ before b a \/ same_time a b.
Proof. unfold before, same_time. lia. Qed.
Lemma secs_order off a b : valid a -> valid b -> (to_secs off a < to_secs off b <-> before a b).
Proof.
  intros Va Vb. split; [|now apply secs_mono]. intros H. destruct (before_total a b) as [X|[X|X]]; [assumption| |].
  - apply (secs_mono off) in X; [lia|assumption|assumption].
  - exfalso. pose proof Va as (Ya & Ma & _). pose proof Vb as (Yb & Mb & _). rewrite !to_secs_val in H by lia.
    destruct X as (E1 & E2 & E3 & E4 & E5 & E6). unfold epoch_day in H. rewrite E1, E2, E3, E4, E5, E6 in H. lia.
Qed.

(** vt_datetime_op. *)
Lemma mktime_eq off t : mktime off t = (tm_secs off t, localtime off (tm_secs off t)).
Proof. reflexivity. Qed.
Lemma mktime_snd off t : snd (mktime off t) = localtime off (fst (mktime off t)).
Proof. rewrite mktime_eq. generalize (tm_secs off t). intros z. cbn [fst snd]. exact eq_refl. Qed.
Lemma op_ok off v d : year v <> 0 ->
  let months := 12 * (year v + year d) + (month v - 1) + month d in
  let s := 86400 * day_number (months / 12) (months mod 12) (month_day v + month_day d)
           + 3600 * (hour v + hour d) + 60 * (minute v + minute d) + (second v + second d) - off in
  time_ok off s -> valid (dt_op off v d) /\ to_secs off (dt_op off v d) = s.
Proof.
  intros Hy months s T. unfold dt_op. set (t := mk_tm _ _ _ _ _ _ _ _).
  assert (fst (mktime off t) = s) as E.
  { unfold mktime, tm_secs, t, vdt_to_tm. cbn [fst tm_year tm_mon tm_mday tm_hour tm_min tm_sec]. replace (year v =? 0) with false by lia.
    unfold s, months, min_year. replace ((12 * (year v + year d) + (month v - 1) + month d) / 12) with (year v - 1900 + year d + 1900 + (month v - 1 + month d) / 12) by lia.
    replace ((12 * (year v + year d) + (month v - 1) + month d) mod 12) with ((month v - 1 + month d) mod 12) by lia. reflexivity. }
  clearbody s. rewrite mktime_snd, E. now apply time_valid.
Qed.
Lemma op_days_time off v d : valid v -> year d = 0 -> month d = 0 ->
  let s := to_secs off v + 86400 * month_day d + 3600 * hour d + 60 * minute d + second d in
  time_ok off s -> valid (dt_op off v d) /\ to_secs off (dt_op off v d) = s.
Proof.
  intros (Y & M & _) E1 E2 s T. pose proof (op_ok off v d ltac:(lia)) as O. cbv zeta in O. rewrite E1, E2 in O.
  replace ((12 * (year v + 0) + (month v - 1) + 0) / 12) with (year v) in O by lia.
  replace ((12 * (year v + 0) + (month v - 1) + 0) mod 12) with (month v - 1) in O by lia.
  replace (86400 * day_number (year v) (month v - 1) (month_day v + month_day d) + 3600 * (hour v + hour d) + 60 * (minute v + minute d) + (second v + second d) - off) with s in O.
  - now apply O.
  - unfold s. rewrite to_secs_val by lia. unfold epoch_day, day_number. lia.
Qed.

(** Differences. *)
Lemma diffs_ok off a b :
  diff_minutes off a b = Z.quot (diff_secs off a b) 60 /\ diff_hours off a b = Z.quot (diff_secs off a b) 3600 /\
  diff_days off a b = Z.quot (diff_secs off a b) 86400.
Proof.
  unfold diff_days, diff_hours, diff_minutes. rewrite !Z.quot_quot by lia. repeat split.
Qed.

(** * Leap years and month lengths *)
Lemma leap_agree y : 0 <= y -> ~ (y mod 100 = 0 /\ y mod 400 <> 0) -> is_leap_year y = leap y.
Proof.
  intros H N. unfold is_leap_year, leap. replace (y <? 0) with false by lia. rewrite Z.rem_mod_nonneg by lia.
  destruct (Z.eqb_spec (y mod 4) 0), (Z.eqb_spec (y mod 100) 0), (Z.eqb_spec (y mod 400) 0); cbn [andb orb negb]; try reflexivity; lia.
Qed.
Lemma leap_wrong y : 0 <= y -> y mod 100 = 0 -> y mod 400 <> 0 -> is_leap_year y = true /\ leap y = false.
Proof.
  intros H N1 N2. unfold is_leap_year, leap. replace (y <? 0) with false by lia. rewrite Z.rem_mod_nonneg by lia.
  replace (y mod 100 =? 0) with true by lia. replace (y mod 400 =? 0) with false by lia.
  replace (y mod 4 =? 0) with true by lia. split; reflexivity.
Qed.
Lemma days_in_month_ok y m : 0 < y -> ~ (y mod 100 = 0 /\ y mod 400 <> 0) ->
  find_days_in_month y m = mlen (leap y) (Z.max 1 (Z.min 12 m) - 1) /\ find_days_in_year y = (if leap y then 366 else 365).
Proof.
  intros H N. unfold find_days_in_year. rewrite leap_agree by (try assumption; lia). split; [|reflexivity].
  unfold find_days_in_month. rewrite leap_agree by (try assumption; lia). replace (y <? 0) with false by lia. replace (0 <? y) with true by lia. cbn [andb].
  set (mo := if m <? 1 then 1 else if 12 <? m then 12 else m).
  assert (mo = Z.max 1 (Z.min 12 m)) as <- by (unfold mo; ltb). assert (1 <= mo <= 12) as B by (unfold mo; ltb). clearbody mo.
  unfold mlen.
  assert (mo = 1 \/ mo = 2 \/ mo = 3 \/ mo = 4 \/ mo = 5 \/ mo = 6 \/ mo = 7 \/ mo = 8 \/ mo = 9 \/ mo = 10 \/ mo = 11 \/ mo = 12) as X by lia.
  repeat (destruct X as [->|X]; [reflexivity|]). subst. reflexivity.
Qed.

(** * Week day and year day *)
Lemma find_week_day_eq off v : find_week_day off v = if to_secs off v <? 0 then -1 else week_day (from_secs off (to_secs off v)).
Proof.
  unfold find_week_day, to_secs. rewrite (mktime_eq off (vdt_to_tm v)). generalize (tm_secs off (vdt_to_tm v)). intros z. cbn [fst].
  unfold from_secs. generalize (localtime off z). intros t. exact eq_refl.
Qed.
Lemma find_year_day_eq off v : find_year_day off v = if to_secs off v <? 0 then -1 else year_day (from_secs off (to_secs off v)).
Proof.
  unfold find_year_day, to_secs. rewrite (mktime_eq off (vdt_to_tm v)). generalize (tm_secs off (vdt_to_tm v)). intros z. cbn [fst].
  unfold from_secs. generalize (localtime off z). intros t. exact eq_refl.
Qed.
Lemma find_days_ok off v : valid v -> 0 <= to_secs off v ->
  find_week_day off v = true_week_day v /\ find_year_day off v = true_year_day v.
Proof.
  intros V H. destruct (secs_roundtrip off v V) as (_ & W & Y). rewrite find_week_day_eq, find_year_day_eq, W, Y.
  clear W Y. revert H. generalize (to_secs off v). intros z Hz. replace (z <? 0) with false by (symmetry; apply Z.ltb_ge; exact Hz). split; reflexivity.
Qed.
Lemma find_days_early off v : to_secs off v < 0 -> find_week_day off v = -1 /\ find_year_day off v = -1.
Proof.
  unfold find_week_day, find_year_day, to_secs. destruct (mktime off (vdt_to_tm v)) as [ret t]. cbn [fst]. intros H.
  replace (ret <? 0) with true by lia. tauto.
Qed.
Lemma true_days_range v : valid v -> 1 <= true_week_day v <= 7 /\ 1 <= true_year_day v <= 366.
Proof.
  intros (Y & M & D & _). unfold true_week_day, true_year_day, epoch_day. set (x := day_number _ _ _) at 1.
  pose proof (dbm_bound (leap (year v)) (month v - 1) (month_day v) ltac:(lia) D) as B.
  split; [clearbody x; lia|]. unfold day_number. change (dbm (leap (year v)) 0) with 0. destruct (leap (year v)); lia.
Qed.

(** * Creation *)
Definition in16 (z : Z) : Prop := -32768 <= z <= 32767.
Definition clamp (lo hi z : Z) : Z := Z.max lo (Z.min hi z).
Definition fields_ok (v : vdt) : Prop :=
  0 <= year v <= 32767 /\ 1 <= month v <= 12 /\ 1 <= month_day v <= 31 /\ 0 <= hour v <= 23 /\ 0 <= minute v <= 59 /\ 0 <= second v <= 60.
Lemma localtime_range off s : let t := localtime off s in 0 <= tm_wday t <= 6 /\ 0 <= tm_yday t <= 365.
Proof.
  destruct (time_split off s) as (y & m & d & h & mi & sc & [Hm Hd] & Hh & Hi & Hs & E). cbv zeta. rewrite E.
  rewrite localtime_ok by (assumption || (split; assumption)). cbn [tm_wday tm_yday].
  pose proof (dbm_bound (leap y) m d Hm Hd). destruct (leap y); lia.
Qed.
Lemma find_days_range off v : 0 <= to_secs off v -> 1 <= find_week_day off v <= 7 /\ 1 <= find_year_day off v <= 366.
Proof.
  unfold find_week_day, find_year_day, to_secs. unfold mktime. cbn [fst]. intros H. pose proof (localtime_range off (tm_secs off (vdt_to_tm v))) as [W Y].
  cbv zeta in W, Y. replace (_ <? 0) with false by lia. split; [|rewrite i16_small; lia].
  destruct (Z.eqb_spec (tm_wday (localtime off (tm_secs off (vdt_to_tm v)))) 0); rewrite i16_small; lia.
Qed.
Lemma month_len_range y m : 28 <= find_days_in_month y m <= 31.
Proof. unfold find_days_in_month. set (mo := if m <? 1 then 1 else _). clearbody mo. cbv zeta. repeat match goal with |- context [if ?b then _ else _] => destruct b end; lia. Qed.

Lemma create_fields off y mo md h mi s wd yd : in16 y ->
  let v := dt_create off y mo md h mi s wd yd in
  fields_ok v /\
  (0 <= y -> year v = y) /\ (y < 0 -> year v = 1900) /\
  month v = clamp 1 12 mo /\ hour v = clamp 0 23 h /\ minute v = clamp 0 59 mi /\ second v = clamp 0 60 s /\
  (1 <= md <= 31 -> month_day v = md) /\ (md < 1 -> month_day v = 1) /\ (31 < md -> month_day v = find_days_in_month y mo) /\
  (1 <= wd <= 7 -> week_day v = wd) /\ (1 <= yd <= 366 -> year_day v = yd).
Proof.
  intros Hy v. unfold in16 in Hy.
  set (v0 := mk_vdt
    (if y <? 0 then min_year else y) (if mo <? 1 then 1 else if 12 <? mo then 12 else mo)
    (if md <? 1 then 1 else if 31 <? md then find_days_in_month y mo else md)
    (if h <? 0 then 0 else if 23 <? h then 23 else h) (if mi <? 0 then 0 else if 59 <? mi then 59 else mi)
    (if s <? 0 then 0 else if 60 <? s then 60 else s) (if (wd <? 1) || (7 <? wd) then -1 else wd) (if (yd <? 1) || (366 <? yd) then -1 else yd)).
  assert (same_time v v0) as S.
  { unfold v, dt_create. fold v0. destruct (week_day v0 <? 0); cbn [year_day]; destruct (year_day v0 <? 0); repeat split. }
  assert (1 <= wd <= 7 -> week_day v = wd) as W.
  { intros Hw. assert (week_day v0 = wd) as E by (unfold v0; cbn [week_day]; now replace (_ || _) with false by lia).
    unfold v, dt_create. fold v0. rewrite E. replace (wd <? 0) with false by lia. destruct (year_day v0 <? 0); [|assumption]. cbn [week_day]. assumption. }
  assert (1 <= yd <= 366 -> year_day v = yd) as D.
  { intros Hw. assert (year_day v0 = yd) as E by (unfold v0; cbn [year_day]; now replace (_ || _) with false by lia).
    unfold v, dt_create. fold v0. destruct (week_day v0 <? 0); cbn [year_day]; rewrite E; replace (yd <? 0) with false by lia; [reflexivity|assumption]. }
  destruct S as (S1 & S2 & S3 & S4 & S5 & S6). clearbody v. unfold fields_ok. rewrite S1, S2, S3, S4, S5, S6. clear S1 S2 S3 S4 S5 S6.
  pose proof (month_len_range y mo) as ML. unfold v0, clamp, min_year. cbn [year month month_day hour minute second].
  repeat split; try assumption; ltb.
Qed.
Lemma create_days off y mo md h mi s wd yd :
  let v := dt_create off y mo md h mi s wd yd in
  0 <= to_secs off v -> 1 <= week_day v <= 7 /\ 1 <= year_day v <= 366.
Proof.
  intros v. 
  set (v0 := mk_vdt
    (if y <? 0 then min_year else y) (if mo <? 1 then 1 else if 12 <? mo then 12 else mo)
    (if md <? 1 then 1 else if 31 <? md then find_days_in_month y mo else md)
    (if h <? 0 then 0 else if 23 <? h then 23 else h) (if mi <? 0 then 0 else if 59 <? mi then 59 else mi)
    (if s <? 0 then 0 else if 60 <? s then 60 else s) (if (wd <? 1) || (7 <? wd) then -1 else wd) (if (yd <? 1) || (366 <? yd) then -1 else yd)).
  assert (forall a b, same_time a b -> to_secs off a = to_secs off b) as TS.
  { intros a b (E1 & E2 & E3 & E4 & E5 & E6). unfold to_secs, mktime, tm_secs, vdt_to_tm. cbn [fst tm_year tm_mon tm_mday tm_hour tm_min tm_sec].
    now rewrite E1, E2, E3, E4, E5, E6. }
  assert (same_time v v0) as S.
  { unfold v, dt_create. fold v0. destruct (week_day v0 <? 0); cbn [year_day]; destruct (year_day v0 <? 0); repeat split. }
  intros H. rewrite (TS _ _ S) in H.
  assert (week_day v0 = -1 \/ 1 <= week_day v0 <= 7) as W by (unfold v0; cbn [week_day]; destruct (Z.ltb_spec wd 1), (Z.ltb_spec 7 wd); cbn [orb]; lia).
  assert (year_day v0 = -1 \/ 1 <= year_day v0 <= 366) as Y by (unfold v0; cbn [year_day]; destruct (Z.ltb_spec yd 1), (Z.ltb_spec 366 yd); cbn [orb]; lia).
  pose proof (find_days_range off v0 H) as [F1 F2].
  unfold v, dt_create. fold v0.
  destruct (Z.ltb_spec (week_day v0) 0) as [L|L]; cbn [year_day week_day].
  - destruct (Z.ltb_spec (year_day v0) 0) as [L2|L2]; cbn [year_day week_day]; [|lia]. split; [lia|].
    set (v1 := mk_vdt _ _ _ _ _ _ _ _). apply (find_days_range off v1). rewrite (TS v1 v0); [assumption|repeat split].
  - destruct (Z.ltb_spec (year_day v0) 0) as [L2|L2]; cbn [year_day week_day]; [|lia]. split; [lia|]. lia.
Qed.
