(** Proofs about DstModel.v. *)
From Verif Require Import Base BaseFacts NumModel DtModel DtProofs DstModel.

(** What a clock on the wall shows at the time [s]. *)
Definition wall (z : zone) (s : Z) : vdt := from_secs (z_off z s) s.
Definition saved (z : zone) (s : Z) : Z := if z_dst z s then z_save z else 0.
Definition zero_delta : vdt := mk_vdt 0 0 0 0 0 0 0 0.

Lemma localtime_shift off k s : localtime (off + k) s = localtime off (s + k).
Proof. unfold localtime. replace (s + (off + k)) with (s + k + off) by lia. reflexivity. Qed.
Lemma wall_std z s : wall z s = from_secs (z_std z) (s + saved z s).
Proof. unfold wall, from_secs, z_off. fold (saved z s). now rewrite localtime_shift. Qed.
Lemma from_secs_wall z s : from_secs_z z s = wall z s.
Proof. reflexivity. Qed.
Lemma now_wall z s : get_now_z z s = wall z s.
Proof. reflexivity. Qed.
Lemma to_secs_std z v : to_secs_z z v = to_secs (z_std z) v.
Proof. unfold to_secs_z, mktime_z, to_secs, mktime. generalize (tm_secs (z_std z) (vdt_to_tm v)). intros s. cbv zeta. cbn [fst]. reflexivity. Qed.
Lemma wall_off z s : time_ok (z_off z s) s -> time_ok (z_std z) (s + saved z s).
Proof. unfold time_ok, z_off. fold (saved z s). lia. Qed.

Lemma secs_of_wall z s : time_ok (z_off z s) s -> valid (wall z s) /\ to_secs_z z (wall z s) = s + saved z s.
Proof. intros H. rewrite to_secs_std, wall_std. apply time_valid. now apply wall_off. Qed.

Lemma secs_winter z s : time_ok (z_off z s) s -> z_dst z s = false -> to_secs_z z (from_secs_z z s) = s.
Proof. intros H D. rewrite from_secs_wall. destruct (secs_of_wall z s H) as [_ ->]. unfold saved. rewrite D. lia. Qed.
Lemma secs_summer z s : time_ok (z_off z s) s -> z_dst z s = true -> to_secs_z z (from_secs_z z s) = s + z_save z.
Proof. intros H D. rewrite from_secs_wall. destruct (secs_of_wall z s H) as [_ ->]. unfold saved. rewrite D. lia. Qed.

Lemma date_winter z v : valid v -> z_dst z (to_secs_z z v) = false ->
  same_time (from_secs_z z (to_secs_z z v)) v.
Proof.
  intros V D. rewrite from_secs_wall, wall_std. unfold saved. rewrite D, Z.add_0_r, to_secs_std. now apply secs_roundtrip.
Qed.

(** Days, hours, minutes and seconds added. *)
Definition moved (z : zone) (v d : vdt) : Z := to_secs_z z v + 86400 * month_day d + 3600 * hour d + 60 * minute d + second d.
Lemma op_secs z v d : year v <> 0 -> 1 <= month v <= 12 -> year d = 0 -> month d = 0 -> dt_op_z z v d = wall z (moved z v d).
Proof.
  intros Y M E1 E2. unfold dt_op_z, wall, from_secs, mktime_z, localtime_z. set (t := mk_tm _ _ _ _ _ _ _ _).
  assert (tm_secs (z_std z) t = moved z v d) as E.
  { unfold moved. rewrite to_secs_std, to_secs_val by lia.
    unfold tm_secs, t, vdt_to_tm. cbn [tm_year tm_mon tm_mday tm_hour tm_min tm_sec].
    replace (year v =? 0) with false by lia. unfold min_year. rewrite E1, E2.
    replace ((month v - 1 + 0) / 12) with 0 by lia. replace ((month v - 1 + 0) mod 12) with (month v - 1) by lia.
    replace (year v - 1900 + 0 + 1900 + 0) with (year v) by lia. unfold epoch_day, day_number. lia. }
  clearbody t. cbn [snd]. cbv zeta. now rewrite E.
Qed.
Lemma wall_nonzero z s : time_ok (z_off z s) s -> year (wall z s) <> 0 /\ 1 <= month (wall z s) <= 12.
Proof. intros H. destruct (secs_of_wall z s H) as [(Y & M & _) _]. lia. Qed.

Lemma op_zero_summer z s : time_ok (z_off z s) s -> z_dst z s = true ->
  dt_op_z z (wall z s) zero_delta = wall z (s + z_save z).
Proof.
  intros H D. destruct (wall_nonzero z s H) as [Y M]. rewrite op_secs by (assumption || reflexivity).
  unfold moved. destruct (secs_of_wall z s H) as [_ ->]. unfold saved. rewrite D. cbn [zero_delta month_day hour minute second].
  f_equal. lia.
Qed.
Lemma op_winter z s d : time_ok (z_off z s) s -> z_dst z s = false -> year d = 0 -> month d = 0 ->
  dt_op_z z (wall z s) d = wall z (s + 86400 * month_day d + 3600 * hour d + 60 * minute d + second d).
Proof.
  intros H D Y M. destruct (wall_nonzero z s H) as [Y' M']. rewrite op_secs by assumption.
  unfold moved. destruct (secs_of_wall z s H) as [_ ->]. unfold saved. rewrite D. f_equal. lia.
Qed.
Lemma op_any z v d : valid v -> year d = 0 -> month d = 0 ->
  dt_op_z z v d = wall z (to_secs_z z v + 86400 * month_day d + 3600 * hour d + 60 * minute d + second d).
Proof. intros (Y & M & _) E1 E2. rewrite op_secs by (assumption || lia). unfold moved. reflexivity. Qed.

Lemma diff_walls z a b : time_ok (z_off z a) a -> time_ok (z_off z b) b ->
  diff_secs_z z (wall z a) (wall z b) = a - b + (saved z a - saved z b).
Proof.
  intros Ha Hb. unfold diff_secs_z. destruct (secs_of_wall z a Ha) as [_ ->]. destruct (secs_of_wall z b Hb) as [_ ->]. lia.
Qed.
Lemma diff_same z a b : time_ok (z_off z a) a -> time_ok (z_off z b) b -> z_dst z a = z_dst z b ->
  diff_secs_z z (from_secs_z z a) (from_secs_z z b) = a - b.
Proof. intros Ha Hb E. rewrite !from_secs_wall, diff_walls by assumption. unfold saved. rewrite E. lia. Qed.
Lemma diff_other z a b : time_ok (z_off z a) a -> time_ok (z_off z b) b -> z_dst z a = true -> z_dst z b = false ->
  diff_secs_z z (from_secs_z z a) (from_secs_z z b) = a - b + z_save z.
Proof. intros Ha Hb Ea Eb. rewrite !from_secs_wall, diff_walls by assumption. unfold saved. rewrite Ea, Eb. lia. Qed.

(** * Week day and day of the year *)
Lemma same_day off s s' : (s + off) / 86400 = (s' + off) / 86400 ->
  week_day (from_secs off s) = week_day (from_secs off s') /\ year_day (from_secs off s) = year_day (from_secs off s').
Proof.
  intros E. unfold from_secs, tm_to_vdt, localtime. cbn [week_day year_day tm_wday tm_yday]. rewrite E. split; reflexivity.
Qed.
Lemma week_day_of off s : week_day (from_secs off s) = ((s + off) / 86400 + 3) mod 7 + 1.
Proof.
  unfold from_secs, tm_to_vdt, localtime. cbn [week_day tm_wday]. set (d := (s + off) / 86400). clearbody d.
  destruct (Z.eqb_spec ((d + 4) mod 7) 0); rewrite i16_small; lia.
Qed.
Lemma days_z z v : 0 <= to_secs_z z v ->
  find_week_day_z z v = week_day (wall z (to_secs_z z v)) /\ find_year_day_z z v = year_day (wall z (to_secs_z z v)).
Proof.
  unfold find_week_day_z, find_year_day_z, to_secs_z, mktime_z. cbn [fst]. generalize (tm_secs (z_std z) (vdt_to_tm v)). intros s H.
  replace (s <? 0) with false by lia. unfold wall, from_secs, localtime_z. split; reflexivity.
Qed.
Definition day_second (v : vdt) : Z := 3600 * hour v + 60 * minute v + second v.
Lemma days_kept z v : valid v -> 0 <= to_secs_z z v ->
  z_dst z (to_secs_z z v) = false \/ 0 <= day_second v + z_save z < 86400 ->
  find_week_day_z z v = true_week_day v /\ find_year_day_z z v = true_year_day v.
Proof.
  intros V H C. destruct (days_z z v H) as [-> ->]. rewrite wall_std.
  destruct (secs_roundtrip (z_std z) v V) as (_ & W & Y). rewrite <- W, <- Y.
  destruct V as (Vy & Vm & Vd & Vh & Vi & Vs).
  assert (to_secs_z z v + z_std z = 86400 * epoch_day v + day_second v) as E.
  { rewrite to_secs_std, to_secs_val by lia. unfold day_second. lia. }
  assert (0 <= day_second v < 86400) by (unfold day_second; lia).
  rewrite <- (to_secs_std z v). apply same_day.
  replace (to_secs_z z v + saved z (to_secs_z z v) + z_std z) with (86400 * epoch_day v + (day_second v + saved z (to_secs_z z v))) by lia.
  rewrite E. assert (0 <= day_second v + saved z (to_secs_z z v) < 86400) by (unfold saved; destruct C as [->|C]; [lia|destruct (z_dst z _); lia]).
  set (x := epoch_day v) in *. clearbody x. set (k := saved z _) in *. clearbody k. lia.
Qed.
Lemma week_day_late z v : valid v -> 0 <= to_secs_z z v -> z_dst z (to_secs_z z v) = true ->
  86400 <= day_second v + z_save z < 172800 -> find_week_day_z z v = true_week_day v mod 7 + 1.
Proof.
  intros V H D C. destruct (days_z z v H) as [-> _]. rewrite wall_std, week_day_of. unfold saved. rewrite D.
  destruct V as (Vy & Vm & Vd & Vh & Vi & Vs).
  assert (to_secs_z z v + z_std z = 86400 * epoch_day v + day_second v) as E.
  { rewrite to_secs_std, to_secs_val by lia. unfold day_second. lia. }
  replace (to_secs_z z v + z_save z + z_std z) with (86400 * epoch_day v + (day_second v + z_save z)) by lia.
  unfold true_week_day. set (x := epoch_day v). set (k := day_second v + z_save z) in *. clearbody x k. lia.
Qed.
Lemma other_date off w v k : valid w -> valid v -> to_secs off w = to_secs off v + k -> k <> 0 -> ~ same_time w v.
Proof.
  intros (Y' & M' & _) (Y & M & _) E N (S1 & S2 & S3 & S4 & S5 & S6).
  rewrite !to_secs_val in E by lia. unfold epoch_day in E. rewrite S1, S2, S3, S4, S5, S6 in E. lia.
Qed.
Lemma date_summer z v : valid v -> z_dst z (to_secs_z z v) = true -> z_save z <> 0 ->
  time_ok (z_off z (to_secs_z z v)) (to_secs_z z v) -> ~ same_time (from_secs_z z (to_secs_z z v)) v.
Proof.
  intros V D N T. destruct (secs_of_wall z (to_secs_z z v) T) as [V' E]. rewrite from_secs_wall.
  unfold saved in E. rewrite D in E. rewrite (to_secs_std z v) in E at 2. rewrite (to_secs_std z (wall z _)) in E.
  exact (other_date (z_std z) _ v (z_save z) V' V E N).
Qed.
