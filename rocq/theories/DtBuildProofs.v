(** Proofs about DtBuild.v. *)
From Verif Require Import Base BaseFacts StrModel StrModel2 StrSpec StrProofs StrProofs2 NumModel NumProofs DtModel DtProofs DtProofs2.
From Verif Require Import DtBuild.

Lemma days_release off v : find_year_day_b false off v = Ok (find_year_day off v) /\ find_week_day_b false off v = Ok (find_week_day off v).
Proof.
  unfold find_year_day_b, find_week_day_b, find_year_day, find_week_day. destruct (mktime off (vdt_to_tm v)) as [ret t].
  destruct (ret <? 0); split; reflexivity.
Qed.
Lemma days_debug off v : 0 <= to_secs off v ->
  find_year_day_b true off v = Ok (find_year_day off v) /\ find_week_day_b true off v = Ok (find_week_day off v).
Proof.
  unfold to_secs. intros H.
  unfold find_year_day_b, find_week_day_b, find_year_day, find_week_day. destruct (mktime off (vdt_to_tm v)) as [ret t]. cbn [fst] in H.
  destruct (Z.ltb_spec ret 0); [lia|split; reflexivity].
Qed.
Lemma days_debug_early off v : to_secs off v < 0 -> find_year_day_b true off v = UB /\ find_week_day_b true off v = UB.
Proof.
  unfold to_secs. intros H.
  unfold find_year_day_b, find_week_day_b. destruct (mktime off (vdt_to_tm v)) as [ret t]. cbn [fst] in H.
  destruct (Z.ltb_spec ret 0); [split; reflexivity|lia].
Qed.

(** The days do not enter the time. *)
Lemma to_secs_days off y mo md h mi s w d w' d' : to_secs off (mk_vdt y mo md h mi s w d) = to_secs off (mk_vdt y mo md h mi s w' d').
Proof.
  unfold to_secs. rewrite !mktime_eq. cbn [fst]. unfold tm_secs, vdt_to_tm.
  cbn [tm_year tm_mon tm_mday tm_hour tm_min tm_sec year month month_day hour minute second]. reflexivity.
Qed.
Lemma to_secs_set off v w d : to_secs off (mk_vdt (year v) (month v) (month_day v) (hour v) (minute v) (second v) w d) = to_secs off v.
Proof. destruct v. apply to_secs_days. Qed.

Lemma create_release off y mo md h mi s wd yd : dt_create_b false off y mo md h mi s wd yd = Ok (dt_create off y mo md h mi s wd yd).
Proof.
  unfold dt_create_b, dt_create.
  match goal with |- context [mk_vdt ?a ?b ?c ?d ?e ?f ?g ?i] => set (v := mk_vdt a b c d e f g i) end.
  cbv zeta. destruct (week_day v <? 0).
  - rewrite (proj2 (days_release off v)). cbn [bind]. destruct (year_day _ <? 0); [|reflexivity].
    rewrite (proj1 (days_release off _)). reflexivity.
  - cbn [bind]. destruct (year_day v <? 0); [|reflexivity]. rewrite (proj1 (days_release off _)). reflexivity.
Qed.
Lemma create_debug off y mo md h mi s wd yd :
  0 <= to_secs off (dt_create off y mo md h mi s wd yd) \/ (1 <= wd <= 7 /\ 1 <= yd <= 366) ->
  dt_create_b true off y mo md h mi s wd yd = Ok (dt_create off y mo md h mi s wd yd).
Proof.
  unfold dt_create_b, dt_create.
  set (W := if (wd <? 1) || (7 <? wd) then -1 else wd). set (D := if (yd <? 1) || (366 <? yd) then -1 else yd).
  match goal with |- context [mk_vdt ?a ?b ?c ?d ?e ?f W D] => set (v := mk_vdt a b c d e f W D) end.
  cbv zeta. intros [H|[Hw Hd]].
  - assert (T : 0 <= to_secs off v).
    { match type of H with _ <= to_secs off ?x => assert (E : to_secs off x = to_secs off v) end.
      { destruct (week_day v <? 0); (destruct (year_day _ <? 0)); rewrite ?to_secs_set; exact eq_refl. }
      rewrite <- E. exact H. }
    destruct (week_day v <? 0).
    + rewrite (proj2 (days_debug off v T)). cbn [bind].
      destruct (year_day _ <? 0); [|reflexivity].
      match goal with |- context [find_year_day_b true off ?u] => assert (TU : 0 <= to_secs off u) by (rewrite to_secs_set; exact T) end.
      rewrite (proj1 (days_debug off _ TU)). reflexivity.
    + cbn [bind]. destruct (year_day v <? 0); [|reflexivity]. rewrite (proj1 (days_debug off _ T)). reflexivity.
  - assert (EW : week_day v <? 0 = false).
    { unfold v, W. cbn [week_day]. destruct (Z.ltb_spec wd 1); [lia|]. destruct (Z.ltb_spec 7 wd); [lia|]. cbn [orb]. apply Z.ltb_ge. lia. }
    assert (ED : year_day v <? 0 = false).
    { unfold v, D. cbn [year_day]. destruct (Z.ltb_spec yd 1); [lia|]. destruct (Z.ltb_spec 366 yd); [lia|]. cbn [orb]. apply Z.ltb_ge. lia. }
    rewrite EW. cbn [bind]. rewrite ED. reflexivity.
Qed.
Lemma create_debug_early off y mo md h mi s wd yd :
  to_secs off (dt_create off y mo md h mi s wd yd) < 0 -> ~ (1 <= wd <= 7 /\ 1 <= yd <= 366) ->
  dt_create_b true off y mo md h mi s wd yd = UB.
Proof.
  unfold dt_create_b, dt_create.
  set (W := if (wd <? 1) || (7 <? wd) then -1 else wd). set (D := if (yd <? 1) || (366 <? yd) then -1 else yd).
  match goal with |- context [mk_vdt ?a ?b ?c ?d ?e ?f W D] => set (v := mk_vdt a b c d e f W D) end.
  cbv zeta. intros H N.
  assert (T : to_secs off v < 0).
  { match type of H with to_secs off ?x < _ => assert (E : to_secs off x = to_secs off v) end.
    { destruct (week_day v <? 0); (destruct (year_day _ <? 0)); rewrite ?to_secs_set; exact eq_refl. }
    rewrite <- E. exact H. }
  destruct (week_day v <? 0) eqn:EW; [rewrite (proj2 (days_debug_early off v T)); reflexivity|].
  cbn [bind]. destruct (year_day v <? 0) eqn:ED; [rewrite (proj1 (days_debug_early off v T)); reflexivity|].
  exfalso. apply N. unfold v, W, D in EW, ED. cbn [week_day year_day] in EW, ED.
  destruct (Z.ltb_spec wd 1); [discriminate|]. destruct (Z.ltb_spec 7 wd); [discriminate|].
  destruct (Z.ltb_spec yd 1); [discriminate|]. destruct (Z.ltb_spec 366 yd); [discriminate|]. lia.
Qed.

(** * The clock *)
Definition now_ok (off now : Z) : Prop := - 30610224000 <= now + off < 253402300800.
Lemma year_range off now : now_ok off now -> valid (get_now off now) /\ 1000 <= year (get_now off now) <= 9999.
Proof.
  unfold now_ok. intros H.
  assert (T : time_ok off now) by (unfold time_ok; lia).
  destruct (time_valid off now T) as [V E]. change (from_secs off now) with (get_now off now) in *. split; [exact V|].
  set (v := get_now off now) in *.
  assert (Vlo : valid (mk_vdt 1000 1 1 0 0 0 0 0)) by (unfold valid; repeat split; vm_compute; congruence).
  assert (Vhi : valid (mk_vdt 9999 12 31 23 59 59 0 0)) by (unfold valid; repeat split; vm_compute; congruence).
  assert (Slo : to_secs off (mk_vdt 1000 1 1 0 0 0 0 0) = - 30610224000 - off) by (rewrite to_secs_val by (cbn [year month]; lia); cbn [hour minute second]; match goal with |- context [epoch_day ?x] => let k := eval vm_compute in (epoch_day x) in change (epoch_day x) with k end; lia).
  assert (Shi : to_secs off (mk_vdt 9999 12 31 23 59 59 0 0) = 253402300799 - off) by (rewrite to_secs_val by (cbn [year month]; lia); cbn [hour minute second]; match goal with |- context [epoch_day ?x] => let k := eval vm_compute in (epoch_day x) in change (epoch_day x) with k end; lia).
  split.
  - destruct (Z.le_gt_cases 1000 (year v)) as [L|L]; [exact L|].
    assert (B : before v (mk_vdt 1000 1 1 0 0 0 0 0)) by (left; exact L).
    apply (secs_mono off v _ V Vlo) in B. lia.
  - destruct (Z.le_gt_cases (year v) 9999) as [L|L]; [exact L|].
    assert (B : before (mk_vdt 9999 12 31 23 59 59 0 0) v) by (left; change (9999 < year v); exact L).
    apply (secs_mono off _ v Vhi V) in B. rewrite Shi, E in B. lia.
Qed.

Lemma now_text off now : time_ok off now -> strftime_text Plain (localtime off now) = strftime_text Plain (vdt_to_tm (get_now off now)).
Proof.
  intros H. destruct (time_valid off now H) as [V _]. change (from_secs off now) with (get_now off now) in V. revert V. unfold get_now.
  destruct (time_split off now) as (y & m & d & h & mi & sc & [Hm Hd] & Hh & Hi & Hs & E).
  pose proof (localtime_ok off y m d h mi sc (conj Hm Hd) Hh Hi Hs) as LT. rewrite <- E in LT. rewrite LT.
  pose proof (mlen_pos (leap y) m).
  unfold strftime_text, vdt_to_tm, tm_to_vdt, valid, min_year.
  cbn [tm_year tm_mon tm_mday tm_hour tm_min tm_sec year month month_day hour minute second].
  intros (Y & _). rewrite (i16_small (m + 1)), (i16_small d), (i16_small h), (i16_small mi), (i16_small sc) by lia.
  replace (m + 1 - 1) with m by lia.
  assert (EY : i16 (y - 1900 + 1900) = y).
  { assert (TY : 1 <= y <= 32767).
    { pose proof (dbm_bound (leap y) m d Hm Hd) as B.
      unfold time_ok in H. assert (day_number y m d * 86400 <= now + off < (day_number y m d + 1) * 86400) as T by lia. unfold day_number in T.
      pose proof (dby_step y) as St. change (dby 1970) with 719162 in T.
      split.
      - destruct (Z_lt_ge_dec y 1) as [L|L]; [|lia]. apply dby_mono in L. change (dby 1) with 0 in L. lia.
      - destruct (Z_lt_ge_dec 32767 y) as [L|L]; [|lia]. apply dby_mono in L. change (dby (32767 + 1)) with 11967900 in L. lia. }
    rewrite i16_small by lia. lia. }
  rewrite EY. destruct (Z.eqb_spec y 0); [lia|]. reflexivity.
Qed.
Lemma text_ok_valid v : valid v -> 1000 <= year v <= 9999 -> text_ok v.
Proof. intros (Y & M & D & Hh & Hi & Hs) Y'. pose proof (mlen_pos (leap (year v)) (month v - 1)). unfold text_ok. lia. Qed.

Lemma now_same off now : now_ok off now -> text_ok (get_now off now) /\ to_secs off (get_now off now) = now.
Proof.
  intros H. destruct (year_range off now H) as [V Y]. split; [exact (text_ok_valid _ V Y)|].
  apply time_valid. unfold now_ok in H. unfold time_ok. lia.
Qed.

Lemma now_as_text dbg off now buf len : now_ok off now -> 26 <= len -> len <= zlen buf ->
  exists b, get_now_as_text dbg off now buf len = Ok b /\ cstr b = Ok (doc_text Plain (get_now off now)) /\ zlen b = zlen buf /\
    exists v, from_text Plain b = Ok v /\ to_secs off v = now.
Proof.
  intros H L B. destruct (now_same off now H) as [T S].
  destruct (text_roundtrip dbg Plain (get_now off now) buf len T L B) as (b & E & C & Z & v & F & SV).
  exists b. split; [|split; [exact C|split; [exact Z|]]].
  - unfold get_now_as_text. rewrite now_text by (unfold now_ok in H; unfold time_ok; lia). exact E.
  - exists v. split; [exact F|]. rewrite <- S.
    destruct SV as (E1 & E2 & E3 & E4 & E5 & E6). destruct T as (Y & M & _).
    rewrite !to_secs_val by lia. unfold epoch_day. rewrite E1, E2, E3, E4, E5, E6. reflexivity.
Qed.

Lemma now_week_day off now : time_ok off now -> 1 <= week_day (get_now off now) <= 7.
Proof.
  intros H. destruct (time_valid off now H) as [V E]. change (from_secs off now) with (get_now off now) in *.
  destruct (secs_roundtrip off _ V) as (_ & W & _). rewrite E in W. change (from_secs off now) with (get_now off now) in W.
  rewrite W. apply true_days_range. exact V.
Qed.
Lemma now_pretty dbg off now buf len : now_ok off now -> 26 <= len -> len <= zlen buf ->
  exists b, get_now_as_text_pretty dbg off now buf len = Ok b /\ cstr b = Ok (pretty (get_now off now)) /\ zlen b = zlen buf.
Proof.
  intros H L B. destruct (now_same off now H) as [T S].
  unfold get_now_as_text_pretty, buffer_size. rewrite dassert_true by lia. cbn [bind].
  apply pretty_ok; [exact T| |exact L|exact B]. apply (now_week_day off now). unfold now_ok in H. unfold time_ok. lia.
Qed.
Lemma now_short off now buf len : len < 26 ->
  get_now_as_text true off now buf len = Abort /\ get_now_as_text_pretty true off now buf len = Abort.
Proof. intros H. unfold get_now_as_text, get_now_as_text_pretty, buffer_size, dassert. destruct (Z.leb_spec 26 len); [lia|]. split; reflexivity. Qed.
