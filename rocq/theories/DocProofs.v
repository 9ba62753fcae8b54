(** Proofs about what the comments in the header files promise (str.h, datetime.h). *)
From Verif Require Import Base BaseFacts StrModel StrModel2 StrSpec StrProofs2 StrMain NumModel DtModel DtProofs.

(** * Numbers (str.h, vt_str_is_numeric) *)
Definition digit (c : Z) : bool := (48 <=? c) && (c <=? 57).
(** Digits with at most one dot among or beside them, at least one digit. *)
Definition plain_number (t : list Z) : Prop :=
  exists a b, forallb digit a = true /\ forallb digit b = true /\ (t = a \/ t = a ++ 46 :: b) /\ a ++ b <> [].
(** Also with a sign. *)
Definition number (t : list Z) : Prop := plain_number t \/ (exists t', (t = 43 :: t' \/ t = 45 :: t') /\ plain_number t').
Definition dots (t : list Z) : Z := zlen (filter (Z.eqb 46) t).
Definition numset (x : Z) : bool := existsb (Z.eqb x) [46; 48; 49; 50; 51; 52; 53; 54; 55; 56; 57].

Lemma numset_or x : numset x = digit x || (x =? 46).
Proof.
  unfold numset, digit. cbn [existsb]. destruct (x =? 46) eqn:E; [cbn; now rewrite orb_true_r|].
  rewrite orb_false_r. cbn [orb]. lia.
Qed.
Lemma digits_numset a : forallb digit a = true -> forallb numset a = true.
Proof. rewrite !forallb_forall. intros H x Hx. rewrite numset_or, (H x Hx). reflexivity. Qed.
Lemma plain_accepted t : plain_number t -> forallb numset t = true.
Proof.
  intros (a & b & A & B & [->| ->] & _); [now apply digits_numset|].
  rewrite forallb_app. cbn [forallb]. rewrite !digits_numset by assumption. reflexivity.
Qed.
Lemma split_dot t : forallb numset t = true -> exists a, forallb digit a = true /\
  (t = a \/ exists b, t = a ++ 46 :: b /\ forallb numset b = true).
Proof.
  induction t as [|c t IH]; [exists []; split; [reflexivity|now left]|]. cbn [forallb]. intros H. apply andb_true_iff in H as [C H].
  rewrite numset_or in C. destruct (digit c) eqn:D.
  - destruct (IH H) as (a & A & E). exists (c :: a). split; [cbn; now rewrite D|].
    destruct E as [->|(b & -> & B)]; [now left|right; exists b; now split].
  - cbn [orb] in C. apply Z.eqb_eq in C. subst. exists []. split; [reflexivity|]. right. exists t. now split.
Qed.
Lemma filter_digits a : forallb digit a = true -> filter (Z.eqb 46) a = [].
Proof.
  induction a as [|c a IH]; [reflexivity|]. cbn [forallb filter]. intros H. apply andb_true_iff in H as [C H].
  replace (46 =? c) with false by (unfold digit in C; lia). now apply IH.
Qed.
Lemma accepted_plain t : forallb numset t = true -> dots t <= 1 -> existsb digit t = true -> plain_number t.
Proof.
  intros H D E. destruct (split_dot t H) as (a & A & [->|(b & -> & B)]).
  - exists a, []. rewrite app_nil_r. repeat split; [assumption|now left|]. now destruct a.
  - destruct (split_dot b B) as (c & Cd & [->|(d & -> & _)]).
    + exists a, c. repeat split; [assumption|assumption|now right|].
      intros N. apply app_eq_nil in N as [-> ->]. cbn in E. discriminate.
    + unfold dots in D. rewrite filter_app in D. cbn [filter] in D. rewrite Z.eqb_refl, filter_app in D. cbn [filter] in D.
      rewrite Z.eqb_refl, (filter_digits a A), (filter_digits c Cd) in D. unfold zlen in D. cbn [app length] in D. lia.
Qed.

Lemma numeric_partial t cap s : srep t cap s ->
  (plain_number t -> str_is_numeric s = Ok true) /\
  (str_is_numeric s = Ok true -> dots t <= 1 -> existsb digit t = true -> plain_number t).
Proof.
  intros R. rewrite (numeric_ok t cap s R). change (forallb numch t) with (forallb numset t). split.
  - intros P. now rewrite plain_accepted.
  - intros E. injection E as E. now apply accepted_plain.
Qed.
Lemma numeric_signed t cap s : srep (45 :: t) cap s -> str_is_numeric s = Ok false.
Proof. intros R. now rewrite (numeric_ok _ cap s R). Qed.

(** * Control symbols (str.h, vt_str_strip) *)
Definition control (c : Z) : bool := ((0 <=? c) && (c <=? 31)) || (c =? 127).
Lemma drop_none f c m : f c = false -> drop_while f (c :: m) = c :: m.
Proof. intros H. cbn. now rewrite H. Qed.
Lemma strip_none f c m d : f c = false -> f d = false -> strip_text f (c :: m ++ [d]) = c :: m ++ [d].
Proof.
  intros C D. unfold strip_text. rewrite drop_none by assumption. replace (rev (c :: m ++ [d])) with (d :: rev m ++ [c]).
  - rewrite drop_none by assumption. cbn [rev]. rewrite rev_app_distr, rev_involutive. reflexivity.
  - cbn [rev]. rewrite rev_app_distr. reflexivity.
Qed.
Lemma strip_control c m s cap : control c = true -> ~ 9 <= c <= 13 -> srep (c :: m ++ [c]) cap s ->
  exists s', str_strip (lf s) s = Ok s' /\ srep (c :: m ++ [c]) cap s'.
Proof.
  intros C N R. assert (white c = false) as W by (unfold white, in_set, control in *; cbn [existsb]; lia).
  destruct (strip_all_ok _ cap s R) as [H _]. destruct H as (s' & E & R'); [cbn [forallb]; now rewrite W|].
  exists s'. split; [assumption|]. now rewrite (strip_none white c m c W W) in R'.
Qed.
Lemma drop_ext f g t : (forall x, In x t -> f x = g x) -> drop_while f t = drop_while g t.
Proof.
  induction t as [|c t IH]; [reflexivity|]. intros H. cbn. rewrite (H c (or_introl eq_refl)). destruct (g c); [|reflexivity].
  apply IH. intros x Hx. apply H. now right.
Qed.
Lemma drop_in f t x : In x (drop_while f t) -> In x t.
Proof. induction t as [|c t IH]; [easy|]. cbn. destruct (f c); [intros H; right; now apply IH|easy]. Qed.
Lemma strip_ext f g t : (forall x, In x t -> f x = g x) -> strip_text f t = strip_text g t.
Proof.
  intros H. unfold strip_text. rewrite (drop_ext f g t H). f_equal. apply drop_ext. intros x Hx. apply H.
  apply in_rev in Hx. now apply drop_in in Hx.
Qed.
Lemma forallb_ext f g (t : list Z) : (forall x, In x t -> f x = g x) -> forallb f t = forallb g t.
Proof. induction t as [|c t IH]; [reflexivity|]. intros H. cbn. rewrite (H c (or_introl eq_refl)), IH; [reflexivity|]. intros x Hx. apply H. now right. Qed.
Lemma strip_control_partial t cap s : srep t cap s -> (forall x, In x t -> control x = true -> 9 <= x <= 13) ->
  forallb (fun c => white c || control c) t = false ->
  exists s', str_strip (lf s) s = Ok s' /\ srep (strip_text (fun c => white c || control c) t) cap s'.
Proof.
  intros R C F. assert (forall x, In x t -> white x = white x || control x) as H.
  { intros x Hx. specialize (C x Hx). destruct (control x) eqn:E; [|now rewrite orb_false_r]. specialize (C eq_refl).
    rewrite orb_true_r. unfold white, in_set. cbn [existsb]. lia. }
  destruct (strip_all_ok t cap s R) as [K _]. destruct K as (s' & E & R').
  - now rewrite (forallb_ext white _ t H).
  - exists s'. split; [assumption|]. now rewrite <- (strip_ext white _ t H).
Qed.

(** * Years and dates (datetime.h) *)
Definition set_year (v : vdt) (y : Z) : vdt := mk_vdt y (month v) (month_day v) (hour v) (minute v) (second v) (week_day v) (year_day v).
Lemma year_zero off v : year v = 0 -> to_secs off v = to_secs off (set_year v 3800).
Proof.
  intros E. assert (vdt_to_tm v = vdt_to_tm (set_year v 3800)) as H.
  { unfold vdt_to_tm, set_year. cbn [year month month_day hour minute second week_day year_day]. rewrite E. reflexivity. }
  unfold to_secs. now rewrite H.
Qed.
Lemma year_negative off v : year v < 0 -> 1 <= month v <= 12 -> to_secs off v < to_secs off (set_year v 1900) - 86400 * 365 * 1899.
Proof.
  intros Y M. rewrite !to_secs_val by (cbn [set_year year month]; lia). unfold epoch_day, day_number. cbn [set_year year month month_day hour minute second].
  pose proof (dby_mono (year v) 0 Y) as L. rewrite dby_step in L. change (dby 0) with (-366) in L. change (dby 1900) with 693595.
  pose proof (mlen_pos (leap (year v)) (month v - 1)) as A1. pose proof (mlen_pos (leap 1900) (month v - 1)) as A2.
  pose proof (dbm_bound (leap (year v)) (month v - 1) 1 ltac:(lia) ltac:(lia)) as B1.
  pose proof (dbm_bound (leap 1900) (month v - 1) 1 ltac:(lia) ltac:(lia)) as B2.
  destruct (leap (year v)); change (leap 1900) with false in *; cbn iota in *; lia.
Qed.
Lemma year_1900 y : y < 0 -> is_leap_year y = is_leap_year 1900 /\ find_days_in_year y = find_days_in_year 1900.
Proof. intros H. unfold find_days_in_year, is_leap_year. replace (y <? 0) with true by lia. split; reflexivity. Qed.
Lemma february y : y < 0 -> find_days_in_month y 2 = 29.
Proof. intros H. unfold find_days_in_month, is_leap_year. replace (y <? 0) with true by lia. reflexivity. Qed.
Lemma february_zero : find_days_in_month 0 2 = 28.
Proof. reflexivity. Qed.
Lemma month_clamped y m : (m < 1 -> find_days_in_month y m = find_days_in_month y 1) /\ (12 < m -> find_days_in_month y m = find_days_in_month y 12).
Proof. unfold find_days_in_month. split; intros H; [replace (m <? 1) with true by lia|replace (m <? 1) with false by lia; replace (12 <? m) with true by lia]; reflexivity. Qed.

Lemma minus_one off v : (find_week_day off v = -1 <-> to_secs off v < 0) /\ (find_year_day off v = -1 <-> to_secs off v < 0).
Proof.
  destruct (Z_lt_ge_dec (to_secs off v) 0) as [L|G].
  - destruct (find_days_early off v L) as [-> ->]. tauto.
  - destruct (find_days_range off v ltac:(lia)) as [A B]. split; split; intros H; lia.
Qed.
Lemma days_normalised off v : 0 <= to_secs off v -> time_ok off (to_secs off v) ->
  let w := from_secs off (to_secs off v) in
  valid w /\ to_secs off w = to_secs off v /\ find_week_day off v = true_week_day w /\ find_year_day off v = true_year_day w.
Proof.
  intros H T. cbv zeta. destruct (time_valid off (to_secs off v) T) as [V E].
  pose proof (find_days_ok off (from_secs off (to_secs off v)) V) as K. rewrite E in K. specialize (K H). destruct K as [K1 K2].
  split; [exact V|]. split; [exact E|]. rewrite <- K1, <- K2.
  rewrite (find_week_day_eq off v), (find_week_day_eq off (from_secs off (to_secs off v))), (find_year_day_eq off v), (find_year_day_eq off (from_secs off (to_secs off v))).
  rewrite E. split; reflexivity.
Qed.
