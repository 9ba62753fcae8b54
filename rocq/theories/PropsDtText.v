(** Properties of the texts of dates of any year (C197).  [any_year]: DtText.v; [doc_text] (the documented text): DtProofs2.v; [numeral]: FmtSpec.v. *)
From Verif Require Import Base BaseFacts StrModel StrModel2 StrSpec NumModel NumProofs DtModel DtProofs DtProofs2 FmtSpec FmtProofs2 DtText.

(** ** C197 Texts of dates of any year *)
(** Full statement: the text names the year, and reading it gives the date back.  False: for year 0 (a VitaDateTime of zeros, or
    vt_datetime_create with year 0) the text says 3800; texts of years before 1000 or after 9999 end the program when read. *)
Theorem C197_text_refuted :
  (let* b := to_text true Plain (mk_vdt 0 1 2 3 4 5 1 1) (repeat None 26) 26 in cstr b) = Ok [51;56;48;48;45;48;49;45;48;50;32;48;51;58;48;52;58;48;53] /\
  year (dt_create 0 0 1 2 3 4 5 (-1) (-1)) = 0 /\
  (exists v, valid v /\ (let* b := to_text true Plain v (repeat None 26) 26 in from_text Plain b) = Abort).
Proof.
  split; [vm_compute; reflexivity|]. split; [vm_compute; reflexivity|].
  exists (mk_vdt 999 12 31 23 59 59 1 1). split; [unfold valid; cbn [year month month_day hour minute second]; change (mlen (leap 999) (12 - 1)) with 31; lia|vm_compute; reflexivity].
Qed.
Print Assumptions C197_text_refuted.
(** The text: the year in decimal, without leading zeros (3800 for 0), then the rest as documented; it always fits. *)
Theorem C197_text_partial :
  forall dbg f v buf len, any_year v -> 26 <= len -> len <= zlen buf ->
  exists b y, to_text dbg f v buf len = Ok b /\ zlen b = zlen buf /\ cstr b = Ok (y ++ skipn 4 (doc_text f v)) /\
    exists ds, numeral 10 false (Z.abs (if year v =? 0 then 3800 else year v)) ds /\ y = (if year v <? 0 then [45] else []) ++ ds.
Proof.
  intros dbg f v buf len T L B. destruct (told_to_text dbg f v buf len T L B) as (b & E & C & Zb & _). exists b, (fmt_int (year (told v))). split; [exact E|]. split; [exact Zb|]. split; [exact C|].
  destruct (fmt_int_year (year (told v))) as ((ds & N & X) & _); [unfold told; cbn [year]; destruct T; destruct (year v =? 0); lia|]. exists ds. split; [exact N|]. rewrite X. unfold told. cbn [year]. destruct (Z.eqb_spec (year v) 0) as [->|]; reflexivity.
Qed.
Print Assumptions C197_text_partial.
(** Reading the text: the date for years of four digits, the same day of 3800 for year 0; otherwise the program ends. *)
Theorem C197_back_partial :
  forall dbg f v buf len, any_year v -> 26 <= len -> len <= zlen buf ->
  exists b, to_text dbg f v buf len = Ok b /\
    (1000 <= year v <= 9999 -> exists v', from_text f b = Ok v' /\ same_time v' v) /\
    (year v = 0 -> exists v', from_text f b = Ok v' /\ year v' = 3800 /\ month v' = month v /\ month_day v' = month_day v /\ hour v' = hour v /\ minute v' = minute v /\ second v' = second v) /\
    (year v <> 0 -> ~ 1000 <= year v <= 9999 -> from_text f b = Abort).
Proof.
  intros dbg f v buf len T L B. destruct (told_to_text dbg f v buf len T L B) as (b & E & _ & _ & q & ->). eexists. split; [exact E|]. split; [|split].
  - intros H. rewrite told_read by auto. eexists. split; [reflexivity|]. unfold same_time, told. cbn [year month month_day hour minute second]. replace (year v =? 0) with false by lia. repeat split.
  - intros H. rewrite told_read by auto. eexists. split; [reflexivity|]. unfold told. cbn [year month month_day hour minute second]. rewrite H. repeat split.
  - intros N0 N. now apply told_refused.
Qed.
Print Assumptions C197_back_partial.
(** Arithmetic takes year 0 for 3800 as well: such a date names the same second as that of 3800. *)
Theorem C197_seconds :
  forall off v, year v = 0 -> to_secs off v = to_secs off (mk_vdt 3800 (month v) (month_day v) (hour v) (minute v) (second v) (week_day v) (year_day v)).
Proof. intros off v H. unfold to_secs, vdt_to_tm. cbn [year month month_day hour minute second week_day year_day]. rewrite H. reflexivity. Qed.
Print Assumptions C197_seconds.

Example C197_example :
  (let* b := to_text true Iso (mk_vdt 7 1 2 3 4 5 1 1) (repeat None 30) 30 in cstr b) = Ok [55;48;49;48;50;84;48;51;48;52;48;53] /\
  (let* b := to_text true Iso (mk_vdt 32767 1 2 3 4 5 1 1) (repeat None 30) 30 in from_text Iso b) = Abort /\
  (let* b := to_text true Iso (mk_vdt (-20) 1 2 3 4 5 1 1) (repeat None 30) 30 in from_text Iso b) = Abort /\
  (let* b := to_text true IsoExt (mk_vdt 0 12 31 3 4 60 1 1) (repeat None 30) 30 in from_text IsoExt b) = Ok (mk_vdt 3800 12 31 3 4 60 7 1).
Proof. repeat (split; [vm_compute; reflexivity|]). vm_compute. reflexivity. Qed.
