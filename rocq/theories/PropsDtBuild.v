(** Properties of datetime.c in debug builds, and of the clock.  Statements only; each
    theorem is followed by a non-vacuity example. *)
From Verif Require Import Base BaseFacts StrModel StrModel2 StrSpec NumModel NumProofs DtModel DtProofs DtProofs2.
From Verif Require Import DtBuild DtBuildProofs.

(** C136 (false): in a debug build asking for the week day or the day of the year of a time
    before 1970 is undefined (a "%s" is printed without an argument); so is creating such a
    date without giving both. *)
Theorem C136_queries_refuted :
  exists v, valid v /\ find_week_day_b true 0 v = UB /\ find_year_day_b true 0 v = UB /\
    dt_create_b true 0 (year v) (month v) (month_day v) (hour v) (minute v) (second v) (-1) (-1) = UB.
Proof. exists (mk_vdt 1969 12 31 23 59 59 0 0). unfold valid. repeat split; vm_compute; congruence. Qed.
Print Assumptions C136_queries_refuted.
Theorem C136_queries_early_refuted :
  forall off v, to_secs off v < 0 -> find_year_day_b true off v = UB /\ find_week_day_b true off v = UB.
Proof. exact days_debug_early. Qed.
Print Assumptions C136_queries_early_refuted.
Theorem C136_create_early_refuted :
  forall off y mo md h mi s wd yd,
  to_secs off (dt_create off y mo md h mi s wd yd) < 0 -> ~ (1 <= wd <= 7 /\ 1 <= yd <= 366) ->
  dt_create_b true off y mo md h mi s wd yd = UB.
Proof. exact create_debug_early. Qed.
Print Assumptions C136_create_early_refuted.
(** Otherwise both builds are defined and give the results of C56 and C82. *)
Theorem C136_queries_partial :
  forall dbg off v, dbg = false \/ 0 <= to_secs off v ->
  find_year_day_b dbg off v = Ok (find_year_day off v) /\ find_week_day_b dbg off v = Ok (find_week_day off v).
Proof. intros [|] off v H; [apply days_debug; destruct H; [discriminate|assumption]|apply days_release]. Qed.
Print Assumptions C136_queries_partial.
Theorem C136_create_partial :
  forall dbg off y mo md h mi s wd yd,
  dbg = false \/ 0 <= to_secs off (dt_create off y mo md h mi s wd yd) \/ (1 <= wd <= 7 /\ 1 <= yd <= 366) ->
  dt_create_b dbg off y mo md h mi s wd yd = Ok (dt_create off y mo md h mi s wd yd).
Proof. intros [|] off y mo md h mi s wd yd H; [apply create_debug; destruct H; [discriminate|assumption]|apply create_release]. Qed.
Print Assumptions C136_create_partial.

Example C136_example :
  dt_create_b true 0 2024 2 29 5 7 9 (-1) (-1) = Ok (mk_vdt 2024 2 29 5 7 9 4 60) /\
  dt_create_b true 0 1969 12 31 5 7 9 3 365 = Ok (mk_vdt 1969 12 31 5 7 9 3 365) /\
  dt_create_b false 0 1969 12 31 5 7 9 3 (-1) = Ok (mk_vdt 1969 12 31 5 7 9 3 (-1)) /\
  dt_create_b true 0 1969 12 31 5 7 9 3 (-1) = UB.
Proof. repeat split; vm_compute; reflexivity. Qed.

(** C137: the clock.  [now_ok off now]: the local year has four digits. *)
Theorem C137_now : forall off now, now_ok off now -> valid (get_now off now) /\ to_secs off (get_now off now) = now.
Proof. intros off now H. split; [apply (year_range off now H)|apply (now_same off now H)]. Qed.
Print Assumptions C137_now.
Theorem C137_now_text :
  forall dbg off now buf len, now_ok off now -> 26 <= len -> len <= zlen buf ->
  exists b, get_now_as_text dbg off now buf len = Ok b /\ cstr b = Ok (doc_text Plain (get_now off now)) /\ zlen b = zlen buf /\
    exists v, from_text Plain b = Ok v /\ to_secs off v = now.
Proof. exact now_as_text. Qed.
Print Assumptions C137_now_text.
Theorem C137_now_pretty :
  forall dbg off now buf len, now_ok off now -> 26 <= len -> len <= zlen buf ->
  exists b, get_now_as_text_pretty dbg off now buf len = Ok b /\ cstr b = Ok (pretty (get_now off now)) /\ zlen b = zlen buf.
Proof. exact now_pretty. Qed.
Print Assumptions C137_now_pretty.
Theorem C137_short_buffer :
  forall off now buf len, len < 26 ->
  get_now_as_text true off now buf len = Abort /\ get_now_as_text_pretty true off now buf len = Abort.
Proof. exact now_short. Qed.
Print Assumptions C137_short_buffer.

Example C137_example :
  now_ok 3600 1709183229 /\ get_now 3600 1709183229 = mk_vdt 2024 2 29 6 7 9 4 60 /\
  (let* b := get_now_as_text true 3600 1709183229 (repeat None 30) 30 in cstr b)
  = Ok [50;48;50;52;45;48;50;45;50;57;32;48;54;58;48;55;58;48;57] /\
  (let* b := get_now_as_text_pretty true 3600 1709183229 (repeat None 30) 30 in cstr b)
  = Ok [84;104;117;32;70;101;98;32;50;57;32;48;54;58;48;55;58;48;57;32;50;48;50;52].
Proof. unfold now_ok. split; [lia|]. repeat split; vm_compute; reflexivity. Qed.
