(** Proofs about the texts of dates of any year. *)
From Verif Require Import Base BaseFacts StrModel StrModel2 StrSpec StrProofs StrProofs2 NumModel NumProofs DtModel DtProofs DtProofs2 FmtModel FmtProofs FmtSpec FmtProofs2.

(** A date whose other fields have their documented ranges; the year is any int16. *)
Definition any_year (v : vdt) : Prop :=
  - 32768 <= year v <= 32767 /\ 1 <= month v <= 12 /\ 1 <= month_day v <= 31 /\ 0 <= hour v <= 23 /\ 0 <= minute v <= 59 /\ 0 <= second v <= 60.
(** The year [y] in decimal, then what the format says behind the four digits of the year. *)
Definition year_text (y : Z) (t : list Z) : Prop := exists ds, numeral 10 false (Z.abs y) ds /\ t = (if y <? 0 then [45] else []) ++ ds.
(** The year vt_datetime_vdt_to_tm takes (datetime.c:328): 3800 for 0. *)
Definition told (v : vdt) : vdt := mk_vdt (if year v =? 0 then 3800 else year v) (month v) (month_day v) (hour v) (minute v) (second v) (week_day v) (year_day v).
Definition told_text (f : dfmt) (v : vdt) : list Z := fmt_int (year (told v)) ++ skipn 4 (doc_text f v).

Lemma told_strftime f v : any_year v -> strftime_text f (vdt_to_tm v) = told_text f v.
Proof.
  intros (Y & M & D & Hh & Hi & Hs). unfold strftime_text, vdt_to_tm, told_text, told. cbn [tm_year tm_mon tm_mday tm_hour tm_min tm_sec year].
  replace (month v - 1 + 1) with (month v) by lia. unfold min_year. replace ((if year v =? 0 then 1900 else year v - 1900) + 1900) with (if year v =? 0 then 3800 else year v) by (destruct (year v =? 0); lia).
  rewrite !two_digits by lia. destruct f; reflexivity.
Qed.
Lemma fmt_int_year y : - 32768 <= y <= 32767 -> year_text y (fmt_int y) /\ oks (fmt_int y) /\ zlen (fmt_int y) <= 6.
Proof.
  intros H. destruct (digits_numeral 10 false ltac:(lia) 64 (Z.abs y) []) as (ds & E & N); [change (Z.of_nat 64) with 64; lia|lia|]. rewrite app_nil_r in E.
  rewrite digits_fmt in E by (unfold two64; lia).
  assert (fmt_int y = (if y <? 0 then [45] else []) ++ ds) as X.
  { rewrite <- E. destruct (y <? 0) eqn:L.
    - unfold fmt_int. rewrite L. replace (Z.abs y <? 0) with false by lia. replace (Z.abs y) with (- y) by lia. reflexivity.
    - replace (Z.abs y) with y by lia. reflexivity. }
  split; [exists ds; now split|]. rewrite X.
  assert (oks ds /\ zlen ds <= 5) as [Od Ld].
  { rewrite <- E. unfold fmt_int. replace (Z.abs y <? 0) with false by lia. set (n := Z.abs y). assert (0 <= n <= 32768) as Hn by lia. clearbody n. clear -Hn. cbn [dec_loop].
    assert (forall x, okc (48 + x mod 10)) as K by (intros x; unfold okc; pose proof (Z.mod_pos_bound x 10); lia).
    assert (forall l, Forall okc l -> (length l <= 5)%nat -> oks l /\ zlen l <= 5) as G by (intros l Hl Hn'; split; [exact Hl|unfold zlen; lia]).
    destruct (n / 10 =? 0) eqn:E1; [apply G; [repeat constructor; apply K|cbn; lia]|]. destruct (n / 10 / 10 =? 0) eqn:E2; [apply G; [repeat constructor; apply K|cbn; lia]|].
    destruct (n / 10 / 10 / 10 =? 0) eqn:E3; [apply G; [repeat constructor; apply K|cbn; lia]|]. destruct (n / 10 / 10 / 10 / 10 =? 0) eqn:E4; [apply G; [repeat constructor; apply K|cbn; lia]|].
    replace (n / 10 / 10 / 10 / 10 / 10 =? 0) with true by lia. apply G; [repeat constructor; apply K|cbn; lia]. }
  destruct (y <? 0); cbn [app]; [|split; [exact Od|lia]]. split; [constructor; [unfold okc; lia|exact Od]|]. unfold zlen in *. cbn [length]. lia.
Qed.
Lemma told_text_ok f v : any_year v -> oks (told_text f v) /\ zlen (told_text f v) + 1 <= 26.
Proof.
  intros (Y & M & D & Hh & Hi & Hs). unfold told_text. destruct (fmt_int_year (year (told v))) as (_ & O & L); [unfold told; cbn [year]; destruct (year v =? 0); lia|].
  assert (forall x, 1 <= x <= 127 -> oks [x]) as C by (intros x Hx; repeat constructor; unfold okc; lia).
  split.
  - apply Forall_app. split; [exact O|]. destruct f; cbn [doc_text d4 app skipn]; repeat constructor; unfold okc; lia.
  - rewrite zlen_app. assert (zlen (skipn 4 (doc_text f v)) <= 15) by (unfold zlen; rewrite skipn_length; pose proof (doc_text_len f v) as X; unfold zlen in X; destruct f; lia). lia.
Qed.
Lemma told_to_text dbg f v buf len : any_year v -> 26 <= len -> len <= zlen buf ->
  exists b, to_text dbg f v buf len = Ok b /\ cstr b = Ok (told_text f v) /\ zlen b = zlen buf /\ exists q, b = zblk (told_text f v) ++ q.
Proof.
  intros T L B. destruct (told_text_ok f v T) as [O Ln]. unfold to_text. rewrite told_strftime by assumption. unfold buffer_size. rewrite dassert_true by lia. cbn [bind].
  replace (_ <=? len) with true by lia. set (z := told_text f v) in *. set (k := (Z.to_nat (zlen z) + 1)%nat).
  assert (bwrite buf 0 (zblk z) = Ok (zblk z ++ skipn k buf)) as E.
  { rewrite <- (firstn_skipn k buf) at 1. change (firstn k buf ++ skipn k buf) with ([] ++ firstn k buf ++ skipn k buf). rewrite bwrite_app; [reflexivity|reflexivity|].
    rewrite zlen_zblk. unfold zlen in *. rewrite firstn_length. unfold k. lia. }
  rewrite E. eexists. split; [reflexivity|]. split; [now apply cstr_zblk|]. split; [|now eexists].
  rewrite zlen_app, zlen_zblk. unfold zlen in *. rewrite skipn_length. unfold k. lia.
Qed.
Lemma valid_loop_false fmt sh : Forall2 fits fmt sh -> forall p z q, digits_at sh z = false ->
  valid_loop (fmt ++ [0]) (map Some (p ++ z) ++ q) (zlen p) = Ok false.
Proof.
  induction 1 as [|f s fmt sh F FS IH]; intros p z q E; [discriminate E|].
  destruct z as [|c z]; [destruct s; discriminate E|]. cbn [app valid_loop]. unfold fits in F. rewrite F.
  assert (digits_at sh z = false -> valid_loop (fmt ++ [0]) (map Some (p ++ c :: z) ++ q) (zlen p + 1) = Ok false) as K.
  { intros E'. specialize (IH (p ++ [c]) z q E'). rewrite <- app_assoc in IH. cbn [app] in IH. rewrite <- IH. f_equal. autorewrite with zlen. unfold zlen. cbn [length]. lia. }
  destruct s as [s|]; cbn [digits_at] in E.
  - now apply K.
  - rewrite map_app, <- app_assoc. cbn [map app]. rewrite bbyte_app by (autorewrite with zlen; reflexivity). cbn [bind].
    destruct (is_digit c); [|reflexivity]. cbn [negb andb] in *. rewrite <- K by exact E. now rewrite map_app, <- app_assoc.
Qed.
Lemma fmt_int_small y : 1 <= y <= 999 \/ 10000 <= y <= 32767 ->
  (exists a, fmt_int y = [a]) \/ (exists a b, fmt_int y = [a; b]) \/ (exists a b c, fmt_int y = [a; b; c]) \/ (exists a b c d e, fmt_int y = [a; b; c; d; e]).
Proof.
  intros H. unfold fmt_int. replace (y <? 0) with false by lia. cbn [dec_loop].
  destruct (y / 10 =? 0) eqn:E1; [left; now eexists|]. destruct (y / 10 / 10 =? 0) eqn:E2; [right; left; now do 2 eexists|].
  destruct (y / 10 / 10 / 10 =? 0) eqn:E3; [right; right; left; now do 3 eexists|]. replace (y / 10 / 10 / 10 / 10 =? 0) with false by lia. replace (y / 10 / 10 / 10 / 10 / 10 =? 0) with true by lia.
  right; right; right. now do 5 eexists.
Qed.
Lemma told_refused f v q : any_year v -> year v <> 0 -> ~ 1000 <= year v <= 9999 -> from_text f (zblk (told_text f v) ++ q) = Abort.
Proof.
  intros T N0 N. unfold from_text.
  assert (is_valid_text f (zblk (told_text f v) ++ q) = Ok false) as ->; [|reflexivity].
  unfold is_valid_text. destruct (fmt_fits f) as (fmt & -> & F). unfold zblk. rewrite <- app_assoc. apply (valid_loop_false fmt (shape f) F [] (told_text f v) ([Some 0] ++ q)).
  unfold told_text, told. cbn [year]. replace (year v =? 0) with false by lia. destruct T as (Y & _).
  destruct (Z_lt_le_dec (year v) 0) as [L|L].
  - unfold fmt_int. replace (year v <? 0) with true by lia. destruct f; reflexivity.
  - destruct (fmt_int_small (year v)) as [(a & ->)|[(a & b & ->)|[(a & b & c & ->)|(a & b & c & d & e & ->)]]]; [lia| | | |];
      destruct f; cbn [shape doc_text d4 d2 skipn app digits_at]; change (is_digit 45) with false; change (is_digit 84) with false; cbn [andb]; rewrite ?andb_false_r; reflexivity.
Qed.
Lemma told_read f v q : any_year v -> year v = 0 \/ 1000 <= year v <= 9999 ->
  from_text f (zblk (told_text f v) ++ q) = Ok (mk_vdt (year (told v)) (month v) (month_day v) (hour v) (minute v) (second v) 7 1).
Proof.
  intros T H. assert (text_ok (told v)) as O. { destruct T as (Y & T). unfold text_ok, told. cbn [year month month_day hour minute second]. split; [destruct (year v =? 0) eqn:E; lia|exact T]. }
  assert (told_text f v = doc_text f (told v)) as ->. { unfold told_text. rewrite year4 by (destruct O; assumption). destruct f; reflexivity. }
  exact (from_text_val f (told v) q O).
Qed.
