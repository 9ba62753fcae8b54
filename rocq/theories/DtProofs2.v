(** Proofs about the texts of datetime.c. *)
From Verif Require Import Base BaseFacts StrModel StrModel2 StrSpec StrProofs StrProofs2 NumModel NumProofs DtModel DtProofs.

Lemma year4 y : 1000 <= y <= 9999 -> fmt_int y = [48 + y / 1000; 48 + y / 100 mod 10; 48 + y / 10 mod 10; 48 + y mod 10].
Proof.
  intros H. unfold fmt_int. replace (y <? 0) with false by lia. cbn [dec_loop].
  replace (y / 10 =? 0) with false by lia. replace (y / 10 / 10 =? 0) with false by lia. replace (y / 10 / 10 / 10 =? 0) with false by lia.
  replace (y / 10 / 10 / 10 / 10 =? 0) with true by lia. f_equal; [lia|]. f_equal. lia.
Qed.
Lemma two_digits n : 0 <= n <= 99 -> pad2 n = [48 + n / 10; 48 + n mod 10].
Proof.
  intros H. unfold pad2. destruct (Z.ltb_spec n 10).
  - replace (0 <=? n) with true by lia. cbn [andb]. replace (n / 10) with 0 by lia. replace (n mod 10) with n by lia. reflexivity.
  - replace (0 <=? n) with true by lia. cbn [andb]. unfold fmt_int. replace (n <? 0) with false by lia. cbn [dec_loop].
    replace (n / 10 =? 0) with false by lia. replace (n / 10 / 10 =? 0) with true by lia. f_equal. lia.
Qed.

Lemma dig_ok x : 0 <= x <= 9 -> is_digit (48 + x) = true.
Proof. unfold is_digit. lia. Qed.
Lemma dig_space x : 0 <= x <= 9 -> is_space (48 + x) = false.
Proof. unfold is_space. lia. Qed.
Lemma scan_int_start w c z : 48 <= c <= 57 -> scan_int w (c :: z) = Some (scan_digits w (c :: z) 0).
Proof.
  intros H. unfold scan_int. cbn [skip_space]. replace (is_space c) with false by (unfold is_space; lia).
  unfold starts_digit. replace (is_digit c) with true by (unfold is_digit; lia).
  destruct c as [|p|p]; try lia.
  repeat (destruct p as [p|p|]; try lia; try reflexivity).
Qed.
Lemma scan4 y r : 1000 <= y <= 9999 -> scan_int 4 (fmt_int y ++ r) = Some (y, r).
Proof.
  intros H. rewrite year4 by assumption. cbn [app]. rewrite scan_int_start by lia. cbn [scan_digits].
  rewrite !dig_ok by lia. f_equal. f_equal. lia.
Qed.
Lemma scan2 n r : 0 <= n <= 99 -> scan_int 2 (pad2 n ++ r) = Some (n, r).
Proof.
  intros H. rewrite two_digits by assumption. cbn [app]. rewrite scan_int_start by lia. cbn [scan_digits].
  rewrite !dig_ok by lia. f_equal. f_equal. lia.
Qed.
Lemma skip_pad2 n r : 0 <= n <= 99 -> skip_space (pad2 n ++ r) = pad2 n ++ r.
Proof. intros H. rewrite two_digits by assumption. cbn [app skip_space]. now rewrite dig_space by lia. Qed.

(** A datetime whose fields have their documented ranges and whose year has four digits. *)
Definition text_ok (v : vdt) : Prop :=
  1000 <= year v <= 9999 /\ 1 <= month v <= 12 /\ 1 <= month_day v <= 31 /\ 0 <= hour v <= 23 /\ 0 <= minute v <= 59 /\ 0 <= second v <= 60.

(** The text, from the definition of the formats in datetime.h:106-140. *)
Definition d2 (n : Z) : list Z := [48 + n / 10; 48 + n mod 10].
Definition d4 (n : Z) : list Z := [48 + n / 1000; 48 + n / 100 mod 10; 48 + n / 10 mod 10; 48 + n mod 10].
Definition doc_text (f : dfmt) (v : vdt) : list Z :=
  match f with
  | Plain => d4 (year v) ++ [45] ++ d2 (month v) ++ [45] ++ d2 (month_day v) ++ [32] ++ d2 (hour v) ++ [58] ++ d2 (minute v) ++ [58] ++ d2 (second v)
  | Iso => d4 (year v) ++ d2 (month v) ++ d2 (month_day v) ++ [84] ++ d2 (hour v) ++ d2 (minute v) ++ d2 (second v)
  | IsoExt => d4 (year v) ++ [45] ++ d2 (month v) ++ [45] ++ d2 (month_day v) ++ [84] ++ d2 (hour v) ++ [58] ++ d2 (minute v) ++ [58] ++ d2 (second v)
  end.
Lemma strftime_ok f v : text_ok v -> strftime_text f (vdt_to_tm v) = doc_text f v.
Proof.
  intros (Y & M & D & Hh & Hi & Hs). unfold strftime_text, vdt_to_tm. cbn [tm_year tm_mon tm_mday tm_hour tm_min tm_sec].
  replace (year v =? 0) with false by lia. unfold min_year.
  replace (year v - 1900 + 1900) with (year v) by lia. replace (month v - 1 + 1) with (month v) by lia.
  rewrite year4, !two_digits by lia. destruct f; reflexivity.
Qed.
Lemma doc_text_len f v : zlen (doc_text f v) = match f with Iso => 15 | _ => 19 end.
Proof. destruct f; reflexivity. Qed.
Lemma d2_oks n : 0 <= n <= 99 -> oks (d2 n).
Proof. intros. unfold d2. repeat constructor; unfold okc; lia. Qed.
Lemma d4_oks n : 0 <= n <= 9999 -> oks (d4 n).
Proof. intros. unfold d4. repeat constructor; unfold okc; lia. Qed.
Lemma doc_text_oks f v : text_ok v -> oks (doc_text f v).
Proof.
  intros (Y & M & D & Hh & Hi & Hs). unfold doc_text.
  assert (forall x, 1 <= x <= 127 -> oks [x]) as C by (intros x Hx; repeat constructor; unfold okc; lia).
  destruct f; repeat (apply Forall_app; split); first [apply d4_oks; lia | apply d2_oks; lia | apply C; lia].
Qed.

Lemma to_text_ok dbg f v buf len : text_ok v -> 26 <= len -> len <= zlen buf ->
  to_text dbg f v buf len = Ok (zblk (doc_text f v) ++ skipn (Z.to_nat (zlen (doc_text f v)) + 1) buf).
Proof.
  intros T L B. unfold to_text. rewrite strftime_ok by assumption. unfold buffer_size.
  rewrite dassert_true by lia. cbn [bind]. pose proof (doc_text_len f v) as DL.
  replace (_ <=? len) with true by (destruct f; lia).
  set (k := (Z.to_nat (zlen (doc_text f v)) + 1)%nat).
  rewrite <- (firstn_skipn k buf) at 1.
  replace (firstn k buf ++ skipn k buf) with ([] ++ firstn k buf ++ skipn k buf) by reflexivity.
  rewrite bwrite_app; [reflexivity|reflexivity|].
  rewrite zlen_zblk. change (zlen (firstn k buf)) with (Z.of_nat (length (firstn k buf))). rewrite firstn_length. unfold k. unfold zlen in B.
  rewrite Nat.min_l by (rewrite DL; destruct f; lia). rewrite DL. destruct f; lia.
Qed.

(** ** Validation *)

(** The documented shapes: [None] a digit, [Some c] the separator [c]. *)
Definition shape (f : dfmt) : list (option Z) :=
  let d2 := [None; None] in let d4 := [None; None; None; None] in
  match f with
  | Plain => d4 ++ [Some 45] ++ d2 ++ [Some 45] ++ d2 ++ [Some 32] ++ d2 ++ [Some 58] ++ d2 ++ [Some 58] ++ d2
  | Iso => d4 ++ d2 ++ d2 ++ [Some 84] ++ d2 ++ d2 ++ d2
  | IsoExt => d4 ++ [Some 45] ++ d2 ++ [Some 45] ++ d2 ++ [Some 84] ++ d2 ++ [Some 58] ++ d2 ++ [Some 58] ++ d2
  end.
Definition has_shape (f : dfmt) (z : list Z) : Prop :=
  Forall2 (fun p c => match p with None => digit c | Some s => c = s end) (shape f) z.
Fixpoint digits_at (sh : list (option Z)) (z : list Z) : bool :=
  match sh, z with
  | None :: sh', c :: z' => is_digit c && digits_at sh' z'
  | Some _ :: sh', _ :: z' => digits_at sh' z'
  | _, _ => true
  end.
(** How a format character relates to a shape position. *)
Definition fits (f : Z) (p : option Z) : Prop :=
  (negb (f =? 84) && is_alpha f) = match p with None => true | Some _ => false end.
Lemma valid_loop_ok fmt sh : Forall2 fits fmt sh -> forall p z q, (length sh <= length z)%nat ->
  valid_loop (fmt ++ [0]) (map Some (p ++ z) ++ q) (zlen p) = Ok (digits_at sh z).
Proof.
  induction 1 as [|f s fmt sh F FS IH]; intros p z q L; [reflexivity|].
  destruct z as [|c z]; [cbn in L; lia|]. cbn [app valid_loop]. unfold fits in F. rewrite F.
  assert (forall _ : nat, valid_loop (fmt ++ [0]) (map Some (p ++ c :: z) ++ q) (zlen p + 1) = Ok (digits_at sh z)) as K.
  { intros _. specialize (IH (p ++ [c]) z q). rewrite <- app_assoc in IH. cbn [app] in IH. rewrite <- IH by (cbn in L; lia).
    f_equal. autorewrite with zlen. unfold zlen. cbn [length]. lia. }
  destruct s as [s|]; cbn [digits_at].
  - apply K. exact 0%nat.
  - rewrite map_app, <- app_assoc. cbn [map app]. rewrite bbyte_app by (autorewrite with zlen; reflexivity). cbn [bind].
    destruct (is_digit c); [|reflexivity]. cbn [negb andb]. rewrite <- K by exact 0%nat. now rewrite map_app, <- app_assoc.
Qed.
Lemma fmt_fits f : exists fmt, fmt_of f = fmt ++ [0] /\ Forall2 fits fmt (shape f).
Proof.
  destruct f; (eexists; split; [unfold fmt_of; rewrite ?app_assoc; reflexivity|]; repeat constructor).
Qed.
Lemma is_valid_ok f z q : (length (shape f) <= length z)%nat -> is_valid_text f (zblk z ++ q) = Ok (digits_at (shape f) z).
Proof.
  intros L. unfold is_valid_text. destruct (fmt_fits f) as (fmt & -> & F). unfold zblk. rewrite <- app_assoc.
  apply (valid_loop_ok fmt (shape f) F [] z ([Some 0] ++ q) L).
Qed.
Lemma digits_at_iff sh : forall z, (length sh <= length z)%nat ->
  (digits_at sh z = true <-> forall i, nth_error sh i = Some None -> exists c, nth_error z i = Some c /\ digit c).
Proof.
  induction sh as [|s sh IH]; intros z L.
  - split; [|reflexivity]. intros _ [|i] E; discriminate E.
  - destruct z as [|c z]; [cbn in L; lia|]. specialize (IH z ltac:(cbn in L; lia)). destruct s as [s|]; cbn [digits_at].
    + rewrite IH. split; intros H i E.
      * destruct i as [|i]; [discriminate E|]. apply H. exact E.
      * apply (H (S i)). exact E.
    + rewrite andb_true_iff, IH. split.
      * intros [D H] [|i] E; [|apply H, E]. exists c. split; [reflexivity|]. unfold is_digit in D. unfold digit. lia.
      * intros H. split.
        -- destruct (H 0%nat eq_refl) as (c' & E & D). cbn in E. injection E as <-. unfold digit in D. unfold is_digit. lia.
        -- intros i E. apply (H (S i)), E.
Qed.
Lemma valid_iff f z q : (length (shape f) <= length z)%nat ->
  exists b, is_valid_text f (zblk z ++ q) = Ok b /\
    (b = true <-> forall i, nth_error (shape f) i = Some None -> exists c, nth_error z i = Some c /\ digit c).
Proof. intros L. exists (digits_at (shape f) z). split; [now apply is_valid_ok|now apply digits_at_iff]. Qed.
Lemma Forall2_len {A B} (R : A -> B -> Prop) l l' : Forall2 R l l' -> length l = length l'.
Proof. induction 1; cbn; congruence. Qed.
Lemma valid_complete f z q : has_shape f z -> is_valid_text f (zblk z ++ q) = Ok true.
Proof.
  intros H. rewrite is_valid_ok by (apply Forall2_len in H; lia). f_equal.
  unfold has_shape in H. induction H as [|s c sh z D F IH]; [reflexivity|]. destruct s; cbn [digits_at]; [assumption|].
  unfold digit in D. rewrite IH. unfold is_digit. lia.
Qed.
Lemma doc_has_shape f v : text_ok v -> has_shape f (doc_text f v).
Proof.
  intros (Y & M & D & Hh & Hi & Hs). unfold has_shape, shape, doc_text, d2, d4. destruct f; cbn [app]; repeat constructor; unfold digit; lia.
Qed.

(** ** Parsing *)
Lemma scan_text f v : text_ok v -> sscanf (scan_fmt f) (doc_text f v) = [year v; month v; month_day v; hour v; minute v; second v].
Proof.
  intros T. rewrite <- (strftime_ok f v T). destruct T as (Y & M & D & Hh & Hi & Hs). unfold strftime_text, vdt_to_tm. cbn [tm_year tm_mon tm_mday tm_hour tm_min tm_sec].
  replace (year v =? 0) with false by lia. unfold min_year. replace (year v - 1900 + 1900) with (year v) by lia. replace (month v - 1 + 1) with (month v) by lia.
  rewrite <- (app_nil_r (pad2 (second v))).
  destruct f; cbn [scan_fmt sscanf]; rewrite scan4 by assumption; cbn [app sscanf];
  rewrite ?Z.eqb_refl; cbn [sscanf skip_space is_space];
  repeat first [rewrite scan2 by lia | rewrite skip_pad2 by lia | progress cbn [app sscanf] | rewrite Z.eqb_refl
    | change (is_space 32) with true; progress cbn [skip_space] ]; try reflexivity.
Qed.
Lemma from_text_val f v q : text_ok v ->
  from_text f (zblk (doc_text f v) ++ q) = Ok (mk_vdt (year v) (month v) (month_day v) (hour v) (minute v) (second v) 7 1).
Proof.
  intros T. unfold from_text. rewrite valid_complete by now apply doc_has_shape. cbn [bind]. rewrite enforce_true by reflexivity. cbn [bind].
  rewrite cstr_zblk by now apply doc_text_oks. cbn [bind]. rewrite scan_text by assumption. cbn [nth].
  destruct T as (Y & M & D & Hh & Hi & Hs). unfold tm_to_vdt. cbn [tm_year tm_mon tm_mday tm_hour tm_min tm_sec tm_wday tm_yday].
  unfold min_year. rewrite (i16_small (year v - 1900 + 1900)), (i16_small (month v - 1 + 1)), (i16_small (month_day v)), (i16_small (hour v)), (i16_small (minute v)), (i16_small (second v)) by lia.
  f_equal. f_equal; lia.
Qed.
Lemma text_roundtrip dbg f v buf len : text_ok v -> 26 <= len -> len <= zlen buf ->
  exists b, to_text dbg f v buf len = Ok b /\ cstr b = Ok (doc_text f v) /\ zlen b = zlen buf /\
    exists v', from_text f b = Ok v' /\ same_time v' v.
Proof.
  intros T L B. rewrite to_text_ok by assumption. eexists. split; [reflexivity|]. split; [apply cstr_zblk; now apply doc_text_oks|].
  split.
  - rewrite zlen_app, zlen_zblk, doc_text_len. unfold zlen in B |- *. rewrite skipn_length. destruct f; lia.
  - rewrite from_text_val by assumption. eexists. split; [reflexivity|]. repeat split.
Qed.

(** ** Pretty text *)
Definition week_name (d : Z) : list Z :=
  nth (Z.to_nat d) [[]; [77;111;110]; [84;117;101]; [87;101;100]; [84;104;117]; [70;114;105]; [83;97;116]; [83;117;110]] [].
Definition month_name (m : Z) : list Z :=
  nth (Z.to_nat m) [[]; [74;97;110]; [70;101;98]; [77;97;114]; [65;112;114]; [77;97;121]; [74;117;110];
   [74;117;108]; [65;117;103]; [83;101;112]; [79;99;116]; [78;111;118]; [68;101;99]] [].
Definition day_text (d : Z) : list Z := if d <? 10 then [32; 48 + d] else d2 d.
Definition pretty (v : vdt) : list Z :=
  week_name (week_day v) ++ [32] ++ month_name (month v) ++ [32] ++ day_text (month_day v) ++ [32]
  ++ d2 (hour v) ++ [58] ++ d2 (minute v) ++ [58] ++ d2 (second v) ++ [32] ++ d4 (year v).
Lemma asctime_ok v : text_ok v -> 1 <= week_day v <= 7 -> asctime_text (vdt_to_tm v) = pretty v ++ [10].
Proof.
  intros (Y & M & D & Hh & Hi & Hs) W. unfold asctime_text, pretty, vdt_to_tm. cbn [tm_year tm_mon tm_mday tm_hour tm_min tm_sec tm_wday].
  replace (year v =? 0) with false by lia. unfold min_year. replace (year v - 1900 + 1900) with (year v) by lia.
  rewrite year4, !two_digits by lia. rewrite <- !app_assoc.
  assert (name_of wnames (if week_day v =? 7 then 0 else week_day v) = week_name (week_day v)) as ->.
  { assert (week_day v = 1 \/ week_day v = 2 \/ week_day v = 3 \/ week_day v = 4 \/ week_day v = 5 \/ week_day v = 6 \/ week_day v = 7) as X by lia.
    repeat (destruct X as [->|X]; [reflexivity|]). rewrite X. reflexivity. }
  assert (name_of mnames (month v - 1) = month_name (month v)) as ->.
  { set (mo := month v) in *.
    assert (mo = 1 \/ mo = 2 \/ mo = 3 \/ mo = 4 \/ mo = 5 \/ mo = 6 \/ mo = 7 \/ mo = 8 \/ mo = 9 \/ mo = 10 \/ mo = 11 \/ mo = 12) as X by lia.
    repeat (destruct X as [->|X]; [reflexivity|]). rewrite X. reflexivity. }
  assert (pad_day (month_day v) = day_text (month_day v)) as ->; [|reflexivity].
  unfold pad_day, day_text. destruct (Z.ltb_spec (month_day v) 10).
  - replace (0 <=? month_day v) with true by lia. reflexivity.
  - rewrite andb_false_r. unfold fmt_int. replace (month_day v <? 0) with false by lia. cbn [dec_loop].
    replace (month_day v / 10 =? 0) with false by lia. replace (month_day v / 10 / 10 =? 0) with true by lia. unfold d2. f_equal. lia.
Qed.
Lemma week_name_shape w : 1 <= w <= 7 -> exists a b c, week_name w = [a; b; c] /\ oks [a; b; c].
Proof.
  intros H. assert (w = 1 \/ w = 2 \/ w = 3 \/ w = 4 \/ w = 5 \/ w = 6 \/ w = 7) as X by lia.
  repeat (destruct X as [->|X]; [do 3 eexists; split; [reflexivity|repeat constructor; unfold okc; lia]|]). subst w. do 3 eexists; split; [reflexivity|repeat constructor; unfold okc; lia].
Qed.
Lemma month_name_shape w : 1 <= w <= 12 -> exists a b c, month_name w = [a; b; c] /\ oks [a; b; c].
Proof.
  intros H. assert (w = 1 \/ w = 2 \/ w = 3 \/ w = 4 \/ w = 5 \/ w = 6 \/ w = 7 \/ w = 8 \/ w = 9 \/ w = 10 \/ w = 11 \/ w = 12) as X by lia.
  repeat (destruct X as [->|X]; [do 3 eexists; split; [reflexivity|repeat constructor; unfold okc; lia]|]). subst w. do 3 eexists; split; [reflexivity|repeat constructor; unfold okc; lia].
Qed.
Lemma pretty_oks v : text_ok v -> 1 <= week_day v <= 7 -> oks (pretty v) /\ zlen (pretty v) = 24 /\ nth 8 (pretty v) 0 <> 48.
Proof.
  intros (Y & M & D & Hh & Hi & Hs) W. unfold pretty.
  destruct (week_name_shape _ W) as (a & b & c & -> & O1). destruct (month_name_shape _ M) as (a' & b' & c' & -> & O2).
  assert (exists x y, day_text (month_day v) = [x; y] /\ x <> 48 /\ oks [x; y]) as (x & y & -> & X & O3).
  { unfold day_text. destruct (Z.ltb_spec (month_day v) 10); do 2 eexists; (split; [reflexivity|]); (split; [lia|]); repeat constructor; unfold okc; lia. }
  split; [|split; [reflexivity|exact X]].
  repeat (apply Forall_app; split); try assumption; first [apply d4_oks; lia | apply d2_oks; lia | repeat constructor; unfold okc; lia].
Qed.
Lemma pretty_ok dbg v buf len : text_ok v -> 1 <= week_day v <= 7 -> 26 <= len -> len <= zlen buf ->
  exists b, to_text_pretty dbg v buf len = Ok b /\ cstr b = Ok (pretty v) /\ zlen b = zlen buf.
Proof.
  intros T W L B. destruct (pretty_oks v T W) as (O & PL & N8). unfold to_text_pretty. unfold buffer_size.
  rewrite dassert_true by lia. cbn [bind]. rewrite asctime_ok by assumption.
  replace (zlen (pretty v ++ [10]) + 1 =? 26) with true by (autorewrite with zlen; rewrite PL; reflexivity). cbn [negb].
  set (z := pretty v) in *.
  assert (exists p1 c p2, z = p1 ++ c :: p2 /\ zlen p1 = 8 /\ c <> 48) as (p1 & c & p2 & Ez & L1 & C).
  { exists (firstn 8 z), (nth 8 z 0), (skipn 9 z). split; [|split; [|assumption]].
    - rewrite <- (firstn_skipn 8 z) at 1. f_equal. clear -PL. do 9 (destruct z as [|? z]; [discriminate PL|]). reflexivity.
    - unfold zlen in *. rewrite firstn_length. lia. }
  set (q := skipn 26 buf).
  assert (bwrite buf 0 (zblk (z ++ [10])) = Ok (map Some z ++ Some 10 :: Some 0 :: q)) as E1.
  { rewrite <- (firstn_skipn 26 buf). fold q. change (firstn 26 buf ++ q) with ([] ++ firstn 26 buf ++ q). rewrite bwrite_app; [|reflexivity|].
    - cbn [app]. unfold zblk. rewrite map_app, <- !app_assoc. reflexivity.
    - rewrite zlen_zblk, zlen_app, PL. unfold zlen in B |- *. rewrite firstn_length. cbn [length]. lia. }
  rewrite E1. cbn [bind].
  assert (bbyte (map Some z ++ Some 10 :: Some 0 :: q) 8 = Ok c) as E2.
  { rewrite Ez, map_app, <- app_assoc. cbn [map app]. apply bbyte_app. autorewrite with zlen. lia. }
  rewrite E2. cbn [bind]. replace (c =? 48) with false by lia.
  cbn [bind]. assert (zlen (map Some z) = 24) as ZL by (autorewrite with zlen; assumption).
  assert (zlen q = zlen buf - 26) as QL by (unfold q, zlen in *; rewrite skipn_length; lia).
  assert (exists q', bwrite (map Some z ++ Some 10 :: Some 0 :: q) (len - 1) [Some 0] = Ok (map Some z ++ Some 10 :: Some 0 :: q') /\ zlen q' = zlen q) as (q' & E3 & QL').
  { destruct (Z.eq_dec len 26) as [->|NE].
    - exists q. split; [|reflexivity]. replace (map Some z ++ Some 10 :: Some 0 :: q) with ((map Some z ++ [Some 10]) ++ [Some 0] ++ q) at 1 by (rewrite <- app_assoc; reflexivity).
      rewrite bwrite_app; [rewrite <- app_assoc; reflexivity| |reflexivity]. autorewrite with zlen. unfold zlen in *. cbn [length]. lia.
    - set (k := Z.to_nat (len - 27)).
      destruct (nth_split q None (n := k)) as (l1 & l2 & Eq & Lk); [unfold zlen in QL, B; unfold k; lia|].
      exists (l1 ++ Some 0 :: l2). split.
      + rewrite Eq at 1. replace (map Some z ++ Some 10 :: Some 0 :: l1 ++ nth k q None :: l2)
          with ((map Some z ++ Some 10 :: Some 0 :: l1) ++ [nth k q None] ++ l2) by (rewrite <- app_assoc; reflexivity).
        rewrite bwrite_app; [rewrite <- app_assoc; reflexivity| |reflexivity].
        unfold zlen in *. rewrite app_length. cbn [length]. rewrite Lk. unfold k. lia.
      + rewrite Eq. unfold zlen. rewrite !app_length. cbn [length]. lia. }
  rewrite E3. cbn [bind].
  replace (bbyte (map Some z ++ Some 10 :: Some 0 :: q') (26 - 1)) with (Ok 0 : res Z).
  2: { symmetry. change (map Some z ++ Some 10 :: Some 0 :: q') with (map Some z ++ [Some 10] ++ Some 0 :: q'). rewrite app_assoc. apply bbyte_app. autorewrite with zlen. unfold zlen in *. cbn [length]. lia. }
  cbn [bind]. change (0 =? 10) with false. cbn iota.
  eexists. split; [|split].
  - change (map Some z ++ Some 10 :: Some 0 :: q') with (map Some z ++ [Some 10] ++ Some 0 :: q'). apply bwrite_app; [lia|reflexivity].
  - cbn [app]. replace (map Some z ++ Some 0 :: Some 0 :: q') with (zblk z ++ Some 0 :: q') by (unfold zblk; rewrite <- app_assoc; reflexivity). now apply cstr_zblk.
  - unfold zlen in *. rewrite !app_length. cbn [length]. lia.
Qed.

(** ** Statements used by the property file *)
Lemma gregorian y : leap y = true <-> y mod 4 = 0 /\ (y mod 100 <> 0 \/ y mod 400 = 0).
Proof.
  unfold leap. rewrite andb_true_iff, orb_true_iff, negb_true_iff. split; intros [A B]; (split; [lia|]); destruct B; lia.
Qed.
Lemma leap_partial y : 0 <= y -> ~ (y mod 100 = 0 /\ y mod 400 <> 0) ->
  (is_leap_year y = true <-> y mod 4 = 0 /\ (y mod 100 <> 0 \/ y mod 400 = 0)).
Proof. intros H N. rewrite leap_agree by assumption. apply gregorian. Qed.
