(** Properties of formatted text: integers, characters and texts with flags, width, precision and size (C196).
    [dir_fmt] and what its parts mean: FmtSpec.v; [format]: FmtModel.v. *)
From Verif Require Import Base BaseFacts StrModel StrModel2 StrSpec StrProofs ExactStr NumModel FmtModel FmtProofs PropsFmt FmtSpec FmtProofs2.
From Coq Require Import String.
Local Open Scope list_scope.

(** ** C196 Formatted integers, characters and texts *)
(** %d %i %u %x %X: the argument converted to the size, its sign, its digits without leading zeros, at least as many as the
    precision says, filled up to the width. *)
Theorem C196_integers :
  forall fl w p s k n rest, flags_ok fl -> width_ok w -> prec_ok p -> arg_ok s k n ->
  exists v sign ds body t,
    converted s k n v /\ sign_text fl (signed_conv k) v sign /\ numeral (base_of k) (match k with IX => true | _ => false end) (Z.abs v) ds /\
    with_prec (prec_of p) (Z.abs v) ds body /\ filled (left_of fl w) (In 48 fl /\ prec_of p = None) (width_of w) sign body t /\
    format (dir_fmt fl w p s (conv_char k)) (count_args w ++ count_args p ++ int_arg s n :: rest) = Ok t.
Proof. exact integers_ok. Qed.
Print Assumptions C196_integers.
(** %c: the argument as unsigned char (the flag - only; the others are undefined for %c and %s). *)
Theorem C196_chars :
  forall fl w n rest, Forall (eq 45) fl -> width_ok w -> - 2 ^ 31 <= n < 2 ^ 31 ->
  exists c t, (exists q, n = c + q * 256) /\ 0 <= c < 256 /\ filled (left_of fl w) False (width_of w) [] [c] t /\
    format (dir_fmt fl w CNo Inone 99) (count_args w ++ A32 n :: rest) = Ok t.
Proof. exact char_ok. Qed.
Print Assumptions C196_chars.
(** %s: the text, or as much of its beginning as the precision says. *)
Theorem C196_texts :
  forall fl w p z rest, Forall (eq 45) fl -> width_ok w -> prec_ok p ->
  exists b r t, z = b ++ r /\ match prec_of p with None => r = [] | Some q => zlen b = Z.min q (zlen z) end /\ filled (left_of fl w) False (width_of w) [] b t /\
    format (dir_fmt fl w p Inone 115) (count_args w ++ count_args p ++ AS z :: rest) = Ok t.
Proof. exact texts_ok. Qed.
Print Assumptions C196_texts.
(** The meaning is unambiguous: one text has these properties; it is as long as the width, or as sign and digits if they are longer. *)
Lemma fill_one (left zero : Prop) w sign body t t' : (left \/ ~ left) -> (zero \/ ~ zero) -> filled left zero w sign body t -> filled left zero w sign body t' -> t = t' /\ zlen t = Z.max w (zlen sign + zlen body).
Proof.
  intros Dl Dz (k & K & A & B & C) (k' & K' & A' & B' & C'). assert (k' = k) as -> by lia. unfold zlen in *.
  destruct Dl as [L|L]; [rewrite (A L), (A' L)|destruct Dz as [Z0|Z0]; [rewrite (B L Z0), (B' L Z0)|rewrite (C L Z0), (C' L Z0)]]; (split; [reflexivity|]); rewrite !app_length, repeat_length; lia.
Qed.
Lemma fold_inj base : forall vs vs', List.length vs = List.length vs' -> Forall (fun d => 0 <= d < base) vs -> Forall (fun d => 0 <= d < base) vs' ->
  forall a a', fold_left (fun a d => base * a + d) vs a = fold_left (fun a d => base * a + d) vs' a' -> a = a' /\ vs = vs'.
Proof.
  induction vs as [|d vs IH]; intros [|d' vs'] L F F' a a' E; try discriminate; [now split|]. apply Forall_cons_iff in F as [Hd F]. apply Forall_cons_iff in F' as [Hd' F'].
  cbn [fold_left] in E. destruct (IH vs' ltac:(now injection L) F F' _ _ E) as [X ->]. assert (a = a') as -> by nia. split; [reflexivity|]. f_equal. lia.
Qed.
Lemma fold_low base vs : 2 <= base -> Forall (fun d => 0 <= d < base) vs -> forall a, 0 <= a -> a * base ^ Z.of_nat (List.length vs) <= fold_left (fun a d => base * a + d) vs a < (a + 1) * base ^ Z.of_nat (List.length vs).
Proof.
  intros Hb. induction vs as [|d vs IH]; intros F a Ha; cbn [fold_left List.length]; [cbn; lia|]. apply Forall_cons_iff in F as [Hd F]. specialize (IH F (base * a + d) ltac:(nia)).
  rewrite Nat2Z.inj_succ, Z.pow_succ_r by lia. assert (0 < base ^ Z.of_nat (List.length vs)) by (apply Z.pow_pos_nonneg; lia). nia.
Qed.
Lemma numeral_one base upper n ds ds' : 2 <= base <= 16 -> numeral base upper n ds -> numeral base upper n ds' -> ds = ds'.
Proof.
  intros Hb (vs & D & B & V & Z0) (vs' & D' & B' & V' & Z0').
  assert (forall l ts, Forall2 (digit_value upper) ts l -> Forall (fun d => d < base) l -> Forall (fun d => 0 <= d < base) l) as R.
  { intros l ts H. induction H as [|c d ts l Hd _ IH]; intros F; [constructor|]. apply Forall_cons_iff in F as [Hl F]. constructor; [unfold digit_value in Hd; lia|now apply IH]. }
  pose proof (R _ _ D B) as F. pose proof (R _ _ D' B') as F'.
  assert (forall l, Forall (fun d => 0 <= d < base) l -> (l = [0] \/ exists d l', l = d :: l' /\ d <> 0) -> fold_left (fun a d => base * a + d) l 0 = n ->
     l = [0] /\ n = 0 \/ (1 <= List.length l)%nat /\ base ^ (Z.of_nat (List.length l) - 1) <= n < base ^ Z.of_nat (List.length l)) as Len.
  { intros l Fl [->|(d & l' & -> & Nd)] E; [left; cbn in E; split; [reflexivity|lia]|right]. apply Forall_cons_iff in Fl as [Hd Fl]. cbn [fold_left] in E. rewrite Z.mul_0_r, Z.add_0_l in E.
    pose proof (fold_low base l' ltac:(lia) Fl d ltac:(lia)) as X. cbn [List.length]. split; [lia|]. rewrite Nat2Z.inj_succ. replace (Z.succ (Z.of_nat (List.length l')) - 1) with (Z.of_nat (List.length l')) by lia. rewrite Z.pow_succ_r by lia.
    assert (0 < base ^ Z.of_nat (List.length l')) by (apply Z.pow_pos_nonneg; lia). rewrite E in X. nia. }
  assert (vs = vs') as ->.
  { destruct (Len vs F Z0 V) as [[-> N0]|[L1 L2]], (Len vs' F' Z0' V') as [[-> N0']|[L1' L2']].
    - reflexivity.
    - assert (0 < base ^ (Z.of_nat (List.length vs') - 1)) by (apply Z.pow_pos_nonneg; lia). lia.
    - assert (0 < base ^ (Z.of_nat (List.length vs) - 1)) by (apply Z.pow_pos_nonneg; lia). lia.
    - assert (List.length vs = List.length vs') as L.
      { destruct (Nat.lt_trichotomy (List.length vs) (List.length vs')) as [X|[X|X]]; [|exact X|].
        - assert (base ^ Z.of_nat (List.length vs) <= base ^ (Z.of_nat (List.length vs') - 1)) by (apply Z.pow_le_mono_r; lia). lia.
        - assert (base ^ Z.of_nat (List.length vs') <= base ^ (Z.of_nat (List.length vs) - 1)) by (apply Z.pow_le_mono_r; lia). lia. }
      exact (proj2 (fold_inj base vs vs' L F F' 0 0 ltac:(congruence))). }
  clear -D D'. revert ds' D'. induction D as [|c d ds l Hc _ IH]; intros ds' D'; inversion D' as [|c' d' ds'' l' Hc' D'']; subst; [reflexivity|]. f_equal; [|now apply IH].
  unfold digit_value in *. destruct upper; lia.
Qed.
Theorem C196_one :
  forall fl w p s k n v v' sign sign' ds ds' body body' t t',
  (converted s k n v /\ sign_text fl (signed_conv k) v sign /\ numeral (base_of k) (match k with IX => true | _ => false end) (Z.abs v) ds /\
    with_prec (prec_of p) (Z.abs v) ds body /\ filled (left_of fl w) (In 48 fl /\ prec_of p = None) (width_of w) sign body t) ->
  (converted s k n v' /\ sign_text fl (signed_conv k) v' sign' /\ numeral (base_of k) (match k with IX => true | _ => false end) (Z.abs v') ds' /\
    with_prec (prec_of p) (Z.abs v') ds' body' /\ filled (left_of fl w) (In 48 fl /\ prec_of p = None) (width_of w) sign' body' t') ->
  t = t' /\ zlen t = Z.max (width_of w) (zlen sign + zlen body).
Proof.
  intros fl w p s k n v v' sign sign' ds ds' body body' t t' (((q & C) & Cr) & S & N & P & F) (((q' & C') & Cr') & S' & N' & P' & F').
  assert (v = v') as <-. { assert (0 < 2 ^ bits s) by (destruct s; reflexivity). assert (2 ^ bits s = 2 * 2 ^ (bits s - 1)) by (destruct s; reflexivity). destruct (signed_conv k); assert (q = q') as <- by nia; lia. }
  assert (sign = sign') as <-.
  { destruct S as [S1 S2], S' as [S1' S2']. destruct (Z_lt_le_dec v 0) as [L|L]; [now rewrite S1, S1'|]. destruct (S2 L) as (A & B & D), (S2' L) as (A' & B' & D').
    destruct (signed_conv k); [|now rewrite D, D' by now left]. destruct (in_dec Z.eq_dec 43 fl) as [I|I]; [now rewrite A, A'|]. destruct (in_dec Z.eq_dec 32 fl) as [J|J]; [now rewrite B, B'|]. now rewrite D, D' by (right; now split). }
  assert (ds = ds') as <-. { eapply numeral_one; [|exact N|exact N']. destruct k; cbn; lia. }
  assert (body = body') as <-.
  { unfold with_prec in *. destruct (prec_of p) as [z|]; [|congruence]. destruct ((z =? 0) && (Z.abs v =? 0)); [congruence|]. destruct P as (j & J & ->), P' as (j' & J' & ->). now assert (j = j') as -> by lia. }
  eapply fill_one; [| |exact F|exact F'].
  - unfold left_of. destruct (in_dec Z.eq_dec 45 fl) as [I|I]; [left; now left|]. destruct w as [|d|m].
    + right. intros [X|(x & X & _)]; [contradiction|discriminate].
    + right. intros [X|(x & X & _)]; [contradiction|discriminate].
    + destruct (Z_lt_le_dec m 0); [left; right; now exists m|right; intros [X|(x & X & Y)]; [contradiction|injection X as <-; lia]].
  - destruct (in_dec Z.eq_dec 48 fl) as [I|I]; [|right; tauto]. destruct (prec_of p); [right; intros [_ X]; discriminate|left; now split].
Qed.
Print Assumptions C196_one.
(** In a longer format the conversions stand one after the other ([C178_append]); vt_str_appendf appends the text. *)
Theorem C196_appendf :
  forall dbg t cap s f1 f2 a1 a2 t1 t2 items, srep t cap s -> parse f1 = Some items -> List.length a1 = List.length (want items) ->
  format f1 a1 = Ok t1 -> format f2 a2 = Ok t2 -> oks (t1 ++ t2) -> Z.max cap (zlen t + zlen (t1 ++ t2)) + 1 <= alloc_max ->
  exists s', (let* z := format (f1 ++ f2) (a1 ++ a2) in str_appendf dbg s z) = Ok s' /\ srep (t ++ t1 ++ t2) (Z.max cap (zlen t + zlen (t1 ++ t2))) s'.
Proof.
  intros dbg t cap s f1 f2 a1 a2 t1 t2 items R E L E1 E2 O F. rewrite (C178_append f1 f2 a1 a2 items E L), E1, E2. cbn [bind]. exact (appendf_ok dbg t cap s _ R O F).
Qed.
Print Assumptions C196_appendf.

Example C196_example :
  dir_fmt [48; 43] (CDig (T "8")) CNo Ih (conv_char Id) = T "%0+8hd" /\ format (T "%0+8hd") [A32 70000] = Ok (T "+0004464") /\
  dir_fmt [] (CArg (-6)) (CDig (T "3")) Inone (conv_char IX) = T "%*.3X" /\ format (T "%*.3X|") [A32 (-6); A32 43] = Ok (T "02B   |") /\
  dir_fmt [32] CNo (CDig []) Il (conv_char Ii) = T "% .li" /\ format (T "% .li|") [A64 0] = Ok (T " |") /\
  format (T "%hhu %hhd %-5c| %*c") [A32 300; A32 200; A32 (-191); A32 3; A32 225] = Ok (T "44 -56 A    |   " ++ [225]) /\
  format (T "[%-7.3s] [%.*s]") [AS (T "abcdef"); A32 (-1); AS (T "xyz")] = Ok (T "[abc    ] [xyz]").
Proof. repeat (split; [vm_compute; reflexivity|]). vm_compute. reflexivity. Qed.
