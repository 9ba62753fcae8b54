(** The order of the texts of dates. *)
From Verif Require Import Base BaseFacts NumModel DtModel DtProofs DtProofs2.

(** strcmp(a, b) < 0 for characters below 128. *)
Fixpoint text_before (a b : list Z) : bool :=
  match a, b with
  | x :: a, y :: b => (x <? y) || ((x =? y) && text_before a b)
  | [], _ :: _ => true
  | _, [] => false
  end.
Lemma tb_same p a b : text_before (p ++ a) (p ++ b) = text_before a b.
Proof. induction p as [|x p IH]; [reflexivity|]. cbn [app text_before]. rewrite IH. replace (x <? x) with false by lia. now rewrite Z.eqb_refl. Qed.
Lemma tb_irr a : text_before a a = false.
Proof. induction a as [|x a IH]; [reflexivity|]. cbn [text_before]. rewrite IH. replace (x <? x) with false by lia. now rewrite andb_false_r. Qed.
Lemma tb_asym a : forall b, text_before a b = true -> text_before b a = false.
Proof.
  induction a as [|x a IH]; intros [|y b] H; try reflexivity; try discriminate. cbn [text_before] in *.
  apply orb_true_iff in H. destruct H as [H|H].
  - replace (y <? x) with false by lia. replace (y =? x) with false by lia. reflexivity.
  - apply andb_true_iff in H as [E H]. rewrite (IH _ H). replace (y <? x) with false by lia. apply andb_false_r.
Qed.
Lemma d2_before n m r s : 0 <= n -> n < m -> m <= 99 -> text_before (d2 n ++ r) (d2 m ++ s) = true.
Proof. intros. unfold d2. cbn [app text_before]. destruct (Z.ltb_spec (48 + n / 10) (48 + m / 10)); [reflexivity|]. cbn [orb]. replace (48 + n / 10 =? 48 + m / 10) with true by lia. cbn [andb]. replace (48 + n mod 10 <? 48 + m mod 10) with true by lia. reflexivity. Qed.
Lemma d4_before n m r s : 1000 <= n -> n < m -> m <= 9999 -> text_before (d4 n ++ r) (d4 m ++ s) = true.
Proof.
  intros. unfold d4. cbn [app text_before].
  destruct (Z.ltb_spec (48 + n / 1000) (48 + m / 1000)); [reflexivity|]. cbn [orb]. replace (48 + n / 1000 =? 48 + m / 1000) with true by lia. cbn [andb].
  destruct (Z.ltb_spec (48 + n / 100 mod 10) (48 + m / 100 mod 10)); [reflexivity|]. cbn [orb]. replace (48 + n / 100 mod 10 =? 48 + m / 100 mod 10) with true by lia. cbn [andb].
  destruct (Z.ltb_spec (48 + n / 10 mod 10) (48 + m / 10 mod 10)); [reflexivity|]. cbn [orb]. replace (48 + n / 10 mod 10 =? 48 + m / 10 mod 10) with true by lia. cbn [andb].
  replace (48 + n mod 10 <? 48 + m mod 10) with true by lia. reflexivity.
Qed.
Lemma before_text f a b : text_ok a -> text_ok b -> before a b -> text_before (doc_text f a) (doc_text f b) = true.
Proof.
  intros (Y & M & D & Hh & Hi & Hs) (Y' & M' & D' & Hh' & Hi' & Hs') B. unfold doc_text.
  destruct B as [B|[-> B]]; [destruct f; apply d4_before; lia|].
  destruct f; rewrite tb_same; rewrite ?tb_same;
  (destruct B as [B|[-> B]]; [apply d2_before; lia|]; rewrite tb_same; rewrite ?tb_same;
   destruct B as [B|[-> B]]; [apply d2_before; lia|]; rewrite tb_same; rewrite ?tb_same;
   destruct B as [B|[-> B]]; [apply d2_before; lia|]; rewrite tb_same; rewrite ?tb_same;
   destruct B as [B|[-> B]]; [apply d2_before; lia|]; rewrite tb_same; rewrite ?tb_same;
   rewrite <- (app_nil_r (d2 (second a))), <- (app_nil_r (d2 (second b))); apply d2_before; lia).
Qed.
Lemma before_total a b : before a b \/ same_time a b \/ before b a.
Proof.
  unfold before, same_time.
  destruct (Z.lt_trichotomy (year a) (year b)) as [|[|]]; try tauto; destruct (Z.lt_trichotomy (month a) (month b)) as [|[|]]; try tauto;
  destruct (Z.lt_trichotomy (month_day a) (month_day b)) as [|[|]]; try tauto; destruct (Z.lt_trichotomy (hour a) (hour b)) as [|[|]]; try tauto;
  destruct (Z.lt_trichotomy (minute a) (minute b)) as [|[|]]; try tauto; destruct (Z.lt_trichotomy (second a) (second b)) as [|[|]]; try tauto;
  right; right; lia.
Qed.
Lemma same_text f a b : same_time a b -> doc_text f a = doc_text f b.
Proof. intros (E1 & E2 & E3 & E4 & E5 & E6). unfold doc_text. now rewrite E1, E2, E3, E4, E5, E6. Qed.
Lemma text_order f a b : text_ok a -> text_ok b ->
  (text_before (doc_text f a) (doc_text f b) = true <-> before a b) /\ (doc_text f a = doc_text f b <-> same_time a b).
Proof.
  intros A B. pose proof (before_total a b) as T. split.
  - split; [|now apply before_text]. intros H. destruct T as [T|[T|T]]; [exact T| |].
    + rewrite (same_text f a b T), tb_irr in H. discriminate.
    + apply (before_text f) in T; [|assumption|assumption]. apply tb_asym in T. congruence.
  - split; [|apply same_text]. intros E. destruct T as [T|[T|T]]; [|exact T|]; apply (before_text f) in T; try assumption; rewrite E, tb_irr in T; discriminate.
Qed.
Lemma valid_text v : valid v -> year v <= 9999 -> 1000 <= year v -> text_ok v.
Proof.
  intros (Y & M & D & R) L G. unfold text_ok. repeat split; try lia. assert (mlen (leap (year v)) (month v - 1) <= 31); [|lia].
  assert (forall b m, 0 <= m <= 11 -> mlen b m <= 31) as X.
  { intros b m Hm. assert (m = 0 \/ m = 1 \/ m = 2 \/ m = 3 \/ m = 4 \/ m = 5 \/ m = 6 \/ m = 7 \/ m = 8 \/ m = 9 \/ m = 10 \/ m = 11) as C by lia.
    repeat (destruct C as [-> |C]; [destruct b; vm_compute; congruence|]). subst m. destruct b; vm_compute; congruence. }
  apply X. lia.
Qed.
Lemma same_secs off a b : valid a -> valid b -> same_time a b -> to_secs off a = to_secs off b.
Proof.
  intros (Ya & Ma & _) (Yb & Mb & _) (E1 & E2 & E3 & E4 & E5 & E6). rewrite !to_secs_val by lia. unfold epoch_day. rewrite E1, E2, E3, E4, E5, E6. reflexivity.
Qed.
