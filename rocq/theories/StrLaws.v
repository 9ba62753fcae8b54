(** Proofs: laws between string operations. *)
From Verif Require Import Base BaseFacts StrModel StrModel2 StrSpec StrProofs StrProofs2 StrProofs3 StrMain.

(** * Replacing back *)
Lemma scan_join sep ps : ps <> [] -> 0 < zlen sep -> Forall (clear_of sep) (removelast ps) -> cut sep (last ps []) = None -> scan sep (join_with sep ps) ps.
Proof.
  intros Hne Hs. induction ps as [|p ps IH]; [congruence|]. intros F L. destruct ps as [|q ps].
  - cbn [join_with]. cbn in L. apply scan_end. now apply cut_none.
  - assert (join_with sep (p :: q :: ps) = p ++ sep ++ join_with sep (q :: ps)) as -> by reflexivity.
    cbn [removelast] in F. inversion F as [|? ? Fp Fq]; subst. apply scan_next.
    + apply cut_leftmost with (b := join_with sep (q :: ps)). now apply clear_of_ext.
    + apply IH; [discriminate|exact Fq|exact L].
Qed.

Lemma replace_back dbg t cap s sub rsub ps : srep t cap s -> 0 < zlen sub -> 0 < zlen rsub -> oks sub -> oks rsub -> scan sub t ps ->
  Forall (clear_of rsub) (removelast ps) -> cut rsub (last ps []) = None ->
  zlen t + zlen (join_with rsub ps) + cap + 1 <= alloc_max ->
  exists s1 s2 cap1 cap2, str_replace dbg (lf s) s sub rsub = Ok s1 /\ srep (join_with rsub ps) cap1 s1 /\
    str_replace dbg (lf s1) s1 rsub sub = Ok s2 /\ srep t cap2 s2.
Proof.
  intros R Hs Hr Os Or Sc F L A. pose proof (zlen_nonneg t). pose proof (zlen_nonneg (join_with rsub ps)). pose proof (r_le _ _ _ R).
  destruct (replace_scan dbg t cap s sub rsub ps R Hs Hr Or Sc) as (Et & s1 & cap1 & E1 & R1); [lia|].
  assert (cap1 + 1 <= alloc_max) as C1 by exact (r_fit _ _ _ R1).
  assert (ps <> []) as Hne by (inversion Sc; discriminate).
  pose proof (scan_join rsub ps Hne Hr F L) as Sc2.
  destruct (replace_scan dbg (join_with rsub ps) cap1 s1 rsub sub ps R1 Hr Hs Os Sc2) as (_ & s2 & cap2 & E2 & R2).
  { rewrite <- Et. lia. }
  exists s1, s2, cap1, cap2. rewrite <- Et in R2. tauto.
Qed.

Lemma piece_in sub ps x : In x ps -> forall c, In c x -> In c (join_with sub ps).
Proof.
  induction ps as [|p ps IH]; intros H c Hc; [elim H|]. destruct ps as [|q ps].
  - destruct H as [->|[]]. exact Hc.
  - change (In c (p ++ sub ++ join_with sub (q :: ps))). apply in_or_app. destruct H as [->|H]; [now left|right; apply in_or_app; right; now apply IH].
Qed.

Lemma replace_back_char dbg t cap s sub c ps : srep t cap s -> 0 < zlen sub -> oks sub -> okc c -> ~ In c t -> scan sub t ps ->
  zlen t + zlen (join_with [c] ps) + cap + 1 <= alloc_max ->
  exists s1 s2 cap1 cap2, str_replace dbg (lf s) s sub [c] = Ok s1 /\ srep (join_with [c] ps) cap1 s1 /\
    str_replace dbg (lf s1) s1 [c] sub = Ok s2 /\ srep t cap2 s2.
Proof.
  intros R Hs Os Oc N Sc A. pose proof (zlen_nonneg t). pose proof (zlen_nonneg (join_with [c] ps)). pose proof (r_le _ _ _ R).
  destruct (replace_scan dbg t cap s sub [c] ps R Hs) as (Et & _); [reflexivity|constructor; [exact Oc|constructor]|exact Sc|lia|].
  assert (forall x, In x ps -> ~ In c x) as Hp. { intros x Hx Hc. apply N. rewrite Et. exact (piece_in sub ps x Hx c Hc). }
  assert (ps <> []) as Hne by (inversion Sc; discriminate).
  apply (replace_back dbg t cap s sub [c] ps R Hs); try assumption; [reflexivity|constructor; [exact Oc|constructor]|..].
  - apply Forall_forall. intros x Hx. apply clear_of_char, Hp.
    rewrite (app_removelast_last [] Hne). apply in_or_app. now left.
  - destruct (cut [c] (last ps [])) as [[a b]|] eqn:E; [|reflexivity]. exfalso. apply cut_some in E.
    apply (Hp (last ps [])); [rewrite (app_removelast_last [] Hne) at 2; apply in_or_app; right; now left|].
    rewrite E. apply in_or_app. right. now left.
Qed.

(** * Repeating an operation *)
Lemma strip_fix f t : forallb f t = false -> forallb f (strip_text f t) = false /\ strip_text f (strip_text f t) = strip_text f t.
Proof.
  intros H. destruct (strip_meaning f t H) as (p & q & _ & _ & _ & (c & m & E1 & F1) & (m' & d & E2 & F2)).
  split.
  - rewrite E1. cbn [forallb]. now rewrite F1.
  - set (u := strip_text f t) in *. unfold strip_text. rewrite E1 at 1. cbn [drop_while]. rewrite F1, <- E1, E2, rev_app_distr. cbn [rev app drop_while]. rewrite F2.
    cbn [rev]. now rewrite rev_involutive.
Qed.

Lemma filter_fix {A} (f : A -> bool) l : filter f (filter f l) = filter f l.
Proof. induction l as [|x l IH]; [reflexivity|]. cbn [filter]. destruct (f x) eqn:E; [cbn [filter]; rewrite E; now f_equal|exact IH]. Qed.

(** Doing [op] twice leaves the text it leaves when done once. *)
Definition settles (op : str -> res str) (s : str) : Prop :=
  exists s1 s2 t cap, op s = Ok s1 /\ op s1 = Ok s2 /\ srep t cap s1 /\ srep t cap s2.

Lemma settle_strip t cap s : srep t cap s -> forallb white t = false -> settles (fun s => str_strip (lf s) s) s.
Proof.
  intros R H. destruct (strip_all_ok t cap s R) as (A & _ & _). destruct (A H) as (s1 & E1 & R1). destruct (strip_fix white t H) as [H' X].
  destruct (strip_all_ok _ cap s1 R1) as (B & _ & _). destruct (B H') as (s2 & E2 & R2). rewrite X in R2. now exists s1, s2, (strip_text white t), cap.
Qed.
Lemma settle_strip_punct t cap s : srep t cap s -> forallb (fun c => white c || punct c) t = false -> settles (fun s => str_strip_punct (lf s) s) s.
Proof.
  intros R H. destruct (strip_all_ok t cap s R) as (_ & A & _). destruct (A H) as (s1 & E1 & R1). destruct (strip_fix _ t H) as [H' X].
  destruct (strip_all_ok _ cap s1 R1) as (_ & B & _). destruct (B H') as (s2 & E2 & R2). rewrite X in R2.
  now exists s1, s2, (strip_text (fun c => white c || punct c) t), cap.
Qed.
Lemma settle_strip_c c t cap s : srep t cap s -> forallb (in_set c) t = false -> 0 < zlen c -> settles (fun s => str_strip_c (lf s) s c) s.
Proof.
  intros R H Hc. destruct (strip_all_ok t cap s R) as (_ & _ & A). destruct (A c H Hc) as (s1 & E1 & R1). destruct (strip_fix _ t H) as [H' X].
  destruct (strip_all_ok _ cap s1 R1) as (_ & _ & B). destruct (B c H' Hc) as (s2 & E2 & R2). rewrite X in R2.
  now exists s1, s2, (strip_text (in_set c) t), cap.
Qed.
Lemma settle_upper t cap s : srep t cap s -> settles str_to_uppercase s.
Proof.
  intros R. destruct (upper_ok t cap s R) as (s1 & E1 & R1). destruct (upper_ok _ cap s1 R1) as (s2 & E2 & R2). rewrite upper_upper in R2.
  now exists s1, s2, (map upper t), cap.
Qed.
Lemma settle_lower t cap s : srep t cap s -> settles str_to_lowercase s.
Proof.
  intros R. destruct (lower_ok t cap s R) as (s1 & E1 & R1). destruct (lower_ok _ cap s1 R1) as (s2 & E2 & R2). rewrite lower_lower in R2.
  now exists s1, s2, (map lower t), cap.
Qed.
Lemma settle_remove_c c t cap s : srep t cap s -> settles (fun s => str_remove_c s c) s.
Proof.
  intros R. destruct (remove_c_ok t cap s c R) as (s1 & E1 & R1). destruct (remove_c_ok _ cap s1 c R1) as (s2 & E2 & R2). unfold keep_out in R2 at 1; unfold keep_out in R2; rewrite filter_fix in R2.
  now exists s1, s2, (keep_out c t), cap.
Qed.
Lemma settle_remove_all z t cap s : srep t cap s -> 0 < zlen z -> settles (fun s => str_remove_all (lf s) s z) s.
Proof.
  intros R H. destruct (remove_all_clean t cap s z R H) as (s1 & t1 & E1 & R1 & C1 & _ & _).
  destruct (remove_all_clean t1 cap s1 z R1 H) as (s2 & t2 & E2 & R2 & _ & K & _). rewrite (K C1) in R2. now exists s1, s2, t1, cap.
Qed.
Lemma settle_all t cap s : srep t cap s ->
  settles str_to_uppercase s /\ settles str_to_lowercase s /\ (forall c, settles (fun s => str_remove_c s c) s) /\
  (forall z, 0 < zlen z -> settles (fun s => str_remove_all (lf s) s z) s) /\
  (forallb white t = false -> settles (fun s => str_strip (lf s) s) s) /\
  (forallb (fun c => white c || punct c) t = false -> settles (fun s => str_strip_punct (lf s) s) s) /\
  (forall c, forallb (in_set c) t = false -> 0 < zlen c -> settles (fun s => str_strip_c (lf s) s c) s).
Proof.
  intros R. split; [now apply (settle_upper t cap)|]. split; [now apply (settle_lower t cap)|]. split; [intros c; now apply (settle_remove_c c t cap)|].
  split; [intros z Hz; now apply (settle_remove_all z t cap)|]. split; [intros H; now apply (settle_strip t cap)|].
  split; [intros H; now apply (settle_strip_punct t cap)|intros c H Hc; now apply (settle_strip_c c t cap)].
Qed.
