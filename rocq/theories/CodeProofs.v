(** Proofs: keeping any text in one line by replacing % and line feeds (C235). *)
From Verif Require Import Base BaseFacts StrModel StrModel2 StrSpec StrProofs StrProofs2 StrProofs3 StrMain StrLaws DblProofs.

(** [t] with % written as %25 and line feeds as %0A. *)
Definition pct : list Z := [37; 50; 53].
Definition pct_lf : list Z := [37; 48; 65].
Definition coded (t : list Z) : list Z := flat_map (fun x => if x =? 37 then pct else if x =? 10 then pct_lf else [x]) t.
Lemma coded_two t : coded t = each 10 pct_lf (each 37 pct t).
Proof.
  induction t as [|x t IH]; [reflexivity|]. unfold coded, each in *. cbn [flat_map]. rewrite flat_map_app, <- IH. f_equal.
  destruct (Z.eqb_spec x 37) as [->|N]; [reflexivity|]. cbn [flat_map]. destruct (x =? 10); cbn [app]; now rewrite ?app_nil_r.
Qed.
Lemma coded_no_lf t : ~ In 10 (coded t).
Proof.
  intros H. unfold coded in H. apply in_flat_map in H as (x & _ & H). destruct (x =? 37); [cbn in H; lia|]. destruct (Z.eqb_spec x 10); [cbn in H; lia|]. destruct H as [H|[]]. contradiction.
Qed.
Lemma each_len c r t : 1 <= zlen r -> zlen t <= zlen (each c r t) <= zlen r * zlen t.
Proof.
  intros Hr. induction t as [|x t IH]; [unfold zlen, each in *; cbn [length flat_map]; lia|]. unfold each. cbn [flat_map]. fold (each c r t).
  destruct (x =? c); unfold zlen in *; rewrite app_length; cbn [length]; nia.
Qed.

(** Writing [c] as [c] followed by anything can be taken back. *)
Lemma clear_start c w x : ~ In c x -> clear_of (c :: w) x.
Proof.
  intros N. unfold clear_of. rewrite <- (app_nil_r (x ++ c :: w)), <- app_assoc. apply cut_intro. intros a' b' X.
  destruct (Z.le_gt_cases (zlen x) (zlen a')) as [|Hlt]; [assumption|exfalso]. apply N.
  destruct (split_at x (zlen a')) as (p & q & Ex & Lp); [zlia|]. subst x. rewrite <- app_assoc in X.
  destruct (app_len_inj _ _ _ _ X Lp) as [-> X2]. destruct q as [|y q]; [rewrite app_nil_r in Hlt; lia|]. injection X2 as -> _. apply in_or_app. right. now left.
Qed.
Lemma each_id c t : each c [c] t = t.
Proof. induction t as [|x t IH]; [reflexivity|]. unfold each in *. cbn [flat_map]. rewrite IH. destruct (Z.eqb_spec x c) as [->|]; reflexivity. Qed.
Lemma last_in {A} (l : list A) d : l <> [] -> In (last l d) l.
Proof. intros H. rewrite (app_removelast_last d H) at 2. apply in_or_app. right. now left. Qed.
Lemma init_in {A} (l : list A) x : l <> [] -> In x (removelast l) -> In x l.
Proof. destruct l as [|a l]; [congruence|]. intros H Hx. rewrite (app_removelast_last a H). apply in_or_app. now left. Qed.
Lemma each_back dbg t cap s c r : srep (each c r t) cap s -> okc c -> r <> [] -> (forall x, In x (pieces (length t) [c] t) -> clear_of r x /\ cut r x = None) ->
  zlen t + 1 <= alloc_max -> exists s' cap', str_replace dbg (lf s) s r [c] = Ok s' /\ srep t cap' s'.
Proof.
  intros R Oc Hr F A. pose proof (scan_pieces [c] ltac:(reflexivity) (length t) t (le_n _)) as Sc. destruct (scan_each c r t _ Sc) as (Hne & E & _).
  destruct (scan_each c [c] t _ Sc) as (_ & Ei & _). rewrite each_id in Ei. set (ps := pieces (length t) [c] t) in *. rewrite <- E in R.
  assert (0 < zlen r) as Lr by (destruct r; [congruence|]; unfold zlen; cbn [length]; lia).
  assert (scan r (join_with r ps) ps) as Sr.
  { apply scan_join; [exact Hne|exact Lr| |apply F; now apply last_in]. apply Forall_forall. intros x Hx. apply F. now apply init_in. }
  destruct (replace_scan dbg _ cap s r [c] ps R Lr ltac:(reflexivity)) as (_ & s' & cap' & E1 & R1); [constructor; [exact Oc|constructor]|exact Sr| |].
  - rewrite Ei. pose proof (r_fit _ _ _ R). lia.
  - exists s', cap'. rewrite Ei in R1. now split.
Qed.
Lemma pieces_none c t x : In x (pieces (length t) [c] t) -> ~ In c x.
Proof. pose proof (scan_pieces [c] ltac:(reflexivity) (length t) t (le_n _)) as Sc. destruct (scan_each c [c] t _ Sc) as (_ & _ & F). rewrite Forall_forall in F. apply F. Qed.
Lemma start_none c w x : ~ In c x -> cut (c :: w) x = None.
Proof. intros N. apply cut_none. intros a b ->. apply N. apply in_or_app. right. now left. Qed.

(** Every % is followed by a 2. *)
Definition pct2 (t : list Z) : Prop := forall a y, t = a ++ 37 :: y -> exists y', y = 50 :: y'.
Lemma each_pct2 t : pct2 (each 37 pct t).
Proof.
  induction t as [|x t IH]; intros a y E; [destruct a; discriminate|]. unfold each in E. cbn [flat_map] in E. fold (each 37 pct t) in E. destruct (Z.eqb_spec x 37) as [->|N].
  - cbn [pct app] in E. destruct a as [|a0 [|a1 [|a2 a]]]; cbn [app] in E; try (injection E; intros; subst; eauto; discriminate); try (injection E as _ _ _ E; exact (IH _ _ E)).
  - cbn [app] in E. destruct a as [|a0 a]; cbn [app] in E; [injection E as E _; contradiction|]. injection E as _ E. exact (IH _ _ E).
Qed.
Lemma scan_pct2 t ps : scan [10] t ps -> pct2 t -> Forall pct2 ps.
Proof.
  induction 1 as [t H|a b ps H _ IH]; intros Q; [now repeat constructor|]. constructor.
  - intros x y ->. destruct (Q x (y ++ [10] ++ b)) as (y' & E); [now rewrite <- app_assoc|]. destruct y as [|y0 y]; [discriminate|]. injection E as -> _. now exists y.
  - apply IH. intros x y ->. apply (Q (a ++ [10] ++ x) y). now rewrite <- !app_assoc.
Qed.
Lemma pct2_clear x : pct2 x -> clear_of pct_lf x.
Proof.
  intros Q. unfold clear_of. rewrite <- (app_nil_r (x ++ pct_lf)), <- app_assoc. apply cut_intro. intros a' b' X.
  destruct (Z.le_gt_cases (zlen x) (zlen a')) as [|Hlt]; [assumption|exfalso].
  destruct (split_at x (zlen a')) as (p & q & Ex & Lp); [zlia|]. subst x. rewrite <- app_assoc in X.
  destruct (app_len_inj _ _ _ _ X Lp) as [-> X2]. destruct q as [|y q]; [rewrite app_nil_r in Hlt; lia|]. cbn [pct_lf app] in X2. injection X2 as -> X2.
  destruct (Q a' q eq_refl) as (q' & ->). discriminate.
Qed.
Lemma pct2_none x : pct2 x -> cut pct_lf x = None.
Proof. intros Q. apply cut_none. intros a b X. destruct (Q a (48 :: 65 :: b) X) as (y' & Y). discriminate. Qed.

(** There, and back: two calls of vt_str_replace each. *)
Lemma coded_len t : zlen t <= zlen (coded t) <= 3 * zlen t.
Proof. unfold coded. induction t as [|x t IH]; [unfold zlen; cbn; lia|]. cbn [flat_map]. destruct (x =? 37); [|destruct (x =? 10)]; unfold zlen in *; rewrite app_length; cbn [length pct pct_lf]; lia. Qed.
Lemma coded_oks t : oks t -> oks (coded t).
Proof.
  intros H. unfold coded. apply Forall_forall. intros c Hc. apply in_flat_map in Hc as (x & Hx & Hc). unfold oks in H. rewrite Forall_forall in H. specialize (H x Hx).
  destruct (x =? 37); [|destruct (x =? 10)]; cbn in Hc; unfold okc in *; intuition (subst; lia).
Qed.
Lemma encode_ok dbg t cap s : srep t cap s -> Z.max cap (zlen (coded t)) + 1 <= alloc_max ->
  exists s1 s2 cap2, str_replace dbg (lf s) s [37] pct = Ok s1 /\ str_replace dbg (lf s1) s1 [10] pct_lf = Ok s2 /\ srep (coded t) cap2 s2.
Proof.
  intros R A. set (t1 := each 37 pct t).
  assert (oks pct) as O1 by (repeat constructor; unfold okc; lia). assert (oks pct_lf) as O2 by (repeat constructor; unfold okc; lia).
  assert (zlen t1 <= zlen (coded t)) as L1 by (rewrite coded_two; fold t1; apply (each_len 10 pct_lf t1); unfold zlen; cbn; lia).
  destruct (replace_each dbg t cap s 37 pct R ltac:(discriminate) O1) as (s1 & cap1 & E1 & R1); [fold t1; lia|]. fold t1 in R1. pose proof (r_fit _ _ _ R1) as F1.
  destruct (replace_each dbg t1 cap1 s1 10 pct_lf R1 ltac:(discriminate) O2) as (s2 & cap2 & E2 & R2); [unfold t1; rewrite <- coded_two; lia|].
  exists s1, s2, cap2. rewrite coded_two. auto.
Qed.
Lemma decode_ok dbg t cap s : srep (coded t) cap s ->
  exists s1 s2 cap2, str_replace dbg (lf s) s pct_lf [10] = Ok s1 /\ str_replace dbg (lf s1) s1 pct [37] = Ok s2 /\ srep t cap2 s2.
Proof.
  intros R. pose proof (coded_len t) as [L0 _]. set (t1 := each 37 pct t). pose proof (r_fit _ _ _ R). pose proof (r_le _ _ _ R).
  assert (zlen t1 <= zlen (coded t)) as L1 by (rewrite coded_two; fold t1; apply (each_len 10 pct_lf t1); unfold zlen; cbn; lia).
  rewrite coded_two in R. fold t1 in R. rewrite coded_two in *. fold t1 in L0, L1, H0.
  destruct (each_back dbg t1 cap s 10 pct_lf R) as (s3 & cap3 & E3 & R3); [unfold okc; lia|discriminate| |lia|].
  { intros x Hx. pose proof (scan_pct2 _ _ (scan_pieces [10] ltac:(reflexivity) (length t1) t1 (le_n _)) (each_pct2 t)) as F. rewrite Forall_forall in F. specialize (F x Hx).
    split; [now apply pct2_clear|now apply pct2_none]. }
  destruct (each_back dbg t cap3 s3 37 pct R3) as (s4 & cap4 & E4 & R4); [unfold okc; lia|discriminate| |lia|].
  { intros x Hx. apply pieces_none in Hx. split; [now apply clear_start|now apply start_none]. }
  exists s3, s4, cap4. auto.
Qed.
