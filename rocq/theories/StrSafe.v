(** Debug builds: calls on a string with arbitrary arguments are stopped by a check or leave a
    string in order. *)
From Verif Require Import Base BaseFacts StrModel StrModel2 StrSpec StrProofs StrProofs2 StrProofs3 StrMain.

(** The texts and numbers of a call are C strings that fit into memory, characters other than
    NUL, and numbers of type size_t (the room to reserve below 2^63). *)
Definition tx (z : text) : Prop := oks z /\ zlen z < alloc_max.
Definition nm (n : Z) : Prop := 0 <= n < two64.
Definition sargs (o : sop) : Prop :=
  match o with
  | SAppend z | SAppendf z | SSet z | SFind z | SCanFind z | SRemoveFirst z | SRemoveAll z | SRemoveC z | SStripC z => tx z
  | SAppendN z n | SInsert z n | SInsertf n z | SSetN z n | SSetAt z n => tx z /\ nm n
  | SInsertN z i n => tx z /\ nm i /\ nm n
  | SInsertBefore a b | SInsertAfter a b | SReplace a b | SReplaceFirst a b | SReplaceLast a b | SReplaceC a b => tx a /\ tx b
  | SRemove i n => nm i /\ nm n
  | SSetC c i => okc c /\ nm i
  | SReserve n => 0 <= n < two64 / 2
  | SResize n => nm n
  | SIndexOf c => okc c
  | _ => True
  end.
(** Calls no check guards, on the text [t]: more characters than the argument has, a position
    behind the end in vt_str_insert_n, an absent text in vt_str_replace_last, nothing left to
    keep in the strip functions, empty arguments of loops. *)
Definition unguarded (t : text) (o : sop) : Prop :=
  match o with
  | SAppendN z n | SSetN z n => zlen z < n
  | SInsertN z i n => zlen z < n \/ zlen t < i
  | SRemoveAll z | SCanFind z => z = []
  | SReplaceLast sub rsub => sub <> [] /\ rsub <> [] /\ cut sub t = None
  | SStrip => forallb white t = true
  | SStripPunct => forallb (fun c => white c || punct c) t = true
  | SStripC c => c = [] \/ forallb (in_set c) t = true
  | _ => False
  end.

Definition sgood (r : res str) : Prop := r = Abort \/ exists s t cap, r = Ok s /\ srep t cap s.
Definition sgood2 (r : res (str * option Z)) : Prop := r = Abort \/ exists s out t cap, r = Ok (s, out) /\ srep t cap s.

Lemma sgood_ok1 r : sgood r -> sgood2 (ok1 r).
Proof.
  intros [-> |(s & t & cap & -> & R)]; [left; reflexivity|]. right. exists s, None, t, cap. split; [reflexivity|exact R].
Qed.
Lemma sgood_ok s t cap : srep t cap s -> sgood (Ok s).
Proof. intros R. right. exists s, t, cap. split; [reflexivity|exact R]. Qed.
Lemma sgood_ex r t cap : (exists s, r = Ok s /\ srep t cap s) -> sgood r.
Proof. intros (s & E & R). right. exists s, t, cap. split; assumption. Qed.
Lemma stops_at c : c = false -> dassert true c = Abort.
Proof. intros ->. reflexivity. Qed.

Lemma reserve_big t cap s n : srep t cap s -> 0 < n < two64 / 2 -> alloc_max < cap + n + 1 -> str_reserve true s n = Abort.
Proof.
  intros R Hn H. destruct R as [P O L C LE RM F V]. unfold str_reserve. rewrite dassert_true by lia. rewrite V. cbn [bind enforce negb].
  rewrite C. change (two64 / 2) with 9223372036854775808 in Hn. pose proof (zlen_nonneg t). rewrite w64_small by zlia. unfold srealloc, c_realloc. rewrite dassert_true by lia. cbn [bind].
  destruct (Z.eqb_spec (cap + n + 1) 0); [reflexivity|]. destruct (Z.leb_spec (cap + n + 1) alloc_max); [lia|]. reflexivity.
Qed.
Lemma reserve_safe t cap s n : srep t cap s -> 0 <= n < two64 / 2 -> sgood (str_reserve true s n).
Proof.
  intros R Hn. destruct (Z.eq_dec n 0) as [->|Hz]; [left; reflexivity|].
  destruct (Z.le_gt_cases (cap + n + 1) alloc_max) as [H|H].
  - eapply sgood_ex. apply reserve_ok; [exact R|lia|exact H].
  - left. apply (reserve_big t cap); [exact R|lia|lia].
Qed.
Lemma ensure_safe t cap s n : srep t cap s -> 0 <= n <= 4 * alloc_max -> Z.max cap (zlen t + n) + 1 <= alloc_max \/
  (if str_has_space s <? n then str_reserve true s (w64 (n - str_has_space s)) else Ok s) = Abort.
Proof.
  intros R Hn. destruct (Z.le_gt_cases (Z.max cap (zlen t + n) + 1) alloc_max) as [H|H]; [left; exact H|right].
  rewrite (space_val t cap s R). pose proof (r_le _ _ _ R). pose proof (r_fit _ _ _ R). pose proof (zlen_nonneg t).
  destruct (Z.ltb_spec (cap - zlen t) n); [|lia]. w64s. apply (reserve_big t cap); [exact R| |lia].
  change (two64 / 2) with 9223372036854775808. zlia.
Qed.
Lemma append_n_safe t cap s z k : srep t cap s -> tx z -> 0 <= k <= zlen z -> sgood (str_append_n true s z k).
Proof.
  intros R [O L] Hk. destruct (Z.eq_dec k 0) as [->|Hz]; [left; reflexivity|].
  destruct (ensure_safe t cap s k R) as [H|H]; [zlia| |].
  - eapply sgood_ex. apply (append_n_ok true t cap s z k); try assumption; lia.
  - left. unfold str_append_n. rewrite dassert_true by lia. cbn [bind]. rewrite H. reflexivity.
Qed.
Lemma appendf_safe t cap s z : srep t cap s -> tx z -> sgood (str_appendf true s z).
Proof.
  intros R [O L]. destruct (ensure_safe t cap s (zlen z) R) as [H|H]; [pose proof (zlen_nonneg z); zlia| |].
  - eapply sgood_ex. apply (appendf_ok true t cap s z); assumption.
  - left. unfold str_appendf. rewrite H. reflexivity.
Qed.
Lemma insert_safe t cap s z i : srep t cap s -> tx z -> 0 <= i -> sgood (str_insert true s z i).
Proof.
  intros R [O L] Hi. destruct (Z.lt_ge_cases i (zlen t)) as [H|H].
  - destruct (split_text t i) as (t1 & t2 & -> & L1); [lia|].
    destruct (ensure_safe _ cap s (zlen z) R) as [Hf|Hf]; [pose proof (zlen_nonneg z); zlia| |].
    + eapply sgood_ex. apply (insert_ok true t1 t2 cap s z i); try assumption; zl; lia.
    + left. unfold str_insert. rewrite (r_len _ _ _ R). rewrite dassert_true by lia. cbn [bind]. rewrite Hf. reflexivity.
  - left. unfold str_insert. rewrite (r_len _ _ _ R). destruct (Z.ltb_spec i (zlen t)); [lia|]. reflexivity.
Qed.
Lemma create_len_big n : alloc_max < n + 1 -> n <= 4 * alloc_max -> str_create_len true n = Abort.
Proof.
  intros H Hn. unfold str_create_len. rewrite dassert_true by zlia. cbn [bind].
  replace (c_calloc true array_size) with (Ok (repeat (Some 0) 56)) by (vm_compute; reflexivity). cbn [bind].
  w64s. unfold c_calloc. rewrite dassert_true by zlia. cbn [bind]. destruct (Z.leb_spec (n + 1) alloc_max); [lia|]. reflexivity.
Qed.
Lemma insertf_safe t cap s z i : srep t cap s -> tx z -> 0 <= i -> sgood (str_insertf true s i z).
Proof.
  intros R T Hi. destruct T as [O L]. unfold str_insertf.
  destruct (Z.ltb_spec (zlen z) (tmp_buffer - 1)); [apply (insert_safe t cap); [exact R|split; assumption|exact Hi]|].
  unfold tmp_buffer in *.
  destruct (Z.le_gt_cases (zlen z + 1) alloc_max) as [H1|H1]; [|left; rewrite create_len_big by zlia; reflexivity].
  destruct (create_len_ok true (zlen z)) as (s1 & E1 & R1 & _); [lia|lia|]. rewrite E1. cbn [bind].
  destruct (Z.le_gt_cases (zlen z + zlen z + 2) alloc_max) as [H2|H2].
  - destruct (vfmt_set_ok true _ _ s1 z R1 O) as (s2 & E2 & Z2); [lia|]. rewrite E2. cbn [bind]. rewrite Z2. cbn [bind].
    apply (insert_safe t cap); [exact R|split; assumption|exact Hi].
  - left. unfold str_vfmt_set.
    destruct (ensure_safe _ _ s1 (zlen z + 1) R1) as [Hf|Hf]; [zlia| |].
    + exfalso. zl. rewrite Z2Nat.id in Hf by lia. lia.
    + rewrite Hf. reflexivity.
Qed.
Lemma remove_safe t cap s i n : srep t cap s -> nm i -> nm n -> sgood (str_remove true s i n).
Proof.
  intros R [Hi _] [Hn Hn']. destruct (tstep (t, cap) (SRemove i n)) as [[[t' cap'] out]|] eqn:E.
  - destruct (step_ok true _ _ s _ _ _ _ R E) as (s' & E' & R'). cbn [sstep] in E'. unfold ok1 in E'.
    destruct (str_remove true s i n) as [s1| | |] eqn:F; try discriminate. injection E' as -> _. eapply sgood_ok. exact R'.
  - left. cbn [tstep] in E. unfold str_remove. rewrite (r_len _ _ _ R).
    destruct (Z.ltb_spec 0 n); [|reflexivity]. destruct (Z.ltb_spec i (zlen t)); [|reflexivity]. exfalso.
    destruct (Z.ltb_spec n two64); [|lia]. destruct (Z.leb_spec 0 i); [|lia]. discriminate.
Qed.
Lemma replace_at_safe a sub rsub b cap s : srep (a ++ sub ++ b) cap s -> 0 < zlen sub -> 0 < zlen rsub -> tx rsub ->
  str_remove true s 0 0 = Abort -> (replace_at true s sub rsub (zlen a) = Abort) \/
  exists s' cap', replace_at true s sub rsub (zlen a) = Ok s' /\ srep (a ++ rsub ++ b) cap' s'.
Proof.
  intros R Hs Hr [O L] _. pose proof (r_le _ _ _ R) as LE. pose proof (r_fit _ _ _ R) as FT.
  destruct (Z.le_gt_cases (Z.max cap (zlen (a ++ rsub ++ b)) + 1) alloc_max) as [H|H].
  - right. destruct (replace_at_ok true a sub rsub b cap s R Hs Hr O H) as (s' & E & R'). eauto.
  - left. unfold replace_at. destruct (Z.eqb_spec (zlen sub) (zlen rsub)) as [He|He]; [exfalso; zl; lia|].
    destruct (remove_ok true a sub b cap s (zlen a) (zlen sub) R eq_refl Hs (or_introl eq_refl)) as (s1 & E1 & R1 & _).
    rewrite E1. cbn [bind]. rewrite (r_len _ _ _ R1).
    destruct (ensure_safe _ cap s1 (zlen rsub) R1) as [Hf|Hf]; [zlia|exfalso; zl; lia|].
    destruct (Z.ltb_spec (zlen a) (zlen (a ++ b))).
    + unfold str_insert. rewrite (r_len _ _ _ R1). rewrite dassert_true by lia. cbn [bind]. rewrite Hf. reflexivity.
    + unfold str_append, str_append_n. rewrite dassert_true by lia. cbn [bind]. rewrite Hf. reflexivity.
Qed.
Lemma replace_loop_safe sub rsub : 0 < zlen sub -> 0 < zlen rsub -> tx rsub -> forall f rest d cap s,
  srep (d ++ rest) cap s -> (length rest < f)%nat -> sgood (replace_loop f true s sub rsub (zlen d)).
Proof.
  intros Hs Hr T f. induction f as [|f IH]; intros rest d cap s R H1; [lia|]. cbn [replace_loop].
  rewrite (cstr_mid _ _ _ _ _ R eq_refl). cbn [bind]. rewrite strstr_cut.
  destruct (cut sub rest) as [[a b]|] eqn:E; [|eapply sgood_ok; exact R].
  pose proof (cut_shorter _ _ _ _ Hs E) as Hsh. apply cut_some in E. subst rest. rewrite app_assoc in R.
  replace (zlen d + zlen a) with (zlen (d ++ a)) by (zl; lia).
  destruct (replace_at_safe (d ++ a) sub rsub b cap s R Hs Hr T eq_refl) as [E1|(s1 & cap' & E1 & R1)]; rewrite E1; cbn [bind]; [left; reflexivity|].
  replace (zlen (d ++ a) + zlen rsub) with (zlen (d ++ a ++ rsub)) by (zl; lia).
  apply (IH b (d ++ a ++ rsub) cap' s1); [|lia]. rewrite <- !app_assoc in *. exact R1.
Qed.
Lemma nil_or_pos {A} (l : list A) : l = [] \/ 0 < zlen l.
Proof. destruct l; [left; reflexivity|right; unfold zlen; cbn [length]; lia]. Qed.
Lemma is_nil_pos {A} (l : list A) : 0 < zlen l -> is_nil l = false.
Proof. destruct l; [unfold zlen; cbn; lia|reflexivity]. Qed.

Lemma step_safe t cap s o : srep t cap s -> sargs o -> ~ unguarded t o -> sgood2 (sstep true s o).
Proof.
  intros R A U. pose proof (r_len _ _ _ R) as LN. pose proof (r_le _ _ _ R) as LE. pose proof (r_fit _ _ _ R) as FT. pose proof (fuel_len _ _ _ R) as FL.
  destruct (tstep (t, cap) o) as [[[t' cap'] out]|] eqn:E.
  { destruct (step_ok true _ _ s _ _ _ _ R E) as (s' & E' & R'). right. exists s', out, t', cap'. split; assumption. }
  destruct o; cbn [tstep sstep sargs unguarded] in *; try discriminate.
  - apply sgood_ok1. apply (append_n_safe t cap); [exact R|exact A|pose proof (zlen_nonneg z); lia].
  - apply sgood_ok1. apply (append_n_safe t cap); [exact R|apply A|destruct A as [_ [? _]]; lia].
  - apply sgood_ok1. apply (appendf_safe t cap); assumption.
  - apply sgood_ok1. apply (insert_safe t cap); [exact R|apply A|apply A].
  - (* insert_n *)
    apply sgood_ok1. destruct A as ([O L] & [Hi _] & [Hn _]). assert (n <= zlen z /\ at_ <= zlen t) as [Hz Ha] by lia.
    destruct (Z.eq_dec n 0) as [->|Hp]; [left; reflexivity|].
    destruct (split_text t at_) as (t1 & t2 & -> & L1); [lia|].
    destruct (ensure_safe _ cap s n R) as [Hf|Hf]; [zlia| |].
    + eapply sgood_ex. apply (insert_n_ok true t1 t2 cap s z n at_); try assumption; lia.
    + left. unfold str_insert_n. rewrite dassert_true by lia. cbn [bind]. rewrite Hf. reflexivity.
  - apply sgood_ok1. apply (insertf_safe t cap); [exact R|apply A|apply A].
  - (* insert_before *)
    apply sgood_ok1. unfold str_insert_before. destruct A as [_ Tz]. unfold str_index_find, str_find. rewrite LN.
    destruct (Z.leb_spec (zlen sub) (zlen t)); [|left; reflexivity]. cbn [enforce bind]. rewrite (z_ok _ _ _ R). cbn [bind].
    destruct (strstr t sub) as [i|] eqn:Es; cbn [bind]; [|change (-1 <? 0) with true; eapply sgood_ok; exact R].
    assert (0 <= i) by (rewrite strstr_cut in Es; destruct (cut sub t) as [[a b]|]; [|discriminate]; injection Es as <-; apply zlen_nonneg).
    destruct (Z.ltb_spec i 0); [lia|]. apply (insert_safe t cap); assumption.
  - apply sgood_ok1. unfold str_insert_after. destruct A as [_ Tz]. unfold str_index_find, str_find. rewrite LN.
    destruct (Z.leb_spec (zlen sub) (zlen t)); [|left; reflexivity]. cbn [enforce bind]. rewrite (z_ok _ _ _ R). cbn [bind].
    destruct (strstr t sub) as [i|] eqn:Es; cbn [bind]; [|change (-1 <? 0) with true; eapply sgood_ok; exact R].
    assert (0 <= i) by (rewrite strstr_cut in Es; destruct (cut sub t) as [[a b]|]; [|discriminate]; injection Es as <-; apply zlen_nonneg).
    destruct (Z.ltb_spec i 0); [lia|]. apply (insert_safe t cap); [exact R|exact Tz|pose proof (zlen_nonneg sub); lia].
  - apply sgood_ok1. apply (remove_safe t cap); [exact R|apply A|apply A].
  - (* set *)
    left. unfold str_set, str_set_n. rewrite LN. destruct A as [O _]. apply okz_oks in O. rewrite O in E. cbn [andb] in E.
    destruct (Z.ltb_spec 0 (zlen z)); [|reflexivity]. cbn [andb] in E. destruct (zlen z <=? zlen t); [discriminate|]. reflexivity.
  - left. unfold str_set_n. rewrite LN. destruct A as [[O _] _]. apply okz_oks in O. rewrite O in E. cbn [andb] in E.
    destruct (Z.ltb_spec 0 n); [|reflexivity]. cbn [andb] in E. destruct (Z.leb_spec n (zlen z)); [|lia]. cbn [andb] in E.
    destruct (n <=? zlen t); [discriminate|]. reflexivity.
  - (* set_at *)
    left. unfold str_set_at. rewrite LN. destruct A as [[O L] [Hi Hi2]]. destruct (Z.ltb_spec at_ (zlen t)); [|reflexivity]. cbn [dassert bind].
    pose proof (zlen_nonneg t). w64s. destruct (Z.leb_spec (zlen z) (zlen t - at_)); [|reflexivity]. cbn [enforce bind].
    apply okz_oks in O. rewrite O in E. destruct (Z.ltb_spec 0 (zlen z)).
    { exfalso. destruct (Z.leb_spec 0 at_); [|lia]. destruct (Z.ltb_spec at_ (zlen t)); [|lia]. destruct (Z.leb_spec (zlen z) (zlen t - at_)); [discriminate|lia]. }
    destruct (remove_safe t cap s at_ (zlen t - at_) R) as [E1|(s1 & t1 & cap1 & E1 & R1)]; [split; zlia|split; zlia| |];
      rewrite E1; cbn [bind]; [reflexivity|]. unfold str_append_n. destruct (Z.ltb_spec 0 (zlen z)); [lia|]. reflexivity.
  - left. unfold str_set_c. rewrite LN. destruct A as [O [Hi _]].
    assert (okz [c] = true) as O' by (apply okz_oks; repeat constructor; apply O). rewrite O' in E. cbn [andb] in E.
    destruct (Z.leb_spec 0 at_); [|lia]. cbn [andb] in E. destruct (at_ <? zlen t); [discriminate|]. reflexivity.
  - apply sgood_ok1. apply (reserve_safe t cap); assumption.
  - (* resize *)
    destruct A as [Hn Hn']. destruct (Z.ltb_spec 0 n); [|left; unfold str_resize; rewrite stops_at by (apply Z.ltb_ge; lia); reflexivity].
    cbn [andb] in E. unfold sfits in E. destruct (Z.leb_spec (n + 1) alloc_max); [discriminate|].
    left. unfold str_resize. rewrite dassert_true by lia. rewrite (r_view _ _ _ R). cbn [bind enforce negb].
    destruct (Z.eq_dec n (two64 - 1)) as [->|Hne]; [vm_compute; reflexivity|].
    rewrite w64_small by lia. unfold srealloc, c_realloc. rewrite dassert_true by lia. cbn [bind].
    destruct (Z.eqb_spec (n + 1) 0); [reflexivity|]. destruct (Z.leb_spec (n + 1) alloc_max); [lia|]. reflexivity.
  - destruct (cut z t) as [[a b]|]; discriminate.
  - destruct (nil_or_pos z) as [->|Hz]; [exfalso; apply U; reflexivity|]. destruct (Z.ltb_spec 0 (zlen z)); [discriminate|lia].
  - (* replace *)
    apply sgood_ok1. destruct A as [_ T]. unfold str_replace.
    destruct (nil_or_pos sub) as [->|Hs]; [eapply sgood_ok; exact R|]. rewrite (is_nil_pos sub Hs).
    destruct (nil_or_pos rsub) as [->|Hr]; [eapply sgood_ok; exact R|]. rewrite (is_nil_pos rsub Hr). cbn [orb].
    apply (replace_loop_safe sub rsub Hs Hr T (lf s) t [] cap s R). unfold lf. lia.
  - apply sgood_ok1. destruct A as [_ T]. unfold str_replace_first.
    destruct (nil_or_pos sub) as [->|Hs]; [eapply sgood_ok; exact R|]. rewrite (is_nil_pos sub Hs).
    destruct (nil_or_pos rsub) as [->|Hr]; [eapply sgood_ok; exact R|]. rewrite (is_nil_pos rsub Hr). cbn [orb].
    unfold str_find. rewrite LN. destruct (Z.leb_spec (zlen sub) (zlen t)); [|left; reflexivity]. cbn [enforce bind].
    rewrite (z_ok _ _ _ R). cbn [bind]. rewrite strstr_cut. destruct (cut sub t) as [[a b]|] eqn:Ec; [|eapply sgood_ok; exact R].
    apply cut_some in Ec. subst t.
    destruct (replace_at_safe a sub rsub b cap s R Hs Hr T eq_refl) as [E1|(s1 & cap' & E1 & R1)]; rewrite E1; [left; reflexivity|eapply sgood_ok; exact R1].
  - (* replace_last *)
    apply sgood_ok1. destruct A as [_ T]. unfold str_replace_last.
    destruct (nil_or_pos sub) as [->|Hs]; [eapply sgood_ok; exact R|]. rewrite (is_nil_pos sub Hs).
    destruct (nil_or_pos rsub) as [->|Hr]; [eapply sgood_ok; exact R|]. rewrite (is_nil_pos rsub Hr). cbn [orb].
    rewrite (z_ok _ _ _ R). cbn [bind].
    destruct (last_cut (length t) sub t) as [[a b]|] eqn:El.
    + destruct (last_ok_scan sub cap s t (lf s) a b R Hs) as (i & E1 & E2); [unfold lf; lia|exact El|].
      rewrite E1, E2. cbn [bind]. apply last_cut_some in El. subst t.
      destruct (replace_at_safe a sub rsub b cap s R Hs Hr T eq_refl) as [E3|(s1 & cap' & E3 & R1)]; rewrite E3; [left; reflexivity|eapply sgood_ok; exact R1].
    + exfalso. apply U. apply last_cut_none in El; [|exact Hs|lia]. repeat split; [| |exact El]; intros ->; unfold zlen in *; cbn in *; lia.
  - (* replace_c *)
    left. unfold str_replace_c. destruct A as [_ [O _]]. apply okz_oks in O. rewrite O in E. cbn [andb] in E.
    destruct (zlen r <=? zlen c); [discriminate|]. reflexivity.
  - destruct (forallb white t) eqn:F; [exfalso; apply U; reflexivity|discriminate].
  - destruct (forallb (fun c => white c || punct c) t) eqn:F; [exfalso; apply U; reflexivity|discriminate].
  - destruct (nil_or_pos c) as [->|Hc]; [exfalso; apply U; left; reflexivity|].
    destruct (forallb (in_set c) t) eqn:F; [exfalso; apply U; right; reflexivity|].
    destruct (Z.ltb_spec 0 (zlen c)); [discriminate|lia].
  - left. unfold str_index_find, str_find. rewrite LN. destruct (zlen z <=? zlen t); [discriminate|]. reflexivity.
  - destruct (nil_or_pos z) as [->|Hz]; [exfalso; apply U; reflexivity|].
    left. unfold str_can_find. rewrite LN. destruct (Z.ltb_spec 0 (zlen z)); [|lia]. cbn [andb] in E. destruct (zlen z <=? zlen t); [discriminate|]. reflexivity.
  - assert (okz [c] = true) as O' by (apply okz_oks; repeat constructor; apply A). rewrite O' in E. discriminate.
Qed.

(** * Sequences of calls *)
Definition iargs (i : sinit) : Prop := match i with ICreate z | IDup z | IOwn z _ => tx z | ICapacity n | ILen n => nm n end.
Lemma create_len_none n : nm n -> n = 0 \/ alloc_max < n + 1 -> str_create_len true n = Abort.
Proof.
  intros [H0 H1] H. destruct H as [->|H]; [reflexivity|]. unfold str_create_len. rewrite dassert_true by zlia. cbn [bind].
  replace (c_calloc true array_size) with (Ok (repeat (Some 0) 56)) by (vm_compute; reflexivity). cbn [bind].
  destruct (Z.eq_dec n (two64 - 1)) as [->|Hne]; [vm_compute; reflexivity|].
  rewrite w64_small by lia. unfold c_calloc. rewrite dassert_true by zlia. cbn [bind]. destruct (Z.leb_spec (n + 1) alloc_max); [lia|]. reflexivity.
Qed.
Lemma make_safe i : iargs i -> sgood (smake true i).
Proof.
  intros A. destruct (tinit i) as [[t cap]|] eqn:E.
  { destruct (make_ok true i t cap E) as (s & F & R). rewrite F. eapply sgood_ok. exact R. }
  left. destruct i; cbn [tinit smake iargs] in *; unfold sfits in E.
  - destruct A as [O L]. apply okz_oks in O. rewrite O in E. cbn [andb] in E. unfold str_create.
    destruct (nil_or_pos z) as [->|Hz]; [reflexivity|]. destruct (Z.ltb_spec 0 (zlen z)); [|lia]. destruct (Z.leb_spec (zlen z + 1) alloc_max); [discriminate|lia].
  - unfold str_create_capacity. destruct (Z.ltb_spec 0 n); [|reflexivity]. destruct (Z.leb_spec (n + 1) alloc_max); [discriminate|].
    cbn [dassert bind]. rewrite create_len_none by (assumption || (right; lia)). reflexivity.
  - apply create_len_none; [exact A|]. destruct (Z.ltb_spec 0 n); [|destruct A; left; lia]. destruct (Z.leb_spec (n + 1) alloc_max); [discriminate|right; lia].
  - destruct A as [O L]. apply okz_oks in O. rewrite O in E. cbn [andb] in E. destruct (Z.leb_spec (zlen z + 1) alloc_max); [discriminate|lia].
  - destruct A as [O L]. apply okz_oks in O. rewrite O in E. cbn [andb] in E. unfold str_create.
    destruct (nil_or_pos z) as [->|Hz]; [reflexivity|]. destruct (Z.ltb_spec 0 (zlen z)); [|lia]. destruct (Z.leb_spec (zlen z + 1) alloc_max); [discriminate|lia].
Qed.
(** Calls of which none is unguarded on the text the string holds at that moment. *)
Fixpoint careful (s : str) (ops : list sop) : Prop :=
  match ops with
  | [] => True
  | o :: ops' =>
      sargs o /\ (forall t, str_z s = Ok t -> ~ unguarded t o) /\
      forall s' out, sstep true s o = Ok (s', out) -> careful s' ops'
  end.
Lemma run_safe : forall ops t cap s, srep t cap s -> careful s ops ->
  srun true s ops = Abort \/ exists s' outs t' cap', srun true s ops = Ok (s', outs) /\ srep t' cap' s'.
Proof.
  induction ops as [|o ops IH]; intros t cap s R C; cbn [srun careful] in *.
  { right. exists s, [], t, cap. split; [reflexivity|exact R]. }
  destruct C as (A & U & C). destruct (step_safe t cap s o R A (U t (z_ok _ _ _ R))) as [E|(s1 & out & t1 & cap1 & E & R1)]; rewrite E; [left; reflexivity|].
  cbn [bind fst snd]. destruct (IH t1 cap1 s1 R1 (C _ _ E)) as [F|(s2 & outs & t2 & cap2 & F & R2)]; rewrite F; [left; reflexivity|].
  right. exists s2, (out :: outs), t2, cap2. split; [reflexivity|exact R2].
Qed.
Lemma session_safe i ops : iargs i -> (forall s, smake true i = Ok s -> careful s ops) ->
  (let* s := smake true i in srun true s ops) = Abort \/
  exists s outs z, (let* s := smake true i in srun true s ops) = Ok (s, outs) /\
    str_z s = Ok z /\ zlen z = str_len s /\ str_len s <= str_capacity s /\ str_capacity s + 1 <= zlen (sb s).
Proof.
  intros A C. destruct (make_safe i A) as [E|(s & t & cap & E & R)]; rewrite E; [left; reflexivity|]. cbn [bind].
  destruct (run_safe ops t cap s R (C s E)) as [F|(s' & outs & t' & cap' & F & R')]; [left; exact F|right].
  exists s', outs, t'. split; [exact F|]. split; [exact (z_ok _ _ _ R')|]. destruct R'. unfold str_len, str_capacity. lia.
Qed.
