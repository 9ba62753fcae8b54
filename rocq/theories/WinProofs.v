(** Proofs about the Windows branch of the text functions of path.c (after PathProofs.v and PathLaws.v). *)
From Verif Require Import Base BaseFacts PlistModel StrModel StrModel2 StrSpec StrProofs StrProofs2 StrProofs3 StrMain NumProofs FsModel PathModel FsSpec FsProofs PathProofs PathLaws WinModel.

Lemma wsep_ok : oks wsep.
Proof. repeat constructor; unfold okc; lia. Qed.
Lemma wsep_len : zlen wsep = 1.
Proof. reflexivity. Qed.

Lemma wcut_sep_some a r : exists x y, cut wsep (a ++ wsep ++ r) = Some (x, y).
Proof.
  destruct (cut wsep (a ++ wsep ++ r)) as [[x y]|] eqn:E; [eauto|]. exfalso. exact (proj1 (cut_none _ _) E a r eq_refl).
Qed.

(** * vt_path_basename *)
Lemma wbase_loop_ok d : forall b1 b2 k, 0 < zlen d -> ~ In 92 b1 -> (0 < zlen (b1 ++ b2)) -> (length b1 < k)%nat ->
  wbase_loop k (d ++ [92] ++ b1 ++ b2) (zlen d + zlen b1) = Ok (Some (zlen d + 1)).
Proof.
  intros b1. induction b1 as [|c b1 IH] using rev_ind; intros b2 k Hd Hn Hb Hk; (destruct k as [|k]; [lia|]); cbn [wbase_loop].
  - replace (0 <? zlen d + zlen (@nil Z)) with true by (zl; zlia).
    unfold zblk. rewrite map_app, <- app_assoc. cbn [app map]. rewrite bbyte_app by (zl; lia). cbn [bind].
    match goal with |- context [negb ?c] => replace c with false by (zl; zlia) end. cbn. f_equal. f_equal. zl. lia.
  - replace (0 <? zlen d + zlen (b1 ++ [c])) with true by (zl; zlia).
    unfold zblk. replace (map Some (d ++ [92] ++ (b1 ++ [c]) ++ b2) ++ [Some 0])
      with (map Some (d ++ [92] ++ b1) ++ Some c :: map Some b2 ++ [Some 0]) by (rewrite !map_app, <- !app_assoc; reflexivity).
    rewrite bbyte_app by (zl; lia). cbn [bind].
    replace (c =? 92) with false by (symmetry; apply Z.eqb_neq; intros ->; apply Hn, in_or_app; right; left; reflexivity).
    cbn [andb]. replace (zlen d + zlen (b1 ++ [c]) - 1) with (zlen d + zlen b1) by (zl; lia).
    rewrite <- app_assoc. apply IH; try assumption; try (zl; zlia).
    + intros H. apply Hn, in_or_app. now left.
    + rewrite app_length in Hk. cbn [length] in Hk. lia.
Qed.

Lemma wbasename_ok dbg s d b : oks (d ++ [92] ++ b) -> 0 < zlen d -> 0 < zlen b -> ~ In 92 b ->
  zlen (d ++ [92] ++ b) + 1 <= alloc_max -> target_ok s (zlen (d ++ [92] ++ b)) ->
  exists st cap, wpath_basename dbg s (d ++ [92] ++ b) = Ok (Some st) /\ srep b cap st.
Proof.
  intros O Hd Hb Hn Hf Ht. unfold wpath_basename. set (z := d ++ [92] ++ b) in *.
  assert (zlen z = zlen d + 1 + zlen b) as Lz by (unfold z; zl; lia).
  change (str_can_find (S (length (sb (str_create_static z)))) (str_create_static z) wsep)
    with (str_can_find (S (length (sb (as_str z)))) (as_str z) wsep).
  pose proof (as_str_rep z O Hf) as R0.
  rewrite (can_find_ok _ _ _ _ _ R0) by (rewrite ?wsep_len; pose proof (fuel_len _ _ _ R0); lia). cbn [bind].
  assert (zlen (split_on wsep z) <> 1) as HC.
  { intros H. apply pieces_one in H; [|rewrite wsep_len; lia|lia]. destruct (wcut_sep_some d b) as (x & y & E).
    unfold wsep in *. unfold z in H. rewrite E in H. discriminate. }
  replace (zlen (split_on wsep z) - 1 =? 0) with false by lia.
  assert (exists st0 t0 cap0, (match s with Some s => Ok s | None => str_create_len dbg (zlen z) end) = Ok st0 /\ srep t0 cap0 st0 /\ cap0 + (zlen z - zlen t0) + 1 <= alloc_max)
    as (st0 & t0 & cap0 & E0 & R1 & Hc).
  { destruct s as [s|].
    - destruct (Ht s eq_refl) as (t & cap & R & H). exists s, t, cap. split; [reflexivity|]. split; [exact R|]. zlia.
    - destruct (create_len_ok dbg (zlen z)) as (s1 & E1 & R1 & _); [zlia|lia|]. exists s1. eexists. eexists. split; [exact E1|]. split; [exact R1|].
      zl. zlia. }
  rewrite E0. cbn [bind]. rewrite (w64_small (zlen z - 1)) by zlia.
  replace (zlen z - 1) with (zlen d + zlen b) by lia.
  assert (wbase_loop (length z) z (zlen d + zlen b) = Ok (Some (zlen d + 1))) as EB.
  { unfold z. pose proof (wbase_loop_ok d b [] (length z)) as X. rewrite app_nil_r in X. apply X; try assumption.
    unfold zlen in Lz. lia. }
  rewrite EB. cbn [bind]. unfold str_len. rewrite (r_len _ _ _ R1).
  assert (exists st1 cap1, (if zlen t0 <? zlen z then str_reserve dbg st0 (w64 (zlen z - zlen t0)) else Ok st0) = Ok st1 /\ srep t0 cap1 st1 /\ cap1 + 1 <= alloc_max /\ zlen z <= cap1)
    as (st1 & cap1 & E1 & R2 & Hc1 & Hc2).
  { destruct (zlen t0 <? zlen z) eqn:El.
    - rewrite w64_small by zlia. destruct (reserve_ok dbg t0 cap0 st0 (zlen z - zlen t0) R1) as (s' & E' & R'); [lia|lia|].
      exists s'. eexists. split; [exact E'|]. split; [exact R'|]. destruct R1. lia.
    - exists st0, cap0. split; [reflexivity|]. split; [exact R1|]. destruct R1. lia. }
  rewrite E1. cbn [bind]. destruct (clear_ok _ _ _ R2) as (st2 & E2 & R3). rewrite E2. cbn [bind].
  replace (skipn (Z.to_nat (zlen d + 1)) z) with b.
  2:{ unfold z. rewrite app_assoc. rewrite skipn_zlen; [reflexivity|zl; lia]. }
  assert (oks b) as Ob. { unfold z in O. apply oks_app in O. destruct O as [_ O]. apply oks_app in O. tauto. }
  destruct (append_ok dbg [] cap1 st2 b R3 Ob Hb) as (st3 & E3 & R4); [zl; lia|]. rewrite E3. cbn [bind app] in *. eauto.
Qed.

(** * vt_path_pop *)
Lemma wpop_loop_ok : forall r2 a q k, ~ In 92 r2 -> (length r2 < k)%nat ->
  forall r3, wpop_loop k (map Some (a ++ [92] ++ r2) ++ map Some r3 ++ q) (zlen (a ++ [92] ++ r2)) =
  Ok (map Some a ++ Some 0 :: map Some (r2 ++ r3) ++ q).
Proof.
  intros r2. induction r2 as [|c r2 IH] using rev_ind; intros a q k Hn Hk r3; (destruct k as [|k]; [lia|]); cbn [wpop_loop].
  - replace (0 <? zlen (a ++ [92] ++ [])) with true by (zl; zlia). rewrite map_app, <- app_assoc. cbn [app map].
    rewrite bbyte_app by (zl; lia). cbn [bind]. replace (92 =? 92) with true by lia.
    change (map Some a ++ Some 92 :: map Some r3 ++ q) with (map Some a ++ [Some 92] ++ map Some r3 ++ q).
    rewrite bwrite_app; [reflexivity|zl; lia|reflexivity].
  - replace (0 <? zlen (a ++ [92] ++ r2 ++ [c])) with true by (zl; zlia).
    replace (map Some (a ++ [92] ++ r2 ++ [c]) ++ map Some r3 ++ q)
      with (map Some (a ++ [92] ++ r2) ++ Some c :: map Some r3 ++ q) by (rewrite !map_app, <- !app_assoc; reflexivity).
    rewrite bbyte_app by (zl; lia). cbn [bind].
    replace (c =? 92) with false by (symmetry; apply Z.eqb_neq; intros ->; apply Hn, in_or_app; right; left; reflexivity).
    replace (zlen (a ++ [92] ++ r2 ++ [c]) - 1) with (zlen (a ++ [92] ++ r2)) by (zl; lia).
    change (Some c :: map Some r3 ++ q) with (map Some (c :: r3) ++ q). rewrite IH.
    + now rewrite <- app_assoc.
    + intros H. apply Hn, in_or_app. now left.
    + rewrite app_length in Hk. cbn [length] in Hk. lia.
Qed.

Lemma wpop_ok a r q : oks (a ++ [92] ++ r) -> ~ In 92 r -> zlen (a ++ [92] ++ r) + 1 <= alloc_max ->
  wpath_pop (map Some (a ++ [92] ++ r) ++ Some 0 :: q) = Ok (map Some a ++ Some 0 :: map Some r ++ Some 0 :: q).
Proof.
  intros O Hn Hf. unfold wpath_pop. rewrite cstr_app by now apply oks_nonul. cbn [bind]. unfold str_len. cbn [sl str_create_static].
  set (z := a ++ [92] ++ r) in *. assert (zlen z = zlen a + 1 + zlen r) as Lz by (unfold z; zl; lia).
  rewrite (w64_small (zlen z - 1)) by zlia.
  change (str_find (str_create_static z) wsep) with (str_find (as_str z) wsep).
  rewrite (find_ok _ _ _ _ (as_str_rep z O Hf)) by (rewrite wsep_len; zlia).
  destruct (wcut_sep_some a r) as (x & y & E).
  destruct (rev r) as [|c r'] eqn:Er.
  - apply (f_equal (@rev Z)) in Er. rewrite rev_involutive in Er. cbn in Er. subst r. unfold z.
    rewrite map_app, <- app_assoc. cbn [app map]. rewrite bbyte_app by (zl; lia). cbn [bind]. replace (92 =? 92) with true by lia.
    change (map Some a ++ Some 92 :: Some 0 :: q) with (map Some a ++ [Some 92] ++ Some 0 :: q).
    rewrite bwrite_app; [reflexivity|zl; lia|reflexivity].
  - apply (f_equal (@rev Z)) in Er. rewrite rev_involutive in Er. cbn [rev] in Er.
    assert (bbyte (map Some z ++ Some 0 :: q) (zlen z - 1) = Ok c) as Ec.
    { unfold z. rewrite Er. replace (map Some (a ++ [92] ++ rev r' ++ [c]) ++ Some 0 :: q)
        with (map Some (a ++ [92] ++ rev r') ++ Some c :: Some 0 :: q) by (rewrite !map_app, <- !app_assoc; reflexivity).
      apply bbyte_app. zl. lia. }
    rewrite Ec. cbn [bind].
    replace (c =? 92) with false by (symmetry; apply Z.eqb_neq; intros ->; apply Hn; rewrite Er; apply in_or_app; right; left; reflexivity).
    change (cut wsep z) with (cut wsep (a ++ wsep ++ r)). rewrite E. cbn [bind].
    unfold z. pose proof (wpop_loop_ok r a (Some 0 :: q) (length (map Some (a ++ [92] ++ r) ++ Some 0 :: q)) Hn) as X.
    specialize (X ltac:(rewrite !app_length, map_length, !app_length; cbn [length]; lia) []).
    cbn [map app] in X. rewrite app_nil_r in X. exact X.
Qed.

Lemma wpop_bare z q : oks z -> 0 < zlen z -> ~ In 92 z -> zlen z + 1 <= alloc_max ->
  wpath_pop (map Some z ++ Some 0 :: q) = Ok (map Some z ++ Some 0 :: q).
Proof.
  intros O Hz Hn Hf. unfold wpath_pop. rewrite cstr_app by now apply oks_nonul. cbn [bind]. unfold str_len. cbn [sl str_create_static].
  rewrite (w64_small (zlen z - 1)) by zlia.
  change (str_find (str_create_static z) wsep) with (str_find (as_str z) wsep).
  rewrite (find_ok _ _ _ _ (as_str_rep z O Hf)) by (rewrite ?wsep_len; zlia).
  rewrite (cut_char_none 92 z Hn : cut wsep z = None).
  destruct z as [|c z] using rev_ind; [zl; lia|].
  assert (bbyte (map Some (z ++ [c]) ++ Some 0 :: q) (zlen (z ++ [c]) - 1) = Ok c) as ->.
  { rewrite map_app, <- app_assoc. apply bbyte_app. zl. lia. }
  cbn [bind].
  replace (c =? 92) with false by (symmetry; apply Z.eqb_neq; intros ->; apply Hn, in_or_app; right; left; reflexivity).
  reflexivity.
Qed.

(** * vt_path_validate *)
Definition wfix_sep (c : Z) : Z := if c =? 47 then 92 else c.
Lemma wvalidate_loop_ok : forall z r, wvalidate_loop (length z) (map Some z ++ r) = Ok (map Some (map wfix_sep z) ++ r).
Proof.
  intros z. induction z as [|c z IH] using rev_ind; intros r; [reflexivity|].
  rewrite app_length. cbn [length]. rewrite Nat.add_1_r. cbn [wvalidate_loop].
  replace (map Some (z ++ [c]) ++ r) with (map Some z ++ Some c :: r) by (rewrite map_app, <- app_assoc; reflexivity).
  rewrite bbyte_app by (zl; unfold zlen; lia). cbn [bind].
  rewrite !map_app, <- app_assoc. cbn [map app].
  assert ((if c =? 47 then bwrite (map Some z ++ Some c :: r) (Z.of_nat (length z)) [Some 92] else Ok (map Some z ++ Some c :: r))
          = Ok (map Some z ++ Some (wfix_sep c) :: r)) as ->.
  { unfold wfix_sep. destruct (c =? 47); [|reflexivity].
    change (map Some z ++ Some c :: r) with (map Some z ++ [Some c] ++ r). rewrite bwrite_app; [reflexivity|zl; unfold zlen; lia|reflexivity]. }
  cbn [bind]. apply IH.
Qed.
Lemma wpath_validate_ok z q : oks z -> wpath_validate (map Some z ++ Some 0 :: q) = Ok (map Some (map wfix_sep z) ++ Some 0 :: q).
Proof. intros O. unfold wpath_validate. rewrite cstr_app by now apply oks_nonul. cbn [bind]. apply wvalidate_loop_ok. Qed.

(** * vt_path_build *)
Lemma wbuild_ok dbg t cap st x l : srep t cap st -> okpieces (x :: l) ->
  Z.max cap (zlen (t ++ join_with wsep (x :: l))) + 1 <= alloc_max ->
  exists s', wpath_build dbg (Some st) (x :: l) = Ok s' /\
    srep (t ++ join_with wsep (x :: l)) (Z.max cap (zlen (t ++ join_with wsep (x :: l)))) s'.
Proof. intros R H1 H2. apply join_ok; try assumption; [exact wsep_ok|rewrite wsep_len; lia]. Qed.
Lemma wbuild_new_ok dbg x l : okpieces (x :: l) -> zlen (join_with wsep (x :: l)) + 1 <= alloc_max ->
  exists s', wpath_build dbg None (x :: l) = Ok s' /\ srep (join_with wsep (x :: l)) (Z.max 16 (zlen (join_with wsep (x :: l)))) s'.
Proof. intros H1 H2. apply join_new_ok; try assumption; [exact wsep_ok|rewrite wsep_len; lia]. Qed.
Lemma wbuild_n_same dbg s l : 0 < zlen l -> zlen l * 8 <= alloc_max -> wpath_build_n dbg s l = wpath_build dbg s l.
Proof.
  intros H1 H2. unfold wpath_build_n, plist_create, slots_calloc. rewrite dassert_true by lia. cbn [bind].
  rewrite w64_small by (unfold psz; zlia). unfold psz in *.
  rewrite dassert_true by lia. cbn [bind]. replace (zlen l * 8 <=? alloc_max) with true by lia. reflexivity.
Qed.


Lemma wbuild_apart dbg x l b : okpieces (x :: l ++ [b]) -> ~ In 92 b -> zlen (join_with [92] (x :: l ++ [b])) + 1 <= alloc_max ->
  exists s st capb blk s', wpath_build dbg None (x :: l ++ [b]) = Ok s /\ str_z s = Ok (join_with [92] (x :: l ++ [b])) /\
    wpath_basename dbg None (join_with [92] (x :: l ++ [b])) = Ok (Some st) /\ srep b capb st /\
    wpath_pop (sb s) = Ok blk /\ cstr blk = Ok (join_with [92] (x :: l)) /\
    wpath_build dbg None [join_with [92] (x :: l); b] = Ok s' /\ str_equals s s' = Ok true.
Proof.
  intros O N A. destruct (wbuild_new_ok dbg x (l ++ [b]) O A) as (s & E & R).
  pose proof O as O'. rewrite app_comm_cons in O'. apply Forall_app in O' as [O1 O2]. inversion O2 as [|? ? [Ob Lb] _]; subst.
  set (d := join_with [92] (x :: l)).
  assert (oks (d ++ [92] ++ b)) as Od by (unfold d; rewrite <- join_last; exact (r_ok _ _ _ R)).
  assert (0 < zlen d) as Ld.
  { unfold d. inversion O1 as [|? ? [Ox Lx] _]; subst. destruct l as [|y l]; [exact Lx|]. change (0 < zlen (x ++ [92] ++ join_with [92] (y :: l))). rewrite zlen_app. pose proof (zlen_nonneg ([92] ++ join_with [92] (y :: l))). lia. }
  rewrite join_last in *. fold d in A, R |- *.
  destruct (wbasename_ok dbg None d b Od Ld Lb N A) as (st & capb & Eb & Rb); [intros r Hr; discriminate|].
  destruct (r_pre _ _ _ R) as [q Q]. unfold zblk in Q. rewrite <- app_assoc in Q. cbn [app] in Q.
  destruct (wbuild_new_ok dbg d [b]) as (s' & E' & R').
  { constructor; [|exact O2]. split; [|exact Ld]. apply Forall_app in Od. tauto. }
  { exact A. }
  destruct (equals_ok _ _ _ _ _ _ R R') as (e & Ee & He). assert (e = true) as -> by (now apply He).
  exists s, st, capb, (map Some d ++ Some 0 :: map Some b ++ Some 0 :: q), s'.
  split; [exact E|]. split; [exact (z_ok _ _ _ R)|]. split; [exact Eb|]. split; [exact Rb|]. split.
  { rewrite Q. apply wpop_ok; assumption. }
  split.
  { change (map Some d ++ Some 0 :: map Some b ++ Some 0 :: q) with (map Some d ++ [Some 0] ++ map Some b ++ Some 0 :: q). rewrite app_assoc. apply cstr_zblk. apply Forall_app in Od. tauto. }
  split; [exact E'|exact Ee].
Qed.
