(** Proofs about the text functions of path.c. *)
From Verif Require Import Base BaseFacts PlistModel StrModel StrModel2 StrSpec StrProofs StrProofs2 StrProofs3 StrMain FsModel PathModel.

(** The view made by vt_str_create_static reads like a string with the same text. *)
Definition as_str (z : text) : str := mk_str (zblk z) (zlen z) (zlen z) false 0.
Lemma as_str_rep z : oks z -> zlen z + 1 <= alloc_max -> srep z (zlen z) (as_str z).
Proof.
  intros O H. constructor; cbn [sb sl sc sv as_str]; try reflexivity; try assumption; try lia.
  - exists []. now rewrite app_nil_r.
  - rewrite zlen_zblk. lia.
Qed.

Lemma sep_ok : oks sep.
Proof. repeat constructor; unfold okc; lia. Qed.
Lemma sep_len : zlen sep = 1.
Proof. reflexivity. Qed.

Lemma cut_sep_some a r : exists x y, cut sep (a ++ sep ++ r) = Some (x, y).
Proof.
  destruct (cut sep (a ++ sep ++ r)) as [[x y]|] eqn:E; [eauto|]. exfalso. exact (proj1 (cut_none _ _) E a r eq_refl).
Qed.

(** * vt_path_basename *)
Lemma base_loop_ok d : forall b1 b2 k, 0 < zlen d -> ~ In 47 b1 -> (0 < zlen (b1 ++ b2)) -> (length b1 < k)%nat ->
  base_loop k (d ++ [47] ++ b1 ++ b2) (zlen d + zlen b1) = Ok (Some (zlen d + 1)).
Proof.
  intros b1. induction b1 as [|c b1 IH] using rev_ind; intros b2 k Hd Hn Hb Hk; (destruct k as [|k]; [lia|]); cbn [base_loop].
  - replace (0 <? zlen d + zlen (@nil Z)) with true by (zl; zlia).
    unfold zblk. rewrite map_app, <- app_assoc. cbn [app map]. rewrite bbyte_app by (zl; lia). cbn [bind].
    match goal with |- context [negb ?c] => replace c with false by (zl; zlia) end. cbn. f_equal. f_equal. zl. lia.
  - replace (0 <? zlen d + zlen (b1 ++ [c])) with true by (zl; zlia).
    unfold zblk. replace (map Some (d ++ [47] ++ (b1 ++ [c]) ++ b2) ++ [Some 0])
      with (map Some (d ++ [47] ++ b1) ++ Some c :: map Some b2 ++ [Some 0]) by (rewrite !map_app, <- !app_assoc; reflexivity).
    rewrite bbyte_app by (zl; lia). cbn [bind].
    replace (c =? 47) with false by (symmetry; apply Z.eqb_neq; intros ->; apply Hn, in_or_app; right; left; reflexivity).
    cbn [andb]. replace (zlen d + zlen (b1 ++ [c]) - 1) with (zlen d + zlen b1) by (zl; lia).
    rewrite <- app_assoc. apply IH; try assumption; try (zl; zlia).
    + intros H. apply Hn, in_or_app. now left.
    + rewrite app_length in Hk. cbn [length] in Hk. lia.
Qed.

Lemma basename_ok dbg s d b : oks (d ++ [47] ++ b) -> 0 < zlen d -> 0 < zlen b -> ~ In 47 b ->
  zlen (d ++ [47] ++ b) + 1 <= alloc_max -> target_ok s (zlen (d ++ [47] ++ b)) ->
  exists st cap, path_basename dbg s (d ++ [47] ++ b) = Ok (Some st) /\ srep b cap st.
Proof.
  intros O Hd Hb Hn Hf Ht. unfold path_basename. set (z := d ++ [47] ++ b) in *.
  assert (zlen z = zlen d + 1 + zlen b) as Lz by (unfold z; zl; lia).
  change (str_can_find (S (length (sb (str_create_static z)))) (str_create_static z) sep)
    with (str_can_find (S (length (sb (as_str z)))) (as_str z) sep).
  pose proof (as_str_rep z O Hf) as R0.
  rewrite (can_find_ok _ _ _ _ _ R0) by (rewrite ?sep_len; pose proof (fuel_len _ _ _ R0); lia). cbn [bind].
  assert (zlen (split_on sep z) <> 1) as HC.
  { intros H. apply pieces_one in H; [|rewrite sep_len; lia|lia]. destruct (cut_sep_some d b) as (x & y & E).
    unfold sep in *. unfold z in H. rewrite E in H. discriminate. }
  replace (zlen (split_on sep z) - 1 =? 0) with false by lia.
  assert (exists st0 t0 cap0, (match s with Some s => Ok s | None => str_create_len dbg (zlen z) end) = Ok st0 /\ srep t0 cap0 st0 /\ cap0 + (zlen z - zlen t0) + 1 <= alloc_max)
    as (st0 & t0 & cap0 & E0 & R1 & Hc).
  { destruct s as [s|].
    - destruct (Ht s eq_refl) as (t & cap & R & H). exists s, t, cap. split; [reflexivity|]. split; [exact R|]. zlia.
    - destruct (create_len_ok dbg (zlen z)) as (s1 & E1 & R1 & _); [zlia|lia|]. exists s1. eexists. eexists. split; [exact E1|]. split; [exact R1|].
      zl. zlia. }
  rewrite E0. cbn [bind]. rewrite (w64_small (zlen z - 1)) by zlia.
  replace (zlen z - 1) with (zlen d + zlen b) by lia.
  assert (base_loop (length z) z (zlen d + zlen b) = Ok (Some (zlen d + 1))) as EB.
  { unfold z. pose proof (base_loop_ok d b [] (length z)) as X. rewrite app_nil_r in X. apply X; try assumption.
    unfold zlen in Lz. lia. }
  rewrite EB. cbn [bind]. unfold str_len. rewrite (r_len _ _ _ R1).
  assert (exists st1 cap1, (if zlen t0 <? zlen z then str_reserve dbg st0 (w64 (zlen z - zlen t0)) else Ok st0) = Ok st1 /\ srep t0 cap1 st1 /\ cap1 + 1 <= alloc_max /\ zlen z <= cap1)
    as (st1 & cap1 & E1 & R2 & Hc1 & Hc2).
  { destruct (zlen t0 <? zlen z) eqn:El.
    - rewrite w64_small by zlia. destruct (reserve_ok dbg t0 cap0 st0 (zlen z - zlen t0) R1) as (s' & E' & R'); [lia|lia|].
      exists s'. eexists. split; [exact E'|]. split; [exact R'|]. destruct R1. lia.
    - exists st0, cap0. split; [reflexivity|]. split; [exact R1|]. destruct R1. lia. }
  rewrite E1. cbn [bind]. destruct (clear_ok _ _ _ R2) as (st2 & E2 & R3). rewrite E2. cbn [bind].
  replace (skipn (Z.to_nat (zlen d + 1)) z) with b.
  2:{ unfold z. rewrite app_assoc. rewrite skipn_zlen; [reflexivity|zl; lia]. }
  assert (oks b) as Ob. { unfold z in O. apply oks_app in O. destruct O as [_ O]. apply oks_app in O. tauto. }
  destruct (append_ok dbg [] cap1 st2 b R3 Ob Hb) as (st3 & E3 & R4); [zl; lia|]. rewrite E3. cbn [bind app] in *. eauto.
Qed.

(** * vt_path_pop *)
Lemma pop_loop_ok : forall r2 a q k, ~ In 47 r2 -> (length r2 < k)%nat ->
  forall r3, pop_loop k (map Some (a ++ [47] ++ r2) ++ map Some r3 ++ q) (zlen (a ++ [47] ++ r2)) =
  Ok (map Some a ++ Some 0 :: map Some (r2 ++ r3) ++ q).
Proof.
  intros r2. induction r2 as [|c r2 IH] using rev_ind; intros a q k Hn Hk r3; (destruct k as [|k]; [lia|]); cbn [pop_loop].
  - replace (0 <? zlen (a ++ [47] ++ [])) with true by (zl; zlia). rewrite map_app, <- app_assoc. cbn [app map].
    rewrite bbyte_app by (zl; lia). cbn [bind]. replace (47 =? 47) with true by lia.
    change (map Some a ++ Some 47 :: map Some r3 ++ q) with (map Some a ++ [Some 47] ++ map Some r3 ++ q).
    rewrite bwrite_app; [reflexivity|zl; lia|reflexivity].
  - replace (0 <? zlen (a ++ [47] ++ r2 ++ [c])) with true by (zl; zlia).
    replace (map Some (a ++ [47] ++ r2 ++ [c]) ++ map Some r3 ++ q)
      with (map Some (a ++ [47] ++ r2) ++ Some c :: map Some r3 ++ q) by (rewrite !map_app, <- !app_assoc; reflexivity).
    rewrite bbyte_app by (zl; lia). cbn [bind].
    replace (c =? 47) with false by (symmetry; apply Z.eqb_neq; intros ->; apply Hn, in_or_app; right; left; reflexivity).
    replace (zlen (a ++ [47] ++ r2 ++ [c]) - 1) with (zlen (a ++ [47] ++ r2)) by (zl; lia).
    change (Some c :: map Some r3 ++ q) with (map Some (c :: r3) ++ q). rewrite IH.
    + now rewrite <- app_assoc.
    + intros H. apply Hn, in_or_app. now left.
    + rewrite app_length in Hk. cbn [length] in Hk. lia.
Qed.

Lemma pop_ok a r q : oks (a ++ [47] ++ r) -> ~ In 47 r -> zlen (a ++ [47] ++ r) + 1 <= alloc_max ->
  path_pop (map Some (a ++ [47] ++ r) ++ Some 0 :: q) = Ok (map Some a ++ Some 0 :: map Some r ++ Some 0 :: q).
Proof.
  intros O Hn Hf. unfold path_pop. rewrite cstr_app by now apply oks_nonul. cbn [bind]. unfold str_len. cbn [sl str_create_static].
  set (z := a ++ [47] ++ r) in *. assert (zlen z = zlen a + 1 + zlen r) as Lz by (unfold z; zl; lia).
  rewrite (w64_small (zlen z - 1)) by zlia.
  change (str_find (str_create_static z) sep) with (str_find (as_str z) sep).
  rewrite (find_ok _ _ _ _ (as_str_rep z O Hf)) by (rewrite sep_len; zlia).
  destruct (cut_sep_some a r) as (x & y & E).
  destruct (rev r) as [|c r'] eqn:Er.
  - apply (f_equal (@rev Z)) in Er. rewrite rev_involutive in Er. cbn in Er. subst r. unfold z.
    rewrite map_app, <- app_assoc. cbn [app map]. rewrite bbyte_app by (zl; lia). cbn [bind]. replace (47 =? 47) with true by lia.
    change (map Some a ++ Some 47 :: Some 0 :: q) with (map Some a ++ [Some 47] ++ Some 0 :: q).
    rewrite bwrite_app; [reflexivity|zl; lia|reflexivity].
  - apply (f_equal (@rev Z)) in Er. rewrite rev_involutive in Er. cbn [rev] in Er.
    assert (bbyte (map Some z ++ Some 0 :: q) (zlen z - 1) = Ok c) as Ec.
    { unfold z. rewrite Er. replace (map Some (a ++ [47] ++ rev r' ++ [c]) ++ Some 0 :: q)
        with (map Some (a ++ [47] ++ rev r') ++ Some c :: Some 0 :: q) by (rewrite !map_app, <- !app_assoc; reflexivity).
      apply bbyte_app. zl. lia. }
    rewrite Ec. cbn [bind].
    replace (c =? 47) with false by (symmetry; apply Z.eqb_neq; intros ->; apply Hn; rewrite Er; apply in_or_app; right; left; reflexivity).
    change (cut sep z) with (cut sep (a ++ sep ++ r)). rewrite E. cbn [bind].
    unfold z. pose proof (pop_loop_ok r a (Some 0 :: q) (length (map Some (a ++ [47] ++ r) ++ Some 0 :: q)) Hn) as X.
    specialize (X ltac:(rewrite !app_length, map_length, !app_length; cbn [length]; lia) []).
    cbn [map app] in X. rewrite app_nil_r in X. exact X.
Qed.

Lemma pop_bare z q : oks z -> 0 < zlen z -> ~ In 47 z -> zlen z + 1 <= alloc_max ->
  path_pop (map Some z ++ Some 0 :: q) = Ok (map Some z ++ Some 0 :: q).
Proof.
  intros O Hz Hn Hf. unfold path_pop. rewrite cstr_app by now apply oks_nonul. cbn [bind]. unfold str_len. cbn [sl str_create_static].
  rewrite (w64_small (zlen z - 1)) by zlia.
  change (str_find (str_create_static z) sep) with (str_find (as_str z) sep).
  rewrite (find_ok _ _ _ _ (as_str_rep z O Hf)) by (rewrite ?sep_len; zlia).
  rewrite (cut_char_none 47 z Hn : cut sep z = None).
  destruct z as [|c z] using rev_ind; [zl; lia|].
  assert (bbyte (map Some (z ++ [c]) ++ Some 0 :: q) (zlen (z ++ [c]) - 1) = Ok c) as ->.
  { rewrite map_app, <- app_assoc. apply bbyte_app. zl. lia. }
  cbn [bind].
  replace (c =? 47) with false by (symmetry; apply Z.eqb_neq; intros ->; apply Hn, in_or_app; right; left; reflexivity).
  reflexivity.
Qed.

(** * vt_path_validate *)
Definition fix_sep (c : Z) : Z := if c =? 92 then 47 else c.
Lemma validate_loop_ok : forall z r, validate_loop (length z) (map Some z ++ r) = Ok (map Some (map fix_sep z) ++ r).
Proof.
  intros z. induction z as [|c z IH] using rev_ind; intros r; [reflexivity|].
  rewrite app_length. cbn [length]. rewrite Nat.add_1_r. cbn [validate_loop].
  replace (map Some (z ++ [c]) ++ r) with (map Some z ++ Some c :: r) by (rewrite map_app, <- app_assoc; reflexivity).
  rewrite bbyte_app by (zl; unfold zlen; lia). cbn [bind].
  rewrite !map_app, <- app_assoc. cbn [map app].
  assert ((if c =? 92 then bwrite (map Some z ++ Some c :: r) (Z.of_nat (length z)) [Some 47] else Ok (map Some z ++ Some c :: r))
          = Ok (map Some z ++ Some (fix_sep c) :: r)) as ->.
  { unfold fix_sep. destruct (c =? 92); [|reflexivity].
    change (map Some z ++ Some c :: r) with (map Some z ++ [Some c] ++ r). rewrite bwrite_app; [reflexivity|zl; unfold zlen; lia|reflexivity]. }
  cbn [bind]. apply IH.
Qed.
Lemma path_validate_ok z q : oks z -> path_validate (map Some z ++ Some 0 :: q) = Ok (map Some (map fix_sep z) ++ Some 0 :: q).
Proof. intros O. unfold path_validate. rewrite cstr_app by now apply oks_nonul. cbn [bind]. apply validate_loop_ok. Qed.

(** * vt_path_build *)
Lemma build_ok dbg t cap st x l : srep t cap st -> okpieces (x :: l) ->
  Z.max cap (zlen (t ++ join_with sep (x :: l))) + 1 <= alloc_max ->
  exists s', path_build dbg (Some st) (x :: l) = Ok s' /\
    srep (t ++ join_with sep (x :: l)) (Z.max cap (zlen (t ++ join_with sep (x :: l)))) s'.
Proof. intros R H1 H2. apply join_ok; try assumption; [exact sep_ok|rewrite sep_len; lia]. Qed.
Lemma build_new_ok dbg x l : okpieces (x :: l) -> zlen (join_with sep (x :: l)) + 1 <= alloc_max ->
  exists s', path_build dbg None (x :: l) = Ok s' /\ srep (join_with sep (x :: l)) (Z.max 16 (zlen (join_with sep (x :: l)))) s'.
Proof. intros H1 H2. apply join_new_ok; try assumption; [exact sep_ok|rewrite sep_len; lia]. Qed.
Lemma build_n_same dbg s l : 0 < zlen l -> zlen l * 8 <= alloc_max -> path_build_n dbg s l = path_build dbg s l.
Proof.
  intros H1 H2. unfold path_build_n, plist_create, slots_calloc. rewrite dassert_true by lia. cbn [bind].
  rewrite w64_small by (unfold psz; zlia). unfold psz in *.
  rewrite dassert_true by lia. cbn [bind]. replace (zlen l * 8 <=? alloc_max) with true by lia. reflexivity.
Qed.

(** * vt_path_expand_tilda *)
Lemma tilda_other dbg home z : oks z -> 0 < zlen z -> zlen z + 1 <= alloc_max -> (forall r, z <> 126 :: r) \/ home = None ->
  exists s, path_expand_tilda dbg home z = Ok s /\ srep z (zlen z) s.
Proof.
  intros O Hz Hf Hh. unfold path_expand_tilda. destruct (create_ok dbg z O Hz Hf) as (s & E & R). rewrite E. cbn [bind].
  rewrite (index_of_ok _ _ _ _ R) by lia. cbn [bind]. exists s. split; [|exact R].
  destruct ((str_len s =? 0) || negb _) eqn:Eb; [reflexivity|].
  destruct Hh as [Hh| ->]; [|reflexivity]. exfalso. unfold str_len in Eb. rewrite (r_len _ _ _ R) in Eb.
  destruct (cut [126] z) as [[a b]|] eqn:Ec.
  - apply cut_some in Ec. destruct a as [|c a]; [exact (Hh b Ec)|]. zl. zlia.
  - lia.
Qed.
Lemma tilda_ok dbg h r : oks r -> oks h -> zlen (126 :: r) + zlen h + 1 <= alloc_max -> 0 < zlen r \/ dbg = false ->
  exists s cap, path_expand_tilda dbg (Some h) (126 :: r) = Ok s /\ srep (h ++ r) cap s.
Proof.
  intros Or Oh Hf Hd. unfold path_expand_tilda.
  assert (oks (126 :: r)) as O by (constructor; [unfold okc; lia|assumption]).
  zl. destruct (create_ok dbg (126 :: r) O) as (s & E & R); [zl; zlia|zl; zlia|]. rewrite E. cbn [bind].
  rewrite (index_of_ok _ _ _ _ R) by lia. cbn [bind].
  assert (cut [126] (126 :: r) = Some ([], r)) as -> by reflexivity. cbn [bind].
  unfold str_len. rewrite (r_len _ _ _ R). replace ((zlen (126 :: r) =? 0) || negb (zlen (@nil Z) =? 0)) with false by (zl; zlia).
  destruct (remove_ok dbg [] [126] r _ s (zlen (@nil Z)) 1 R) as (s1 & E1 & R1 & _); [reflexivity|zl; lia|left; reflexivity|].
  rewrite E1. cbn [bind app] in *.
  destruct Hd as [Hr| ->].
  - destruct (insert_ok dbg [] r _ s1 h (zlen (@nil Z)) R1 Oh) as (s2 & E2 & R2); [reflexivity|assumption|cbn [app]; zl; zlia|].
    cbn [app] in R2. eauto.
  - destruct (insert_body false [] r _ s1 h (zlen h) (zlen (@nil Z)) R1 Oh) as (s2 & E2 & R2); [zlia|reflexivity|cbn [app]; zl; zlia|].
    rewrite to_nat_zlen, firstn_all in R2. cbn [app] in R2. exists s2. eexists. split; [|exact R2]. rewrite <- E2. reflexivity.
Qed.
