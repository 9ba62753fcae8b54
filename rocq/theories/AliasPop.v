(** str.c: vt_str_pop_get_first and vt_str_pop_get_last with the string itself as the
    target ([sr] = [s]).

    The functions are those of StrModel2.v with one string in both roles: what is done to
    the target is done to the source, and the part to be copied is read from the storage
    as it is at that moment (StrAlias.v, [str_append_n_own]). *)
From Verif Require Import Base BaseFacts StrModel StrModel2 StrSpec StrProofs StrProofs2 StrMain StrAlias.

(** vt_str_pop_get_first(s, s, sep), str.c:1084-1128.  Reserving before the copy would
    move the storage; the length is never less than that of the part, so it is not done. *)
Definition str_pop_get_first_own (dbg : bool) (s : str) (sep : list Z) : res str :=
  if (sl s =? 0) || is_nil sep then Ok s else
  let* t := str_z s in
  match strstr t sep with
  | None => Ok s
  | Some i =>
      let copyLen := w64 (sl s - (zlen t - i)) in
      if copyLen =? 0 then Ok s else
      let* s := if sl s <? copyLen then str_reserve dbg s (w64 (copyLen - sl s)) else Ok s in
      let* s := str_clear s in
      let* s := str_append_n_own dbg s 0 copyLen in
      str_remove dbg s 0 (w64 (copyLen + zlen sep))
  end.

(** vt_str_pop_get_last(s, s, sep), str.c:1130-1186: the copy starts behind the last
    separator, at an address found before the string was cleared. *)
Definition str_pop_get_last_own (dbg : bool) (fuel : nat) (s : str) (sep : list Z) : res str :=
  if (sl s =? 0) || is_nil sep then Ok s else
  let* t := str_z s in
  match strstr t sep with
  | None => Ok s
  | Some i =>
      let* last := last_loop fuel (sb s) sep i in
      let copyLen := w64 (zlen t - last - zlen sep) in
      if copyLen =? 0 then Ok s else
      if sl s <? copyLen then let* _ := str_reserve dbg s (w64 (copyLen - sl s + 1)) in UB else
      let* s := str_clear s in
      let* s := str_append_n_own dbg s (last + zlen sep) copyLen in
      str_remove dbg s (w64 (sl s - copyLen - zlen sep)) (w64 (copyLen + zlen sep))
  end.

(** Clearing and copying [n] bytes from [o] on to the front. *)
Lemma clear_own dbg t cap s o n : srep t cap s -> 0 < n -> 0 <= o -> o + n <= zlen t ->
  exists b, (let* s := str_clear s in str_append_n_own dbg s o n) = Ok (mk_str b n cap false (ss s)) /\ zlen b = zlen (sb s).
Proof.
  intros [P O L C LE RM F V] Hn Ho H. unfold str_clear.
  destruct (sput_ok s 0 0 V) as (b & E & Lb & _); [zlia|]. rewrite E. cbn [bind].
  unfold str_append_n_own. replace (dassert dbg (0 <? n)) with (@Ok unit tt) by (replace (0 <? n) with true by lia; destruct dbg; reflexivity).
  cbn [bind]. unfold str_has_space. cbn [set_len sc sl sb sv ss]. rewrite C, Z.sub_0_r, (w64_small cap) by zlia.
  replace (cap <? n) with false by lia.
  destruct (smove_ok (mk_str b 0 cap false (ss s)) 0 o n eq_refl) as (b1 & E1 & Lb1 & _); cbn [sb]; try zlia.
  unfold set_len. cbn [sb sl sc sv ss]. rewrite E1. cbn [bind sb sl sc sv ss] in *. rewrite Z.add_0_l, (w64_small n) by zlia.
  destruct (sput_ok (mk_str b1 n cap false (ss s)) n 0 eq_refl) as (b2 & E2 & Lb2 & _); cbn [sb]; [zlia|].
  rewrite E2. cbn [sb sl sc ss] in *. exists b2. split; [reflexivity|]. congruence.
Qed.

(** The first part into the string itself: nothing is left. *)
Lemma pop_first_own dbg t cap s sep a b : srep t cap s -> 0 < zlen sep -> cut sep t = Some (a, b) -> 0 < zlen a ->
  exists s', str_pop_get_first_own dbg s sep = Ok s' /\ srep [] cap s'.
Proof.
  intros R Hs Hc Ha. pose proof R as R0. destruct R0 as [P O L C LE RM F V]. unfold str_pop_get_first_own.
  pose proof (cut_some _ _ _ _ Hc) as Et.
  assert (Hat : zlen a + zlen sep <= zlen t) by (rewrite Et; zl; zlia).
  replace ((sl s =? 0) || is_nil sep) with false by (destruct sep; [zl; lia|]; cbn [is_nil]; rewrite L; zlia).
  rewrite (z_ok _ _ _ R). cbn [bind]. rewrite strstr_cut, Hc, L. replace (zlen t - (zlen t - zlen a)) with (zlen a) by lia.
  rewrite (w64_small (zlen a)) by zlia. replace (zlen a =? 0) with false by lia. replace (zlen t <? zlen a) with false by lia. cbn [bind].
  destruct (clear_own dbg t cap s 0 (zlen a) R Ha) as (b1 & E1 & L1); [lia|lia|].
  destruct (str_clear s) as [sp| | |]; cbn [bind] in *; try discriminate. rewrite E1. cbn [bind].
  rewrite (w64_small (zlen a + zlen sep)) by zlia. unfold str_remove. cbn [sl].
  replace (dassert dbg (0 <? zlen a + zlen sep)) with (@Ok unit tt) by (replace (0 <? zlen a + zlen sep) with true by lia; destruct dbg; reflexivity).
  replace (dassert dbg (0 <? zlen a)) with (@Ok unit tt) by (replace (0 <? zlen a) with true by lia; destruct dbg; reflexivity).
  cbn [bind]. rewrite Z.sub_0_r, (w64_small (zlen a)) by zlia. replace (zlen a <? zlen a + zlen sep) with true by lia.
  rewrite Z.add_0_l, (w64_small (zlen a)), Z.sub_diag by zlia. change (w64 0) with 0. unfold smove. change (0 =? 0) with true. cbn [bind set_len sl sb sc sv ss].
  unfold set_len. cbn [sl sb sc sv ss]. rewrite Z.sub_diag. change (w64 0) with 0.
  destruct (sput_ok (mk_str b1 0 cap false (ss s)) 0 0 eq_refl) as (b2 & E2 & L2 & P2 & _); cbn [sb]; [zlia|].
  cbn [sl sb sc ss] in *. rewrite E2. eexists. split; [reflexivity|].
  constructor; cbn [sl sb sc sv]; try reflexivity; try (change (zlen []) with 0; zlia); [exact P2|constructor].
Qed.
(** If there is nothing to pop, nothing happens. *)
Lemma pop_first_own_none dbg t cap s sep : srep t cap s -> zlen sep = 0 \/ cut sep t = None \/ (exists b, cut sep t = Some ([], b)) ->
  str_pop_get_first_own dbg s sep = Ok s.
Proof.
  intros R H. unfold str_pop_get_first_own. destruct ((sl s =? 0) || is_nil sep) eqn:E; [reflexivity|].
  destruct H as [H|H]; [destruct sep; [rewrite orb_true_r in E; discriminate|]; rewrite zlen_cons in H; zlia|].
  rewrite (z_ok _ _ _ R). cbn [bind]. rewrite strstr_cut. destruct H as [->|(b & ->)]; [reflexivity|].
  rewrite (r_len _ _ _ R). change (zlen (@nil Z)) with 0. rewrite Z.sub_0_r, Z.sub_diag. reflexivity.
Qed.

(** The last part: its own assertion stops the Debug build, the Release build writes in
    front of the storage. *)
Lemma pop_last_own t cap s sep a b f : srep t cap s -> 0 < zlen sep -> last_cut (length t) sep t = Some (a, b) -> 0 < zlen b ->
  (length t < f)%nat -> zlen (sb s) <= alloc_max ->
  str_pop_get_last_own true f s sep = Abort /\ str_pop_get_last_own false f s sep = UB.
Proof.
  intros R Hs E Hb Hf HB. pose proof R as R0. destruct R0 as [P O L C LE RM F V].
  pose proof (last_cut_some _ _ _ _ _ E) as Et.
  assert (Hat : zlen t = zlen a + zlen sep + zlen b) by (rewrite Et; zl; zlia). pose proof (zlen_nonneg a) as Na.
  assert (W : forall dbg, str_pop_get_last_own dbg f s sep =
    let* _ := dassert dbg false in UB).
  { intros dbg. unfold str_pop_get_last_own.
    replace ((sl s =? 0) || is_nil sep) with false by (destruct sep; [zl; lia|]; cbn [is_nil]; rewrite L; zlia).
    rewrite (z_ok _ _ _ R). cbn [bind]. destruct (last_ok_scan _ _ _ _ _ _ _ R Hs Hf E) as (i & Ei & El). rewrite Ei, El, L. cbn [bind].
    replace (zlen t - zlen a - zlen sep) with (zlen b) by lia. rewrite (w64_small (zlen b)) by zlia.
    replace (zlen b =? 0) with false by lia. replace (zlen t <? zlen b) with false by lia.
    destruct (clear_own dbg t cap s (zlen a + zlen sep) (zlen b) R Hb) as (b1 & E1 & L1); [lia|lia|].
    destruct (str_clear s) as [sp| | |]; cbn [bind] in *; try discriminate. rewrite E1. cbn [bind sl].
    replace (zlen b - zlen b - zlen sep) with (- zlen sep) by lia. rewrite (w64_small (zlen b + zlen sep)) by zlia.
    assert (w64 (- zlen sep) = 2 ^ 64 - zlen sep) as -> by (unfold w64; symmetry; apply Z.mod_unique with (q := -1); zlia).
    unfold str_remove. cbn [sl].
    replace (dassert dbg (0 <? zlen b + zlen sep)) with (@Ok unit tt) by (replace (0 <? zlen b + zlen sep) with true by lia; destruct dbg; reflexivity).
    cbn [bind]. replace (2 ^ 64 - zlen sep <? zlen b) with false by zlia.
    destruct (dassert dbg false); try reflexivity. cbn [bind].
    assert (w64 (zlen b - (2 ^ 64 - zlen sep)) = zlen b + zlen sep) as -> by (unfold w64; symmetry; apply Z.mod_unique with (q := -1); zlia).
    replace (zlen b + zlen sep <? zlen b + zlen sep) with false by lia.
    assert (w64 (2 ^ 64 - zlen sep + (zlen b + zlen sep)) = zlen b) as -> by (unfold w64; symmetry; apply Z.mod_unique with (q := 1); zlia).
    rewrite Z.sub_diag. change (w64 0) with 0. unfold smove. change (0 =? 0) with true. cbn [bind]. unfold set_len. cbn [sl sb sc sv ss].
    assert (w64 (zlen b - (zlen b + zlen sep)) = 2 ^ 64 - zlen sep) as -> by (unfold w64; symmetry; apply Z.mod_unique with (q := -1); zlia).
    unfold sput, swrite. cbn [sv sb]. unfold bwrite. change (zlen [Some 0]) with 1.
    replace ((0 <=? 2 ^ 64 - zlen sep) && (2 ^ 64 - zlen sep + 1 <=? zlen b1)) with false by (assert (zlen sep <= alloc_max) by zlia; unfold alloc_max in *; lia).
    reflexivity. }
  split; rewrite W; reflexivity.
Qed.
Lemma pop_last_own_none dbg t cap s sep f : srep t cap s -> (length t < f)%nat ->
  zlen sep = 0 \/ cut sep t = None \/ (0 < zlen sep /\ exists a, last_cut (length t) sep t = Some (a, [])) ->
  str_pop_get_last_own dbg f s sep = Ok s.
Proof.
  intros R Hf H. unfold str_pop_get_last_own. destruct ((sl s =? 0) || is_nil sep) eqn:E; [reflexivity|].
  destruct H as [H|H]; [destruct sep; [rewrite orb_true_r in E; discriminate|]; rewrite zlen_cons in H; zlia|].
  rewrite (z_ok _ _ _ R). cbn [bind]. destruct H as [H|(Hs & a & H)]; [rewrite strstr_cut, H; reflexivity|].
  destruct (last_ok_scan _ _ _ _ _ _ _ R Hs Hf H) as (i & Ei & El). rewrite Ei, El. cbn [bind].
  pose proof (last_cut_some _ _ _ _ _ H) as Et. assert (zlen t = zlen a + zlen sep) by (rewrite Et; zl; zlia).
  replace (zlen t - zlen a - zlen sep) with 0 by lia. reflexivity.
Qed.
