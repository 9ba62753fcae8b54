(** Proofs about the pointer list model. *)
From Verif Require Import Base BaseFacts VecModel VecSpec VecProofs PlistModel PlistSpec.
From Coq Require Import ZifyBool ZifyNat.

Lemma pw z cap : 0 <= z <= 4 * cap + 4 -> cap * 8 <= alloc_max -> w64 z = z.
Proof. intros. apply w64_small. unfold two64, alloc_max in *. lia. Qed.
Lemma pwm z cap : 0 <= z <= 4 * cap + 4 -> cap * 8 <= alloc_max -> w64 (z * psz) = z * 8.
Proof. intros. apply w64_small. unfold two64, alloc_max, psz in *. lia. Qed.
Lemma pdiv z : z * 8 / psz = z.
Proof. unfold psz. apply Z.div_mul. lia. Qed.

Lemma slots_realloc_ok dbg b n : 0 < n -> n * 8 <= alloc_max ->
  slots_realloc dbg b (n * 8) = Ok (firstn (Z.to_nat n) b ++ repeat None (Z.to_nat n - length b)%nat).
Proof.
  intros H1 H2. unfold slots_realloc. rewrite dassert_true by lia. cbn [bind].
  replace (n * 8 =? 0) with false by lia. replace (n * 8 <=? alloc_max) with true by lia.
  rewrite pdiv. reflexivity.
Qed.

Lemma plist_create_rep dbg n : 0 < n -> n * 8 <= alloc_max ->
  exists p, plist_create dbg n = Ok p /\ prep [] n p /\ p_slider p = 0.
Proof.
  intros Hn Hm. unfold plist_create, slots_calloc.
  rewrite dassert_true by lia. cbn [bind]. rewrite (pwm n n) by lia.
  rewrite dassert_true by lia. cbn [bind]. rewrite pdiv.
  replace (n * 8 <=? alloc_max) with true by lia. cbn [bind].
  eexists; split; [reflexivity|]. split; [|reflexivity].
  constructor; cbn; auto; try lia; autorewrite with zlen; try lia.
  eexists; reflexivity.
Qed.

Lemma slot_get_rep xs cap p i : prep xs cap p -> 0 <= i < zlen xs ->
  exists x, nth_error xs (Z.to_nat i) = Some x /\ slot_get (p_blk p) i = Ok x.
Proof.
  intros [[tl Hb] Hl Hc Hs Hm Hle Hp] Hi.
  destruct (split_elem xs i Hi) as (a & x & s & -> & Ha). exists x. split.
  { rewrite <- Ha, to_nat_zlen, nth_error_app2, Nat.sub_diag by lia. reflexivity. }
  unfold slot_get. rewrite Hb, map_app, <- app_assoc. cbn [map app].
  apply bbyte_app. rewrite zlen_map. lia.
Qed.

Lemma plist_reserve_rep dbg xs cap p n : prep xs cap p -> 0 < n -> (cap + n) * 8 <= alloc_max ->
  exists q, plist_reserve dbg p n = Ok q /\ prep xs (cap + n) q /\ p_slider q = p_slider p.
Proof.
  intros [[tl Hb] Hl Hc Hs Hm Hle Hp] Hn Hmax. unfold plist_reserve.
  rewrite dassert_true by lia. cbn [bind]. rewrite Hc, (pw (cap + n) (cap + n)) by lia.
  rewrite (pwm (cap + n) (cap + n)) by lia. rewrite slots_realloc_ok by lia. cbn [bind].
  eexists; split; [reflexivity|]. split; [|reflexivity].
  rewrite realloc_grow by lia.
  constructor; cbn; auto; try lia.
  - rewrite Hb, <- app_assoc. eauto.
  - rewrite zlen_app, zlen_repeat. unfold zlen in *. lia.
Qed.

Lemma plist_grow_rep dbg xs cap p : prep xs cap p -> pgrown (zlen xs) cap * 8 <= alloc_max ->
  exists q, plist_grow dbg p = Ok q /\ prep xs (pgrown (zlen xs) cap) q /\
            zlen xs < pgrown (zlen xs) cap /\ p_slider q = p_slider p.
Proof.
  intros H Hg. pose proof H as [[tl Hb] Hl Hc Hs Hm Hle Hp].
  unfold plist_grow, plist_has_space. rewrite Hc, Hl. pose proof (zlen_nonneg xs).
  rewrite (pw (cap - zlen xs) cap) by lia.
  unfold pgrown in *. destruct (Z.eqb_spec cap (zlen xs)) as [E|E].
  - replace (cap - zlen xs =? 0) with true by lia. rewrite (pw (cap * 2) cap) by lia.
    destruct (plist_reserve_rep dbg xs cap p (cap * 2) H) as (q & Hq & Hr & Hsl); [lia|lia|].
    exists q. replace (cap * 3) with (cap + cap * 2) by lia. split; [exact Hq|]. split; [exact Hr|]. split; [lia|exact Hsl].
  - replace (cap - zlen xs =? 0) with false by lia. exists p.
    split; [reflexivity|]. split; [exact H|]. split; [lia|reflexivity].
Qed.

Lemma plist_shrink_rep dbg xs cap p : prep xs cap p -> 0 < zlen xs ->
  exists q, plist_shrink dbg p = Ok q /\ prep xs (zlen xs) q /\ p_slider q = p_slider p.
Proof.
  intros H Hn. pose proof H as [[tl Hb] Hl Hc Hs Hm Hle Hp].
  unfold plist_shrink. rewrite Hl, Hc. destruct (Z.eqb_spec (zlen xs) cap) as [E|E].
  - exists p. rewrite E. split; [reflexivity|]. split; [exact H|reflexivity].
  - rewrite (pwm (zlen xs) cap) by lia. rewrite slots_realloc_ok by lia. cbn [bind].
    eexists; split; [reflexivity|]. split; [|reflexivity].
    rewrite Hb. rewrite firstn_zlen by (rewrite zlen_map; reflexivity).
    replace (Z.to_nat (zlen xs) - length (map Some xs ++ tl))%nat with O
      by (rewrite app_length, map_length; unfold zlen; lia).
    cbn [repeat]. constructor; cbn; auto; try lia.
    + exists []. reflexivity.
    + rewrite app_nil_r, zlen_map. reflexivity.
Qed.

Lemma plist_resize_rep dbg xs cap p m : prep xs cap p -> 0 < m <= zlen xs ->
  exists q, plist_resize dbg p m = Ok q /\ prep (firstn (Z.to_nat m) xs) m q /\ p_slider q = p_slider p.
Proof.
  intros H Hn. pose proof H as [[tl Hb] Hl Hc Hs Hm Hle Hp].
  unfold plist_resize. rewrite dassert_true by lia. cbn [bind]. rewrite Hc.
  destruct (split_at xs m) as (a & s & -> & Ha); [lia|].
  rewrite firstn_mid by assumption. autorewrite with zlen in *. pose proof (zlen_nonneg s).
  rewrite map_app, <- app_assoc in Hb.
  destruct (Z.eqb_spec m cap) as [E|E].
  - eexists; split; [reflexivity|]. split; [|reflexivity].
    constructor; cbn; auto; try lia. eauto.
  - rewrite (pwm m cap) by lia. rewrite slots_realloc_ok by lia. cbn [bind].
    eexists; split; [reflexivity|]. split; [|reflexivity].
    rewrite Hb, firstn_zlen by (rewrite zlen_map; lia).
    replace (Z.to_nat m - length (map Some a ++ map Some s ++ tl))%nat with O
      by (rewrite app_length, map_length; unfold zlen in *; lia).
    cbn [repeat]. constructor; cbn; auto; try lia.
    + exists []. reflexivity.
    + rewrite app_nil_r, zlen_map. lia.
Qed.

Lemma plist_push_back_rep dbg xs cap p x : prep xs cap p -> x <> 0 -> pgrown (zlen xs) cap * 8 <= alloc_max ->
  exists q, plist_push_back dbg p x = Ok q /\ prep (xs ++ [x]) (pgrown (zlen xs) cap) q /\ p_slider q = p_slider p.
Proof.
  intros H0 Hx Hg. unfold plist_push_back. rewrite dassert_true by lia. cbn [bind].
  destruct (plist_grow_rep dbg xs cap p H0 Hg) as (q & -> & H & Hlt & Hsl). cbn [bind].
  set (c := pgrown (zlen xs) cap) in *. clearbody c.
  destruct H as [[tl Hb] Hl Hc Hs Hm Hle Hp]. pose proof (zlen_nonneg xs).
  destruct tl as [|y tl].
  { rewrite Hb, app_nil_r, zlen_map in Hs. lia. }
  unfold slot_set. rewrite Hb, Hl.
  change (y :: tl) with ([y] ++ tl). rewrite bwrite_app; [|rewrite zlen_map; reflexivity|reflexivity].
  cbn [bind]. eexists; split; [reflexivity|]. split; [|exact Hsl].
  rewrite (pw (zlen xs + 1) c) by lia.
  constructor; cbn; auto; try lia.
  - exists tl. rewrite map_app, <- app_assoc. reflexivity.
  - autorewrite with zlen. lia.
  - rewrite <- Hs, Hb. autorewrite with zlen. lia.
  - autorewrite with zlen. lia.
Qed.

Lemma plist_insert_rep dbg xs cap p x i : prep xs cap p -> x <> 0 -> 0 <= i < zlen xs ->
  pgrown (zlen xs) cap * 8 <= alloc_max ->
  exists q, plist_insert dbg p x i = Ok q /\ prep (ins xs (Z.to_nat i) x) (pgrown (zlen xs) cap) q /\
            p_slider q = p_slider p.
Proof.
  intros H0 Hx Hi Hg. unfold plist_insert. rewrite dassert_true by lia. cbn [bind].
  rewrite (pr_len _ _ _ H0), dassert_true by lia. cbn [bind].
  destruct (plist_grow_rep dbg xs cap p H0 Hg) as (q & -> & H & Hlt & Hsl). cbn [bind].
  set (c := pgrown (zlen xs) cap) in *. clearbody c.
  destruct H as [[tl Hb] Hl Hc Hs Hm Hle Hp].
  destruct (split_elem xs i Hi) as (a & y & s & -> & Ha).
  unfold ins. rewrite firstn_mid, skipn_mid by assumption. autorewrite with zlen in *.
  pose proof (zlen_nonneg a). pose proof (zlen_nonneg s).
  rewrite Hl. rewrite (pw (i + 1) c) by lia.
  rewrite (pw (zlen a + (1 + zlen s) - i) c) by lia. rewrite (pwm _ c) by lia. rewrite pdiv.
  replace (zlen a + (1 + zlen s) - i) with (1 + zlen s) by lia.
  destruct tl as [|t tl].
  { rewrite Hb, app_nil_r, zlen_map in Hs. autorewrite with zlen in Hs. lia. }
  unfold bmove. replace (1 + zlen s =? 0) with false by lia.
  rewrite Hb, map_app, <- app_assoc. cbn [map app].
  change (map Some a ++ Some y :: map Some s ++ t :: tl) with
    (map Some a ++ map Some (y :: s) ++ t :: tl).
  rewrite bread_app by (autorewrite with zlen; lia). cbn [bind].
  replace (map Some a ++ map Some (y :: s) ++ t :: tl) with
    ((map Some a ++ [Some y]) ++ (map Some s ++ [t]) ++ tl)
    by (rewrite <- !app_assoc; reflexivity).
  rewrite bwrite_app by (autorewrite with zlen; lia). cbn [bind].
  rewrite <- app_assoc. unfold slot_set.
  rewrite bwrite_app by (autorewrite with zlen; lia). cbn [bind].
  eexists; split; [reflexivity|]. split; [|exact Hsl].
  rewrite (pw (zlen a + (1 + zlen s) + 1) c) by lia.
  constructor; cbn [p_blk p_len p_cap]; auto; try lia.
  - exists tl. rewrite map_app, <- app_assoc. cbn [map app]. reflexivity.
  - autorewrite with zlen. lia.
  - rewrite <- Hs, Hb. autorewrite with zlen. lia.
  - autorewrite with zlen. lia.
Qed.

Lemma plist_push_front_rep dbg xs cap p x : prep xs cap p -> x <> 0 -> pgrown (zlen xs) cap * 8 <= alloc_max ->
  exists q, plist_push_front dbg p x = Ok q /\ prep (x :: xs) (pgrown (zlen xs) cap) q /\ p_slider q = p_slider p.
Proof.
  intros H Hx Hg. unfold plist_push_front. rewrite dassert_true by lia. cbn [bind].
  unfold plist_len. rewrite (pr_len _ _ _ H). destruct xs as [|y xs].
  - change (negb (zlen (@nil Z) =? 0)) with false. cbv iota.
    exact (plist_push_back_rep dbg [] cap p x H Hx Hg).
  - pose proof (zlen_nonneg xs). rewrite zlen_cons. replace (negb (1 + zlen xs =? 0)) with true by lia.
    rewrite <- zlen_cons with (x := y).
    destruct (plist_insert_rep dbg _ cap p x 0 H Hx) as (q & Hq & Hr & Hs); [rewrite zlen_cons; lia|exact Hg|].
    exists q. split; [exact Hq|]. split; [exact Hr|exact Hs].
Qed.

Lemma plist_set_rep dbg xs cap p x i : prep xs cap p -> x <> 0 -> 0 <= i < zlen xs ->
  exists q, plist_set dbg p x i = Ok q /\ prep (upd xs (Z.to_nat i) x) cap q /\ p_slider q = p_slider p.
Proof.
  intros H Hx Hi. destruct H as [[tl Hb] Hl Hc Hs Hm Hle Hp]. unfold plist_set.
  rewrite Hl, !dassert_true by lia. cbn [bind].
  destruct (split_elem xs i Hi) as (a & y & s & -> & Ha).
  unfold upd. rewrite firstn_mid, skipn_mid_S by assumption.
  unfold slot_set. rewrite Hb, map_app, <- app_assoc. cbn [map app].
  change (Some y :: map Some s ++ tl) with ([Some y] ++ map Some s ++ tl).
  rewrite bwrite_app by (autorewrite with zlen; lia). cbn [bind].
  eexists; split; [reflexivity|]. split; [|reflexivity].
  autorewrite with zlen in *.
  constructor; cbn [p_blk p_len p_cap]; auto; try lia; autorewrite with zlen; try lia.
  - exists tl. rewrite map_app, <- app_assoc. reflexivity.
  - rewrite Hb in Hs. autorewrite with zlen in Hs. lia.
Qed.

Lemma plist_pop_rep xs cap p : prep xs cap p -> prep (removelast xs) cap (plist_pop p) /\ p_slider (plist_pop p) = p_slider p.
Proof.
  intros H. pose proof H as [[tl Hb] Hl Hc Hs Hm Hle Hp]. unfold plist_pop. rewrite Hl.
  destruct xs as [|x0 xs0] using rev_ind; [split; [exact H|reflexivity]|].
  rewrite removelast_last. autorewrite with zlen in *. pose proof (zlen_nonneg xs0).
  replace (0 <? zlen xs0 + (1 + 0)) with true by lia.
  rewrite (pw (zlen xs0 + (1 + 0) - 1) cap) by lia.
  split; [|reflexivity]. constructor; cbn; auto; try lia.
  rewrite Hb, map_app, <- app_assoc. eauto.
Qed.

Lemma plist_pop_get_rep xs cap p : prep xs cap p ->
  plist_pop_get p = Ok (plist_pop p, last xs 0).
Proof.
  intros H. pose proof H as [[tl Hb] Hl Hc Hs Hm Hle Hp]. unfold plist_pop_get, plist_pop. rewrite Hl.
  destruct xs as [|x0 xs0] using rev_ind; [reflexivity|].
  rewrite last_last. autorewrite with zlen in *. pose proof (zlen_nonneg xs0).
  replace (0 <? zlen xs0 + (1 + 0)) with true by lia.
  rewrite (pw (zlen xs0 + (1 + 0) - 1) cap) by lia.
  unfold slot_get. rewrite Hb, map_app, <- app_assoc. cbn [map app].
  rewrite bbyte_app by (autorewrite with zlen; lia). reflexivity.
Qed.

Lemma plist_remove_rep dbg xs cap p i rs : prep xs cap p -> 0 <= i < zlen xs -> 0 <= rs < 2 ->
  exists q, plist_remove dbg p i rs = Ok q /\ prep (del_by rs xs (Z.to_nat i)) cap q /\ p_slider q = p_slider p.
Proof.
  intros H Hi Hrs. pose proof H as [[tl Hb] Hl Hc Hs Hm Hle Hp].
  unfold plist_remove. rewrite Hl, !dassert_true by lia. cbn [bind].
  destruct (split_elem xs i Hi) as (a & y & s & -> & Ha).
  autorewrite with zlen in *. pose proof (zlen_nonneg a). pose proof (zlen_nonneg s).
  rewrite (pw (zlen a + (1 + zlen s) - i) cap) by lia.
  rewrite (pw (zlen a + (1 + zlen s) - i - 1) cap) by lia. rewrite (pwm _ cap) by lia. rewrite pdiv.
  rewrite (pw (zlen a + (1 + zlen s) - 1) cap) by lia. rewrite (pw (i + 1) cap) by lia.
  replace (zlen a + (1 + zlen s) - i - 1) with (zlen s) by lia.
  rewrite map_app, <- app_assoc in Hb. cbn [map app] in Hb.
  unfold del_by. destruct (rs =? 0) eqn:E.
  - unfold del. rewrite firstn_mid, skipn_mid_S by assumption.
    unfold bmove. destruct (Z.eqb_spec (zlen s) 0) as [Z0|Z0].
    + apply zlen_0 in Z0. subst s. cbn [bind]. eexists; split; [reflexivity|]. split; [|reflexivity].
      rewrite app_nil_r. autorewrite with zlen in *. constructor; cbn [p_blk p_len p_cap]; auto; try lia. rewrite Hb. eauto.
    + rewrite Hb. change (map Some a ++ Some y :: map Some s ++ tl) with
        (map Some a ++ [Some y] ++ map Some s ++ tl).
      rewrite app_assoc, bread_app by (autorewrite with zlen; lia). cbn [bind].
      destruct (split_at (Some y :: map Some s) (zlen s)) as (g & r & Hgr & Zg).
      { autorewrite with zlen. lia. }
      rewrite <- app_assoc.
      replace (map Some a ++ [Some y] ++ map Some s ++ tl) with (map Some a ++ g ++ r ++ tl).
      2:{ f_equal. rewrite app_assoc, <- Hgr. reflexivity. }
      assert (zlen (Some y :: map Some s) = zlen (g ++ r)) as Zr by (rewrite Hgr; reflexivity).
      autorewrite with zlen in Zr.
      rewrite bwrite_app by (autorewrite with zlen; lia). cbn [bind].
      eexists; split; [reflexivity|]. split; [|reflexivity].
      constructor; cbn [p_blk p_len p_cap]; auto; try lia; autorewrite with zlen; try lia.
      * exists (r ++ tl). rewrite map_app, <- app_assoc. reflexivity.
      * rewrite Hb in Hs. autorewrite with zlen in Hs. lia.
  - unfold del_swap. rewrite firstn_mid by assumption. rewrite skipn_mid_S by assumption.
    unfold slot_swap. rewrite Hb.
    destruct s as [|z0 s0 _] using rev_ind.
    + replace (S (Z.to_nat i) =? length (a ++ [y]))%nat with true
        by (rewrite app_length; cbn [length]; unfold zlen in *; lia).
      rewrite removelast_last. cbn [map app] in *. autorewrite with zlen in *.
      replace (zlen a + (1 + 0) - 1) with i by lia.
      change (map Some a ++ Some y :: tl) with (map Some a ++ [Some y] ++ tl).
      rewrite bread_app by (autorewrite with zlen; lia). cbn [bind].
      rewrite bwrite_app by (autorewrite with zlen; lia). cbn [bind].
      rewrite bwrite_app by (autorewrite with zlen; lia). cbn [bind].
      eexists; split; [reflexivity|]. split; [|reflexivity].
      constructor; cbn [p_blk p_len p_cap]; auto; try lia; autorewrite with zlen; try lia.
      * eauto.
      * rewrite Hb in Hs. autorewrite with zlen in Hs. lia.
    + autorewrite with zlen in *. pose proof (zlen_nonneg s0).
      replace (S (Z.to_nat i) =? length (a ++ y :: s0 ++ [z0]))%nat with false
        by (rewrite app_length; cbn [length]; rewrite app_length; cbn [length]; unfold zlen in *; lia).
      rewrite removelast_last.
      replace (last (a ++ y :: s0 ++ [z0]) 0) with z0.
      2:{ change (a ++ y :: s0 ++ [z0]) with (a ++ (y :: s0) ++ [z0]). rewrite app_assoc, last_last. reflexivity. }
      replace (zlen a + (1 + (zlen s0 + (1 + 0))) - 1) with (i + 1 + zlen s0) by lia.
      rewrite map_app, <- app_assoc in *. cbn [map app] in *.
      change (map Some a ++ Some y :: map Some s0 ++ Some z0 :: tl) with
        (map Some a ++ [Some y] ++ map Some s0 ++ Some z0 :: tl).
      rewrite bread_app by (autorewrite with zlen; lia). cbn [bind].
      assert (bread (map Some a ++ [Some y] ++ map Some s0 ++ Some z0 :: tl) (i + 1 + zlen s0) 1 = Ok [Some z0]) as R.
      { replace (map Some a ++ [Some y] ++ map Some s0 ++ Some z0 :: tl) with
          ((map Some a ++ [Some y] ++ map Some s0) ++ [Some z0] ++ tl) by (rewrite <- !app_assoc; reflexivity).
        apply bread_app; autorewrite with zlen; lia. }
      rewrite R. cbn [bind].
      rewrite bwrite_app by (autorewrite with zlen; lia). cbn [bind].
      replace (map Some a ++ [Some z0] ++ map Some s0 ++ Some z0 :: tl) with
        ((map Some a ++ [Some z0] ++ map Some s0) ++ [Some z0] ++ tl)
        by (rewrite <- !app_assoc; reflexivity).
      rewrite bwrite_app by (autorewrite with zlen; lia). cbn [bind].
      eexists; split; [reflexivity|]. split; [|reflexivity].
      constructor; cbn [p_blk p_len p_cap]; auto; try lia; autorewrite with zlen; try lia.
      * exists (Some y :: tl). rewrite map_app. cbn [map]. rewrite <- !app_assoc. reflexivity.
      * rewrite Hb in Hs. autorewrite with zlen in Hs. lia.
Qed.

Lemma plist_find_loop_spec b x s : forall a tl i,
  b = map Some a ++ map Some s ++ tl -> i = zlen a ->
  plist_find_loop (length s) b x i =
  Ok (match first_index s x with Some k => i + Z.of_nat k | None => -1 end).
Proof.
  induction s as [|y s IH]; intros a tl i Hb Hi; cbn [plist_find_loop length first_index]; [reflexivity|].
  assert (slot_get b i = Ok y) as G.
  { unfold slot_get. rewrite Hb. cbn [map app]. apply bbyte_app. autorewrite with zlen; lia. }
  rewrite G. cbn [bind].
  destruct (Z.eq_dec y x) as [E|E].
  - replace (y =? x) with true by lia. f_equal. lia.
  - replace (y =? x) with false by lia.
    rewrite (IH (a ++ [y]) tl).
    + destruct (first_index s x); f_equal; lia.
    + rewrite Hb, map_app, <- app_assoc. reflexivity.
    + autorewrite with zlen. lia.
Qed.

Lemma plist_find_rep dbg xs cap p x : prep xs cap p -> x <> 0 ->
  plist_can_find dbg p x = Ok (match first_index xs x with Some k => Z.of_nat k | None => -1 end).
Proof.
  intros [[tl Hb] Hl Hc Hs Hm Hle Hp] Hx. unfold plist_can_find. rewrite dassert_true by lia. cbn [bind].
  rewrite Hl, to_nat_zlen. rewrite (plist_find_loop_spec _ x xs [] tl 0 Hb eq_refl).
  destruct (first_index xs x); f_equal; lia.
Qed.

Lemma first_index_spec xs x :
  match first_index xs x with
  | Some k => exists a s, xs = a ++ x :: s /\ length a = k /\ ~ In x a
  | None => ~ In x xs
  end.
Proof.
  induction xs as [|y xs IH]; cbn [first_index]; [intros []|].
  destruct (Z.eq_dec y x) as [->|E]; [exists [], xs; repeat split; auto|].
  destruct (first_index xs x) as [k|].
  - destruct IH as (a & s & -> & Hk & Hn). exists (y :: a), s. repeat split; [cbn; lia|].
    intros [H|H]; [contradiction|exact (Hn H)].
  - intros [H|H]; [contradiction|exact (IH H)].
Qed.

Lemma plist_remove_element_rep dbg xs cap p x rs : prep xs cap p -> x <> 0 -> 0 <= rs < 2 ->
  exists q, plist_remove_element dbg p x rs = Ok q /\
    prep (match first_index xs x with Some k => del_by rs xs k | None => xs end) cap q /\
    p_slider q = p_slider p.
Proof.
  intros H Hx Hrs. unfold plist_remove_element. rewrite !dassert_true by lia. cbn [bind].
  rewrite (plist_find_rep dbg xs cap p x H Hx). cbn [bind].
  pose proof (first_index_spec xs x) as Hsp. destruct (first_index xs x) as [k|].
  - replace (0 <=? Z.of_nat k) with true by lia.
    destruct Hsp as (a & s & -> & Hk & _).
    destruct (plist_remove_rep dbg _ cap p (Z.of_nat k) rs H) as (q & Hq & Hr & Hs); [|exact Hrs|].
    { autorewrite with zlen. pose proof (zlen_nonneg s). unfold zlen in *. lia. }
    rewrite Nat2Z.id in Hr. eauto.
  - exists p. split; [reflexivity|]. split; [exact H|reflexivity].
Qed.

(** ** Refinement *)

Lemma plstep_rep dbg xs cap p o xs' cap' out : prep xs cap p ->
  lstep (xs, cap) o = Some ((xs', cap'), out) ->
  exists q, plstep dbg p o = Ok (q, out) /\ prep xs' cap' q /\ p_slider q = p_slider p.
Proof.
  intros H. unfold lstep, plstep.
  destruct o as [x|x|x i|x i|i rs|x rs| | | |n| |n|i|x| |];
  try (destruct (_ && _) eqn:E; [|discriminate]; unfold pfits, between in E; intros [= <- <- <-]).
  - destruct (plist_push_back_rep dbg xs cap p x H) as (q & -> & Hr); [lia|lia|]. eexists; split; [reflexivity|exact Hr].
  - destruct (plist_push_front_rep dbg xs cap p x H) as (q & -> & Hr); [lia|lia|]. eexists; split; [reflexivity|exact Hr].
  - destruct (plist_insert_rep dbg xs cap p x i H) as (q & -> & Hr); [lia|lia|lia|]. eexists; split; [reflexivity|exact Hr].
  - destruct (plist_set_rep dbg xs cap p x i H) as (q & -> & Hr); [lia|lia|]. eexists; split; [reflexivity|exact Hr].
  - destruct (plist_remove_rep dbg xs cap p i rs H) as (q & -> & Hr); [lia|lia|]. eexists; split; [reflexivity|exact Hr].
  - destruct (plist_remove_element_rep dbg xs cap p x rs H) as (q & -> & Hr); [lia|lia|]. eexists; split; [reflexivity|exact Hr].
  - intros [= <- <- <-]. eexists; split; [reflexivity|]. exact (plist_pop_rep xs cap p H).
  - intros [= <- <- <-]. rewrite (plist_pop_get_rep xs cap p H). cbn [bind fst snd].
    eexists; split; [reflexivity|]. exact (plist_pop_rep xs cap p H).
  - intros [= <- <- <-]. eexists; split; [reflexivity|]. split; [|reflexivity].
    destruct H as [[tl Hb] Hl Hc Hs Hm Hle Hp]. constructor; cbn; auto; try lia. eexists; reflexivity.
    rewrite zlen_nil. lia.
  - destruct (plist_reserve_rep dbg xs cap p n H) as (q & -> & Hr); [lia|lia|]. eexists; split; [reflexivity|exact Hr].
  - destruct (0 <? zlen xs) eqn:E; [|discriminate]. intros [= <- <- <-].
    destruct (plist_shrink_rep dbg xs cap p H) as (q & -> & Hr); [lia|]. eexists; split; [reflexivity|exact Hr].
  - unfold between. destruct (_ && _) eqn:E; [|discriminate]. intros [= <- <- <-].
    destruct (plist_resize_rep dbg xs cap p n H) as (q & -> & Hr); [lia|]. eexists; split; [reflexivity|exact Hr].
  - unfold between. destruct (_ && _) eqn:E; [|discriminate].
    destruct (slot_get_rep xs cap p i H) as (x & Hn & Hg); [lia|]. rewrite Hn. intros [= <- <- <-].
    unfold plist_get. rewrite (pr_len _ _ _ H), dassert_true by lia. cbn [bind]. rewrite Hg. cbn [bind].
    eexists; split; [reflexivity|]. split; [exact H|reflexivity].
  - destruct (negb (x =? 0)) eqn:E; [|discriminate]. intros [= <- <- <-].
    rewrite (plist_find_rep dbg xs cap p x H) by lia. cbn [bind].
    eexists; split; [reflexivity|]. split; [exact H|reflexivity].
  - intros [= <- <- <-]. unfold plist_len. rewrite (pr_len _ _ _ H). eexists; split; [reflexivity|].
    split; [exact H|reflexivity].
  - intros [= <- <- <-]. unfold plist_capacity. rewrite (pr_cap _ _ _ H). eexists; split; [reflexivity|].
    split; [exact H|reflexivity].
Qed.

Lemma plrun_rep dbg ops : forall xs cap p xs' cap' outs, prep xs cap p ->
  lrun (xs, cap) ops = Some ((xs', cap'), outs) ->
  exists q, plrun dbg p ops = Ok (q, outs) /\ prep xs' cap' q /\ p_slider q = p_slider p.
Proof.
  induction ops as [|o ops IH]; intros xs cap p xs' cap' outs H; cbn [lrun plrun].
  - intros [= <- <- <-]. exists p. split; [reflexivity|]. split; [exact H|reflexivity].
  - destruct (lstep (xs, cap) o) as [[[x1 c1] o1]|] eqn:E; [|discriminate].
    destruct (lrun (x1, c1) ops) as [[[x2 c2] o2]|] eqn:F; [|discriminate]. intros [= <- <- <-].
    destruct (plstep_rep dbg xs cap p o x1 c1 o1 H E) as (q & -> & Hq & Hs). cbn [bind fst snd].
    destruct (IH x1 c1 q x2 c2 o2 Hq F) as (r & -> & Hr & Hs'). cbn [bind fst snd].
    exists r. split; [reflexivity|]. split; [exact Hr|congruence].
Qed.

Lemma plist_refines dbg n ops xs cap outs : 0 < n -> pfits n = true ->
  lrun ([], n) ops = Some ((xs, cap), outs) ->
  exists p0 p, plist_create dbg n = Ok p0 /\ plrun dbg p0 ops = Ok (p, outs) /\
    plist_len p = zlen xs /\ plist_capacity p = cap /\
    forall i, 0 <= i < zlen xs -> exists x, nth_error xs (Z.to_nat i) = Some x /\ plist_get dbg p i = Ok x.
Proof.
  intros Hn Hf Hr. unfold pfits in Hf.
  destruct (plist_create_rep dbg n Hn) as (p0 & Hc & H0 & _); [lia|].
  destruct (plrun_rep dbg ops [] n p0 xs cap outs H0 Hr) as (p & Hp & H & _).
  exists p0, p. split; [exact Hc|]. split; [exact Hp|].
  split; [exact (pr_len _ _ _ H)|]. split; [exact (pr_cap _ _ _ H)|].
  intros i Hi. destruct (slot_get_rep xs cap p i H Hi) as (x & E1 & E2). exists x. split; [exact E1|].
  unfold plist_get. rewrite (pr_len _ _ _ H), dassert_true by lia. exact E2.
Qed.

(** ** Search and element removal *)
Lemma plist_find_first dbg xs cap p x : prep xs cap p -> x <> 0 ->
  exists r, plist_can_find dbg p x = Ok r /\
    ((r = -1 /\ ~ In x xs) \/ (exists a s, xs = a ++ x :: s /\ r = zlen a /\ ~ In x a)).
Proof.
  intros H Hx. rewrite (plist_find_rep dbg xs cap p x H Hx). eexists; split; [reflexivity|].
  pose proof (first_index_spec xs x) as Hs. destruct (first_index xs x) as [k|]; [right|left; auto].
  destruct Hs as (a & s & -> & <- & Hn). exists a, s. auto.
Qed.

Lemma plist_remove_element_first dbg a x s cap p : prep (a ++ x :: s) cap p -> x <> 0 -> ~ In x a ->
  (exists q, plist_remove_element dbg p x 0 = Ok q /\ prep (a ++ s) cap q) /\
  (exists q, plist_remove_element dbg p x 1 = Ok q /\
     prep (match rev s with [] => a | y :: r => a ++ y :: rev r end) cap q).
Proof.
  intros H Hx Hn.
  assert (first_index (a ++ x :: s) x = Some (length a)) as F.
  { clear H. induction a as [|y a IH]; cbn [app first_index].
    - destruct (Z.eq_dec x x); [reflexivity|contradiction].
    - destruct (Z.eq_dec y x) as [->|E]; [exfalso; apply Hn; left; reflexivity|].
      rewrite IH by (intros Q; apply Hn; right; exact Q). reflexivity. }
  split.
  - destruct (plist_remove_element_rep dbg _ cap p x 0 H Hx) as (q & Hq & Hr & _); [lia|].
    rewrite F in Hr. exists q. split; [exact Hq|]. unfold del_by, del in Hr.
    change (0 =? 0) with true in Hr. cbv iota in Hr.
    rewrite firstn_exact in Hr. rewrite <- (to_nat_zlen a), skipn_mid_S in Hr by reflexivity. exact Hr.
  - destruct (plist_remove_element_rep dbg _ cap p x 1 H Hx) as (q & Hq & Hr & _); [lia|].
    rewrite F in Hr. exists q. split; [exact Hq|]. unfold del_by, del_swap in Hr.
    change (1 =? 0) with false in Hr. cbv iota in Hr.
    rewrite firstn_exact in Hr. rewrite <- (to_nat_zlen a), skipn_mid_S, to_nat_zlen in Hr by reflexivity.
    destruct s as [|z0 s0 _] using rev_ind.
    + replace (S (length a) =? length (a ++ [x]))%nat with true in Hr by (rewrite app_length; cbn [length]; lia).
      rewrite removelast_last in Hr. exact Hr.
    + replace (S (length a) =? length (a ++ x :: s0 ++ [z0]))%nat with false in Hr
        by (rewrite app_length; cbn [length]; rewrite app_length; cbn [length]; lia).
      rewrite removelast_last in Hr. rewrite rev_app_distr. cbn [rev app]. rewrite rev_involutive.
      replace (last (a ++ x :: s0 ++ [z0]) 0) with z0 in Hr; [exact Hr|].
      change (a ++ x :: s0 ++ [z0]) with (a ++ (x :: s0) ++ [z0]). rewrite app_assoc, last_last. reflexivity.
Qed.

Lemma plist_remove_element_absent dbg xs cap p x rs : prep xs cap p -> x <> 0 -> 0 <= rs < 2 -> ~ In x xs ->
  plist_remove_element dbg p x rs = Ok p.
Proof.
  intros H Hx Hrs Hn. unfold plist_remove_element. rewrite !dassert_true by lia. cbn [bind].
  rewrite (plist_find_rep dbg xs cap p x H Hx). cbn [bind].
  pose proof (first_index_spec xs x) as Hs. destruct (first_index xs x) as [k|]; [|reflexivity].
  destruct Hs as (a & s & -> & _). exfalso. apply Hn, in_or_app. right. left. reflexivity.
Qed.

(** ** dup, apply, slider *)
Lemma plist_dup_rep dbg xs cap p : prep xs cap p -> xs <> [] ->
  exists q, plist_dup dbg p = Ok q /\ prep xs (zlen xs) q /\ p_slider q = 0.
Proof.
  intros [[tl Hb] Hl Hc Hs Hm Hle Hp] Hx.
  assert (0 < zlen xs) as Hn.
  { destruct xs; [contradiction|]. rewrite zlen_cons. pose proof (zlen_nonneg xs). lia. }
  unfold plist_dup. rewrite Hl.
  destruct (plist_create_rep dbg (zlen xs) Hn) as (d & -> & [[tl' Hb'] Hl' Hc' Hs' Hm' Hle' Hp'] & Hsl); [lia|]. cbn [bind].
  rewrite (pwm (zlen xs) cap), pdiv by lia.
  rewrite Hb. rewrite (bread_app [] (map Some xs) tl 0) by (autorewrite with zlen; reflexivity). cbn [bind].
  cbn [map app] in Hb'. rewrite Hb' in *.
  pose proof (bwrite_app [] tl' [] 0 (map Some xs) eq_refl) as W. cbn [app] in W. rewrite !app_nil_r in W.
  rewrite W by (autorewrite with zlen; lia). cbn [bind].
  eexists; split; [reflexivity|]. split; [|exact Hsl].
  constructor; cbn; auto; try lia.
  - exists []. rewrite app_nil_r. reflexivity.
  - rewrite zlen_map. reflexivity.
Qed.

Lemma plist_apply_loop_spec b s : forall a tl i,
  b = map Some a ++ map Some s ++ tl -> i = zlen a ->
  plist_apply_loop (length s) b i = Ok (combine s (map (fun k => i + Z.of_nat k) (seq 0 (length s)))).
Proof.
  induction s as [|y s IH]; intros a tl i Hb Hi; cbn [plist_apply_loop length seq map combine]; [reflexivity|].
  assert (slot_get b i = Ok y) as G.
  { unfold slot_get. rewrite Hb. cbn [map app]. apply bbyte_app. autorewrite with zlen; lia. }
  rewrite G. cbn [bind].
  rewrite (IH (a ++ [y]) tl).
  - cbn [bind]. rewrite <- seq_shift, map_map. 
    rewrite (map_ext (fun k => i + 1 + Z.of_nat k) (fun k => i + Z.of_nat (S k))) by (intros k; lia).
    replace (i + Z.of_nat 0) with i by lia. reflexivity.
  - rewrite Hb, map_app, <- app_assoc. reflexivity.
  - autorewrite with zlen. lia.
Qed.

Lemma plist_apply_rep xs cap p : prep xs cap p ->
  plist_apply p = Ok (combine xs (map Z.of_nat (seq 0 (length xs)))).
Proof.
  intros [[tl Hb] Hl Hc Hs Hm Hle Hp]. unfold plist_apply, plist_len. rewrite Hl, to_nat_zlen.
  rewrite (plist_apply_loop_spec _ xs [] tl 0 Hb eq_refl). do 2 f_equal.
Qed.

Fixpoint pcalls (f : plist -> res (plist * Z)) (n : nat) (p : plist) : res (plist * list Z) :=
  match n with
  | O => Ok (p, [])
  | S n' => let* r := f p in
            let* r' := pcalls f n' (fst r) in
            Ok (fst r', snd r :: snd r')
  end.

Definition pslide (p : plist) (s : Z) : plist := mk_pl (p_blk p) (p_len p) (p_cap p) s.

Lemma pslide_rep xs cap p s : prep xs cap p -> prep xs cap (pslide p s).
Proof. intros [A B C D E F G]. constructor; assumption. Qed.

Lemma pcalls_add f n m p q r os os' : pcalls f n p = Ok (q, os) -> pcalls f m q = Ok (r, os') ->
  pcalls f (n + m) p = Ok (r, os ++ os').
Proof.
  revert p os. induction n as [|n IH]; intros p os; cbn [pcalls Nat.add].
  - intros [= -> <-] H. exact H.
  - intros H H'. apply bind_ok in H as (r1 & H1 & H). rewrite H1. cbn [bind].
    apply bind_ok in H as (r2 & H2 & H). injection H as <- <-.
    rewrite (IH (fst r1) (snd r2)); [reflexivity| |].
    + rewrite H2. destruct r2; reflexivity.
    + exact H'.
Qed.

Lemma plist_slide_steps xs cap p : prep xs cap p -> forall s a, xs = a ++ s ->
  pcalls plist_slide_front (length s) (pslide p (zlen a)) = Ok (pslide p (zlen xs), s).
Proof.
  intros H. induction s as [|y s IH]; intros a E.
  - rewrite app_nil_r in E. subst a. reflexivity.
  - pose proof H as [[tl Hb] Hl Hc Hs Hm Hle Hp].
    assert (zlen xs = zlen a + (1 + zlen s)) as L by (rewrite E; autorewrite with zlen; lia).
    pose proof (zlen_nonneg a). pose proof (zlen_nonneg s).
    assert (plist_slide_front (pslide p (zlen a)) = Ok (pslide p (zlen a + 1), y)) as F.
    { unfold plist_slide_front. cbn [pslide p_slider p_len p_blk p_cap]. rewrite Hl.
      replace (zlen a <? zlen xs) with true by lia.
      rewrite (pw (zlen a + 1) cap) by lia. rewrite (pw (zlen a + 1 - 1) cap) by lia.
      assert (slot_get (p_blk p) (zlen a + 1 - 1) = Ok y) as G.
      { unfold slot_get. rewrite Hb, E, map_app, <- app_assoc. cbn [map app].
        apply bbyte_app. autorewrite with zlen; lia. }
      rewrite G. unfold pslide. rewrite Hl. reflexivity. }
    cbn [pcalls length]. rewrite F. cbn [bind fst snd].
    specialize (IH (a ++ [y])). rewrite <- app_assoc in IH. specialize (IH E).
    autorewrite with zlen in IH. replace (zlen a + (1 + 0)) with (zlen a + 1) in IH by lia.
    rewrite IH. reflexivity.
Qed.

Lemma plist_slide_sweep xs cap p : prep xs cap p -> p_slider p = 0 ->
  pcalls plist_slide_front (length xs + 1) p = Ok (p, xs ++ [0]).
Proof.
  intros H H0. pose proof (plist_slide_steps xs cap p H xs [] eq_refl) as E.
  rewrite zlen_nil in E.
  assert (pslide p 0 = p) as I by (unfold pslide; rewrite <- H0; destruct p; reflexivity).
  rewrite I in E. eapply pcalls_add; [exact E|].
  cbn [pcalls]. unfold plist_slide_front. cbn [pslide p_slider p_len p_blk p_cap].
  rewrite (pr_len _ _ _ H). rewrite Z.ltb_irrefl. cbn [bind fst snd].
  do 2 f_equal. exact I.
Qed.

Lemma plist_slide_sweeps xs cap p m : prep xs cap p -> p_slider p = 0 ->
  pcalls plist_slide_front (m * (length xs + 1)) p = Ok (p, repeat_list m (xs ++ [0])).
Proof.
  intros H H0. induction m as [|m IH]; [reflexivity|]. cbn [Nat.mul repeat_list].
  eapply pcalls_add; [|exact IH]. exact (plist_slide_sweep xs cap p H H0).
Qed.
