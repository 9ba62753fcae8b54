(** Proofs about the vector model. *)
From Verif Require Import Base BaseFacts VecModel VecSpec.
From Coq Require Import ZifyBool ZifyNat Permutation.

Lemma zlen_concat es xs : uniform es xs -> zlen (concat xs) = zlen xs * es.
Proof.
  induction 1 as [|x xs Hx Hxs IH]; cbn [concat]; [reflexivity|].
  rewrite zlen_app, zlen_cons, IH. lia.
Qed.

Lemma uniform_app es a b : uniform es (a ++ b) <-> uniform es a /\ uniform es b.
Proof. apply Forall_app. Qed.

Lemma uniform_cons es x b : uniform es (x :: b) <-> zlen x = es /\ uniform es b.
Proof. split; [intros H; inversion H; auto|intros [H1 H2]; constructor; auto]. Qed.

Lemma w64_mul i cap es : 0 <= i <= cap -> 0 < es -> cap * es <= alloc_max -> w64 (i * es) = i * es.
Proof. intros. apply w64_small. unfold two64, alloc_max in *. nia. Qed.

Lemma w64_le i cap es : 0 <= i <= 4 * cap + 4 -> 0 < es -> cap * es <= alloc_max -> w64 i = i.
Proof. intros. apply w64_small. unfold two64, alloc_max in *. nia. Qed.

Lemma split_elem {A} (xs : list A) i : 0 <= i < zlen xs ->
  exists p x s, xs = p ++ x :: s /\ zlen p = i.
Proof.
  intros H. destruct (split_at xs i) as (p & s & -> & Hp); [lia|].
  destruct s as [|x s]; [autorewrite with zlen in H; lia|]. eauto.
Qed.

Lemma concat_mid (p : list elem) x s : map (@Some Z) (concat (p ++ x :: s)) =
  map Some (concat p) ++ map Some x ++ map Some (concat s).
Proof. rewrite concat_app. cbn [concat]. rewrite !map_app. reflexivity. Qed.

Lemma firstn_mid {A} (p : list A) l z : zlen p = z -> firstn (Z.to_nat z) (p ++ l) = p.
Proof. intros <-. apply firstn_zlen. reflexivity. Qed.

Lemma skipn_mid {A} (p : list A) l z : zlen p = z -> skipn (Z.to_nat z) (p ++ l) = l.
Proof. intros <-. apply skipn_zlen. reflexivity. Qed.

Lemma skipn_mid_S {A} (p : list A) x l z : zlen p = z -> skipn (S (Z.to_nat z)) (p ++ x :: l) = l.
Proof.
  intros <-. rewrite to_nat_zlen.
  replace (S (length p)) with (length (p ++ [x])) by (rewrite app_length; cbn; lia).
  change (x :: l) with ([x] ++ l). rewrite app_assoc. apply skipn_exact.
Qed.

(** ** create *)

Lemma vec_create_rep dbg n es : 0 < n -> 0 < es -> n * es <= alloc_max ->
  exists v, vec_create dbg n es = Ok v /\ vrep es [] n v.
Proof.
  intros Hn Hes Hm. unfold vec_create.
  rewrite !dassert_true by lia. cbn [bind].
  rewrite (w64_mul n n es) by lia. rewrite c_calloc_ok by nia. cbn [bind].
  eexists; split; [reflexivity|]. constructor; cbn; auto; try lia.
  - eexists; reflexivity.
  - constructor.
  - rewrite zlen_repeat. nia.
  - rewrite zlen_nil. lia.
Qed.

(** ** get *)

Lemma vec_get_rep dbg es xs cap v i : vrep es xs cap v -> 0 <= i < zlen xs ->
  exists x, nth_error xs (Z.to_nat i) = Some x /\ vec_get dbg v i = Ok (map Some x).
Proof.
  intros [[tl Hb] Hu Hl Hc He Hp Hs Hm Hle Hcp] Hi.
  destruct (split_elem xs i Hi) as (p & x & s & -> & Hpl).
  exists x. split.
  { rewrite <- Hpl, to_nat_zlen, nth_error_app2, Nat.sub_diag by lia. reflexivity. }
  unfold vec_get, vec_get_ptr, array_get.
  rewrite Hl, !dassert_true by lia. cbn [bind].
  apply uniform_app in Hu as [Hu1 Hu2]. apply uniform_cons in Hu2 as [Hx Hu2].
  rewrite He, (w64_mul i cap es) by lia.
  rewrite Hb, concat_mid, <- !app_assoc. apply bread_app.
  - rewrite zlen_map, (zlen_concat es p Hu1). lia.
  - rewrite zlen_map. lia.
Qed.

Lemma vec_get_abort es xs cap v i : vrep es xs cap v -> zlen xs <= i -> vec_get true v i = Abort.
Proof.
  intros H Hi. destruct H. unfold vec_get, vec_get_ptr, dassert.
  replace (i <? a_len v) with false by lia. reflexivity.
Qed.

(** ** reserve, shrink, resize *)

Lemma realloc_grow b n : zlen b <= n ->
  firstn (Z.to_nat n) b ++ repeat None (Z.to_nat n - length b)%nat =
  b ++ repeat (@None Z) (Z.to_nat n - length b)%nat.
Proof. intros H. rewrite firstn_ge; [reflexivity|]. unfold zlen in H. lia. Qed.

Lemma vec_reserve_rep dbg es xs cap v n : vrep es xs cap v -> 0 < n -> (cap + n) * es <= alloc_max ->
  exists v', vec_reserve dbg v n = Ok v' /\ vrep es xs (cap + n) v' /\ a_slider v' = a_slider v.
Proof.
  intros [[tl Hb] Hu Hl Hc He Hp Hs Hm Hle Hcp] Hn Hmax.
  unfold vec_reserve. rewrite dassert_true by lia. cbn [bind].
  rewrite Hc, He.
  rewrite (w64_le (cap + n) (cap + n) es) by lia.
  rewrite (w64_mul (cap + n) (cap + n) es) by lia.
  rewrite c_realloc_ok by nia. cbn [bind].
  eexists; split; [reflexivity|]. split; [|reflexivity].
  assert (0 <= n * es) by (apply Z.mul_nonneg_nonneg; lia).
  rewrite realloc_grow by lia.
  constructor; cbn; auto; try lia.
  - rewrite Hb, <- app_assoc. eexists; reflexivity.
  - rewrite zlen_app, zlen_repeat. unfold zlen in *. nia.
Qed.

Lemma vec_grow_rep dbg es xs cap v : vrep es xs cap v -> grown (zlen xs) cap * es <= alloc_max ->
  exists v' m, vec_grow dbg v = Ok (v', m) /\ vrep es xs (grown (zlen xs) cap) v' /\
               zlen xs < grown (zlen xs) cap /\ a_slider v' = a_slider v.
Proof.
  intros H Hg. pose proof H as [[tl Hb] Hu Hl Hc He Hp Hs Hm Hle Hcp].
  unfold vec_grow, vec_has_space. rewrite Hc, Hl.
  pose proof (zlen_nonneg xs) as Hnn.
  rewrite (w64_le (cap - zlen xs) cap es) by lia.
  unfold grown in *. destruct (Z.eqb_spec cap (zlen xs)) as [E|E].
  - replace (cap - zlen xs =? 0) with true by lia.
    rewrite (w64_le (cap * 2) cap es) by lia.
    destruct (vec_reserve_rep dbg es xs cap v (cap * 2) H) as (v' & Hr & Hv & Hsl); [lia|lia|].
    rewrite Hr. cbn [bind]. exists v', true.
    replace (cap * 3) with (cap + cap * 2) by lia. split; [reflexivity|]. split; [exact Hv|]. split; [lia|exact Hsl].
  - replace (cap - zlen xs =? 0) with false by lia. exists v, false. split; [reflexivity|]. split; [exact H|]. split; [lia|reflexivity].
Qed.

Lemma vec_shrink_rep dbg es xs cap v : vrep es xs cap v -> 0 < zlen xs ->
  exists v', vec_shrink dbg v = Ok v' /\ vrep es xs (zlen xs) v' /\ a_slider v' = a_slider v.
Proof.
  intros H Hn. pose proof H as [[tl Hb] Hu Hl Hc He Hp Hs Hm Hle Hcp].
  unfold vec_shrink. rewrite Hl, Hc, He.
  destruct (Z.eqb_spec (zlen xs) cap) as [E|E].
  - exists v. rewrite E. split; [reflexivity|]. split; [exact H|reflexivity].
  - rewrite (w64_mul (zlen xs) cap es) by lia.
    rewrite c_realloc_ok by nia. cbn [bind].
    eexists; split; [reflexivity|]. split; [|reflexivity].
    rewrite Hb.
    rewrite firstn_zlen by (rewrite zlen_map; symmetry; apply zlen_concat; assumption).
    replace (Z.to_nat (zlen xs * es) - length (map Some (concat xs) ++ tl))%nat with O.
    2:{ pose proof (zlen_concat es xs Hu) as X. unfold zlen in *. rewrite app_length, map_length. nia. }
    cbn [repeat]. constructor; cbn; auto; try lia.
    + exists []. reflexivity.
    + rewrite app_nil_r, zlen_map. apply zlen_concat; assumption.
    + nia.
Qed.

Lemma vec_resize_rep dbg es xs cap v m : vrep es xs cap v -> 0 < m <= zlen xs ->
  exists v', vec_resize dbg v m = Ok v' /\ vrep es (firstn (Z.to_nat m) xs) m v' /\ a_slider v' = a_slider v.
Proof.
  intros H Hn. pose proof H as [[tl Hb] Hu Hl Hc He Hp Hs Hm Hle Hcp].
  unfold vec_resize. rewrite dassert_true by lia. cbn [bind]. rewrite Hc, He.
  destruct (split_at xs m) as (p & s & -> & Hpl); [lia|].
  rewrite firstn_mid by assumption. autorewrite with zlen in *.
  pose proof (zlen_nonneg s). pose proof (zlen_nonneg p).
  apply uniform_app in Hu as [Hu1 Hu2].
  rewrite concat_app, map_app in Hb.
  destruct (Z.eqb_spec m cap) as [E|E].
  - eexists; split; [reflexivity|]. split; [|reflexivity].
    assert (s = []) as -> by (apply zlen_0; lia).
    constructor; cbn; auto; try lia.
    rewrite Hb. cbn. rewrite app_nil_r. eauto.
  - rewrite (w64_mul m cap es) by lia.
    rewrite c_realloc_ok by nia. cbn [bind].
    eexists; split; [reflexivity|]. split; [|reflexivity].
    rewrite Hb, <- !app_assoc.
    rewrite firstn_zlen by (rewrite zlen_map, (zlen_concat es p Hu1); nia).
    pose proof (zlen_concat es p Hu1) as X.
    replace (Z.to_nat (m * es) - length (map Some (concat p) ++ map Some (concat s) ++ tl))%nat with O.
    2:{ unfold zlen in *. rewrite app_length, map_length. nia. }
    cbn [repeat]. constructor; cbn; auto; try lia.
    + exists []. reflexivity.
    + rewrite app_nil_r, zlen_map. nia.
    + nia.
Qed.

(** ** push_back, insert, set, remove *)

Lemma ext_read d es : zlen d = es -> bread (map Some d) 0 es = Ok (map Some d).
Proof.
  intros H. pose proof (bread_app [] (map Some d) [] 0 es eq_refl) as X.
  cbn [app] in X. rewrite app_nil_r in X. apply X. rewrite zlen_map; auto.
Qed.

Lemma vec_push_back_rep dbg es xs cap v d : vrep es xs cap v -> zlen d = es ->
  grown (zlen xs) cap * es <= alloc_max ->
  exists v', vec_push_back dbg v (Ext d) = Ok v' /\ vrep es (xs ++ [d]) (grown (zlen xs) cap) v'
             /\ a_slider v' = a_slider v.
Proof.
  intros H0 Hd Hg. destruct (vec_grow_rep dbg es xs cap v H0 Hg) as (v1 & m & Hgr & H & Hlt & Hsl).
  unfold vec_push_back. rewrite Hgr. cbn [bind fst snd].
  clear H0. destruct H as [[tl Hb] Hu Hl Hc He Hp Hs Hm Hle Hcp].
  set (c := grown (zlen xs) cap) in *. clearbody c.
  unfold copy_val. rewrite He, ext_read by assumption. cbn [bind].
  pose proof (zlen_nonneg xs).
  rewrite Hl, (w64_mul (zlen xs) c es) by lia.
  assert (exists m1 t1, tl = m1 ++ t1 /\ zlen m1 = es) as (m1 & t1 & -> & Hm1).
  { apply split_at. rewrite Hb, zlen_app, zlen_map, (zlen_concat es xs Hu) in Hs. nia. }
  rewrite Hb. rewrite bwrite_app.
  2:{ rewrite zlen_map. symmetry. apply zlen_concat; assumption. }
  2:{ rewrite zlen_map. lia. }
  cbn [bind]. eexists; split; [reflexivity|]. split; [|exact Hsl].
  rewrite (w64_le (zlen xs + 1) c es) by lia.
  constructor; cbn; auto; try lia.
  - exists t1. rewrite concat_app, map_app. cbn [concat]. rewrite app_nil_r, <- app_assoc. reflexivity.
  - apply uniform_app; split; [assumption|]. constructor; [assumption|constructor].
  - rewrite zlen_app. reflexivity.
  - rewrite <- Hs, Hb, !zlen_app, !zlen_map. lia.
  - rewrite zlen_app, zlen_cons, zlen_nil. lia.
Qed.

Lemma vec_insert_rep dbg es xs cap v d i : vrep es xs cap v -> zlen d = es ->
  0 <= i < zlen xs -> grown (zlen xs) cap * es <= alloc_max ->
  exists v', vec_insert dbg v (Ext d) i = Ok v' /\
             vrep es (seq_insert xs (Z.to_nat i) d) (grown (zlen xs) cap) v' /\ a_slider v' = a_slider v.
Proof.
  intros H0 Hd Hi Hg. destruct (vec_grow_rep dbg es xs cap v H0 Hg) as (v1 & m & Hgr & H & Hlt & Hsl).
  unfold vec_insert. rewrite (vr_len _ _ _ _ H0), dassert_true by lia. cbn [bind].
  rewrite Hgr. cbn [bind fst snd].
  clear H0. destruct H as [[tl Hb] Hu Hl Hc He Hp Hs Hm Hle Hcp].
  set (c := grown (zlen xs) cap) in *. clearbody c.
  destruct (split_at xs i) as (p & s & -> & Hpl); [lia|].
  unfold seq_insert. rewrite firstn_mid, skipn_mid by assumption.
  autorewrite with zlen in *.
  apply uniform_app in Hu as [Hu1 Hu2].
  pose proof (zlen_concat es p Hu1) as Zp. pose proof (zlen_concat es s Hu2) as Zs.
  pose proof (zlen_nonneg p). pose proof (zlen_nonneg s).
  rewrite Hl, He.
  rewrite (w64_le (i + 1) c es), (w64_mul (i + 1) c es), (w64_mul i c es) by lia.
  rewrite (w64_le (zlen p + zlen s - i) c es) by lia.
  replace (zlen p + zlen s - i) with (zlen s) by lia.
  rewrite (w64_mul (zlen s) c es) by lia.
  rewrite concat_app, map_app, <- app_assoc in Hb.
  assert (exists m1 t1, tl = m1 ++ t1 /\ zlen m1 = es) as (m1 & t1 & -> & Hm1).
  { apply split_at. rewrite Hb, !zlen_app, !zlen_map, Zp, Zs in Hs. nia. }
  (* the move *)
  unfold bmove. replace (zlen s * es =? 0) with false by nia.
  rewrite Hb.
  rewrite bread_app by (rewrite zlen_map; nia). cbn [bind].
  set (P := map Some (concat p)) in *. set (S' := map Some (concat s)) in *.
  assert (zlen P = i * es) as ZP by (unfold P; rewrite zlen_map; nia).
  assert (zlen S' = zlen s * es) as ZS by (unfold S'; rewrite zlen_map; nia).
  destruct (split_at (S' ++ m1) es) as (g & r & Hgr2 & Zg).
  { rewrite zlen_app. nia. }
  assert (zlen r = zlen S') as Zr.
  { assert (zlen (S' ++ m1) = zlen (g ++ r)) as X by (rewrite Hgr2; reflexivity).
    rewrite !zlen_app in X. lia. }
  replace (P ++ S' ++ m1 ++ t1) with ((P ++ g) ++ r ++ t1).
  2:{ rewrite <- app_assoc. f_equal. rewrite app_assoc, <- Hgr2, <- app_assoc. reflexivity. }
  rewrite bwrite_app by (rewrite ?zlen_app; nia). cbn [bind].
  rewrite <- app_assoc. unfold copy_val. rewrite ext_read by assumption. cbn [bind].
  rewrite bwrite_app by (rewrite ?zlen_map; nia). cbn [bind].
  eexists; split; [reflexivity|]. split; [|exact Hsl].
  rewrite (w64_le (zlen p + zlen s + 1) c es) by lia.
  constructor; cbn; auto; try lia.
  - exists t1. rewrite concat_mid, <- !app_assoc. reflexivity.
  - apply uniform_app; split; [assumption|]. constructor; assumption.
  - autorewrite with zlen. lia.
  - autorewrite with zlen in *. rewrite <- Hs, Hb, !zlen_app. lia.
  - autorewrite with zlen. lia.
Qed.

Lemma vec_push_front_rep dbg es xs cap v d : vrep es xs cap v -> zlen d = es ->
  grown (zlen xs) cap * es <= alloc_max ->
  exists v', vec_push_front dbg v (Ext d) = Ok v' /\ vrep es (d :: xs) (grown (zlen xs) cap) v'
             /\ a_slider v' = a_slider v.
Proof.
  intros H Hd Hg. unfold vec_push_front, vec_len. rewrite (vr_len _ _ _ _ H).
  destruct (Z.eqb_spec (zlen xs) 0) as [E|E]; cbn [negb].
  - apply zlen_0 in E. subst xs. exact (vec_push_back_rep dbg es [] cap v d H Hd Hg).
  - pose proof (zlen_nonneg xs).
    exact (vec_insert_rep dbg es xs cap v d 0 H Hd ltac:(lia) Hg).
Qed.

Lemma vec_set_rep dbg es xs cap v d i : vrep es xs cap v -> zlen d = es -> 0 <= i < zlen xs ->
  exists v', vec_set dbg v (Ext d) i = Ok v' /\ vrep es (seq_update xs (Z.to_nat i) d) cap v'
             /\ a_slider v' = a_slider v.
Proof.
  intros [[tl Hb] Hu Hl Hc He Hp Hs Hm Hle Hcp] Hd Hi.
  destruct (split_elem xs i Hi) as (p & x & s & -> & Hpl).
  unfold seq_update. rewrite firstn_mid, skipn_mid_S by assumption.
  unfold vec_set, array_set. rewrite Hl, !dassert_true by lia. cbn [bind].
  apply uniform_app in Hu as [Hu1 Hu2]. apply uniform_cons in Hu2 as [Hx Hu2].
  rewrite He, (w64_mul i cap es) by lia.
  unfold copy_val. rewrite ext_read by assumption. cbn [bind].
  rewrite Hb, concat_mid, <- !app_assoc.
  rewrite bwrite_app.
  2:{ rewrite zlen_map, (zlen_concat es p Hu1). lia. }
  2:{ rewrite !zlen_map. lia. }
  cbn [bind]. eexists; split; [reflexivity|]. split; [|reflexivity].
  constructor; cbn; auto; try lia.
  - exists tl. rewrite concat_mid, <- !app_assoc. reflexivity.
  - apply uniform_app; split; [assumption|]. constructor; assumption.
  - rewrite Hl. autorewrite with zlen. lia.
  - rewrite <- Hs, Hb, concat_mid. autorewrite with zlen. lia.
  - autorewrite with zlen in *. lia.
Qed.

Lemma removelast_snoc {A} (l : list A) x : removelast (l ++ [x]) = l.
Proof. apply removelast_last. Qed.

Lemma snoc_case {A} (l : list A) : l = [] \/ exists k x, l = k ++ [x].
Proof. destruct l using rev_ind; eauto. Qed.

(** The set with the last element dropped, for every state. *)
Lemma vrep_drop es p s cap v n : vrep es (p ++ s) cap v -> n = zlen p -> vrep es p cap (set_len v n).
Proof.
  intros [[tl Hb] Hu Hl Hc He Hp Hs Hm Hle Hcp] ->.
  apply uniform_app in Hu as [Hu1 Hu2].
  constructor; cbn; auto.
  - exists (map Some (concat s) ++ tl). rewrite Hb, concat_app, map_app, <- app_assoc. reflexivity.
  - rewrite zlen_app in Hle. pose proof (zlen_nonneg s). lia.
Qed.

Lemma set_len_blk v b n : set_len (set_blk v b) n = mk_arr b n (a_cap v) (a_es v) (a_slider v).
Proof. reflexivity. Qed.

Lemma vec_remove_stable_rep dbg es xs cap v i : vrep es xs cap v -> 0 <= i < zlen xs ->
  exists v', vec_remove dbg v i 0 = Ok v' /\ vrep es (seq_delete xs (Z.to_nat i)) cap v'
             /\ a_slider v' = a_slider v.
Proof.
  intros [[tl Hb] Hu Hl Hc He Hp Hs Hm Hle Hcp] Hi.
  destruct (split_elem xs i Hi) as (p & x & s & -> & Hpl).
  unfold seq_delete. rewrite firstn_mid, skipn_mid_S by assumption.
  unfold vec_remove. rewrite Hl, !dassert_true by lia. cbn [bind].
  replace (0 =? 0) with true by reflexivity.
  autorewrite with zlen in *.
  apply uniform_app in Hu as [Hu1 Hu2]. apply uniform_cons in Hu2 as [Hx Hu2].
  pose proof (zlen_concat es p Hu1) as Zp. pose proof (zlen_concat es s Hu2) as Zs.
  pose proof (zlen_nonneg p). pose proof (zlen_nonneg s).
  rewrite He.
  rewrite (w64_le (i + 1) cap es), (w64_mul (i + 1) cap es), (w64_mul i cap es) by lia.
  rewrite (w64_le (zlen p + (1 + zlen s) - i) cap es) by lia.
  replace (zlen p + (1 + zlen s) - i - 1) with (zlen s) by lia.
  rewrite (w64_le (zlen s) cap es), (w64_mul (zlen s) cap es) by lia.
  rewrite (w64_le (zlen p + (1 + zlen s) - 1) cap es) by lia.
  rewrite concat_mid in Hb.
  assert (uniform es (p ++ s)) as Hups by (apply uniform_app; auto).
  assert (exists b' tl', bmove (a_blk v) (i * es) ((i + 1) * es) (zlen s * es) = Ok b' /\
            b' = map Some (concat (p ++ s)) ++ tl' /\ zlen b' = zlen (a_blk v)) as (b' & tl' & Hmv & Hb' & Zb').
  { unfold bmove. destruct (Z.eqb_spec (zlen s * es) 0) as [E|E].
    - assert (s = []) as -> by (apply zlen_0; nia).
      exists (a_blk v), (map Some x ++ tl). split; [reflexivity|]. split; [|reflexivity].
      rewrite Hb, (app_nil_r p). cbn [concat map]. rewrite app_nil_r, <- app_assoc. reflexivity.
    - set (P := map Some (concat p)) in *. set (S' := map Some (concat s)) in *. set (X := map Some x) in *.
      assert (zlen P = i * es) as ZP by (unfold P; rewrite zlen_map; nia).
      assert (zlen S' = zlen s * es) as ZS by (unfold S'; rewrite zlen_map; nia).
      assert (zlen X = es) as ZX by (unfold X; rewrite zlen_map; nia).
      assert (bread (a_blk v) ((i + 1) * es) (zlen s * es) = Ok S') as Hrd.
      { replace (a_blk v) with ((P ++ X) ++ S' ++ tl) by (rewrite Hb, <- !app_assoc; reflexivity).
        apply bread_app; rewrite ?zlen_app; nia. }
      rewrite Hrd. cbn [bind].
      destruct (split_at (X ++ S') (zlen S')) as (g & r & Hg & Zg).
      { rewrite zlen_app. pose proof (zlen_nonneg S'). lia. }
      rewrite Hb, <- !app_assoc. rewrite (app_assoc X S' tl), Hg, <- app_assoc.
      rewrite bwrite_app by lia.
      exists (P ++ S' ++ r ++ tl), (r ++ tl). split; [reflexivity|]. split.
      + rewrite concat_app, map_app, <- app_assoc. reflexivity.
      + assert (zlen (X ++ S') = zlen (g ++ r)) as Y by (rewrite Hg; reflexivity).
        rewrite !zlen_app in *. lia. }
  rewrite Hmv. cbn [bind]. eexists; split; [reflexivity|]. split; [|reflexivity].
  constructor; cbn; auto; try lia.
  - exists tl'. exact Hb'.
  - autorewrite with zlen. lia.
  - autorewrite with zlen. lia.
Qed.

Lemma seq_delete_fast_last (p : list elem) x : seq_delete_fast (p ++ [x]) (length p) = p.
Proof.
  unfold seq_delete_fast. rewrite app_length. cbn [length].
  replace (S (length p) =? length p + 1)%nat with true by (symmetry; apply Nat.eqb_eq; lia).
  apply removelast_snoc.
Qed.

Lemma seq_delete_fast_mid (p : list elem) x s y :
  seq_delete_fast (p ++ x :: s ++ [y]) (length p) = p ++ y :: s.
Proof.
  unfold seq_delete_fast. rewrite app_length. cbn [length]. rewrite app_length. cbn [length].
  replace (S (length p) =? length p + S (length s + 1))%nat with false by (symmetry; apply Nat.eqb_neq; lia).
  rewrite firstn_exact.
  rewrite <- (to_nat_zlen p), skipn_mid_S by reflexivity. rewrite removelast_snoc.
  do 2 f_equal. change (p ++ x :: s ++ [y]) with (p ++ (x :: s) ++ [y]).
  rewrite app_assoc. apply last_last.
Qed.

Lemma bswap_same dbg b1 x b2 o n : o = zlen b1 -> n = zlen x -> 0 < n <= alloc_max ->
  bswap dbg (b1 ++ x ++ b2) o o n = Ok (b1 ++ x ++ b2).
Proof.
  intros -> -> Hn. unfold bswap. rewrite dassert_true by lia. rewrite c_calloc_ok by lia. cbn [bind].
  rewrite bread_app by reflexivity. cbn [bind]. unfold bcopy_in.
  rewrite bread_app by reflexivity. cbn [bind]. rewrite Z.eqb_refl.
  rewrite bwrite_app by reflexivity. cbn [bind]. rewrite bwrite_app by reflexivity. reflexivity.
Qed.

Lemma bswap_disjoint dbg b1 x b2 y b3 o1 o2 n : o1 = zlen b1 -> n = zlen x -> n = zlen y ->
  o2 = zlen b1 + zlen x + zlen b2 -> 0 < n <= alloc_max ->
  bswap dbg (b1 ++ x ++ b2 ++ y ++ b3) o1 o2 n = Ok (b1 ++ y ++ b2 ++ x ++ b3).
Proof.
  intros -> Hx Hy -> Hn. unfold bswap. rewrite dassert_true by lia. rewrite c_calloc_ok by lia. cbn [bind].
  rewrite bread_app by auto. cbn [bind]. unfold bcopy_in.
  replace (b1 ++ x ++ b2 ++ y ++ b3) with ((b1 ++ x ++ b2) ++ y ++ b3) at 1 by (rewrite <- !app_assoc; reflexivity).
  rewrite bread_app by (rewrite ?zlen_app; lia). cbn [bind].
  pose proof (zlen_nonneg b2).
  replace (zlen b1 =? zlen b1 + zlen x + zlen b2) with false by lia.
  replace ((zlen b1 <? zlen b1 + zlen x + zlen b2 + n) && (zlen b1 + zlen x + zlen b2 <? zlen b1 + n)) with false by lia.
  rewrite bwrite_app by lia. cbn [bind].
  replace (b1 ++ y ++ b2 ++ y ++ b3) with ((b1 ++ y ++ b2) ++ y ++ b3) by (rewrite <- !app_assoc; reflexivity).
  rewrite bwrite_app by (rewrite ?zlen_app; lia). rewrite <- !app_assoc. reflexivity.
Qed.

Lemma vec_remove_fast_rep dbg es xs cap v i rs : vrep es xs cap v -> 0 <= i < zlen xs -> rs = 1 ->
  exists v', vec_remove dbg v i rs = Ok v' /\ vrep es (seq_delete_fast xs (Z.to_nat i)) cap v'
             /\ a_slider v' = a_slider v.
Proof.
  intros [[tl Hb] Hu Hl Hc He Hp Hs Hm Hle Hcp] Hi ->.
  destruct (split_elem xs i Hi) as (p & x & s & -> & Hpl).
  unfold vec_remove. rewrite Hl, !dassert_true by lia. cbn [bind].
  replace (1 =? 0) with false by reflexivity.
  autorewrite with zlen in *.
  apply uniform_app in Hu as [Hu1 Hu2]. apply uniform_cons in Hu2 as [Hx Hu2].
  pose proof (zlen_concat es p Hu1) as Zp.
  pose proof (zlen_nonneg p). pose proof (zlen_nonneg s).
  rewrite He, (w64_mul i cap es) by lia.
  rewrite (w64_le (zlen p + (1 + zlen s) - 1) cap es) by lia.
  rewrite (w64_mul (zlen p + (1 + zlen s) - 1) cap es) by lia.
  rewrite concat_mid in Hb.
  rewrite <- Hpl, to_nat_zlen.
  destruct (snoc_case s) as [->|(k & y & ->)].
  - rewrite seq_delete_fast_last. cbn [zlen length] in *.
    replace ((zlen p + (1 + zlen (@nil elem)) - 1) * es) with (zlen p * es) by (rewrite zlen_nil; lia).
    cbn [concat map] in Hb. rewrite app_nil_r in Hb. rewrite <- app_assoc in Hb. rewrite Hb.
    rewrite bswap_same by (rewrite ?zlen_map; nia). cbn [bind].
    eexists; split; [reflexivity|]. split; [|reflexivity].
    constructor; cbn; auto; try lia.
    + exists (map Some x ++ tl). reflexivity.
    + rewrite zlen_nil. lia.
    + rewrite <- Hb. lia.
  - rewrite seq_delete_fast_mid.
    apply uniform_app in Hu2 as [Hk Hy]. apply uniform_cons in Hy as [Hy _].
    pose proof (zlen_concat es k Hk) as Zk.
    rewrite zlen_app, zlen_cons, zlen_nil in *.
    rewrite concat_app, map_app in Hb. cbn [concat] in Hb. rewrite app_nil_r, <- !app_assoc in Hb.
    rewrite Hb.
    rewrite bswap_disjoint by (rewrite ?zlen_map; nia). cbn [bind].
    eexists; split; [reflexivity|]. split; [|reflexivity].
    constructor; cbn; auto; try lia.
    + exists (map Some x ++ tl). rewrite concat_mid, <- !app_assoc. reflexivity.
    + apply uniform_app; split; [assumption|]. constructor; assumption.
    + autorewrite with zlen. lia.
    + rewrite <- Hs, Hb. autorewrite with zlen. lia.
    + autorewrite with zlen. lia.
Qed.

(** ** pop, find *)

Lemma vec_pop_rep es xs cap v : vrep es xs cap v -> vrep es (removelast xs) cap (vec_pop v).
Proof.
  intros H. unfold vec_pop. rewrite (vr_len _ _ _ _ H).
  destruct (snoc_case xs) as [->|(k & x & ->)].
  - exact H.
  - rewrite removelast_snoc. autorewrite with zlen. pose proof (zlen_nonneg k).
    replace (0 <? zlen k + (1 + 0)) with true by lia.
    eapply vrep_drop; [exact H|].
    rewrite (w64_le _ cap es); [lia| |apply H|apply H].
    pose proof (vr_le _ _ _ _ H) as X. autorewrite with zlen in X. lia.
Qed.

Lemma vec_find_loop_rep es xs cap v d : vrep es xs cap v ->
  forall s p, xs = p ++ s ->
  vec_find_loop (length s) (a_blk v) es d (zlen p) =
  Ok (match seq_find s d with Some k => zlen p + Z.of_nat k | None => -1 end).
Proof.
  intros H. induction s as [|x s IH]; intros p E; cbn [vec_find_loop seq_find length]; [reflexivity|].
  pose proof H as [[tl Hb] Hu Hl Hc He Hp Hs Hm Hle Hcp]. subst xs.
  apply uniform_app in Hu as [Hu1 Hu2]. apply uniform_cons in Hu2 as [Hx Hu2].
  rewrite Hb, concat_mid, <- !app_assoc.
  rewrite bread_app.
  2:{ rewrite zlen_map, (zlen_concat es p Hu1). lia. }
  2:{ rewrite zlen_map. lia. }
  cbn [bind]. rewrite memcmp_eq_map. cbn [bind].
  destruct (bytes_eqb x d) eqn:B.
  - apply bytes_eqb_spec in B. destruct (list_eq_dec Z.eq_dec x d); [|contradiction]. f_equal. lia.
  - destruct (list_eq_dec Z.eq_dec x d) as [->|N].
    { exfalso. assert (bytes_eqb d d = true) by (apply bytes_eqb_spec; reflexivity). congruence. }
    specialize (IH (p ++ [x])). rewrite <- app_assoc in IH. specialize (IH eq_refl).
    rewrite zlen_app, zlen_cons, zlen_nil in IH.
    replace (zlen p + (1 + 0)) with (zlen p + 1) in IH by lia.
    rewrite Hb, concat_mid, <- !app_assoc in IH.
    rewrite IH. destruct (seq_find s d); f_equal; lia.
Qed.

Lemma vec_can_find_rep es xs cap v d : vrep es xs cap v ->
  vec_can_find v d = Ok (match seq_find xs d with Some k => Z.of_nat k | None => -1 end).
Proof.
  intros H. unfold vec_can_find. rewrite (vr_len _ _ _ _ H), (vr_es _ _ _ _ H), to_nat_zlen.
  exact (vec_find_loop_rep es xs cap v d H xs [] eq_refl).
Qed.

(** ** One step and whole traces *)

Lemma fits_spec es c : fits es c = true -> 0 < c * es <= alloc_max.
Proof. unfold fits. lia. Qed.

Lemma vstep_rep dbg es xs cap v o xs' cap' out : vrep es xs cap v ->
  sstep es (xs, cap) o = Some ((xs', cap'), out) ->
  exists v', vstep dbg v o = Ok (v', out) /\ vrep es xs' cap' v' /\ a_slider v' = a_slider v.
Proof.
  intros H E. destruct o as [d|d|d i|d i|i rs| | | |n| |n|i|d| |]; cbn [sstep vstep] in *.
  - destruct (elem_ok es d) eqn:E1; [|discriminate]. destruct (fits es (grown (zlen xs) cap)) eqn:E2; [|discriminate].
    apply fits_spec in E2. unfold elem_ok in E1. injection E as <- <- <-.
    destruct (vec_push_back_rep dbg es xs cap v d H) as (v' & -> & Hv & Hsl); [lia|lia|]. cbn [bind]. eauto.
  - destruct (elem_ok es d) eqn:E1; [|discriminate]. destruct (fits es (grown (zlen xs) cap)) eqn:E2; [|discriminate].
    apply fits_spec in E2. unfold elem_ok in E1. injection E as <- <- <-.
    destruct (vec_push_front_rep dbg es xs cap v d H) as (v' & -> & Hv & Hsl); [lia|lia|]. cbn [bind]. eauto.
  - destruct (elem_ok es d) eqn:E1; [|discriminate]. destruct (in_range i (zlen xs)) eqn:E3; [|discriminate].
    destruct (fits es (grown (zlen xs) cap)) eqn:E2; [|discriminate].
    apply fits_spec in E2. unfold elem_ok, in_range in *. injection E as <- <- <-.
    destruct (vec_insert_rep dbg es xs cap v d i H) as (v' & -> & Hv & Hsl); [lia|lia|lia|]. cbn [bind]. eauto.
  - destruct (elem_ok es d) eqn:E1; [|discriminate]. destruct (in_range i (zlen xs)) eqn:E3; [|discriminate].
    unfold elem_ok, in_range in *. injection E as <- <- <-.
    destruct (vec_set_rep dbg es xs cap v d i H) as (v' & -> & Hv & Hsl); [lia|lia|]. cbn [bind]. eauto.
  - destruct (in_range i (zlen xs)) eqn:E3; [|discriminate]. destruct (in_range rs 2) eqn:E4; [|discriminate].
    unfold in_range in *. cbn [andb] in E. destruct (Z.eqb_spec rs 0) as [->|N]; injection E as <- <- <-.
    + destruct (vec_remove_stable_rep dbg es xs cap v i H) as (v' & -> & Hv & Hsl); [lia|]. cbn [bind]. eauto.
    + destruct (vec_remove_fast_rep dbg es xs cap v i rs H) as (v' & -> & Hv & Hsl); [lia|lia|]. cbn [bind]. eauto.
  - injection E as <- <- <-. eexists; split; [reflexivity|]. split; [apply vec_pop_rep; exact H|].
    unfold vec_pop. destruct (0 <? a_len v); reflexivity.
  - injection E as <- <- <-.
    pose proof (vec_pop_rep es xs cap v H) as Hpop.
    unfold vec_pop, vec_pop_get in *. rewrite (vr_len _ _ _ _ H) in *.
    destruct (snoc_case xs) as [->|(k & x & ->)].
    { cbn. eexists; split; [reflexivity|]. split; [exact H|reflexivity]. }
    autorewrite with zlen in *. pose proof (zlen_nonneg k).
    replace (0 <? zlen k + (1 + 0)) with true in * by lia.
    pose proof H as [[tl Hb] Hu Hl Hc He Hp Hs Hm Hle Hcp].
    autorewrite with zlen in Hle.
    rewrite (w64_le (zlen k + (1 + 0) - 1) cap es) in * by lia.
    cbn [a_blk a_es set_len] in *.
    rewrite He, (w64_mul (zlen k + (1 + 0) - 1) cap es) by lia.
    apply uniform_app in Hu as [Hu1 Hu2]. apply uniform_cons in Hu2 as [Hx _].
    rewrite Hb, concat_mid, <- !app_assoc.
    rewrite bread_app.
    2:{ rewrite zlen_map, (zlen_concat es k Hu1). lia. }
    2:{ rewrite zlen_map. lia. }
    cbn [bind]. eexists. split.
    { do 3 f_equal. rewrite last_last. destruct k; reflexivity. }
    split; [exact Hpop|reflexivity].
  - injection E as <- <- <-. eexists; split; [reflexivity|]. split; [|reflexivity].
    eapply (vrep_drop es [] xs); [exact H|reflexivity].
  - destruct (0 <? n) eqn:E1; [|discriminate]. destruct (fits es (cap + n)) eqn:E2; [|discriminate].
    apply fits_spec in E2. injection E as <- <- <-.
    destruct (vec_reserve_rep dbg es xs cap v n H) as (v' & -> & Hv & Hsl); [lia|lia|]. cbn [bind]. eauto.
  - destruct (0 <? zlen xs) eqn:E1; [|discriminate]. injection E as <- <- <-.
    destruct (vec_shrink_rep dbg es xs cap v H) as (v' & -> & Hv & Hsl); [lia|]. cbn [bind]. eauto.
  - destruct (0 <? n) eqn:E1; [|discriminate]. destruct (n <=? zlen xs) eqn:E2; [|discriminate].
    injection E as <- <- <-.
    destruct (vec_resize_rep dbg es xs cap v n H) as (v' & -> & Hv & Hsl); [lia|]. cbn [bind]. eauto.
  - destruct (nth_error xs (Z.to_nat i)) as [x|] eqn:En; [|discriminate].
    destruct (0 <=? i) eqn:E1; [|discriminate]. injection E as <- <- <-.
    assert (0 <= i < zlen xs) as Hi.
    { split; [lia|]. assert (Z.to_nat i < length xs)%nat as X by (apply nth_error_Some; congruence).
      unfold zlen. lia. }
    destruct (vec_get_rep dbg es xs cap v i H Hi) as (x' & Hx' & ->). cbn [bind].
    rewrite En in Hx'. injection Hx' as <-. eauto.
  - destruct (elem_ok es d) eqn:E1; [|discriminate]. injection E as <- <- <-.
    rewrite (vec_can_find_rep es xs cap v d H). cbn [bind]. eauto.
  - injection E as <- <- <-. unfold vec_len. rewrite (vr_len _ _ _ _ H). eauto.
  - injection E as <- <- <-. unfold vec_capacity. rewrite (vr_cap _ _ _ _ H). eauto.
Qed.

Lemma vrun_rep dbg es ops : forall xs cap v xs' cap' outs, vrep es xs cap v ->
  srun es (xs, cap) ops = Some ((xs', cap'), outs) ->
  exists v', vrun dbg v ops = Ok (v', outs) /\ vrep es xs' cap' v' /\ a_slider v' = a_slider v.
Proof.
  induction ops as [|o ops IH]; intros xs cap v xs' cap' outs H E; cbn [srun vrun] in *.
  - injection E as <- <- <-. eauto.
  - destruct (sstep es (xs, cap) o) as [[[xs1 cap1] out]|] eqn:Es; [|discriminate].
    destruct (srun es (xs1, cap1) ops) as [[[xs2 cap2] outs2]|] eqn:Er; [|discriminate].
    injection E as <- <- <-.
    destruct (vstep_rep dbg _ _ _ _ _ _ _ _ H Es) as (v1 & -> & Hv1 & Hs1). cbn [bind fst snd].
    destruct (IH _ _ _ _ _ _ Hv1 Er) as (v2 & -> & Hv2 & Hs2). cbn [bind fst snd].
    exists v2. split; [reflexivity|]. split; [exact Hv2|congruence].
Qed.

Lemma vec_refines dbg es n ops xs cap outs :
  0 < n -> 0 < es -> fits es n = true ->
  srun es ([], n) ops = Some ((xs, cap), outs) ->
  exists v0 v, vec_create dbg n es = Ok v0 /\ vrun dbg v0 ops = Ok (v, outs) /\
    vec_len v = zlen xs /\ vec_capacity v = cap /\
    forall i, 0 <= i < zlen xs ->
      exists x, nth_error xs (Z.to_nat i) = Some x /\ vec_get dbg v i = Ok (map Some x).
Proof.
  intros Hn Hes Hf Hr. apply fits_spec in Hf.
  destruct (vec_create_rep dbg n es) as (v0 & Hc & H0); [lia..|].
  destruct (vrun_rep dbg es ops _ _ _ _ _ _ H0 Hr) as (v & Hv & H & _).
  exists v0, v. repeat split; auto; try apply H.
  intros i Hi. exact (vec_get_rep dbg es xs cap v i H Hi).
Qed.
