(** Proofs about the vector model, second part: bounds checks, safety for
    arbitrary calls, removal, search, sliders, growth, resize, aliasing. *)
From Verif Require Import Base BaseFacts VecModel VecSpec VecProofs.
From Coq Require Import ZifyBool ZifyNat Permutation.

(** ** Bounds checks in debug builds *)

Lemma vec_bounds_abort v i val rs :
  a_len v <= i ->
  vec_get_ptr true v i = Abort /\ vec_get true v i = Abort /\ vec_set true v val i = Abort /\
  vec_insert true v val i = Abort /\ vec_remove true v i rs = Abort.
Proof.
  intros H. unfold vec_get, vec_get_ptr, vec_set, vec_insert, vec_remove, dassert.
  replace (i <? a_len v) with false by lia. cbn.
  repeat split; auto. destruct (rs <? 2); reflexivity.
Qed.

(** ** Safety for arbitrary calls in debug builds *)

(** The arguments of a call are values of their C types, [val] points to one
    element, and requested sizes are below 2^63 bytes. *)
Definition size_t_ok (i : Z) : Prop := 0 <= i < two64.

Definition op_typed (es : Z) (o : vop) : Prop :=
  match o with
  | PushBack d | PushFront d | Find d => zlen d = es
  | Insert d i | SetAt d i => zlen d = es /\ size_t_ok i
  | Remove i rs => size_t_ok i /\ 0 <= rs
  | Reserve n | Resize n => 0 <= n /\ n * es < two64 / 2
  | Get i => size_t_ok i
  | _ => True
  end.

Definition no_resize (o : vop) : Prop := match o with Resize _ => False | _ => True end.
Definition no_find (o : vop) : Prop := match o with Find _ => False | _ => True end.

Definition vwf (v : arr) : Prop :=
  0 <= a_len v <= a_cap v /\ 0 < a_cap v /\ 0 < a_es v /\
  zlen (a_blk v) = a_cap v * a_es v /\ a_cap v * a_es v <= alloc_max.

Lemma vrep_vwf es xs cap v : vrep es xs cap v -> vwf v.
Proof.
  intros [[tl Hb] Hu Hl Hc He Hp Hs Hm Hle Hcp]. unfold vwf. rewrite Hl, Hc, He.
  pose proof (zlen_nonneg xs). repeat split; auto; lia.
Qed.

Lemma c_realloc_cases b n : 0 <= n ->
  c_realloc true b n = Abort \/
  exists b', c_realloc true b n = Ok b' /\ zlen b' = n /\ 0 < n <= alloc_max.
Proof.
  intros Hn. unfold c_realloc, dassert. destruct (Z.ltb_spec 0 n); cbn [bind]; [|auto].
  replace (n =? 0) with false by lia.
  destruct (Z.leb_spec n alloc_max); [|auto]. right. eexists; split; [reflexivity|].
  split; [|lia]. rewrite zlen_app, zlen_firstn, zlen_repeat. unfold zlen. lia.
Qed.

Lemma vec_reserve_wf v n : vwf v -> 0 <= n -> n * a_es v < two64 / 2 ->
  vec_reserve true v n = Abort \/
  exists v', vec_reserve true v n = Ok v' /\ vwf v' /\ a_es v' = a_es v /\ a_len v' = a_len v /\
             a_cap v' = a_cap v + n /\ 0 < n.
Proof.
  intros (Hl & Hc & He & Hs & Hm) Hn Hmax. unfold vec_reserve, dassert.
  destruct (Z.ltb_spec 0 n); cbn [bind]; [|auto].
  rewrite (w64_small (a_cap v + n)) by (unfold two64, alloc_max in *; nia).
  rewrite (w64_small ((a_cap v + n) * a_es v)) by (unfold two64, alloc_max in *; nia).
  destruct (c_realloc_cases (a_blk v) ((a_cap v + n) * a_es v)) as [->|(b' & -> & Zb & Hr)]; [nia|auto|].
  cbn [bind]. right. eexists; split; [reflexivity|]. unfold vwf; cbn.
  repeat split; auto; lia.
Qed.

Lemma vec_grow_wf v : vwf v ->
  vec_grow true v = Abort \/
  exists v' m, vec_grow true v = Ok (v', m) /\ vwf v' /\ a_es v' = a_es v /\ a_len v' = a_len v /\ a_len v' < a_cap v'.
Proof.
  intros H. pose proof H as (Hl & Hc & He & Hs & Hm). unfold vec_grow, vec_has_space.
  rewrite (w64_small (a_cap v - a_len v)) by (unfold two64, alloc_max in *; nia).
  destruct (Z.eqb_spec (a_cap v - a_len v) 0) as [E|E].
  - rewrite (w64_small (a_cap v * 2)) by (unfold two64, alloc_max in *; nia).
    destruct (vec_reserve_wf v (a_cap v * 2) H) as [->|(v' & -> & Hv & He' & Hl' & Hc' & _)].
    + lia.
    + unfold two64, alloc_max in *. nia.
    + left; reflexivity.
    + right. cbn [bind]. exists v', true. split; [reflexivity|]. split; [exact Hv|]. repeat split; auto; lia.
  - right. exists v, false. split; [reflexivity|]. split; [exact H|]. repeat split; auto; lia.
Qed.

Lemma copy_val_ext_wf b m off d es : zlen d = es -> 0 <= off -> off + es <= zlen b ->
  exists b', copy_val b m off (Ext d) es = Ok b' /\ zlen b' = zlen b.
Proof.
  intros Hd H0 H1. unfold copy_val. rewrite ext_read by assumption. cbn [bind].
  apply bwrite_range; rewrite ?zlen_map; lia.
Qed.

Lemma bmove_wf b dst src n : 0 <= dst -> 0 <= src -> 0 <= n -> dst + n <= zlen b -> src + n <= zlen b ->
  exists b', bmove b dst src n = Ok b' /\ zlen b' = zlen b.
Proof.
  intros. unfold bmove. destruct (n =? 0); [eauto|].
  destruct (bread_range b src n) as (m & -> & Hm); [lia..|]. cbn [bind].
  apply bwrite_range; lia.
Qed.

Lemma vec_push_back_wf v d : vwf v -> zlen d = a_es v ->
  vec_push_back true v (Ext d) = Abort \/
  exists v', vec_push_back true v (Ext d) = Ok v' /\ vwf v' /\ a_es v' = a_es v.
Proof.
  intros H Hd. unfold vec_push_back.
  destruct (vec_grow_wf v H) as [->|(v1 & m & -> & (Hl & Hc & He & Hs & Hm) & He' & Hl' & Hlt)]; [auto|].
  cbn [bind fst snd]. right.
  rewrite (w64_small (a_len v1 * a_es v1)) by (unfold two64, alloc_max in *; nia).
  destruct (copy_val_ext_wf (a_blk v1) m (a_len v1 * a_es v1) d (a_es v1)) as (b & -> & Zb); [lia|nia|nia|].
  cbn [bind]. eexists; split; [reflexivity|]. split; [|exact He'].
  rewrite (w64_small (a_len v1 + 1)) by (unfold two64, alloc_max in *; nia).
  unfold vwf; cbn. repeat split; auto; lia.
Qed.

Lemma vec_insert_wf v d i : vwf v -> zlen d = a_es v -> 0 <= i ->
  vec_insert true v (Ext d) i = Abort \/
  exists v', vec_insert true v (Ext d) i = Ok v' /\ vwf v' /\ a_es v' = a_es v.
Proof.
  intros H Hd Hi. unfold vec_insert, dassert.
  destruct (Z.ltb_spec i (a_len v)); cbn [bind]; [|auto].
  destruct (vec_grow_wf v H) as [->|(v1 & m & -> & (Hl & Hc & He & Hs & Hm) & He' & Hl' & Hlt)]; [auto|].
  cbn [bind fst snd]. right.
  rewrite (w64_small (i + 1)) by (unfold two64, alloc_max in *; nia).
  rewrite (w64_small ((i + 1) * a_es v1)) by (unfold two64, alloc_max in *; nia).
  rewrite (w64_small (i * a_es v1)) by (unfold two64, alloc_max in *; nia).
  rewrite (w64_small (a_len v1 - i)) by (unfold two64, alloc_max in *; nia).
  rewrite (w64_small ((a_len v1 - i) * a_es v1)) by (unfold two64, alloc_max in *; nia).
  destruct (bmove_wf (a_blk v1) ((i + 1) * a_es v1) (i * a_es v1) ((a_len v1 - i) * a_es v1)) as (b & -> & Zb); [nia..|].
  cbn [bind].
  destruct (copy_val_ext_wf b m (i * a_es v1) d (a_es v1)) as (b' & -> & Zb'); [lia|nia|nia|].
  cbn [bind]. eexists; split; [reflexivity|]. split; [|exact He'].
  rewrite (w64_small (a_len v1 + 1)) by (unfold two64, alloc_max in *; nia).
  unfold vwf; cbn. repeat split; auto; lia.
Qed.

Lemma bswap_wf b o1 o2 n : 0 < n <= alloc_max -> 0 <= o1 -> 0 <= o2 -> o1 + n <= zlen b -> o2 + n <= zlen b ->
  o1 = o2 \/ o1 + n <= o2 ->
  exists b', bswap true b o1 o2 n = Ok b' /\ zlen b' = zlen b.
Proof.
  intros Hn H1 H2 H3 H4 Hd. unfold bswap. rewrite dassert_true by lia. rewrite c_calloc_ok by lia. cbn [bind].
  destruct (bread_range b o1 n) as (t & -> & Ht); [lia..|]. cbn [bind]. unfold bcopy_in.
  destruct (bread_range b o2 n) as (t2 & -> & Ht2); [lia..|]. cbn [bind].
  destruct (bwrite_range b o1 t2) as (b1 & E1 & Zb1); [lia..|].
  assert ((if o1 =? o2 then bwrite b o1 t2 else
           if (o1 <? o2 + n) && (o2 <? o1 + n) then UB else bwrite b o1 t2) = Ok b1) as ->.
  { destruct (Z.eqb_spec o1 o2); [exact E1|].
    replace ((o1 <? o2 + n) && (o2 <? o1 + n)) with false by lia. exact E1. }
  cbn [bind]. destruct (bwrite_range b1 o2 t) as (b2 & -> & Zb2); [lia..|].
  eexists; split; [reflexivity|]. lia.
Qed.

Lemma vec_remove_wf v i rs : vwf v -> 0 <= i ->
  vec_remove true v i rs = Abort \/
  exists v', vec_remove true v i rs = Ok v' /\ vwf v' /\ a_es v' = a_es v.
Proof.
  intros (Hl & Hc & He & Hs & Hm) Hi. unfold vec_remove. unfold dassert at 1.
  destruct (rs <? 2); cbn [bind]; [|auto].
  unfold dassert at 1. destruct (Z.ltb_spec i (a_len v)); cbn [bind]; [|auto]. right.
  rewrite (w64_small (i + 1)) by (unfold two64, alloc_max in *; nia).
  rewrite (w64_small ((i + 1) * a_es v)) by (unfold two64, alloc_max in *; nia).
  rewrite (w64_small (i * a_es v)) by (unfold two64, alloc_max in *; nia).
  rewrite (w64_small (a_len v - i)) by (unfold two64, alloc_max in *; nia).
  rewrite (w64_small (a_len v - i - 1)) by (unfold two64, alloc_max in *; nia).
  rewrite (w64_small ((a_len v - i - 1) * a_es v)) by (unfold two64, alloc_max in *; nia).
  rewrite (w64_small (a_len v - 1)) by (unfold two64, alloc_max in *; nia).
  rewrite (w64_small ((a_len v - 1) * a_es v)) by (unfold two64, alloc_max in *; nia).
  assert (forall b, zlen b = zlen (a_blk v) -> vwf (set_len (set_blk v b) (a_len v - 1))) as W.
  { intros b Zb. unfold vwf; cbn. repeat split; auto; lia. }
  destruct (rs =? 0).
  - destruct (bmove_wf (a_blk v) (i * a_es v) ((i + 1) * a_es v) ((a_len v - i - 1) * a_es v)) as (b & -> & Zb); [nia..|].
    cbn [bind]. eexists; split; [reflexivity|]. split; [auto|reflexivity].
  - destruct (bswap_wf (a_blk v) (i * a_es v) ((a_len v - 1) * a_es v) (a_es v)) as (b & -> & Zb); [nia..| |].
    { destruct (Z.eq_dec i (a_len v - 1)) as [->|N]; [left; reflexivity|right; nia]. }
    cbn [bind]. eexists; split; [reflexivity|]. split; [auto|reflexivity].
Qed.

Lemma vec_resize_wf v n : vwf v -> 0 <= n -> n * a_es v < two64 / 2 ->
  vec_resize true v n = Abort \/
  exists v', vec_resize true v n = Ok v' /\ vwf v' /\ a_es v' = a_es v.
Proof.
  intros (Hl & Hc & He & Hs & Hm) Hn Hmax. unfold vec_resize, dassert.
  destruct (Z.ltb_spec 0 n); cbn [bind]; [|auto].
  destruct (n =? a_cap v).
  { right. eexists; split; [reflexivity|]. unfold vwf; cbn. repeat split; auto; lia. }
  rewrite (w64_small (n * a_es v)) by (unfold two64, alloc_max in *; nia).
  destruct (c_realloc_cases (a_blk v) (n * a_es v)) as [->|(b' & -> & Zb & Hr)]; [nia|auto|].
  right. cbn [bind]. eexists; split; [reflexivity|]. unfold vwf; cbn. repeat split; auto; lia.
Qed.

Lemma vec_shrink_wf v : vwf v ->
  vec_shrink true v = Abort \/
  exists v', vec_shrink true v = Ok v' /\ vwf v' /\ a_es v' = a_es v.
Proof.
  intros H. pose proof H as (Hl & Hc & He & Hs & Hm). unfold vec_shrink.
  destruct (a_len v =? a_cap v); [right; eauto|].
  rewrite (w64_small (a_len v * a_es v)) by (unfold two64, alloc_max in *; nia).
  destruct (c_realloc_cases (a_blk v) (a_len v * a_es v)) as [->|(b' & -> & Zb & Hr)]; [nia|auto|].
  right. cbn [bind]. eexists; split; [reflexivity|]. unfold vwf; cbn. repeat split; auto; try lia; nia.
Qed.

Lemma vstep_wf v o : vwf v -> op_typed (a_es v) o -> no_find o ->
  vstep true v o = Abort \/
  exists v' out, vstep true v o = Ok (v', out) /\ vwf v' /\ a_es v' = a_es v.
Proof.
  intros H T NF. pose proof H as (Hl & Hc & He & Hs & Hm).
  destruct o as [d|d|d i|d i|i rs| | | |n| |n|i|d| |]; cbn [vstep op_typed no_find] in *.
  - destruct (vec_push_back_wf v d H T) as [->|(v' & -> & W)]; cbn [bind]; [auto|]. right; eauto.
  - unfold vec_push_front. destruct (negb (vec_len v =? 0)).
    + destruct (vec_insert_wf v d 0 H T) as [->|(v' & -> & W)]; cbn [bind]; [lia|auto|]. right; eauto.
    + destruct (vec_push_back_wf v d H T) as [->|(v' & -> & W)]; cbn [bind]; [auto|]. right; eauto.
  - destruct T as [T Ti]. unfold size_t_ok in Ti.
    destruct (vec_insert_wf v d i H T) as [->|(v' & -> & W)]; cbn [bind]; [lia|auto|]. right; eauto.
  - destruct T as [T Ti]. unfold size_t_ok in Ti. unfold vec_set, array_set, dassert.
    destruct (Z.ltb_spec i (a_len v)); cbn [bind]; [|auto]. right.
    rewrite (w64_small (i * a_es v)) by (unfold two64, alloc_max in *; nia).
    destruct (copy_val_ext_wf (a_blk v) false (i * a_es v) d (a_es v)) as (b & -> & Zb); [lia|nia|nia|].
    cbn [bind]. do 2 eexists; split; [reflexivity|]. unfold vwf; cbn. repeat split; auto; lia.
  - destruct T as [Ti Tr]. unfold size_t_ok in Ti.
    destruct (vec_remove_wf v i rs H) as [->|(v' & -> & W)]; cbn [bind]; [lia|auto|]. right; eauto.
  - right. do 2 eexists; split; [reflexivity|]. unfold vec_pop.
    destruct (Z.ltb_spec 0 (a_len v)); [|auto].
    rewrite (w64_small (a_len v - 1)) by (unfold two64, alloc_max in *; nia).
    unfold vwf; cbn. repeat split; auto; lia.
  - right. unfold vec_pop_get. destruct (Z.ltb_spec 0 (a_len v)); [|do 2 eexists; split; [reflexivity|]; auto].
    rewrite (w64_small (a_len v - 1)) by (unfold two64, alloc_max in *; nia).
    rewrite (w64_small ((a_len v - 1) * a_es v)) by (unfold two64, alloc_max in *; nia).
    cbn [set_len a_blk a_es].
    destruct (bread_range (a_blk v) ((a_len v - 1) * a_es v) (a_es v)) as (c & -> & Zc); [nia..|].
    cbn [bind]. do 2 eexists; split; [reflexivity|]. unfold vwf; cbn. repeat split; auto; lia.
  - right. do 2 eexists; split; [reflexivity|]. unfold vwf; cbn. repeat split; auto; lia.
  - destruct T as [T1 T2]. destruct (vec_reserve_wf v n H T1 T2) as [->|(v' & -> & W & We & _)]; cbn [bind]; [auto|].
    right; eauto.
  - destruct (vec_shrink_wf v H) as [->|(v' & -> & W)]; cbn [bind]; [auto|]. right; eauto.
  - destruct T as [T1 T2]. destruct (vec_resize_wf v n H T1 T2) as [->|(v' & -> & W)]; cbn [bind]; [auto|].
    right; eauto.
  - unfold size_t_ok in T. unfold vec_get, vec_get_ptr, array_get, dassert.
    destruct (Z.ltb_spec i (a_len v)); cbn [bind]; [|auto]. right.
    rewrite (w64_small (i * a_es v)) by (unfold two64, alloc_max in *; nia).
    destruct (bread_range (a_blk v) (i * a_es v) (a_es v)) as (c & -> & Zc); [nia..|].
    cbn [bind]. do 2 eexists; split; [reflexivity|]. auto.
  - contradiction.
  - right; eauto.
  - right; eauto.
Qed.

Lemma vrun_wf ops : forall v, vwf v -> Forall (op_typed (a_es v)) ops -> Forall no_find ops ->
  vrun true v ops = Abort \/ exists v' outs, vrun true v ops = Ok (v', outs) /\ vwf v'.
Proof.
  induction ops as [|o ops IH]; intros v H T NF; cbn [vrun]; [right; eauto|].
  inversion T; inversion NF; subst.
  destruct (vstep_wf v o H) as [->|(v1 & out & -> & W & We)]; auto.
  cbn [bind fst snd]. destruct (IH v1 W) as [->|(v2 & outs & -> & W2)]; auto.
  - rewrite We. assumption.
  - right. cbn [bind]. eauto.
Qed.

(** Without resize every call either follows the sequence semantics or aborts. *)
Lemma vstep_total es xs cap v o : vrep es xs cap v -> op_typed es o -> no_resize o ->
  vstep true v o = Abort \/
  exists xs' cap' v' out, vstep true v o = Ok (v', out) /\ vrep es xs' cap' v' /\
    sstep es (xs, cap) o = Some ((xs', cap'), out).
Proof.
  intros H T NR.
  destruct (sstep es (xs, cap) o) as [[[xs' cap'] out]|] eqn:E.
  { right. destruct (vstep_rep true _ _ _ _ _ _ _ _ H E) as (v' & Hv & Hr & _). eauto 10. }
  left.
  pose proof H as [[tl Hb] Hu Hl Hc He Hp Hs Hm Hle Hcp].
  pose proof (zlen_nonneg xs) as Hnn.
  assert (forall c, 0 < c -> fits es c = false -> alloc_max < c * es) as NF.
  { intros c Hc0. unfold fits. pose proof (Z.mul_pos_pos c es Hc0 Hp). lia. }
  assert (0 < grown (zlen xs) cap) as Gp by (unfold grown; destruct (cap =? zlen xs); lia).
  assert (fits es (grown (zlen xs) cap) = false -> vec_grow true v = Abort) as GA.
  { intros F. apply NF in F; [|assumption]. unfold grown in F.
    unfold vec_grow, vec_has_space. rewrite Hc, Hl.
    rewrite (w64_le (cap - zlen xs) cap es) by lia.
    destruct (Z.eqb_spec cap (zlen xs)) as [Ec|Ec].
    - replace (cap - zlen xs =? 0) with true by lia.
      rewrite (w64_le (cap * 2) cap es) by lia.
      unfold vec_reserve. rewrite dassert_true by lia. cbn [bind]. rewrite Hc, He.
      rewrite (w64_le (cap + cap * 2) cap es) by lia.
      rewrite w64_small by (unfold two64, alloc_max in *; nia).
      unfold c_realloc. rewrite dassert_true by nia. cbn [bind].
      replace ((cap + cap * 2) * es =? 0) with false by nia.
      replace ((cap + cap * 2) * es <=? alloc_max) with false by nia. reflexivity.
    - lia. }
  destruct o as [d|d|d i|d i|i rs| | | |n| |n|i|d| |]; cbn [sstep vstep op_typed no_resize] in *; try discriminate E.
  - unfold elem_ok in E. replace (zlen d =? es) with true in E by lia. cbn [andb] in E.
    destruct (fits es (grown (zlen xs) cap)) eqn:F; [discriminate|].
    unfold vec_push_back. rewrite GA by reflexivity. reflexivity.
  - unfold elem_ok in E. replace (zlen d =? es) with true in E by lia. cbn [andb] in E.
    destruct (fits es (grown (zlen xs) cap)) eqn:F; [discriminate|].
    unfold vec_push_front, vec_len. rewrite Hl. destruct (Z.eqb_spec (zlen xs) 0); cbn [negb].
    + unfold vec_push_back. rewrite GA by reflexivity. reflexivity.
    + unfold vec_insert. rewrite dassert_true by lia. cbn [bind]. rewrite GA by reflexivity. reflexivity.
  - destruct T as [T Ti]. unfold size_t_ok in Ti.
    unfold elem_ok in E. replace (zlen d =? es) with true in E by lia. cbn [andb] in E.
    unfold vec_insert, dassert. rewrite Hl. unfold in_range in E.
    destruct (Z.ltb_spec i (zlen xs)); cbn [bind]; [|reflexivity].
    replace (0 <=? i) with true in E by lia. cbn [andb] in E.
    destruct (fits es (grown (zlen xs) cap)) eqn:F; [discriminate|]. rewrite GA by reflexivity. reflexivity.
  - destruct T as [T Ti]. unfold size_t_ok in Ti.
    unfold elem_ok in E. replace (zlen d =? es) with true in E by lia. cbn [andb] in E.
    unfold in_range in E. unfold vec_set, dassert. rewrite Hl.
    destruct (Z.ltb_spec i (zlen xs)); [|reflexivity]. replace (0 <=? i) with true in E by lia. discriminate.
  - destruct T as [Ti Tr]. unfold size_t_ok in Ti. unfold in_range in E.
    unfold vec_remove, dassert. rewrite Hl.
    destruct (Z.ltb_spec rs 2); cbn [bind]; [|reflexivity].
    destruct (Z.ltb_spec i (zlen xs)); cbn [bind]; [|reflexivity].
    replace (0 <=? i) with true in E by lia. replace (0 <=? rs) with true in E by lia. discriminate.
  - destruct T as [T1 T2]. unfold vec_reserve, dassert.
    destruct (Z.ltb_spec 0 n); cbn [bind]; [|reflexivity]. cbn [andb] in E.
    destruct (fits es (cap + n)) eqn:F; [discriminate|]. apply NF in F; [|lia].
    rewrite Hc, He.
    rewrite (w64_small (cap + n)) by (unfold two64, alloc_max in *; nia).
    rewrite (w64_small ((cap + n) * es)) by (unfold two64, alloc_max in *; nia).
    unfold c_realloc. rewrite dassert_true by nia. cbn [bind].
    replace ((cap + n) * es =? 0) with false by (unfold alloc_max in *; lia).
    replace ((cap + n) * es <=? alloc_max) with false by lia. reflexivity.
  - destruct (Z.ltb_spec 0 (zlen xs)); [discriminate|].
    assert (zlen xs = 0) as Z0 by lia.
    unfold vec_shrink. rewrite Hl, Hc, Z0. replace (0 =? cap) with false by lia.
    unfold c_realloc, dassert. replace (w64 (0 * a_es v)) with 0 by reflexivity. reflexivity.
  - contradiction.
  - unfold size_t_ok in T. replace (0 <=? i) with true in E by lia.
    destruct (nth_error xs (Z.to_nat i)) eqn:En; [discriminate|].
    apply nth_error_None in En. unfold vec_get, vec_get_ptr, dassert. rewrite Hl.
    replace (i <? zlen xs) with false by (unfold zlen; lia). reflexivity.
  - unfold elem_ok in E. replace (zlen d =? es) with true in E by lia. discriminate.
Qed.

Lemma vrun_total es ops : forall xs cap v, vrep es xs cap v -> Forall (op_typed es) ops -> Forall no_resize ops ->
  vrun true v ops = Abort \/ exists xs' cap' v' outs, vrun true v ops = Ok (v', outs) /\ vrep es xs' cap' v'.
Proof.
  induction ops as [|o ops IH]; intros xs cap v H T NR; cbn [vrun]; [right; eauto 10|].
  inversion T; inversion NR; subst.
  destruct (vstep_total es xs cap v o H) as [->|(xs1 & cap1 & v1 & out & -> & W & _)]; auto.
  cbn [bind fst snd]. destruct (IH _ _ v1 W) as [->|(xs2 & cap2 & v2 & outs & -> & W2)]; auto.
  right. cbn [bind]. eauto 10.
Qed.

Lemma vec_safe_debug n es ops v0 :
  0 < n -> 0 < es -> n * es < two64 / 2 -> vec_create true n es = Ok v0 ->
  Forall (op_typed es) ops -> Forall no_find ops \/ Forall no_resize ops ->
  vrun true v0 ops = Abort \/
  exists v outs, vrun true v0 ops = Ok (v, outs) /\ vwf v.
Proof.
  intros Hn Hes Hmax Hc T C.
  assert (n * es <= alloc_max) as Hm.
  { unfold vec_create in Hc. rewrite !dassert_true in Hc by lia. cbn [bind] in Hc.
    rewrite w64_small in Hc by (unfold two64 in *; nia).
    unfold c_calloc in Hc. rewrite dassert_true in Hc by nia. cbn [bind] in Hc.
    destruct (Z.leb_spec (n * es) alloc_max); [lia|discriminate]. }
  destruct (vec_create_rep true n es Hn Hes Hm) as (v & Hv & Hr).
  rewrite Hc in Hv. injection Hv as <-.
  destruct C as [C|C].
  - apply vrun_wf; auto; [eapply vrep_vwf; exact Hr|]. rewrite (vr_es _ _ _ _ Hr). exact T.
  - destruct (vrun_total es ops _ _ _ Hr T C) as [->|(xs & cap & v' & outs & -> & W)]; [auto|].
    right. do 2 eexists. split; [reflexivity|]. eapply vrep_vwf; exact W.
Qed.

(** ** Sizes that wrap *)

Lemma vec_create_exact dbg n es v : 0 <= n -> 0 <= es -> n * es < two64 ->
  vec_create dbg n es = Ok v -> zlen (a_blk v) = vec_capacity v * es /\ vec_capacity v = n.
Proof.
  intros Hn He Hm Hc. unfold vec_create in Hc.
  apply bind_ok in Hc as (u1 & _ & Hc). apply bind_ok in Hc as (u2 & _ & Hc).
  apply bind_ok in Hc as (b & Hb & Hc). injection Hc as <-.
  rewrite w64_small in Hb by nia. unfold c_calloc in Hb.
  apply bind_ok in Hb as (u3 & _ & Hb).
  destruct (n * es <=? alloc_max); [|discriminate]. injection Hb as <-. cbn.
  rewrite zlen_repeat. split; [nia|reflexivity].
Qed.

Lemma vec_reserve_exact dbg v n v' : 0 <= a_cap v -> 0 <= n -> 0 < a_es v -> (a_cap v + n) * a_es v < two64 ->
  vec_reserve dbg v n = Ok v' ->
  zlen (a_blk v') = vec_capacity v' * a_es v' /\ vec_capacity v' = vec_capacity v + n.
Proof.
  intros Hc Hn He Hm Hr. unfold vec_reserve in Hr.
  apply bind_ok in Hr as (u1 & _ & Hr). apply bind_ok in Hr as (b & Hb & Hr). injection Hr as <-.
  rewrite (w64_small (a_cap v + n)) in * by nia. rewrite w64_small in Hb by nia.
  unfold c_realloc in Hb. apply bind_ok in Hb as (u2 & _ & Hb).
  destruct (Z.eqb_spec ((a_cap v + n) * a_es v) 0); [discriminate|].
  destruct (_ <=? alloc_max); [|discriminate]. injection Hb as <-. cbn. unfold vec_capacity; cbn.
  split; [|reflexivity]. rewrite zlen_app, zlen_firstn, zlen_repeat. unfold zlen. nia.
Qed.

(** ** Removal *)

Lemma vec_remove_both dbg es p x s cap v : vrep es (p ++ x :: s) cap v ->
  exists v1 v2 ys,
    vec_remove dbg v (zlen p) 0 = Ok v1 /\ vrep es (p ++ s) cap v1 /\
    vec_remove dbg v (zlen p) 1 = Ok v2 /\ vrep es ys cap v2 /\
    Permutation ys (p ++ s) /\
    (s = [] -> ys = p) /\
    (forall k y, s = k ++ [y] -> ys = p ++ y :: k).
Proof.
  intros H. assert (0 <= zlen p < zlen (p ++ x :: s)) as Hi.
  { autorewrite with zlen. pose proof (zlen_nonneg p). pose proof (zlen_nonneg s). lia. }
  destruct (vec_remove_stable_rep dbg es _ cap v _ H Hi) as (v1 & E1 & H1 & _).
  destruct (vec_remove_fast_rep dbg es _ cap v _ 1 H Hi eq_refl) as (v2 & E2 & H2 & _).
  unfold seq_delete in H1. rewrite firstn_mid, skipn_mid_S in H1 by reflexivity.
  rewrite to_nat_zlen in H2.
  exists v1, v2, (seq_delete_fast (p ++ x :: s) (length p)).
  split; [exact E1|]. split; [exact H1|]. split; [exact E2|]. split; [exact H2|].
  destruct (snoc_case s) as [->|(k & y & ->)].
  - rewrite seq_delete_fast_last, app_nil_r. repeat split; auto.
    intros k y Hk. destruct k; discriminate.
  - rewrite seq_delete_fast_mid. split; [|split].
    + apply Permutation_app_head. apply Permutation_cons_append.
    + intros Hk. destruct k; discriminate.
    + intros k' y' Hk. apply app_inj_tail in Hk as [-> ->]. reflexivity.
Qed.

(** ** Search *)

Lemma seq_find_some xs d k : seq_find xs d = Some k ->
  exists p s, xs = p ++ d :: s /\ length p = k /\ ~ In d p.
Proof.
  revert k; induction xs as [|y xs IH]; intros k; cbn [seq_find]; [discriminate|].
  destruct (list_eq_dec Z.eq_dec y d) as [->|N].
  - intros [= <-]. exists [], xs. auto.
  - destruct (seq_find xs d) as [m|] eqn:E; [|discriminate]. intros [= <-].
    destruct (IH m eq_refl) as (p & s & -> & Hp & Hn). exists (y :: p), s.
    split; [reflexivity|]. split; [cbn; lia|]. intros [->|X]; auto.
Qed.

Lemma seq_find_none xs d : seq_find xs d = None -> ~ In d xs.
Proof.
  induction xs as [|y xs IH]; cbn [seq_find]; [auto|].
  destruct (list_eq_dec Z.eq_dec y d) as [->|N]; [discriminate|].
  destruct (seq_find xs d) eqn:E; [discriminate|]. intros _ [->|X]; [contradiction|]. exact (IH eq_refl X).
Qed.

Lemma vec_find_first es xs cap v d : vrep es xs cap v ->
  exists r, vec_can_find v d = Ok r /\
   ((r = -1 /\ ~ In d xs) \/ (exists p s, xs = p ++ d :: s /\ r = zlen p /\ ~ In d p)).
Proof.
  intros H. rewrite (vec_can_find_rep es xs cap v d H). eexists; split; [reflexivity|].
  destruct (seq_find xs d) as [k|] eqn:E.
  - right. apply seq_find_some in E as (p & s & -> & <- & Hn). exists p, s. repeat split; auto.
  - left. split; [reflexivity|]. apply seq_find_none; assumption.
Qed.

(** ** Sliders *)

Definition slide_ok (v : arr) : Prop :=
  0 <= a_len v /\ 0 <= a_es v /\ a_len v * a_es v < two64 /\ a_len v < two64 - 1.

Lemma slide_front_run v : slide_ok v -> forall n s, s + Z.of_nat n = a_len v -> 0 <= s ->
  calls slide_front n (set_slider v s) = (set_slider v (a_len v), offsets (a_es v) s n).
Proof.
  intros (Hl & He & Hm & Hm2). induction n as [|n IH]; intros s Hs H0; cbn [calls offsets].
  - replace s with (a_len v) by lia. reflexivity.
  - unfold slide_front. cbn [a_slider a_len set_slider a_es].
    replace (s <? a_len v) with true by lia.
    rewrite (w64_small (s + 1)) by lia. rewrite (w64_small (s + 1 - 1)) by lia.
    replace (s + 1 - 1) with s by lia. rewrite (w64_small (s * a_es v)) by nia.
    replace (mk_arr (a_blk v) (a_len v) (a_cap v) (a_es v) (s + 1)) with (set_slider v (s + 1)) by reflexivity.
    change (set_slider (set_slider v s) (s + 1)) with (set_slider v (s + 1)).
    rewrite IH by lia. reflexivity.
Qed.

Lemma calls_app f a b v : calls f (a + b) v =
  (fst (calls f b (fst (calls f a v))), snd (calls f a v) ++ snd (calls f b (fst (calls f a v)))).
Proof.
  revert v; induction a as [|a IH]; intros v; cbn [calls Nat.add].
  - cbn. destruct (calls f b v); reflexivity.
  - destruct (f v) as [v1 o]. rewrite IH. destruct (calls f a v1) as [v2 os]. cbn. reflexivity.
Qed.

Lemma set_slider_id v : a_slider v = 0 -> set_slider v 0 = v.
Proof. destruct v; cbn. intros ->. reflexivity. Qed.

Lemma slide_front_sweep v : slide_ok v -> a_slider v = 0 ->
  calls slide_front (Z.to_nat (a_len v) + 1) v = (v, offsets (a_es v) 0 (Z.to_nat (a_len v)) ++ [None]).
Proof.
  intros H H0. rewrite calls_app. pose proof H as (Hl & _).
  assert (calls slide_front (Z.to_nat (a_len v)) v =
          (set_slider v (a_len v), offsets (a_es v) 0 (Z.to_nat (a_len v)))) as ->.
  { rewrite <- (set_slider_id v H0) at 2. apply slide_front_run; [exact H|lia|lia]. }
  cbn [fst snd calls]. unfold slide_front. cbn [a_slider a_len set_slider].
  rewrite Z.ltb_irrefl. cbn [fst snd]. f_equal.
  unfold slide_reset. cbn. destruct v; cbn in *. subst. reflexivity.
Qed.

Lemma slide_front_sweeps v m : slide_ok v -> a_slider v = 0 ->
  calls slide_front (m * (Z.to_nat (a_len v) + 1)) v =
  (v, repeat_list m (offsets (a_es v) 0 (Z.to_nat (a_len v)) ++ [None])).
Proof.
  intros H H0. induction m as [|m IH]; [reflexivity|].
  cbn [Nat.mul repeat_list]. rewrite calls_app, slide_front_sweep by assumption.
  cbn [fst snd]. rewrite IH. reflexivity.
Qed.

Lemma offsets_read es xs cap v : vrep es xs cap v -> forall s p, xs = p ++ s ->
  Forall2 (fun o x => match o with Some off => bread (a_blk v) off es = Ok (map Some x) | None => False end)
          (offsets es (zlen p) (length s)) s.
Proof.
  intros H. induction s as [|x s IH]; intros p E; cbn [offsets length]; constructor.
  - pose proof H as [[tl Hb] Hu Hl Hc He Hp Hs Hm Hle Hcp]. subst xs.
    apply uniform_app in Hu as [Hu1 Hu2]. apply uniform_cons in Hu2 as [Hx Hu2].
    rewrite Hb, concat_mid, <- !app_assoc. apply bread_app.
    + rewrite zlen_map, (zlen_concat es p Hu1). lia.
    + rewrite zlen_map. lia.
  - replace (zlen p + 1) with (zlen (p ++ [x])) by (autorewrite with zlen; lia).
    apply IH. rewrite <- app_assoc. exact E.
Qed.

Lemma vrep_slide_ok es xs cap v : vrep es xs cap v -> slide_ok v.
Proof.
  intros [[tl Hb] Hu Hl Hc He Hp Hs Hm Hle Hcp]. unfold slide_ok.
  pose proof (zlen_nonneg xs). rewrite Hl, He. unfold two64, alloc_max in *. repeat split; nia.
Qed.

(** What slide_back really yields: element indices len-3, len-4, ... *)
Fixpoint back_offsets (es i : Z) (n : nat) : list (option Z) :=
  match n with
  | O => []
  | S n' => Some (i * es) :: back_offsets es (i - 1) n'
  end.

Lemma slide_back_run v : slide_ok v -> forall n s, s + Z.of_nat n = a_len v - 2 -> 0 <= s ->
  calls slide_back n (set_slider v s) = (set_slider v (a_len v - 2), back_offsets (a_es v) (a_len v - s - 3) n).
Proof.
  intros (Hl & He & Hm & Hm2). induction n as [|n IH]; intros s Hs H0; cbn [calls back_offsets].
  - replace s with (a_len v - 2) by lia. reflexivity.
  - unfold slide_back. cbn [a_slider a_len set_slider a_es].
    replace (s <? a_len v) with true by lia.
    rewrite (w64_small (s + 1)) by lia. rewrite (w64_small (a_len v - (s + 1))) by lia.
    rewrite (w64_small (a_len v - (s + 1) - 2)) by lia.
    rewrite (w64_small ((a_len v - (s + 1) - 2) * a_es v)) by nia.
    change (set_slider (set_slider v s) (s + 1)) with (set_slider v (s + 1)).
    rewrite IH by lia.
    replace (a_len v - (s + 1) - 2) with (a_len v - s - 3) by lia.
    replace (a_len v - (s + 1) - 3) with (a_len v - s - 3 - 1) by lia. reflexivity.
Qed.

(** The two calls after that return addresses before the storage. *)
Lemma slide_back_oob es xs cap v s : vrep es xs cap v -> a_slider v = s -> 0 <= s < zlen xs -> zlen xs - 2 <= s ->
  exists off, snd (slide_back v) = Some off /\ bread (a_blk v) off es = UB.
Proof.
  intros H Hs Hr Hr2. pose proof H as [[tl Hb] Hu Hl Hc He Hp Hsz Hm Hle Hcp].
  unfold slide_back. rewrite Hs, Hl, He. replace (s <? zlen xs) with true by lia.
  cbn [snd]. eexists; split; [reflexivity|]. apply bread_ub. right. right.
  rewrite (w64_le (s + 1) cap es) by lia.
  rewrite (w64_le (zlen xs - (s + 1)) cap es) by lia.
  set (k := zlen xs - (s + 1)) in *. assert (k = 0 \/ k = 1) as Hk by lia.
  assert (w64 (k - 2) = two64 + (k - 2)) as ->.
  { unfold w64, two64. destruct Hk as [-> | ->]; reflexivity. }
  assert (exists j, j = 2 - k /\ 1 <= j <= 2) as (j & Hj & Hj2) by (exists (2 - k); lia).
  replace ((two64 + (k - 2)) * es) with (- (j * es) + es * two64) by (unfold two64; lia).
  unfold w64. rewrite Z_mod_plus_full.
  assert (0 < j * es <= 2 * alloc_max) as Hje by (unfold alloc_max in *; nia).
  rewrite Z_mod_nz_opp_full.
  - rewrite Z.mod_small by (unfold two64, alloc_max in *; lia).
    rewrite Hsz. unfold two64, alloc_max in *. nia.
  - rewrite Z.mod_small by (unfold two64, alloc_max in *; lia). lia.
Qed.

(** ** Amortised growth *)

Ltac ok_eq := repeat match goal with
  | |- Ok _ = Ok _ => f_equal
  | |- (_, _) = (_, _) => f_equal
  end.

Lemma push_all_cost dbg es n : forall ds xs cap v r m, vrep es xs cap v ->
  uniform es ds -> (zlen xs + zlen ds) * 3 * es <= alloc_max ->
  0 < n -> cap = n * 3 ^ r -> 0 <= r -> 2 * m = cap - n -> (r = 0 \/ cap < 3 * zlen xs) ->
  exists w r' m' cap', push_all dbg v ds = Ok (w, r' - r, m' - m) /\ vrep es (xs ++ ds) cap' w /\
    cap' = n * 3 ^ r' /\ r <= r' /\ 2 * m' = cap' - n /\ (r' = 0 \/ cap' < 3 * zlen (xs ++ ds)).
Proof.
  induction ds as [|d ds IH]; intros xs cap v r m H Hu Hmax Hn Hcap Hr Hm Hinv; cbn [push_all].
  - exists v, r, m, cap. rewrite !Z.sub_diag, app_nil_r. auto 10 using Z.le_refl.
  - apply uniform_cons in Hu as [Hd Hu].
    pose proof H as [[tl Hb] Hxu Hl Hc He Hp Hs Hmx Hle Hcp]. pose proof (zlen_nonneg xs) as Hnn.
    rewrite zlen_cons in Hmax. pose proof (zlen_nonneg ds) as Hnd.
    assert (grown (zlen xs) cap * es <= alloc_max) as Hg.
    { unfold grown. destruct (Z.eqb_spec cap (zlen xs)); nia. }
    destruct (vec_push_back_rep dbg es xs cap v d H Hd Hg) as (v' & -> & Hv' & _). cbn [bind].
    unfold vec_has_space. rewrite Hc, Hl, (w64_le (cap - zlen xs) cap es) by lia.
    assert ((zlen (xs ++ [d]) + zlen ds) * 3 * es <= alloc_max) as Hmax'.
    { autorewrite with zlen. nia. }
    unfold grown in Hv'. destruct (Z.eqb_spec cap (zlen xs)) as [E|E].
    + replace (cap - zlen xs =? 0) with true by lia.
      destruct (IH _ _ _ (r + 1) (m + cap) Hv' Hu Hmax' Hn) as (w & r' & m' & cap' & -> & Hw & Hcap' & Hr' & Hm' & Hi').
      * rewrite Z.pow_add_r by lia. lia.
      * lia.
      * lia.
      * right. autorewrite with zlen. lia.
      * cbn [bind]. unfold vec_len. rewrite Hl. exists w, r', m', cap'.
        rewrite <- app_assoc in *. cbn [app] in *.
        split; [ok_eq; lia|]. split; [exact Hw|]. repeat split; auto. lia.
    + replace (cap - zlen xs =? 0) with false by lia.
      destruct (IH _ _ _ r m Hv' Hu Hmax' Hn Hcap Hr Hm) as (w & r' & m' & cap' & -> & Hw & Hcap' & Hr' & Hm' & Hi').
      * destruct Hinv as [?|?]; [auto|right]. autorewrite with zlen. lia.
      * cbn [bind]. exists w, r', m', cap'.
        rewrite <- app_assoc in *. cbn [app] in *.
        split; [ok_eq; lia|]. split; [exact Hw|]. repeat split; auto.
Qed.

Lemma push_amortised dbg es n ds v0 : 0 < n -> 0 < es -> uniform es ds ->
  n * es <= alloc_max -> zlen ds * 3 * es <= alloc_max -> vec_create dbg n es = Ok v0 ->
  exists w reallocs moved, push_all dbg v0 ds = Ok (w, reallocs, moved) /\ shows dbg w ds /\
    0 <= reallocs /\ (reallocs = 0 \/ n * 3 ^ reallocs < 3 * zlen ds) /\ 2 * moved <= 3 * zlen ds.
Proof.
  intros Hn He Hu Hm1 Hm2 Hc.
  destruct (vec_create_rep dbg n es Hn He Hm1) as (v & Hv & H). rewrite Hc in Hv. injection Hv as <-.
  destruct (push_all_cost dbg es n ds [] n v0 0 0 H Hu) as (w & r & m & cap & E & Hw & Hcap & Hr & Hm & Hi);
    try lia.
  { rewrite zlen_nil. lia. }
  rewrite !Z.sub_0_r in E. cbn [app] in *. exists w, r, m. split; [exact E|]. split.
  { split; [apply Hw|]. intros i x H0 Hx.
    assert (0 <= i < zlen ds) as Hi'.
    { split; [lia|]. assert (Z.to_nat i < length ds)%nat as X by (apply nth_error_Some; congruence). unfold zlen. lia. }
    destruct (vec_get_rep dbg es ds cap w i Hw Hi') as (x' & Hx' & ->). congruence. }
  split; [lia|]. pose proof (zlen_nonneg ds).
  destruct Hi as [->|Hi].
  - change (3 ^ 0) with 1 in *. split; [auto|]. lia.
  - split; [right; lia|]. lia.
Qed.

(** ** Duplicate and resize *)

Lemma vec_dup_rep dbg es xs cap v : vrep es xs cap v -> xs <> [] ->
  exists w, vec_dup dbg v = Ok w /\ vrep es xs (zlen xs) w /\ a_slider w = 0.
Proof.
  intros [[tl Hb] Hu Hl Hc He Hp Hs Hm Hle Hcp] Hne.
  assert (0 < zlen xs) as Hpos.
  { destruct xs; [contradiction|]. rewrite zlen_cons. pose proof (zlen_nonneg xs). lia. }
  unfold vec_dup. rewrite Hl, He.
  assert (zlen xs * es <= alloc_max) as Hmm by nia.
  destruct (vec_create_rep dbg (zlen xs) es Hpos Hp Hmm) as (w & Hw & Hr).
  rewrite Hw. cbn [bind]. rewrite (w64_mul (zlen xs) cap es) by lia.
  pose proof (zlen_concat es xs Hu) as Zc.
  rewrite Hb. pose proof (bread_app [] (map Some (concat xs)) tl 0 (zlen xs * es) eq_refl) as Hrd.
  cbn [app] in Hrd. rewrite Hrd by (rewrite zlen_map; lia). cbn [bind].
  pose proof (vr_size _ _ _ _ Hr) as Zw.
  pose proof (bwrite_app [] (a_blk w) [] 0 (map Some (concat xs)) eq_refl) as Hwr.
  cbn [app] in Hwr. rewrite !app_nil_r in Hwr. rewrite Hwr by (rewrite zlen_map; lia). cbn [bind].
  eexists; split; [reflexivity|].
  destruct Hr as [_ _ _ Hrc Hre _ _ _ _ _].
  assert (a_slider w = 0) as Hsl.
  { unfold vec_create in Hw. apply bind_ok in Hw as (? & _ & Hw). apply bind_ok in Hw as (? & _ & Hw).
    apply bind_ok in Hw as (? & _ & Hw). injection Hw as <-. reflexivity. }
  split; [|exact Hsl].
  constructor; cbn; auto; try lia.
  - exists []. rewrite app_nil_r. reflexivity.
  - rewrite zlen_map. lia.
Qed.

Lemma vec_dup_empty_abort v : a_len v = 0 -> vec_dup true v = Abort.
Proof. intros H. unfold vec_dup, vec_create. rewrite H. reflexivity. Qed.

Lemma firstn_skipn_prefix {A} (b r : list A) m off len :
  (off + len <= m)%nat -> (m <= length b)%nat ->
  firstn len (skipn off (firstn m b ++ r)) = firstn len (skipn off b).
Proof.
  intros H1 H2.
  rewrite <- (firstn_skipn m b) at 2.
  rewrite !skipn_app, !firstn_app.
  rewrite skipn_length, firstn_length.
  replace (len - (Nat.min m (length b) - off))%nat with O by lia. reflexivity.
Qed.

Lemma vec_resize_any dbg es xs cap v n : vrep es xs cap v -> 0 < n -> n * es <= alloc_max ->
  exists w, vec_resize dbg v n = Ok w /\ vec_len w = n /\ vec_capacity w = n /\
    zlen (a_blk w) = n * es /\
    forall i, 0 <= i < Z.min n (zlen xs) -> vec_get dbg w i = vec_get dbg v i.
Proof.
  intros H Hn Hmax. pose proof H as [[tl Hb] Hu Hl Hc He Hp Hs Hm Hle Hcp].
  unfold vec_resize. rewrite dassert_true by lia. cbn [bind]. rewrite Hc, He.
  assert (forall w i, a_es w = es -> i < a_len w -> 0 <= i < cap ->
            vec_get dbg w i = bread (a_blk w) (i * es) es) as G.
  { intros w i Hwe Hwl Hi. unfold vec_get, vec_get_ptr, array_get.
    rewrite !dassert_true by lia. cbn [bind]. rewrite Hwe, (w64_mul i cap es) by lia. reflexivity. }
  destruct (Z.eqb_spec n cap) as [E|E].
  - eexists; split; [reflexivity|]. unfold vec_len, vec_capacity. cbn. repeat split; auto; try lia.
    intros i Hi. rewrite !G; cbn; auto; lia.
  - rewrite (w64_mul n n es) by lia. rewrite c_realloc_ok by nia. cbn [bind].
    eexists; split; [reflexivity|]. unfold vec_len, vec_capacity. cbn. repeat split; auto.
    { rewrite zlen_app, zlen_firstn, zlen_repeat. unfold zlen. nia. }
    intros i Hi. rewrite !G; cbn; auto; try lia.
    unfold bread.
    assert (0 <= i * es /\ i * es + es <= n * es /\ i * es + es <= cap * es) as (A1 & A2 & A3) by nia.
    replace ((0 <=? i * es) && (0 <=? es) && (i * es + es <=? zlen (a_blk v))) with true by lia.
    replace (_ && _) with true.
    2:{ rewrite zlen_app, zlen_firstn, zlen_repeat. unfold zlen in *. lia. }
    f_equal.
    destruct (Z.le_gt_cases n cap) as [L|L].
    + assert (n * es <= cap * es) by nia. apply firstn_skipn_prefix; unfold zlen in *; lia.
    + assert (cap * es <= n * es) by nia. rewrite (firstn_ge (Z.to_nat (n * es)) (a_blk v)) by (unfold zlen in *; lia).
      rewrite skipn_app, firstn_app.
      replace (Z.to_nat es - length (skipn (Z.to_nat (i * es)) (a_blk v)))%nat with O.
      2:{ rewrite skipn_length. unfold zlen in *. lia. }
      cbn [firstn]. apply app_nil_r.
Qed.
