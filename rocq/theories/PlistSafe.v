(** Debug builds: calls on a pointer list with arbitrary arguments are stopped by a check or
    leave a list in order. *)
From Verif Require Import Base BaseFacts VecModel VecSpec VecProofs PlistModel PlistSpec PlistProofs.
From Coq Require Import ZifyBool ZifyNat.

(** Pointers and numbers of type size_t; numbers of elements whose size in bytes is one, too. *)
Definition pnum (n : Z) : Prop := 0 <= n < two64.
Definition pcount (n : Z) : Prop := 0 <= n < two64 / 16.
Definition pargs (o : plop) : Prop :=
  match o with
  | LPushBack x | LPushFront x | LFind x => pnum x
  | LInsert x i | LSet x i | LRemove i x | LRemoveElement x i => pnum x /\ pnum i
  | LReserve n | LResize n => pcount n
  | LGet i => pnum i
  | _ => True
  end.
(** vt_plist_resize to a greater length exposes slots nothing was stored in. *)
Definition exposes (len : Z) (o : plop) : Prop := match o with LResize n => len < n | _ => False end.

Lemma reserve_stop xs cap p n : prep xs cap p -> pcount n -> (n = 0 \/ alloc_max < (cap + n) * 8) -> plist_reserve true p n = Abort.
Proof.
  intros [[tl Hb] Hl Hc Hs Hm Hle Hp] [Hn Hn'] H. change (two64 / 16) with 1152921504606846976 in Hn'.
  destruct H as [->|H]; [reflexivity|]. destruct (Z.eq_dec n 0) as [->|Hz]; [reflexivity|]. unfold plist_reserve. rewrite dassert_true by lia. cbn [bind]. rewrite Hc.
  assert (w64 (cap + n) = cap + n) as -> by (apply w64_small; unfold two64, alloc_max in *; lia).
  rewrite w64_small by (unfold two64, alloc_max, psz in *; lia). unfold slots_realloc. rewrite dassert_true by (unfold psz; lia). cbn [bind].
  unfold psz. replace ((cap + n) * 8 =? 0) with false by lia. replace ((cap + n) * 8 <=? alloc_max) with false by lia. reflexivity.
Qed.
Lemma grow_stop xs cap p : prep xs cap p -> pfits (pgrown (zlen xs) cap) = false -> plist_grow true p = Abort.
Proof.
  intros H F. pose proof H as [[tl Hb] Hl Hc Hs Hm Hle Hp]. unfold pfits, pgrown in F. unfold plist_grow, plist_has_space. rewrite Hc, Hl.
  pose proof (zlen_nonneg xs). destruct (Z.eqb_spec cap (zlen xs)) as [He|He]; [|lia].
  rewrite <- He, Z.sub_diag. change (w64 0) with 0. cbn [Z.eqb].
  rewrite w64_small by (unfold two64, alloc_max in *; lia).
  apply (reserve_stop xs cap); [exact H| |right; lia].
  unfold pcount. change (two64 / 16) with 1152921504606846976. unfold alloc_max in *. lia.
Qed.
Definition pgood (r : res (plist * option Z)) : Prop := r = Abort \/ exists q out xs cap, r = Ok (q, out) /\ prep xs cap q.

Lemma plstep_safe xs cap p o : prep xs cap p -> pargs o -> ~ exposes (plist_len p) o -> pgood (plstep true p o).
Proof.
  intros H A U. pose proof H as [[tl Hb] Hl Hc Hs Hm Hle Hp]. pose proof (zlen_nonneg xs) as Hx.
  destruct (lstep (xs, cap) o) as [[[x1 c1] o1]|] eqn:E.
  { destruct (plstep_rep true xs cap p o x1 c1 o1 H E) as (q & F & Hq & _). right. exists q, o1, x1, c1. split; assumption. }
  left. destruct o as [x|x|x i|x i|i rs|x rs| | | |n| |n|i|x| |]; cbn [lstep plstep pargs exposes] in *; unfold between, pnum in *; try discriminate.
  - unfold plist_push_back. destruct (Z.eqb_spec x 0); [reflexivity|]. cbn [negb andb dassert bind] in *.
    rewrite (grow_stop xs cap p H); [reflexivity|]. destruct (pfits (pgrown (zlen xs) cap)); [discriminate|reflexivity].
  - unfold plist_push_front. destruct (Z.eqb_spec x 0) as [Hz|Hz]; [reflexivity|]. cbn [negb andb] in *.
    assert (plist_grow true p = Abort) as G by (apply (grow_stop xs cap p H); destruct (pfits (pgrown (zlen xs) cap)); [discriminate|reflexivity]).
    cbn [dassert bind]. unfold plist_len. rewrite Hl. destruct (Z.eqb_spec (zlen xs) 0); cbn [negb].
    + unfold plist_push_back. replace (x =? 0) with false by lia. cbn [negb dassert bind]. rewrite G. reflexivity.
    + unfold plist_insert. replace (x =? 0) with false by lia. cbn [negb dassert bind]. rewrite Hl. replace (0 <? zlen xs) with true by lia. cbn [dassert bind]. rewrite G. reflexivity.
  - unfold plist_insert. destruct (Z.eqb_spec x 0); [reflexivity|]. cbn [negb andb dassert bind] in *. rewrite Hl.
    destruct (Z.ltb_spec i (zlen xs)); [|reflexivity]. cbn [dassert bind].
    rewrite (grow_stop xs cap p H); [reflexivity|]. destruct (Z.leb_spec 0 i); [|lia]. cbn [andb] in E.
    destruct (pfits (pgrown (zlen xs) cap)); [discriminate|reflexivity].
  - unfold plist_set. destruct (Z.eqb_spec x 0); [reflexivity|]. cbn [negb andb dassert bind] in *. rewrite Hl.
    destruct (Z.leb_spec 0 i); [|lia]. cbn [andb] in E. destruct (i <? zlen xs); [discriminate|reflexivity].
  - unfold plist_remove. rewrite Hl. destruct (Z.leb_spec 0 i); [|lia]. destruct (Z.leb_spec 0 rs); [|lia]. cbn [andb] in E.
    destruct (rs <? 2); [|reflexivity]. destruct (i <? zlen xs); [discriminate|reflexivity].
  - unfold plist_remove_element. destruct (x =? 0); [reflexivity|]. cbn [negb andb dassert bind] in *. destruct (Z.leb_spec 0 rs); [|lia]. cbn [andb] in E.
    destruct (rs <? 2); [discriminate|reflexivity].
  - rewrite (reserve_stop xs cap p n H A); [reflexivity|]. destruct A as [A _]. unfold pfits in E. destruct (_ && _) eqn:G in E; [discriminate|lia].
  - destruct (Z.ltb_spec 0 (zlen xs)); [discriminate|]. unfold plist_shrink. rewrite Hl, Hc. replace (zlen xs) with 0 by lia.
    replace (0 =? cap) with false by lia. reflexivity.
  - destruct A as [A A']. unfold plist_resize. unfold plist_len in U. rewrite Hl in U. destruct (_ && _) eqn:G in E; [discriminate|]. replace (0 <? n) with false by lia. reflexivity.
  - unfold plist_get. rewrite Hl. destruct (Z.ltb_spec i (zlen xs)); [|reflexivity].
    destruct (nth_error xs (Z.to_nat i)) eqn:G; [destruct (Z.leb_spec 0 i); [|lia]; discriminate|].
    apply nth_error_None in G. unfold zlen in *. lia.
  - unfold plist_can_find. destruct (x =? 0); [reflexivity|discriminate].
Qed.
Lemma pcreate_safe n : pcount n -> plist_create true n = Abort \/ exists p, plist_create true n = Ok p /\ prep [] n p.
Proof.
  intros [Hn Hn']. change (two64 / 16) with 1152921504606846976 in Hn'. destruct (Z.eq_dec n 0) as [->|Hz]; [left; reflexivity|].
  destruct (Z.le_gt_cases (n * 8) alloc_max) as [H|H].
  - right. destruct (plist_create_rep true n) as (p & E & R & _); [lia|exact H|]. eauto.
  - left. unfold plist_create, slots_calloc. rewrite dassert_true by lia. cbn [bind]. unfold psz. rewrite w64_small by (unfold two64; lia).
    rewrite dassert_true by lia. cbn [bind]. replace (n * 8 <=? alloc_max) with false by lia. reflexivity.
Qed.
Fixpoint pcareful (p : plist) (ops : list plop) : Prop :=
  match ops with
  | [] => True
  | o :: ops' => pargs o /\ ~ exposes (plist_len p) o /\ forall q out, plstep true p o = Ok (q, out) -> pcareful q ops'
  end.
Lemma plrun_safe : forall ops xs cap p, prep xs cap p -> pcareful p ops ->
  plrun true p ops = Abort \/ exists q outs xs' cap', plrun true p ops = Ok (q, outs) /\ prep xs' cap' q.
Proof.
  induction ops as [|o ops IH]; intros xs cap p R C; cbn [plrun pcareful] in *.
  { right. exists p, [], xs, cap. split; [reflexivity|exact R]. }
  destruct C as (A & U & C). destruct (plstep_safe xs cap p o R A U) as [E|(q & out & xs1 & cap1 & E & R1)]; rewrite E; [left; reflexivity|].
  cbn [bind fst snd]. destruct (IH xs1 cap1 q R1 (C _ _ E)) as [F|(q2 & outs & xs2 & cap2 & F & R2)]; rewrite F; [left; reflexivity|].
  right. exists q2, (out :: outs), xs2, cap2. split; [reflexivity|exact R2].
Qed.
Lemma plist_safe n ops : pcount n -> (forall p, plist_create true n = Ok p -> pcareful p ops) ->
  (let* p := plist_create true n in plrun true p ops) = Abort \/
  exists p outs, (let* p := plist_create true n in plrun true p ops) = Ok (p, outs) /\
    plist_len p <= plist_capacity p /\ zlen (p_blk p) = plist_capacity p /\
    forall i, 0 <= i < plist_len p -> exists x, plist_get true p i = Ok x.
Proof.
  intros A C. destruct (pcreate_safe n A) as [E|(p & E & R)]; rewrite E; [left; reflexivity|]. cbn [bind].
  destruct (plrun_safe ops [] n p R (C p E)) as [F|(q & outs & xs & cap & F & R')]; [left; exact F|right].
  exists q, outs. split; [exact F|]. pose proof R' as [[tl Hb] Hl Hc Hs Hm Hle Hp]. unfold plist_len, plist_capacity.
  split; [lia|]. split; [lia|]. intros i Hi. destruct (slot_get_rep xs cap q i R') as (x & _ & G); [lia|].
  exists x. unfold plist_get. rewrite dassert_true by lia. exact G.
Qed.
