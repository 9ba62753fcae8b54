(** Programs with several containers behave like independent values; the allocator
    tracks exactly the live containers' blocks. *)
From Coq Require Import Permutation.
From Verif Require Import Base BaseFacts HeapModel AllocModel AllocSpec AllocProofs AllocMain VecModel PlistModel StrModel StrSpec
  ContModel ContSpec ContProofs ContBound.
From Verif Require VecSpec VecProofs VecProofs2 PlistSpec PlistProofs StrProofs StrProofs3 StrMain.

Lemma bytes_slots_id b : forall k, (length b <= k)%nat -> bytes_slots k (slots_bytes b) = b.
Proof.
  induction b as [|c b IH]; intros k K; destruct k as [|k]; cbn [length] in K; try reflexivity; try lia.
  cbn [slots_bytes flat_map repeat app bytes_slots skipn]. f_equal. apply IH. lia.
Qed.

Lemma slots_bytes_len b : zlen (slots_bytes b) = 8 * zlen b.
Proof.
  induction b as [|c b IH]; [reflexivity|]. unfold slots_bytes in *. cbn [flat_map].
  rewrite zlen_app, IH, zlen_cons. change (zlen (repeat c 8)) with 8. lia.
Qed.

Lemma roundtrip x y : (match x, y with BVec v, BVec u => set_blk v [] = set_blk u []
                                     | BList _, BList _ | BStr _, BStr _ => True | _, _ => False end) ->
  x = y -> with_bytes y (bytes_of x) = x.
Proof.
  intros _ ->. destruct y as [v|l|s]; cbn [with_bytes bytes_of].
  - now destruct v.
  - rewrite bytes_slots_id. { now destruct l. }
    pose proof (slots_bytes_len (p_blk l)). unfold zlen in *. lia.
  - now destruct s.
Qed.

Lemma with_own x : with_bytes x (bytes_of x) = x.
Proof. apply roundtrip; auto. destruct x; auto. Qed.

Definition room (x : body) : Prop := 0 < zlen (bytes_of x) <= alloc_max.

Definition cadd (o : option cont) : list tag :=
  match o with Some c => [(h_ptr c, h_use c); (h_hdr c, h_use c)] | None => [] end.
Definition cadds (l : list (option cont)) : list tag := flat_map cadd l.

(** The storage holds exactly what the header record says. *)
Definition backed (m : mem) (c : cont) : Prop := hlookup (m_heap m) (h_ptr c) = Some (bytes_of (h_body c)).

Lemma backed_load m c : backed m c -> c_load m c = Ok (h_body c).
Proof. unfold backed, c_load. intros ->. now rewrite with_own. Qed.

Lemma array_size_ok : 0 < array_size <= alloc_max.
Proof. unfold array_size, alloc_max. lia. Qed.

Lemma keeps_trans m1 m2 m3 F : keeps m1 m2 F -> keeps m2 m3 F -> keeps m1 m3 F.
Proof. intros A B x X. rewrite B, A; auto. Qed.
Lemma keeps_incl m1 m2 F G : keeps m1 m2 F -> incl G F -> keeps m1 m2 G.
Proof. intros A I x X. apply A. apply in_map_iff in X. destruct X as (e & X1 & X2). apply in_map_iff. exists e. auto. Qed.

Lemma place_ok dbg p h0 k m F u x : valid_policy p -> minv h0 k m F -> 0 <= k < call_limit -> room x ->
  exists m' c, c_place dbg p m u x = Ok (m', c) /\ minv h0 (k + 2) m' (cadd (Some c) ++ F)
    /\ backed m' c /\ h_body c = x /\ h_use c = u /\ keeps m m' F.
Proof.
  intros V M K R. unfold c_place.
  destruct (alloc_m dbg p h0 k m F u array_size V M) as (m1 & q & E1 & M1 & L1 & K1); [lia|apply array_size_ok|].
  rewrite E1. cbn [bind fst snd].
  destruct (alloc_m dbg p h0 (k + 1) m1 _ u (zlen (bytes_of x)) V M1) as (m2 & r & E2 & M2 & L2 & K2); [lia|exact R|].
  rewrite E2. cbn [bind fst snd]. pose proof (minv_nodup _ _ _ _ M2) as ND. cbn [map fst] in ND.
  inversion ND as [|? ? N1 ND1]. subst.
  destruct (store_m h0 _ m2 _ r u _ (bytes_of x) M2 (or_introl eq_refl) L2) as (M3 & L3 & K3).
  { autorewrite with zlen. unfold room in R. lia. }
  eexists _, _. split; [reflexivity|]. cbn [cadd h_ptr h_use h_hdr app h_body].
  split; [eapply minv_le; [exact M3|lia]|]. split; [exact L3|]. split; [auto|]. split; [auto|].
  intros y Y. rewrite K3. 2: { intros ->. apply N1. right. auto. }
  rewrite K2 by (right; auto). now apply K1.
Qed.

Lemma put_ok dbg p h0 k m F F1 c x al : valid_policy p -> minv h0 k m F -> 0 <= k <= call_limit ->
  Permutation F (cadd (Some c) ++ F1) -> room x ->
  exists m' c', c_put dbg p m c x al = Ok (m', c') /\ minv h0 (k + 1) m' (cadd (Some c') ++ F1)
    /\ backed m' c' /\ h_body c' = x /\ h_use c' = h_use c /\ keeps m m' F1.
Proof.
  intros V M K PF R. pose proof (minv_perm _ _ _ _ _ PF M) as M'. cbn [cadd app] in *.
  destruct (minv_block _ _ _ _ (h_ptr c) (h_use c) M' (or_introl eq_refl)) as (b & HB & LB & P0).
  unfold c_put. rewrite HB.
  pose proof (minv_nodup _ _ _ _ M') as ND. cbn [map fst] in ND. inversion ND as [|? ? N1 ND1]. subst.
  destruct (al || negb (zlen (bytes_of x) =? zlen b)) eqn:C.
  - destruct (realloc_m dbg p h0 k m F ((h_hdr c, h_use c) :: F1) (h_use c) (h_ptr c) (zlen (bytes_of x)) V M K PF R) as (m1 & q & b1 & E1 & M1 & B1 & L1 & K1).
    rewrite E1. cbn [bind fst snd]. pose proof (minv_nodup _ _ _ _ M1) as ND2. cbn [map fst] in ND2.
    inversion ND2 as [|? ? N2 ND3]. subst.
    destruct (store_m h0 _ m1 _ q (h_use c) _ (bytes_of x) M1 (or_introl eq_refl) L1) as (M3 & L3 & K3).
    { assert (b1 = b) by congruence. subst b1. unfold room in R. autorewrite with zlen. unfold zlen in *. lia. }
    eexists _, _. split; [reflexivity|]. cbn [cadd h_ptr h_use h_hdr app h_body].
    split; [exact M3|]. split; [exact L3|]. split; [auto|]. split; [auto|].
    intros y Y. rewrite K3. 2: { intros ->. apply N2. right. auto. } apply K1. right. auto.
  - apply orb_false_iff in C. destruct C as [_ C]. apply negb_false_iff, Z.eqb_eq in C. cbn [bind fst snd].
    destruct (store_m h0 _ m _ (h_ptr c) (h_use c) _ (bytes_of x) M' (or_introl eq_refl) HB C) as (M3 & L3 & K3).
    eexists _, _. split; [reflexivity|]. cbn [cadd h_ptr h_use h_hdr app h_body].
    split; [eapply minv_le; [exact M3|lia]|]. split; [exact L3|]. split; [auto|]. split; [auto|].
    intros y Y. apply K3. intros ->. apply N1. right. auto.
Qed.

Lemma destroy_c_ok dbg h0 k m F F1 c : minv h0 k m F -> 0 <= k < call_limit -> Permutation F (cadd (Some c) ++ F1) ->
  exists m', c_destroy dbg m c = Ok m' /\ minv h0 (k + 2) m' F1 /\ keeps m m' F1.
Proof.
  intros M K PF. cbn [cadd app] in PF. unfold c_destroy.
  destruct (free_m dbg h0 k m F ((h_hdr c, h_use c) :: F1) (h_use c) (h_ptr c) M) as (m1 & E1 & M1 & L1 & K1); [lia|exact PF|].
  rewrite E1. cbn [bind].
  destruct (free_m dbg h0 (k + 1) m1 ((h_hdr c, h_use c) :: F1) F1 (h_use c) (h_hdr c) M1) as (m2 & E2 & M2 & L2 & K2); [lia|reflexivity|].
  exists m2. split; [exact E2|]. split; [eapply minv_le; [exact M2|lia]|].
  eapply keeps_trans; [|exact K2]. eapply keeps_incl; [exact K1|]. intros e X. right. auto.
Qed.

(** * Values *)
Definition vrepb (v : value) (x : body) : Prop :=
  match v, x with
  | VSeq es xs cap, BVec a => VecSpec.vrep es xs cap a
  | VPtrs xs cap, BList l => PlistSpec.prep xs cap l
  | VText t cap, BStr s => srep t cap s
  | _, _ => False
  end.

Lemma rep_room v x : vrepb v x -> (match x with BStr s => bnd s | _ => True end) -> room x.
Proof.
  destruct v as [es xs cap|xs cap|t cap], x as [a|l|s]; cbn [vrepb]; try tauto; intros H B; unfold room; cbn [bytes_of].
  - destruct H. nia.
  - destruct H. rewrite slots_bytes_len. lia.
  - destruct H. pose proof (zlen_nonneg t). unfold bnd in B. lia.
Qed.

Lemma rep_displays dbg v x : vrepb v x -> displays dbg v x.
Proof.
  destruct v as [es xs cap|xs cap|t cap], x as [a|l|s]; cbn [vrepb displays]; try tauto; intros H.
  - pose proof H as H'. destruct H'. split; [auto|]. split; [auto|]. split; [auto|]. intros i e I N.
    assert (0 <= i < zlen xs) as R. { assert (Z.to_nat i < length xs)%nat by (apply nth_error_Some; congruence). unfold zlen. lia. }
    destruct (VecProofs.vec_get_rep dbg es xs cap a i H R) as (e' & N' & G). congruence.
  - pose proof H as H'. destruct H'. split; [auto|]. split; [auto|]. intros i e I N.
    assert (0 <= i < zlen xs) as R. { assert (Z.to_nat i < length xs)%nat by (apply nth_error_Some; congruence). unfold zlen. lia. }
    unfold plist_get. rewrite dassert_true by (apply Z.ltb_lt; lia). cbn [bind].
    destruct (PlistProofs.slot_get_rep xs cap l i H R) as (e' & N' & G). congruence.
  - pose proof H as H'. destruct H'. split; [auto|]. split; [auto|]. eapply StrProofs.z_ok; eauto.
Qed.

Definition objrel (m : mem) (a : option (bool * value)) (o : option cont) : Prop :=
  match a, o with
  | None, None => True
  | Some (u, v), Some c => h_use c = u /\ backed m c /\ vrepb v (h_body c)
  | _, _ => False
  end.

Definition winv (h0 : heap) (k : Z) (w : world) (st : state) : Prop :=
  minv h0 k (w_mem w) (cadds (w_objs w)) /\ Forall2 (objrel (w_mem w)) st (w_objs w).

Lemma cadds_app l l' : cadds (l ++ l') = cadds l ++ cadds l'.
Proof. apply flat_map_app. Qed.

Lemma cadds_split l i o : nth_error l i = Some o -> Permutation (cadds l) (cadd o ++ cadds (drop l i)).
Proof.
  intros H. apply nth_error_perm in H. unfold cadds. eapply Permutation_trans; [apply Permutation_flat_map; exact H|]. auto.
Qed.

Lemma setn_split {A} (l : list A) i o x : nth_error l i = Some o -> nth_error (setn l i x) i = Some x /\ drop (setn l i x) i = drop l i.
Proof.
  intros H. apply nth_error_split in H. destruct H as (l1 & l2 & -> & <-). unfold setn, drop.
  assert (E : firstn (length l1) (l1 ++ o :: l2) = l1) by apply firstn_exact.
  assert (S1 : forall y, skipn (S (length l1)) (l1 ++ y :: l2) = l2).
  { intros y. replace (S (length l1)) with (length (l1 ++ [y])) by (rewrite app_length; cbn; lia).
    replace (l1 ++ y :: l2) with ((l1 ++ [y]) ++ l2) by now rewrite <- app_assoc. apply skipn_exact. }
  rewrite E, S1. split.
  - now rewrite nth_error_app2, Nat.sub_diag by lia.
  - now rewrite firstn_exact, S1.
Qed.

Lemma cadds_setn l i o x : nth_error l i = Some o -> Permutation (cadd x ++ cadds (drop l i)) (cadds (setn l i x)).
Proof.
  intros H. destruct (setn_split l i o x H) as [A B]. apply Permutation_sym.
  eapply Permutation_trans; [apply cadds_split; exact A|]. now rewrite B.
Qed.

Lemma in_cadds l c : In (Some c) l -> In (h_ptr c, h_use c) (cadds l).
Proof. intros H. apply in_flat_map. exists (Some c). split; auto. left. auto. Qed.

Lemma objrel_keep m m' a o F : objrel m a o -> keeps m m' F -> incl (cadd o) F -> objrel m' a o.
Proof.
  unfold objrel. destruct a as [[u v]|], o as [c|]; auto. intros (A & B & C) K I. split; auto. split; auto.
  unfold backed in *. rewrite K; auto. apply in_map_iff. exists (h_ptr c, h_use c). split; auto. apply I. left. auto.
Qed.

Lemma objs_keep m m' st l : Forall2 (objrel m) st l -> keeps m m' (cadds l) -> Forall2 (objrel m') st l.
Proof.
  induction 1 as [|a o st l H HS IH]; intros K; constructor.
  - eapply objrel_keep; [exact H|exact K|]. cbn [cadds flat_map]. apply incl_appl, incl_refl.
  - apply IH. eapply keeps_incl; [exact K|]. cbn [cadds flat_map]. apply incl_appr, incl_refl.
Qed.

Lemma Forall2_nth {A B} (R : A -> B -> Prop) l l' i a : Forall2 R l l' -> nth_error l i = Some a ->
  exists b, nth_error l' i = Some b /\ R a b.
Proof.
  intros H. revert i. induction H as [|x y l l' X Y IH]; intros [|i] E; cbn in *; try discriminate; eauto.
  injection E as <-. eauto.
Qed.

Lemma Forall2_len {A B} (R : A -> B -> Prop) l l' : Forall2 R l l' -> length l = length l'.
Proof. induction 1; cbn; congruence. Qed.

Lemma Forall2_setn m m' st l i a o a' o' : Forall2 (objrel m) st l -> nth_error st i = Some a -> nth_error l i = Some o ->
  keeps m m' (cadds (drop l i)) -> objrel m' a' o' -> Forall2 (objrel m') (setn st i a') (setn l i o').
Proof.
  intros F A O K R. apply nth_error_split in A. destruct A as (s1 & s2 & -> & L).
  apply Forall2_app_inv_l in F. destruct F as (l1 & l2 & F1 & F2 & ->).
  inversion F2 as [|? y ? l3 R0 F3]. subst. assert (EL : length l1 = length s1) by (symmetry; eapply Forall2_len; eauto).
  unfold setn, drop in *. rewrite <- EL in K at 1 2. rewrite <- EL at 3 4.
  assert (S1 : forall A (q : list A) (y : A) r, skipn (S (length q)) (q ++ y :: r) = r).
  { intros A q z r. replace (S (length q)) with (length (q ++ [z])) by (rewrite app_length; cbn; lia).
    replace (q ++ z :: r) with ((q ++ [z]) ++ r) by now rewrite <- app_assoc. apply skipn_exact. }
  rewrite !firstn_exact, !S1 in *. rewrite cadds_app in K.
  apply Forall2_app.
  - eapply objs_keep; [exact F1|]. eapply keeps_incl; [exact K|]. apply incl_appl, incl_refl.
  - constructor; auto. eapply objs_keep; [exact F3|]. eapply keeps_incl; [exact K|]. apply incl_appr, incl_refl.
Qed.

Lemma get_live h0 k w st i u v : winv h0 k w st -> get st i = Some (u, v) ->
  exists c, nth_error st i = Some (Some (u, v)) /\ nth_error (w_objs w) i = Some (Some c) /\ w_get w i = Ok c
    /\ h_use c = u /\ backed (w_mem w) c /\ vrepb v (h_body c)
    /\ (match h_body c with BStr s => bnd s | _ => True end).
Proof.
  intros [M F] G. unfold get in G. destruct (nth_error st i) as [o|] eqn:E; [|discriminate]. subst o.
  destruct (Forall2_nth _ _ _ _ _ F E) as (y & Y & R). destruct y as [c|]; [|destruct R].
  destruct R as (R1 & R2 & R3). exists c. split; auto. split; auto. split. { unfold w_get. now rewrite Y. }
  split; auto. split; auto. split; auto.
  destruct (minv_block _ _ _ _ (h_ptr c) (h_use c) M) as (b & HB & LB & _). { apply in_cadds. eapply nth_error_In; eauto. }
  unfold backed in R2. rewrite R2 in HB. injection HB as <-. destruct (h_body c); auto. cbn [bytes_of] in LB. unfold bnd. lia.
Qed.

Lemma new_ok dbg p h0 k w st u v x : valid_policy p -> winv h0 k w st -> 0 <= k < call_limit -> vrepb v x ->
  (match x with BStr s => bnd s | _ => True end) ->
  exists w', w_new w (c_place dbg p (w_mem w) u x) = Ok (w', QNone) /\ winv h0 (k + 8) w' (st ++ [Some (u, v)]).
Proof.
  intros V [M F] K R B. pose proof (rep_room _ _ R B) as RM.
  destruct (place_ok dbg p h0 k (w_mem w) _ u x V M K RM) as (m & c & E & M1 & BK & HB & HU & KE).
  unfold w_new. rewrite E. cbn [bind fst snd]. eexists. split; [reflexivity|]. split; cbn [w_mem w_objs].
  - eapply minv_le; [|assert (k + 2 <= k + 8) by lia; eauto]. eapply minv_perm; [|exact M1]. rewrite cadds_app.
    cbn [cadds flat_map]. rewrite app_nil_r. apply Permutation_app_comm.
  - apply Forall2_app; [eapply objs_keep; eauto|]. constructor; [|constructor]. cbn. subst. auto.
Qed.

Lemma upd_ok dbg p h0 k w st i u v c v' x' al q : valid_policy p -> winv h0 k w st -> 0 <= k <= call_limit ->
  nth_error st i = Some (Some (u, v)) -> nth_error (w_objs w) i = Some (Some c) -> h_use c = u ->
  vrepb v' x' -> (match x' with BStr s => bnd s | _ => True end) ->
  exists w', w_upd w i (c_put dbg p (w_mem w) c x' al) q = Ok (w', q) /\ winv h0 (k + 8) w' (setn st i (Some (u, v'))).
Proof.
  intros V [M F] K NS NO HU R B. pose proof (rep_room _ _ R B) as RM.
  destruct (put_ok dbg p h0 k (w_mem w) _ (cadds (drop (w_objs w) i)) c x' al V M K) as (m & c' & E & M1 & BK & HB & HU' & KE); auto.
  { now apply cadds_split. }
  unfold w_upd. rewrite E. cbn [bind fst snd]. eexists. split; [reflexivity|]. split; cbn [w_mem w_objs].
  - eapply minv_le; [|assert (k + 1 <= k + 8) by lia; eauto]. eapply minv_perm; [|exact M1]. eapply cadds_setn; eauto.
  - eapply Forall2_setn; eauto. cbn. rewrite HB. split; [congruence|]. auto.
Qed.

Lemma insertf_heap dbg p h0 k w st i t cap c at_ z t' cap' : valid_policy p -> winv h0 k w st -> 0 <= k -> k + 8 <= call_limit ->
  nth_error st i = Some (Some (h_use c, VText t cap)) -> nth_error (w_objs w) i = Some (Some c) ->
  backed (w_mem w) c -> vrepb (VText t cap) (h_body c) -> (match h_body c with BStr s => bnd s | _ => True end) ->
  long_insert (SInsertf at_ z) = Some (at_, z) ->
  tstep (t, cap) (SInsertf at_ z) = Some (t', cap', None) ->
  exists w', w_upd w i (c_insertf dbg p (w_mem w) c at_ z) (QNum None) = Ok (w', QNum None)
    /\ winv h0 (k + 8) w' (setn st i (Some (h_use c, VText t' cap'))).
Proof.
  intros V [M F] K1 K2 NS NO BK R BN LI TS. unfold call_limit in K2.
  destruct (h_body c) as [|l|s] eqn:HB; cbn [vrepb] in R; try tauto.
  cbn [long_insert] in LI. destruct (zlen z <? tmp_buffer - 1) eqn:LZ; [discriminate|]. apply Z.ltb_ge in LZ. unfold tmp_buffer in LZ.
  cbn [tstep] in TS. destruct (okz z) eqn:OZ; cbn [andb] in TS; [|discriminate].
  destruct (0 <=? at_) eqn:A0; cbn [andb] in TS; [|discriminate].
  destruct (at_ <? zlen t) eqn:A1; cbn [andb] in TS; [|discriminate].
  destruct (sfits (2 * zlen z + 1)) eqn:SF; [|discriminate]. unfold sfits in SF. apply Z.leb_le in SF.
  assert (TS' : tstep (t, cap) (SInsert z at_) = Some (t', cap', None)).
  { cbn [tstep]. rewrite OZ, A0, A1. exact TS. }
  destruct (StrProofs3.step_ok dbg t cap s (SInsert z at_) t' cap' None R TS') as (s' & ES & RS).
  cbn [sstep] in ES. unfold ok1 in ES. destruct (str_insert dbg s z at_) as [s1| | |] eqn:EI; try discriminate.
  cbn [bind] in ES. injection ES as ->. pose proof (insert_bnd _ _ _ _ _ EI BN) as BS.
  unfold c_insertf.
  destruct (StrProofs.create_len_ok dbg (zlen z)) as (t1 & E1 & R1 & L1); [lia|lia|]. rewrite E1. cbn [bind].
  pose proof (create_len_bnd _ _ _ E1) as B1.
  destruct (place_ok dbg p h0 k (w_mem w) _ (h_use c) (BStr t1) V M) as (m1 & c1 & EP & M1 & BK1 & HB1 & HU1 & KE1).
  { unfold call_limit. lia. } { apply (rep_room (VText _ _) (BStr t1) R1). exact B1. }
  rewrite EP. cbn [bind fst snd].
  destruct (StrProofs3.vfmt_set_ok dbg _ _ t1 z R1) as (t2 & E2 & Z2); [now apply StrProofs.okz_oks|lia|].
  rewrite E2. cbn [bind]. pose proof (vfmt_set_bnd _ _ _ _ E2 B1) as B2.
  destruct (put_ok dbg p h0 (k + 2) m1 _ (cadds (w_objs w)) c1 (BStr t2) false V M1) as (m2 & c2 & EP2 & M2 & BK2 & HB2 & HU2 & KE2).
  { unfold call_limit. lia. } { reflexivity. }
  { split; [|exact B2]. cbn [bytes_of]. unfold str_z in Z2. destruct (sb t2) as [|b0 b]; [discriminate Z2|]. rewrite zlen_cons. pose proof (zlen_nonneg b). lia. }
  rewrite EP2. cbn [bind fst snd]. rewrite Z2. cbn [bind].
  assert (BKc : backed m2 c).
  { unfold backed in *. assert (X : In (h_ptr c) (map fst (cadds (w_objs w)))).
    { apply in_map_iff. exists (h_ptr c, h_use c). split; auto. apply in_cadds. eapply nth_error_In; eauto. }
    rewrite KE2, KE1 by auto. exact BK. }
  rewrite (backed_load _ _ BKc), HB. cbn [bind]. rewrite EI. cbn [bind].
  set (D := cadds (drop (w_objs w) i)) in *.
  pose proof (cadds_split _ _ _ NO) as PS. fold D in PS.
  destruct (put_ok dbg p h0 (k + 2 + 1) m2 _ (cadd (Some c2) ++ D) c (BStr s') false V M2) as (m3 & c3 & EP3 & M3 & BK3 & HB3 & HU3 & KE3).
  { unfold call_limit. lia. }
  { eapply Permutation_trans; [apply Permutation_app_head; exact PS|]. rewrite !app_assoc. apply Permutation_app_tail, Permutation_app_comm. }
  { apply (rep_room (VText _ _) (BStr s') RS). exact BS. }
  rewrite EP3. cbn [bind fst snd].
  destruct (destroy_c_ok dbg h0 (k + 2 + 1 + 1) m3 _ (cadd (Some c3) ++ D) c2 M3) as (m4 & ED & M4 & KE4).
  { unfold call_limit. lia. }
  { rewrite !app_assoc. apply Permutation_app_tail, Permutation_app_comm. }
  rewrite ED. cbn [bind fst snd]. unfold w_upd. cbn [bind fst snd]. eexists. split; [reflexivity|]. split; cbn [w_mem w_objs].
  - eapply minv_le; [|assert (k + 2 + 1 + 1 + 2 <= k + 8) by lia; eauto]. eapply minv_perm; [|exact M4]. eapply cadds_setn; eauto.
  - eapply Forall2_setn; [exact F|exact NS|exact NO| |].
    + fold D. intros x X. assert (XW : In x (map fst (cadds (w_objs w)))).
      { eapply Permutation_in; [apply Permutation_map, Permutation_sym; exact PS|]. rewrite map_app. apply in_or_app. auto. }
      rewrite KE4, KE3, KE2, KE1; auto; rewrite map_app; apply in_or_app; auto.
    + cbn. rewrite HB3. split; [congruence|]. split; [|exact RS]. unfold backed in *. rewrite KE4; auto.
      rewrite map_app. apply in_or_app. left. left. auto.
Qed.

(** * One call *)

Ltac done_eq := match goal with H : Some _ = Some _ |- _ => injection H as <- <- end.

Lemma made i dbg t cap s : tinit i = Some (t, cap) -> smake dbg i = Ok s ->
  (match i with IOwn _ _ => False | _ => True end) -> bnd s.
Proof.
  destruct i; cbn [smake]; intros _ E X; try tauto.
  - eapply create_bnd; eauto.
  - eapply create_capacity_bnd; eauto.
  - eapply create_len_bnd; eauto.
  - destruct (str_create dbg z) as [s1| | |]; try discriminate. cbn [bind] in E. eapply dup_bnd; eauto.
Qed.

Lemma make_step dbg p h0 k w st u i t cap st' q : valid_policy p -> winv h0 k w st -> 0 <= k < call_limit ->
  (match i with IOwn _ _ => False | _ => True end) ->
  tinit i = Some (t, cap) -> add st u (VText t cap) = Some (st', q) ->
  exists w', (let* s := smake dbg i in w_new w (c_place dbg p (w_mem w) u (BStr s))) = Ok (w', q) /\ winv h0 (k + 8) w' st'.
Proof.
  intros V W K X TI AD. unfold add in AD. done_eq. destruct (StrMain.make_ok dbg i t cap TI) as (s & E & R).
  rewrite E. cbn [bind]. apply (new_ok dbg p h0 k w st u (VText t cap) (BStr s) V W K R). eapply made; eauto.
Qed.

Lemma known_map e : known (map Some e) = Ok e.
Proof. induction e as [|c e IH]; [reflexivity|]. cbn [map known]. now rewrite IH. Qed.

Lemma zpos_nil {A} (l : list A) : 0 < zlen l -> l <> [].
Proof. intros H ->. unfold zlen in H. cbn in H. lia. Qed.


Lemma new_step dbg p h0 k w st o st' q : valid_policy p -> winv h0 k w st -> 0 <= k -> k + 8 <= call_limit ->
  vnew st o = Some (st', q) -> exists w', wstep dbg p w o = Ok (w', q) /\ winv h0 (k + 8) w' st'.
Proof.
  intros V W K1 K2 S. assert (K : 0 <= k < call_limit) by lia.
  destruct o as [u n es|u n|u z|u n|u n|u z rest|i u|i|i o|i o|i o|i j e|i j]; cbn [vnew] in S; try discriminate; cbn [wstep].
  - destruct (0 <? n) eqn:A; [|discriminate]. destruct (0 <? es) eqn:B; [|discriminate].
    destruct (VecSpec.fits es n) eqn:C; [|discriminate]. cbn [andb] in S. unfold add in S. done_eq.
    unfold VecSpec.fits in C. rewrite ?andb_true_iff in C.
    destruct (VecProofs.vec_create_rep dbg n es) as (v & E & R); [lia|lia|lia|]. rewrite E. cbn [bind].
    apply (new_ok dbg p h0 k w st u (VSeq es [] n) (BVec v)); auto.
  - destruct (PlistSpec.pfits n) eqn:C; [|discriminate]. unfold add in S. done_eq.
    unfold PlistSpec.pfits in C. rewrite ?andb_true_iff in C.
    destruct (PlistProofs.plist_create_rep dbg n) as (v & E & R & _); [lia|lia|]. rewrite E. cbn [bind].
    apply (new_ok dbg p h0 k w st u (VPtrs [] n) (BList v)); auto.
  - destruct (tinit (ICreate z)) as [[t cap]|] eqn:TI; [|discriminate].
    apply (make_step dbg p h0 k w st u (ICreate z) t cap); auto.
  - destruct (tinit (ICapacity n)) as [[t cap]|] eqn:TI; [|discriminate].
    apply (make_step dbg p h0 k w st u (ICapacity n) t cap); auto.
  - destruct (tinit (ILen n)) as [[t cap]|] eqn:TI; [|discriminate].
    apply (make_step dbg p h0 k w st u (ILen n) t cap); auto.
  - destruct (sfits (zlen z + zlen rest)) eqn:SF; [|discriminate]. unfold sfits in SF. apply Z.leb_le in SF.
    destruct (tinit (IOwn z rest)) as [[t cap]|] eqn:TI; [|discriminate]. unfold add in S. done_eq.
    destruct (StrMain.make_ok dbg _ t cap TI) as (s & E & R). cbn [smake] in E.
    set (b := map Some z ++ Some 0 :: rest) in *. destruct W as [M F].
    assert (LB : 0 < zlen b <= alloc_max).
    { unfold b. autorewrite with zlen. pose proof (zlen_nonneg z). pose proof (zlen_nonneg rest). lia. }
    destruct (alloc_m dbg p h0 k (w_mem w) _ u (zlen b) V M) as (m1 & r & E1 & M1 & L1 & Q1); [lia|exact LB|].
    rewrite E1. cbn [bind fst snd]. rewrite E. cbn [bind].
    destruct (store_m h0 _ m1 _ r u _ b M1 (or_introl eq_refl) L1) as (M2 & L2 & Q2).
    { autorewrite with zlen. lia. }
    destruct (alloc_m dbg p h0 (k + 1) _ _ u array_size V M2) as (m3 & h & E3 & M3 & L3 & Q3); [lia|apply array_size_ok|].
    rewrite E3. unfold w_new. cbn [bind fst snd]. eexists. split; [reflexivity|].
    assert (SB : sb s = b).
    { unfold str_take_ownership in E. destruct (c_calloc dbg array_size); try discriminate. cbn [bind] in E.
      destruct (cstr b); try discriminate. cbn [bind] in E. injection E as <-. reflexivity. }
    pose proof (minv_nodup _ _ _ _ M1) as ND. cbn [map fst] in ND. inversion ND as [|? ? N1 ND1]. subst.
    split; cbn [w_mem w_objs].
    + eapply minv_le; [|assert (k + 1 + 1 <= k + 8) by lia; eauto]. eapply minv_perm; [|exact M3]. rewrite cadds_app.
      cbn [cadds flat_map cadd h_ptr h_use h_hdr app].
      eapply Permutation_trans; [|apply Permutation_app_comm]. cbn [app]. apply perm_swap.
    + apply Forall2_app.
      * eapply objs_keep; [exact F|]. intros x X. rewrite Q3 by (right; auto). rewrite Q2. { now apply Q1. }
        intros ->. auto.
      * constructor; [|constructor]. cbn [objrel h_use h_body vrepb]. split; auto. split; auto.
        unfold backed. cbn [h_ptr h_body bytes_of]. rewrite Q3 by (left; auto). rewrite SB. exact L2.
  - destruct (get st i) as [[u' v]|] eqn:G; [|discriminate].
    destruct (get_live _ _ _ _ _ _ _ W G) as (c & NS & NO & EG & HU & BK & R & BN).
    rewrite EG. cbn [bind]. rewrite (backed_load _ _ BK). cbn [bind].
    destruct v as [es xs cap|xs cap|t cap], (h_body c) as [a|l|s]; cbn [vrepb] in R; try tauto.
    + destruct (0 <? zlen xs) eqn:C; [|discriminate]. unfold add in S. done_eq.
      destruct (VecProofs2.vec_dup_rep dbg es xs cap a R) as (v & E & R' & _); [apply zpos_nil; lia|].
      rewrite E. cbn [bind]. apply (new_ok dbg p h0 k w st u (VSeq es xs (zlen xs)) (BVec v)); auto.
    + destruct (0 <? zlen xs) eqn:C; [|discriminate]. unfold add in S. done_eq.
      destruct (PlistProofs.plist_dup_rep dbg xs cap l R) as (v & E & R' & _); [apply zpos_nil; lia|].
      rewrite E. cbn [bind]. apply (new_ok dbg p h0 k w st u (VPtrs xs (zlen xs)) (BList v)); auto.
    + destruct (0 <? zlen t) eqn:C; [|discriminate]. unfold add in S. done_eq.
      destruct (StrProofs.dup_ok dbg t cap s R) as (v & E & R'); [lia|].
      rewrite E. cbn [bind]. rewrite HU. apply (new_ok dbg p h0 k w st u' (VText t (zlen t)) (BStr v)); auto.
      eapply dup_bnd; eauto.
Qed.

Lemma step_w dbg p h0 k w st o st' q : valid_policy p -> winv h0 k w st -> 0 <= k -> k + 8 <= call_limit ->
  astep st o = Some (st', q) -> exists w', wstep dbg p w o = Ok (w', q) /\ winv h0 (k + 8) w' st'.
Proof.
  intros V W K1 K2 S. assert (K : 0 <= k <= call_limit) by lia.
  destruct o as [u n es|u n|u z|u n|u n|u z rest|i u|i|i o|i o|i o|i j e|i j]; cbn [astep] in S;
    try (eapply new_step; eauto; fail).
  - (* destroy *)
    destruct (get st i) as [[u v]|] eqn:G; [|discriminate]. done_eq.
    destruct (get_live _ _ _ _ _ _ _ W G) as (c & NS & NO & EG & HU & BK & R & BN). destruct W as [M F].
    cbn [wstep]. rewrite EG. cbn [bind].
    destruct (destroy_c_ok dbg h0 k (w_mem w) _ (cadds (drop (w_objs w) i)) c M) as (m & E & M1 & KE); [lia|now apply cadds_split|].
    rewrite E. cbn [bind]. eexists. split; [reflexivity|]. split; cbn [w_mem w_objs].
    + eapply minv_le; [|assert (k + 2 <= k + 8) by lia; eauto]. eapply minv_perm; [|exact M1].
      apply (cadds_setn _ _ _ None NO).
    + eapply Forall2_setn; eauto. exact I.
  - destruct (get st i) as [[u v]|] eqn:G; [|discriminate].
    destruct (get_live _ _ _ _ _ _ _ W G) as (c & NS & NO & EG & HU & BK & R & BN).
    cbn [wstep]. rewrite EG. cbn [bind]. rewrite (backed_load _ _ BK). cbn [bind].
    destruct v as [es xs cap|xs cap|t cap], (h_body c) as [a|l|s]; cbn [vrepb] in R; try tauto; try discriminate.
    destruct (VecSpec.sstep es (xs, cap) o) as [[[xs' cap'] q']|] eqn:SS; [|discriminate]. unfold put in S. done_eq.
    destruct (VecProofs.vstep_rep dbg es xs cap a o xs' cap' q' R SS) as (v' & E & R' & _). rewrite E. cbn [bind fst snd].
    apply (upd_ok dbg p h0 k w st i u (VSeq es xs cap) c (VSeq es xs' cap') (BVec v')); auto.
  - destruct (get st i) as [[u v]|] eqn:G; [|discriminate].
    destruct (get_live _ _ _ _ _ _ _ W G) as (c & NS & NO & EG & HU & BK & R & BN).
    cbn [wstep]. rewrite EG. cbn [bind]. rewrite (backed_load _ _ BK). cbn [bind].
    destruct v as [es xs cap|xs cap|t cap], (h_body c) as [a|l|s]; cbn [vrepb] in R; try tauto; try discriminate.
    destruct (PlistSpec.lstep (xs, cap) o) as [[[xs' cap'] q']|] eqn:SS; [|discriminate]. unfold put in S. done_eq.
    destruct (PlistProofs.plstep_rep dbg xs cap l o xs' cap' q' R SS) as (v' & E & R' & _). rewrite E. cbn [bind fst snd].
    apply (upd_ok dbg p h0 k w st i u (VPtrs xs cap) c (VPtrs xs' cap') (BList v')); auto.
  - destruct (get st i) as [[u v]|] eqn:G; [|discriminate].
    destruct (get_live _ _ _ _ _ _ _ W G) as (c & NS & NO & EG & HU & BK & R & BN).
    cbn [wstep]. rewrite EG. cbn [bind].
    destruct v as [es xs cap|xs cap|t cap]; try discriminate.
    destruct (tstep (t, cap) o) as [[[t' cap'] q']|] eqn:SS; [|discriminate]. unfold put in S. done_eq.
    destruct (long_insert o) as [[at_ z]|] eqn:LI.
    + assert (o = SInsertf at_ z).
      { destruct o; cbn [long_insert] in LI; try discriminate. destruct (zlen _ <? _) in LI; [discriminate|]. injection LI as -> ->. auto. }
      subst o.
      assert (q' = None). { cbn [tstep] in SS. destruct (_ && _) in SS; [|discriminate].
        unfold grow_to in SS. cbn [fst snd] in SS. destruct (sfits _) in SS; [|discriminate]. now injection SS as _ _ <-. }
      subst q'. rewrite <- HU in *. eapply insertf_heap; eauto.
    + rewrite (backed_load _ _ BK). cbn [bind]. destruct (h_body c) as [a|l|s]; cbn [vrepb] in R; try tauto.
      destruct (StrProofs3.step_ok dbg t cap s o t' cap' q' R SS) as (s' & E & R'). rewrite E. cbn [bind fst snd].
      apply (upd_ok dbg p h0 k w st i u (VText t cap) c (VText t' cap') (BStr s')); auto. eapply sstep_bnd; eauto.
  - destruct (get st i) as [[u v]|] eqn:G; [|discriminate]. destruct v as [es xs cap|xs cap|t cap]; try discriminate.
    destruct (get st j) as [[u2 v2]|] eqn:G2; [|discriminate]. destruct v2 as [es2 ys cap2|ys cap2|t2 cap2]; try discriminate.
    destruct (nth_error ys (Z.to_nat e)) as [y|] eqn:NY; [|discriminate].
    destruct ((0 <=? e) && negb (Nat.eqb i j)) eqn:C; [|discriminate]. apply andb_true_iff in C. destruct C as [C1 C2].
    apply negb_true_iff in C2.
    destruct (VecSpec.sstep es (xs, cap) (PushBack y)) as [[[xs' cap'] q']|] eqn:SS; [|discriminate]. unfold put in S. done_eq.
    destruct (get_live _ _ _ _ _ _ _ W G) as (c & NS & NO & EG & HU & BK & R & BN).
    destruct (get_live _ _ _ _ _ _ _ W G2) as (d & NS2 & NO2 & EG2 & HU2 & BK2 & R2 & BN2).
    cbn [wstep]. rewrite EG2. cbn [bind]. rewrite (backed_load _ _ BK2). cbn [bind]. rewrite EG. cbn [bind].
    rewrite (backed_load _ _ BK). cbn [bind].
    destruct (h_body c) as [a|l|s]; cbn [vrepb] in R; try tauto. destruct (h_body d) as [b|l|s]; cbn [vrepb] in R2; try tauto.
    assert (RY : 0 <= e < zlen ys).
    { assert (Z.to_nat e < length ys)%nat by (apply nth_error_Some; congruence). unfold zlen. lia. }
    destruct (VecProofs.vec_get_rep dbg es2 ys cap2 b e R2 RY) as (y' & NY' & GY). assert (y' = y) by congruence. subst y'.
    unfold vec_get in GY. destruct (vec_get_ptr dbg b e) as [off| | |]; try discriminate. cbn [bind] in GY |- *.
    rewrite GY. cbn [bind]. rewrite known_map. cbn [bind]. rewrite C2.
    destruct (VecProofs.vstep_rep dbg es xs cap a _ xs' cap' q' R SS) as (v' & E & R' & _). cbn [vstep] in E.
    destruct (vec_push_back dbg a (Ext y)) as [v1| | |]; try discriminate. cbn [bind] in E |- *. injection E as -> _.
    apply (upd_ok dbg p h0 k w st i u (VSeq es xs cap) c (VSeq es xs' cap') (BVec v')); auto.
  - destruct (get st i) as [[u v]|] eqn:G; [|discriminate]. destruct v as [es xs cap|xs cap|t cap]; try discriminate.
    destruct (get st j) as [[u2 v2]|] eqn:G2; [|discriminate]. destruct v2 as [es2 ys cap2|ys cap2|z cap2]; try discriminate.
    destruct (negb (Nat.eqb i j)) eqn:C2; [|discriminate]. apply negb_true_iff in C2.
    destruct (tstep (t, cap) (SAppend z)) as [[[t' cap'] q']|] eqn:SS; [|discriminate]. unfold put in S. done_eq.
    destruct (get_live _ _ _ _ _ _ _ W G) as (c & NS & NO & EG & HU & BK & R & BN).
    destruct (get_live _ _ _ _ _ _ _ W G2) as (d & NS2 & NO2 & EG2 & HU2 & BK2 & R2 & BN2).
    cbn [wstep]. rewrite EG2. cbn [bind]. rewrite (backed_load _ _ BK2). cbn [bind]. rewrite EG. cbn [bind].
    rewrite (backed_load _ _ BK). cbn [bind].
    destruct (h_body c) as [a|l|s]; cbn [vrepb] in R; try tauto. destruct (h_body d) as [b|l|s2]; cbn [vrepb] in R2; try tauto.
    rewrite C2, (StrProofs.z_ok _ _ _ R2). cbn [bind].
    destruct (StrProofs3.step_ok dbg t cap s (SAppend z) t' cap' q' R SS) as (s' & E & R'). cbn [sstep] in E. unfold ok1 in E.
    destruct (str_append dbg s z) as [s1| | |] eqn:EA; try discriminate. cbn [bind] in E |- *. injection E as -> _.
    apply (upd_ok dbg p h0 k w st i u (VText t cap) c (VText t' cap') (BStr s')); auto. eapply append_bnd; eauto.
Qed.

Lemma run_w dbg p h0 ops : valid_policy p -> forall k w st st' qs, winv h0 k w st -> 0 <= k -> k + 8 * zlen ops <= call_limit ->
  arun st ops = Some (st', qs) -> exists w', wrun dbg p w ops = Ok (w', qs) /\ winv h0 (k + 8 * zlen ops) w' st'.
Proof.
  intros V. induction ops as [|o ops IH]; intros k w st st' qs W K B R; cbn [arun wrun] in *.
  - injection R as <- <-. exists w. split; auto. now rewrite (@zlen_nil wop), Z.mul_0_r, Z.add_0_r.
  - destruct (astep st o) as [[st1 q1]|] eqn:S; [|discriminate]. destruct (arun st1 ops) as [[st2 qs2]|] eqn:R2; [|discriminate].
    injection R as <- <-. rewrite zlen_cons in *. pose proof (zlen_nonneg ops).
    destruct (step_w dbg p h0 k w st o st1 q1 V W) as (w1 & E1 & W1); [lia|lia|auto|].
    rewrite E1. cbn [bind fst snd]. destruct (IH (k + 8) w1 st1 st2 qs2 W1) as (w2 & E2 & W2); [lia|lia|auto|].
    rewrite E2. cbn [bind fst snd]. exists w2. split; auto. eapply (eq_rect _ (fun z => winv h0 z w2 st2)); [exact W2|lia].
Qed.

Lemma start_w dbg p h0 : valid_policy p -> start_heap h0 -> exists w, wstart dbg p h0 = Ok w /\ winv h0 0 w [].
Proof.
  intros V W. destruct (create_good dbg p h0 0 V W) as (s & a & E & G). unfold wstart. rewrite E. cbn [bind fst snd].
  eexists. split; [reflexivity|]. split; [|constructor]. cbn [w_mem w_objs cadds flat_map]. destruct G as [I P L C _ _ _ B _].
  exists [], []. cbn [m_sys m_alc]. split; auto.
Qed.

(** * Statements used by the property file *)

Definition op_limit : Z := 137438953472.   (* 2^37 *)

Lemma program_w dbg p h0 ops st qs : valid_policy p -> start_heap h0 -> zlen ops <= op_limit ->
  arun [] ops = Some (st, qs) ->
  exists w, program dbg p h0 ops = Ok (w, qs) /\ winv h0 (8 * zlen ops) w st.
Proof.
  intros V S L R. destruct (start_w dbg p h0 V S) as (w0 & E & W). unfold program. rewrite E. cbn [bind].
  destruct (run_w dbg p h0 ops V 0 w0 [] st qs W) as (w & E2 & W2); [lia|unfold op_limit, call_limit in *; lia|auto|].
  exists w. split; auto.
Qed.

Definition shows (dbg : bool) (w : world) (st : state) : Prop :=
  length (w_objs w) = length st /\
  forall i, match get st i with
            | Some (u, v) => exists c x, w_get w i = Ok c /\ h_use c = u /\ c_load (w_mem w) c = Ok x /\ displays dbg v x
            | None => w_get w i = UB
            end.

Lemma winv_shows dbg h0 k w st : winv h0 k w st -> shows dbg w st.
Proof.
  intros W. split. { symmetry. eapply Forall2_len. apply W. }
  intros i. destruct (get st i) as [[u v]|] eqn:G.
  - destruct (get_live _ _ _ _ _ _ _ W G) as (c & NS & NO & EG & HU & BK & R & BN). exists c, (h_body c).
    split; auto. split; auto. split; [now apply backed_load|now apply rep_displays].
  - destruct W as [_ F]. unfold get in G. unfold w_get. destruct (nth_error st i) as [o|] eqn:N.
    + subst o. destruct (Forall2_nth _ _ _ _ _ F N) as (y & -> & R). destruct y; [destruct R|auto].
    + rewrite (proj2 (nth_error_None _ _)); auto. apply nth_error_None in N. apply Forall2_len in F. lia.
Qed.

Lemma sel_blocks u l : sel u (cadds l) = blocks_of u l.
Proof.
  unfold sel, cadds, blocks_of. induction l as [|o l IH]; [reflexivity|]. cbn [flat_map].
  rewrite filter_app, map_app, IH. f_equal. destruct o as [c|]; [|reflexivity].
  cbn [cadd filter snd]. destruct (Bool.eqb (h_use c) u); reflexivity.
Qed.

(** What the allocator records and what is live, in a world. *)
Definition accounted (h0 : heap) (w : world) : Prop :=
  let a := m_alc (w_mem w) in let h := m_heap (w_mem w) in
  exists T, tracked a = map Some T /\ Permutation (map fst T) (blocks_of true (w_objs w)) /\
    (forall q n, In (q, n) T -> exists b, hlookup h q = Some b /\ zlen b = n) /\
    c_bytes a = w64 (total T) /\
    NoDup (self a :: tptr a :: blocks_of true (w_objs w) ++ blocks_of false (w_objs w)) /\
    (forall x, hlookup h x = hlookup h0 x \/ In x (self a :: tptr a :: blocks_of true (w_objs w) ++ blocks_of false (w_objs w))) /\
    (forall x, In x (self a :: tptr a :: blocks_of true (w_objs w) ++ blocks_of false (w_objs w)) ->
       hlookup h0 x = None /\ hlookup h x <> None).

Lemma winv_accounted h0 k w st : winv h0 k w st -> accounted h0 w.
Proof.
  intros [(E & T & I & PE & PT & KL & KC & KB) _]. rewrite sel_blocks in PE, PT. exists T.
  pose proof I as [WF SH ND SE TA SI FR NW]. destruct SH as [J [S1 [S2 [S3 S4]]]].
  split. { unfold tracked. rewrite S1, S2, to_nat_zlen. rewrite <- (map_length Some T). apply firstn_exact. }
  split; auto. split.
  { intros q n X. destruct (SI q n) as [_ [b [B1 B2]]]; [apply in_or_app; auto|]. exists b. auto. }
  split; auto.
  assert (PO : Permutation (owned (m_alc (w_mem w)) (E ++ T))
     (self (m_alc (w_mem w)) :: tptr (m_alc (w_mem w)) :: blocks_of true (w_objs w) ++ blocks_of false (w_objs w))).
  { unfold owned. constructor. constructor. rewrite map_app. eapply Permutation_trans; [apply Permutation_app_comm|].
    apply Permutation_app; auto. }
  split; [eapply Permutation_NoDup; eauto|]. split.
  - intros x. destruct (in_dec Z.eq_dec x (owned (m_alc (w_mem w)) (E ++ T))) as [Y|Y].
    + right. eapply Permutation_in; eauto.
    + left. now apply FR.
  - intros x X. apply (Permutation_in x (Permutation_sym PO)) in X. split; [now apply NW|].
    pose proof (owned_live _ _ _ _ _ _ I X) as Y. now apply hlookup_in in Y.
Qed.

Lemma w_new_objs w r w' q : w_new w r = Ok (w', q) -> exists c, w_objs w' = w_objs w ++ [Some c].
Proof. unfold w_new. destruct r as [[m c]| | |]; cbn [bind]; try discriminate. intros H. injection H as <- _. eexists. reflexivity. Qed.
Lemma w_upd_objs w i r q w' q' : w_upd w i r q = Ok (w', q') -> exists c, w_objs w' = setn (w_objs w) i (Some c).
Proof. unfold w_upd. destruct r as [[m c]| | |]; cbn [bind]; try discriminate. intros H. injection H as <- _. eexists. reflexivity. Qed.

Ltac binds := repeat match goal with
  | H : bind ?r _ = Ok _ |- _ => let e := fresh "e" in destruct r as [?| | |] eqn:e; cbn [bind] in H; try discriminate
  | H : match ?x with BVec _ => _ | BList _ => _ | BStr _ => _ end = Ok _ |- _ => destruct x; try discriminate
  end.

Lemma step_objs dbg p w o w' q : wstep dbg p w o = Ok (w', q) ->
  match target o with
  | Some i => exists c, w_objs w' = setn (w_objs w) i c
  | None => exists c, w_objs w' = w_objs w ++ [Some c]
  end.
Proof.
  destruct o as [u n es|u n|u z|u n|u n|u z rest|i u|i|i o|i o|i o|i j e|i j]; cbn [wstep target]; intros H; binds;
    try (eapply w_new_objs; eauto; fail);
    try (apply w_upd_objs in H; destruct H as [c H]; eauto; fail).
  - injection H as <- _. eexists. reflexivity.
  - destruct (long_insert o) as [[at_ z]|]; binds; apply w_upd_objs in H; destruct H as [c' H]; eauto.
  - destruct (Nat.eqb i j); [discriminate|]. binds. apply w_upd_objs in H. destruct H as [c' H]. eauto.
Qed.

Lemma setn_other {A} (l : list A) i j x y : nth_error l i = Some y -> i <> j -> nth_error (setn l i x) j = nth_error l j.
Proof.
  revert i j. induction l as [|a l IH]; intros [|i] [|j] H N; cbn in *; try discriminate; try congruence; auto.
  apply (IH i j); auto.
Qed.

Lemma get_nth st i u v : get st i = Some (u, v) -> nth_error st i = Some (Some (u, v)).
Proof. unfold get. destruct (nth_error st i); [congruence|discriminate]. Qed.

Lemma astep_live st o st' q i : astep st o = Some (st', q) -> target o = Some i -> exists u v, get st i = Some (u, v).
Proof.
  intros H T. destruct o; cbn [target] in T; try discriminate; injection T as ->; cbn [astep] in H;
    destruct (get st i) as [[u v]|]; try discriminate; eauto.
Qed.

Lemma independent_step dbg p h0 k w st o st' q j u v : valid_policy p -> winv h0 k w st -> 0 <= k -> k + 8 <= call_limit ->
  astep st o = Some (st', q) -> target o <> Some j -> get st j = Some (u, v) ->
  exists w' c, wstep dbg p w o = Ok (w', q) /\ winv h0 (k + 8) w' st' /\ get st' j = Some (u, v) /\
    w_get w j = Ok c /\ w_get w' j = Ok c /\ c_load (w_mem w) c = Ok (h_body c) /\ c_load (w_mem w') c = Ok (h_body c).
Proof.
  intros V W K1 K2 ST NT G.
  destruct (step_w dbg p h0 _ w st o st' q V W K1 K2 ST) as (w' & E' & W').
  destruct (get_live _ _ _ _ _ _ _ W G) as (c & NS & NO & EG & HU & BK & RP & BN).
  pose proof (step_objs _ _ _ _ _ _ E') as OB.
  assert (NO' : nth_error (w_objs w') j = Some (Some c)).
  { destruct (target o) as [i|] eqn:T.
    - destruct OB as [x OB]. destruct (astep_live _ _ _ _ _ ST T) as (u1 & v1 & G1).
      destruct (get_live _ _ _ _ _ _ _ W G1) as (c1 & _ & NO1 & _).
      rewrite OB, (setn_other _ _ _ _ _ NO1); auto; congruence.
    - destruct OB as [x OB]. rewrite OB, nth_error_app1; auto. apply nth_error_Some. congruence. }
  assert (NS' : nth_error st' j = Some (Some (u, v))).
  { destruct (target o) as [i|] eqn:T.
    - destruct (astep_live _ _ _ _ _ ST T) as (u1 & v1 & G1). pose proof (get_nth _ _ _ _ G1) as N1.
      assert (exists y, st' = setn st i y) as [y ->].
      { destruct o; cbn [target] in T; try discriminate; injection T as ->; cbn [astep] in ST; rewrite G1 in ST; unfold put in ST;
        repeat match type of ST with
          | Some _ = Some _ => injection ST as <- _; eauto
          | match ?x with _ => _ end = _ => destruct x; try discriminate
          end; eauto. }
      rewrite (setn_other _ _ _ _ _ N1); auto; congruence.
    - assert (exists y, st' = st ++ [y]) as [y ->].
      { destruct o; cbn [target] in T; try discriminate; cbn [astep vnew] in ST; unfold add in ST;
        repeat match type of ST with
          | Some _ = Some _ => injection ST as <- _; eauto
          | match ?x with _ => _ end = _ => destruct x; try discriminate
          end; eauto. }
      rewrite nth_error_app1; auto. apply nth_error_Some. congruence. }
  assert (G' : get st' j = Some (u, v)) by (unfold get; now rewrite NS').
  destruct (get_live _ _ _ _ _ _ _ W' G') as (c' & _ & NO2 & EG' & _ & BK' & _).
  assert (c' = c) by congruence. subst c'.
  exists w', c. repeat split; auto using backed_load; apply W'.
Qed.

Lemma independent_run dbg p h0 j u v ops : valid_policy p -> forall k w st st' qs,
  winv h0 k w st -> 0 <= k -> k + 8 * zlen ops <= call_limit ->
  arun st ops = Some (st', qs) -> (forall o, In o ops -> target o <> Some j) -> get st j = Some (u, v) ->
  exists w' c, wrun dbg p w ops = Ok (w', qs) /\ get st' j = Some (u, v) /\
    w_get w j = Ok c /\ w_get w' j = Ok c /\ c_load (w_mem w) c = Ok (h_body c) /\ c_load (w_mem w') c = Ok (h_body c).
Proof.
  intros V. induction ops as [|o ops IH]; intros k w st st' qs W K B R N G; cbn [arun wrun] in *.
  - injection R as <- <-. destruct (get_live _ _ _ _ _ _ _ W G) as (c & _ & _ & EG & _ & BK & _).
    exists w, c. repeat split; auto using backed_load.
  - destruct (astep st o) as [[st1 q1]|] eqn:S; [|discriminate]. destruct (arun st1 ops) as [[st2 qs2]|] eqn:R2; [|discriminate].
    injection R as <- <-. rewrite zlen_cons in *. pose proof (zlen_nonneg ops).
    destruct (independent_step dbg p h0 k w st o st1 q1 j u v V W) as (w1 & c & E1 & W1 & G1 & A1 & A2 & A3 & A4);
      [lia|lia|auto|apply N; left; auto|auto|].
    rewrite E1. cbn [bind fst snd]. destruct (IH (k + 8) w1 st1 st2 qs2 W1) as (w2 & c2 & E2 & G2 & B1 & B2 & B3 & B4);
      [lia|lia|auto|intros x X; apply N; right; auto|auto|].
    rewrite E2. cbn [bind fst snd]. assert (c2 = c) by congruence. subst c2. exists w2, c. repeat split; auto.
Qed.

Lemma independent dbg p h0 ops later st qs st' qs' j u v : valid_policy p -> start_heap h0 ->
  zlen ops + zlen later <= op_limit ->
  arun [] ops = Some (st, qs) -> arun st later = Some (st', qs') -> (forall o, In o later -> target o <> Some j) ->
  get st j = Some (u, v) ->
  exists w w' c x, program dbg p h0 ops = Ok (w, qs) /\ wrun dbg p w later = Ok (w', qs') /\
    w_get w j = Ok c /\ w_get w' j = Ok c /\ c_load (w_mem w) c = Ok x /\ c_load (w_mem w') c = Ok x /\ displays dbg v x.
Proof.
  intros V S L R R2 N G. pose proof (zlen_nonneg ops). pose proof (zlen_nonneg later).
  destruct (program_w dbg p h0 ops st qs V S) as (w & E & W); auto; [lia|].
  destruct (independent_run dbg p h0 j u v later V _ w st st' qs' W) as (w' & c & E2 & G2 & A1 & A2 & A3 & A4); auto; [lia|unfold op_limit, call_limit in *; lia|].
  exists w, w', c, (h_body c). repeat split; auto.
  destruct (get_live _ _ _ _ _ _ _ W G) as (c' & _ & _ & EG & _ & _ & RP & _). assert (c' = c) by congruence. subst.
  now apply rep_displays.
Qed.

Lemma program_exact dbg p h0 ops st qs : valid_policy p -> start_heap h0 -> zlen ops <= op_limit ->
  arun [] ops = Some (st, qs) ->
  exists w, program dbg p h0 ops = Ok (w, qs) /\ shows dbg w st /\ accounted h0 w.
Proof.
  intros V S L R. destruct (program_w dbg p h0 ops st qs V S L R) as (w & E & W). exists w. split; auto.
  split; [eapply winv_shows; eauto|eapply winv_accounted; eauto].
Qed.

Lemma blocks_none u objs : Forall (fun o => o = None) objs -> blocks_of u objs = [].
Proof. induction 1 as [|o l H HF IH]; [reflexivity|]. subst. exact IH. Qed.

Lemma blocks_untracked u objs : (forall c, In (Some c) objs -> h_use c = negb u) -> blocks_of u objs = [].
Proof.
  induction objs as [|o l IH]; intros H; [reflexivity|]. cbn [blocks_of flat_map]. fold (blocks_of u l).
  rewrite IH by (intros c X; apply H; right; auto). rewrite app_nil_r. destruct o as [c|]; auto.
  rewrite (H c) by (left; auto). destruct u; reflexivity.
Qed.

Lemma shows_use h0 k w st : winv h0 k w st -> forall c, In (Some c) (w_objs w) -> exists v, In (Some (h_use c, v)) st.
Proof.
  intros [_ F] c X. apply In_nth_error in X. destruct X as [i X]. revert i X. induction F as [|a o st objs R F IH]; intros i X.
  - destruct i; discriminate.
  - destruct i as [|i]; cbn in X.
    + injection X as ->. destruct a as [[u v]|]; [|destruct R]. destruct R as [<- _]. exists v. left. auto.
    + destruct (IH i X) as [v V]. exists v. right. auto.
Qed.

(** No container made with the allocator is left. *)
Lemma no_leak dbg p h0 ops st qs : valid_policy p -> start_heap h0 -> zlen ops <= op_limit ->
  arun [] ops = Some (st, qs) -> (forall v, ~ In (Some (true, v)) st) ->
  exists w, program dbg p h0 ops = Ok (w, qs) /\ tracked (m_alc (w_mem w)) = [] /\ c_bytes (m_alc (w_mem w)) = 0 /\
    (forall x, hlookup (m_heap (w_mem w)) x = hlookup h0 x \/ x = self (m_alc (w_mem w)) \/ x = tptr (m_alc (w_mem w))
               \/ In x (blocks_of false (w_objs w))).
Proof.
  intros V S L R N. destruct (program_w dbg p h0 ops st qs V S L R) as (w & E & W). exists w. split; auto.
  assert (BT : blocks_of true (w_objs w) = []).
  { apply blocks_untracked. intros c X. destruct (shows_use _ _ _ _ W c X) as [v HV]. destruct (h_use c); auto. exfalso. eapply N; eauto. }
  destruct (winv_accounted _ _ _ _ W) as (T & T1 & T2 & _ & T4 & _ & T6 & _). rewrite BT in *.
  apply Permutation_sym, Permutation_nil in T2. destruct T; [|discriminate]. split; auto. split; auto.
  intros x. destruct (T6 x) as [X|[X|[X|X]]]; auto.
Qed.

(** Destroying the allocator at any point: what the containers without it hold stays,
    everything else is as before the program. *)
Lemma allocator_destroyed dbg p h0 ops st qs : valid_policy p -> start_heap h0 -> zlen ops <= op_limit ->
  arun [] ops = Some (st, qs) ->
  exists w s, program dbg p h0 ops = Ok (w, qs) /\ mallocator_destroy (m_sys (w_mem w)) (m_alc (w_mem w)) = Ok s /\
    (forall x, ~ In x (blocks_of false (w_objs w)) -> hlookup (s_heap s) x = hlookup h0 x) /\
    (forall x, In x (blocks_of false (w_objs w)) -> hlookup (s_heap s) x = hlookup (m_heap (w_mem w)) x
                                                    /\ hlookup (s_heap s) x <> None).
Proof.
  intros V S L R. destruct (program_w dbg p h0 ops st qs V S L R) as (w & E & W).
  pose proof (winv_accounted _ _ _ _ W) as (T' & _ & _ & _ & _ & _ & _ & LV).
  destruct W as [(EE & T & I & PE & PT & _) _]. rewrite sel_blocks in PE, PT.
  destruct (destroy_inv _ _ _ _ _ I) as (s & D & H1 & H2). exists w, s. split; auto. split; auto. split.
  - intros x X. apply H1. intros Y. apply X. eapply Permutation_in; eauto.
  - intros x X. assert (Y : In x (map fst EE)) by (eapply Permutation_in; [apply Permutation_sym; exact PE|auto]).
    split; [now apply H2|]. rewrite H2 by auto. apply LV. right. right. apply in_or_app. auto.
Qed.

(** A duplicate shows the same value as the original. *)
Lemma dup_equal dbg p h0 ops st qs i u us es xs cap : valid_policy p -> start_heap h0 -> zlen ops < op_limit ->
  arun [] ops = Some (st, qs) -> get st i = Some (us, VSeq es xs cap) -> xs <> [] ->
  exists w w' c d a b, program dbg p h0 ops = Ok (w, qs) /\ wstep dbg p w (WDup i u) = Ok (w', QNone) /\
    w_get w' i = Ok c /\ w_get w' (length st) = Ok d /\ h_ptr c <> h_ptr d /\
    c_load (w_mem w') c = Ok (BVec a) /\ c_load (w_mem w') d = Ok (BVec b) /\
    displays dbg (VSeq es xs cap) (BVec a) /\ displays dbg (VSeq es xs (zlen xs)) (BVec b).
Proof.
  intros V S L R G NE.
  assert (ST : astep st (WDup i u) = Some (st ++ [Some (u, VSeq es xs (zlen xs))], QNone)).
  { cbn [astep vnew]. rewrite G. assert (0 < zlen xs). { destruct xs; [congruence|]. rewrite zlen_cons. pose proof (zlen_nonneg xs). lia. }
    rewrite (proj2 (Z.ltb_lt _ _)) by lia. reflexivity. }
  destruct (program_w dbg p h0 ops st qs V S) as (w & E & W); auto; [lia|].
  assert (K1 : 0 <= 8 * zlen ops) by (pose proof (zlen_nonneg ops); lia).
  assert (K2 : 8 * zlen ops + 8 <= call_limit) by (unfold op_limit, call_limit in *; lia).
  destruct (step_w dbg p h0 _ w st _ _ _ V W K1 K2 ST) as (w' & E' & W').
  assert (G1 : get (st ++ [Some (u, VSeq es xs (zlen xs))]) i = Some (us, VSeq es xs cap)).
  { apply get_nth in G. unfold get. rewrite nth_error_app1; [now rewrite G|]. apply nth_error_Some. congruence. }
  assert (G2 : get (st ++ [Some (u, VSeq es xs (zlen xs))]) (length st) = Some (u, VSeq es xs (zlen xs))).
  { unfold get. rewrite nth_error_app2, Nat.sub_diag by lia. reflexivity. }
  destruct (get_live _ _ _ _ _ _ _ W' G1) as (c & _ & NO1 & EG1 & _ & BK1 & RP1 & _).
  destruct (get_live _ _ _ _ _ _ _ W' G2) as (d & _ & NO2 & EG2 & _ & BK2 & RP2 & _).
  pose proof (backed_load _ _ BK1) as L1. pose proof (backed_load _ _ BK2) as L2.
  destruct (h_body c) as [a| |]; cbn [vrepb] in RP1; try tauto. destruct (h_body d) as [b| |]; cbn [vrepb] in RP2; try tauto.
  exists w, w', c, d, a, b. split; auto. split; auto. split; auto. split; auto. split; [|split; auto; split; auto; split; now apply rep_displays].
  destruct W' as [M _]. apply minv_nodup in M. intros X.
  assert (NI : i <> length st).
  { intros ->. apply get_nth in G. rewrite (proj2 (nth_error_None st (length st))) in G; [discriminate|lia]. }
  pose proof (cadds_split _ _ _ NO1) as P1. apply (Permutation_map fst) in P1. apply (Permutation_NoDup P1) in M.
  cbn [cadd app map fst] in M. inversion M as [|? ? N1 _]. apply N1. right. rewrite X.
  apply in_map_iff. exists (h_ptr d, h_use d). split; auto. apply in_cadds.
  assert (ID : In (Some d) (Some c :: drop (w_objs w') i)).
  { eapply Permutation_in; [apply nth_error_perm; exact NO1|]. eapply nth_error_In; eauto. }
  destruct ID as [ID|ID]; auto. exfalso.
  (* the same container in two places: its storage would be listed twice *)
  injection ID as <-. apply nth_error_split in NO1. destruct NO1 as (l1 & l2 & EQ & LN).
  rewrite EQ in NO2. destruct (Nat.lt_ge_cases (length st) (length l1)) as [LT|GE].
  - rewrite nth_error_app1 in NO2 by auto. apply nth_error_In in NO2. apply N1. right.
    apply in_map_iff. exists (h_ptr c, h_use c). split; auto. apply in_cadds. unfold drop. rewrite EQ, <- LN, firstn_exact.
    apply in_or_app. auto.
  - rewrite nth_error_app2 in NO2 by auto. destruct (length st - length l1)%nat as [|n] eqn:DL; [lia|]. cbn in NO2.
    apply nth_error_In in NO2. apply N1. right. apply in_map_iff. exists (h_ptr c, h_use c). split; auto. apply in_cadds.
    unfold drop. rewrite EQ, <- LN. apply in_or_app. right.
    replace (Datatypes.S (length l1)) with (length (l1 ++ [Some c])) by (rewrite app_length; cbn; lia).
    replace (l1 ++ Some c :: l2) with ((l1 ++ [Some c]) ++ l2) by now rewrite <- app_assoc. now rewrite skipn_exact.
Qed.
