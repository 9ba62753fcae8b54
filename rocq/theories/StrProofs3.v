(** The string operations together; splitting, joining, popping, comparing. *)
From Verif Require Import Base BaseFacts StrModel StrModel2 StrSpec StrProofs StrProofs2.

Lemma vfmt_set_ok dbg t cap s z : srep t cap s -> oks z -> cap + zlen z + 2 <= alloc_max ->
  exists s', str_vfmt_set dbg s z = Ok s' /\ str_z s' = Ok z.
Proof.
  intros R O Hf. unfold str_vfmt_set. pose proof (r_le _ _ _ R).
  destruct (ensure_ok dbg t cap s (zlen z + 1) R) as (s1 & E1 & R1); [zlia|zlia|].
  rewrite E1. cbn [bind]. destruct R1 as [P1 O1 L1 C1 LE1 RM1 F1 V1].
  destruct (swrite_ok s1 0 (zblk z) V1) as (b' & E2 & Lb & Pb & _); [lia|zl; zlia|].
  rewrite E2. cbn [bind]. unfold set_len. cbn [sb sl sc sv ss].
  destruct (sput_ok (mk_str b' (zlen z + 1) (sc s1) false (ss s1)) (zlen z + 1) 0) as (b2 & E3 & Lb2 & Pb2 & _); [reflexivity|cbn [sb]; zlia|].
  rewrite E3. eexists. split; [reflexivity|]. cbn [sb] in *.
  change (Z.to_nat 0) with 0%nat in Pb. cbn [firstn app] in Pb. apply pre_app in Pb2.
  rewrite (pre_firstn_eq (zblk z)) in Pb2 by (assumption || (zl; reflexivity)).
  destruct Pb2 as [q ->]. unfold str_z. cbn [sb]. unfold zblk. rewrite <- app_assoc. cbn [app]. apply cstr_app. now apply oks_nonul.
Qed.

Lemma insertf_ok dbg t1 t2 cap s z at_ : srep (t1 ++ t2) cap s -> oks z -> at_ = zlen t1 -> 0 < zlen t2 ->
  2 * zlen z + 2 <= alloc_max ->
  Z.max cap (zlen (t1 ++ t2) + zlen z) + 1 <= alloc_max ->
  exists s', str_insertf dbg s at_ z = Ok s' /\ srep (t1 ++ z ++ t2) (Z.max cap (zlen (t1 ++ t2) + zlen z)) s'.
Proof.
  intros R O Ha H2 Hz Hf. unfold str_insertf. destruct (Z.ltb_spec (zlen z) (tmp_buffer - 1)); [now apply insert_ok|].
  unfold tmp_buffer in *. destruct (create_len_ok dbg (zlen z)) as (s1 & E1 & R1 & _); [lia|lia|]. rewrite E1. cbn [bind].
  destruct (vfmt_set_ok dbg _ _ s1 z R1 O) as (s2 & E2 & Z2); [lia|]. rewrite E2. cbn [bind]. rewrite Z2. cbn [bind].
  now apply insert_ok.
Qed.

Lemma grow_inv t cap t' out r : grow_to (t, cap) t' out = Some r -> r = (t', Z.max cap (zlen t'), out) /\ Z.max cap (zlen t') + 1 <= alloc_max.
Proof.
  unfold grow_to, sfits. cbn [snd]. destruct (Z.leb_spec (Z.max cap (zlen t') + 1) alloc_max); [|discriminate].
  intros [= <-]. split; [reflexivity|assumption].
Qed.

Lemma split_text (t : text) i : 0 <= i <= zlen t -> exists t1 t2, t = t1 ++ t2 /\ zlen t1 = i.
Proof. apply split_at. Qed.

Ltac bools := repeat match goal with
  | H : _ && _ = true |- _ => apply andb_true_iff in H as [? H]
  | H : okz _ = true |- _ => apply okz_oks in H
  | H : (_ <? _) = true |- _ => apply Z.ltb_lt in H
  | H : (_ <=? _) = true |- _ => apply Z.leb_le in H
  end.

Ltac finish_op := match goal with
  | E : ?f = Ok ?s', R : srep _ _ ?s' |- exists s0, _ = Ok (s0, _) /\ _ =>
      exists s'; unfold ok1, okq; rewrite E; cbn [bind]; split; [reflexivity|]
  end.

Lemma step_ok dbg t cap s o t' cap' out : srep t cap s -> tstep (t, cap) o = Some (t', cap', out) ->
  exists s', sstep dbg s o = Ok (s', out) /\ srep t' cap' s'.
Proof.
  intros R H. pose proof (r_ok _ _ _ R) as Ot. pose proof (r_le _ _ _ R) as LE. pose proof (r_fit _ _ _ R) as FT.
  pose proof (fuel_len _ _ _ R) as FL.
  destruct o; cbn [tstep sstep] in *.
  - (* append *)
    destruct (_ && _) eqn:E in H; [|discriminate]. bools. apply grow_inv in H as [[= -> -> ->] Hf]. zl.
    destruct (append_ok dbg t cap s z R) as (s' & E' & R'); try assumption. finish_op. exact R'.
  - (* append_n *)
    destruct (_ && _) eqn:E in H; [|discriminate]. bools. apply grow_inv in H as [[= -> -> ->] Hf].
    assert (zlen (t ++ firstn (Z.to_nat n) z) = zlen t + n) as Ln by (zl; lia). rewrite Ln in *.
    destruct (append_n_ok dbg t cap s z n R) as (s' & E' & R'); try assumption; [lia|]. finish_op. exact R'.
  - (* appendf *)
    destruct (okz z) eqn:E; [|discriminate]. bools. apply grow_inv in H as [[= -> -> ->] Hf]. zl.
    destruct (appendf_ok dbg t cap s z R) as (s' & E' & R'); try assumption. finish_op. exact R'.
  - (* insert *)
    destruct (_ && _) eqn:E in H; [|discriminate]. bools. apply grow_inv in H as [[= -> -> ->] Hf].
    destruct (split_text t at_) as (t1 & t2 & -> & L1); [lia|]. rewrite (splice_app t1 t2 z at_) in * by lia.
    destruct (insert_ok dbg t1 t2 cap s z at_ R) as (s' & E' & R'); try assumption; try (zl; lia). finish_op.
    replace (zlen (t1 ++ z ++ t2)) with (zlen (t1 ++ t2) + zlen z) by (zl; lia). exact R'.
  - (* insert_n *)
    destruct (_ && _) eqn:E in H; [|discriminate]. bools. apply grow_inv in H as [[= -> -> ->] Hf].
    destruct (split_text t at_) as (t1 & t2 & -> & L1); [lia|]. rewrite (splice_app t1 t2 _ at_) in * by lia.
    assert (zlen (t1 ++ firstn (Z.to_nat n) z ++ t2) = zlen (t1 ++ t2) + n) as Ln by (zl; lia). rewrite Ln in *.
    destruct (insert_n_ok dbg t1 t2 cap s z n at_ R) as (s' & E' & R'); try assumption; try (zl; lia). finish_op. exact R'.
  - (* insertf *)
    destruct (_ && _) eqn:E in H; [|discriminate]. bools. unfold sfits in *. bools. apply grow_inv in H as [[= -> -> ->] Hf].
    destruct (split_text t at_) as (t1 & t2 & -> & L1); [lia|]. rewrite (splice_app t1 t2 z at_) in * by lia.
    destruct (insertf_ok dbg t1 t2 cap s z at_ R) as (s' & E' & R'); try assumption; try (zl; lia). finish_op.
    replace (zlen (t1 ++ z ++ t2)) with (zlen (t1 ++ t2) + zlen z) by (zl; lia). exact R'.
  - (* insert_before *)
    destruct (_ && _) eqn:E in H; [|discriminate]. bools. unfold str_insert_before. rewrite (index_find_ok _ _ _ sub R) by assumption. cbn [bind].
    destruct (cut sub t) as [[a b]|] eqn:C; [|injection H as <- <- <-; exists s; split; [reflexivity|assumption]].
    apply grow_inv in H as [[= -> -> ->] Hf]. apply cut_some in C. subst t. replace (zlen a <? 0) with false by zlia.
    destruct (insert_ok dbg a (sub ++ b) cap s z (zlen a) R) as (s' & E' & R'); try assumption; try reflexivity; try (zl; zlia). finish_op.
    replace (zlen (a ++ z ++ sub ++ b)) with (zlen (a ++ sub ++ b) + zlen z) by (zl; lia). exact R'.
  - (* insert_after *)
    destruct (_ && _) eqn:E in H; [|discriminate]. bools. unfold str_insert_after. rewrite (index_find_ok _ _ _ sub R) by assumption. cbn [bind].
    destruct (cut sub t) as [[a b]|] eqn:C; [|injection H as <- <- <-; exists s; split; [reflexivity|assumption]].
    destruct b as [|x b0]; [discriminate|]. set (b := x :: b0) in *. assert (0 < zlen b) by (unfold b; zl; zlia). clearbody b.
    apply grow_inv in H as [[= -> -> ->] Hf]. apply cut_some in C. subst t. replace (zlen a <? 0) with false by zlia.
    rewrite app_assoc in R.
    destruct (insert_ok dbg (a ++ sub) b cap s z (zlen a + zlen sub) R) as (s' & E' & R'); try assumption; try reflexivity; try (zl; zlia). finish_op.
    rewrite <- !app_assoc in R'.
    replace (zlen (a ++ sub ++ z ++ b)) with (zlen (a ++ sub ++ b) + zlen z) by (zl; lia). exact R'.
  - (* remove *)
    destruct (_ && _) eqn:E in H; [|discriminate]. bools. injection H as <- <- <-.
    destruct (split_text t from) as (t1 & t2 & -> & L1); [lia|]. subst from. zl.
    rewrite firstn_zlen by reflexivity.
    destruct (Z.le_gt_cases n (zlen t2)).
    + destruct (split_text t2 n) as (m & t3 & -> & L2); [lia|]. subst n.
      destruct (remove_ok dbg t1 m t3 cap s (zlen t1) (zlen m) R) as (s' & E' & R' & _); [reflexivity|lia|now left|]. finish_op.
      rewrite app_assoc, skipn_zlen by (zl; reflexivity). exact R'.
    + rewrite <- (app_nil_r t2) in R.
      destruct (remove_ok dbg t1 t2 [] cap s (zlen t1) n R) as (s' & E' & R' & _); [reflexivity|zlia|right; split; [lia|reflexivity]|]. finish_op.
      rewrite skipn_all2 by (rewrite app_length; unfold zlen in *; lia). exact R'.
  - (* clear *)
    injection H as <- <- <-. destruct (clear_ok t cap s R) as (s' & E' & R'). finish_op. exact R'.
  - (* set *)
    destruct (_ && _) eqn:E in H; [|discriminate]. bools. injection H as <- <- <-. unfold str_set.
    destruct (set_n_ok dbg t cap s z (zlen z) R) as (s' & E' & R'); try assumption; [lia|]. finish_op.
    rewrite to_nat_zlen, firstn_all in R'. exact R'.
  - (* set_n *)
    destruct (_ && _) eqn:E in H; [|discriminate]. bools. injection H as <- <- <-.
    destruct (set_n_ok dbg t cap s z n R) as (s' & E' & R'); try assumption; [lia|]. finish_op. exact R'.
  - (* set_at *)
    destruct (_ && _) eqn:E in H; [|discriminate]. bools. injection H as <- <- <-.
    destruct (split_text t at_) as (t1 & t2 & -> & L1); [lia|]. subst at_. zl. rewrite firstn_zlen by reflexivity.
    destruct (set_at_ok dbg t1 t2 cap s z R) as (s' & E' & R'); try assumption; [lia|]. finish_op. exact R'.
  - (* set_c *)
    destruct (_ && _) eqn:E in H; [|discriminate]. bools. injection H as <- <- <-.
    destruct (split_text t at_) as (t1 & t2 & -> & L1); [lia|]. subst at_. zl. rewrite firstn_zlen by reflexivity.
    destruct t2 as [|x t2]; [zl; lia|].
    replace (skipn (Z.to_nat (zlen t1 + 1)) (t1 ++ x :: t2)) with t2.
    2:{ replace (zlen t1 + 1) with (zlen (t1 ++ [x])) by (zl; zlia).
        change (t1 ++ x :: t2) with (t1 ++ [x] ++ t2). rewrite app_assoc. now rewrite skipn_zlen. }
    destruct (set_c_ok dbg t1 x t2 cap s c R) as (s' & E' & R'). { match goal with H : oks [_] |- _ => now inversion H end. }
    finish_op. exact R'.
  - (* reserve *)
    destruct (_ && _) eqn:E in H; [|discriminate]. bools. unfold sfits in *. bools. injection H as <- <- <-.
    destruct (reserve_ok dbg t cap s n R) as (s' & E' & R'); [lia|lia|]. finish_op. exact R'.
  - (* resize *)
    destruct (_ && _) eqn:E in H; [|discriminate]. bools. unfold sfits in *. bools. injection H as <- <- <-.
    destruct (resize_ok dbg t cap s n R) as (s' & E' & R'); [lia|lia|]. finish_op. exact R'.
  - (* shrink *)
    injection H as <- <- <-. destruct (shrink_ok dbg t cap s R) as (s' & E' & R'). finish_op. exact R'.
  - (* remove_first *)
    destruct (remove_first_ok t cap s z R) as (s' & E' & R' & _). rewrite E'. cbn [bind fst snd]. exists s'.
    destruct (cut z t) as [[a b]|]; injection H as <- <- <-; split; (reflexivity || assumption).
  - (* remove_all *)
    destruct (0 <? zlen z) eqn:E; [|discriminate]. bools. injection H as <- <- <-.
    destruct (remove_all_ok z cap E (lf s) (length t) t s R) as (s' & E' & R'); [unfold lf; lia|lia|]. rewrite E'. cbn [bind]. eauto.
  - (* remove_c *)
    injection H as <- <- <-. destruct (remove_c_ok t cap s c R) as (s' & E' & R'). finish_op. exact R'.
  - (* replace *)
    destruct (okz rsub) eqn:Eo; [|discriminate]. bools. destruct (_ && _) eqn:E in H; bools.
    + apply grow_inv in H as [[= -> -> ->] Hf].
      destruct (replace_ok dbg t cap s sub rsub (lf s) R) as (s' & E' & R'); try assumption; [unfold lf; lia|]. finish_op. exact R'.
    + injection H as <- <- <-. exists s. unfold str_replace. destruct sub; [split; [reflexivity|assumption]|]. destruct rsub; [split; [reflexivity|assumption]|].
      zl. zlia.
  - (* replace_first *)
    destruct (okz rsub) eqn:Eo; [|discriminate]. bools. unfold str_replace_first. destruct (_ && _) eqn:E in H; bools.
    + destruct (Z.leb_spec (zlen sub) (zlen t)) as [Hl|]; [|discriminate].
      replace (is_nil sub || is_nil rsub) with false by (destruct sub; [zl; lia|]; destruct rsub; [zl; lia|]; reflexivity).
      rewrite (find_ok _ _ _ _ R Hl). cbn [bind].
      destruct (cut sub t) as [[a b]|] eqn:C; [|injection H as <- <- <-; exists s; split; [reflexivity|assumption]].
      apply grow_inv in H as [[= -> -> ->] Hf]. apply cut_some in C. subst t.
      destruct (replace_at_ok dbg a sub rsub b cap s R) as (s' & E' & R'); try assumption. finish_op. exact R'.
    + injection H as <- <- <-. exists s. destruct sub; [split; [reflexivity|assumption]|]. destruct rsub; [split; [reflexivity|assumption]|].
      zl. zlia.
  - (* replace_last *)
    destruct (okz rsub) eqn:Eo; [|discriminate]. bools. destruct (_ && _) eqn:E in H; bools.
    + destruct (last_cut (length t) sub t) as [[a b]|] eqn:C; [|discriminate].
      apply grow_inv in H as [[= -> -> ->] Hf].
      destruct (replace_last_ok dbg t cap s sub rsub (lf s) a b R) as (s' & E' & R'); try assumption; [unfold lf; lia|]. finish_op. exact R'.
    + injection H as <- <- <-. exists s. unfold str_replace_last. destruct sub; [split; [reflexivity|assumption]|]. destruct rsub; [split; [reflexivity|assumption]|].
      zl. zlia.
  - (* replace_c *)
    destruct (_ && _) eqn:E in H; [|discriminate]. bools. injection H as <- <- <-.
    destruct (replace_c_ok t cap s c r R) as (s' & E' & R'); try assumption. finish_op. exact R'.
  - (* strip *)
    destruct (forallb white t) eqn:E; [discriminate|]. injection H as <- <- <-. unfold str_strip.
    destruct (strip_by_ok is_space white t cap s (lf s) R space_white E) as (s' & E' & R'); [unfold lf; lia|]. finish_op. exact R'.
  - (* strip_punct *)
    destruct (forallb _ t) eqn:E; [discriminate|]. injection H as <- <- <-. unfold str_strip_punct.
    destruct (strip_by_ok (fun c => is_space c || is_punct c) (fun c => white c || punct c) t cap s (lf s) R) as (s' & E' & R'); [|exact E|unfold lf; lia|].
    { intros c. now rewrite space_white, punct_eq. }
    finish_op. exact R'.
  - (* strip_c *)
    destruct (_ || _) eqn:E in H; [discriminate|]. apply orb_false_iff in E as [E1 E2]. injection H as <- <- <-. unfold str_strip_c.
    destruct c as [|x c]; [discriminate|]. cbn [is_nil].
    destruct (strip_by_ok (fun y => memb y (x :: c)) (in_set (x :: c)) t cap s (lf s) R) as (s' & E' & R'); [|exact E1|unfold lf; lia|].
    { intros y. apply memb_in_set. }
    finish_op. exact R'.
  - (* upper *)
    injection H as <- <- <-. destruct (upper_ok t cap s R) as (s' & E' & R'). finish_op. exact R'.
  - (* lower *)
    injection H as <- <- <-. destruct (lower_ok t cap s R) as (s' & E' & R'). finish_op. exact R'.
  - (* validate_len *)
    injection H as <- <- <-. destruct (validate_ok t cap s R) as (s' & E' & R'). exists s'. rewrite E'. cbn [bind fst snd]. split; [reflexivity|assumption].
  - (* find *)
    destruct (Z.leb_spec (zlen z) (zlen t)) as [Hl|]; [|discriminate]. injection H as <- <- <-.
    exists s. unfold okq. rewrite (index_find_ok _ _ _ _ R Hl). cbn [bind]. split; [reflexivity|assumption].
  - (* can_find *)
    destruct (_ && _) eqn:E in H; [|discriminate]. bools. injection H as <- <- <-.
    exists s. unfold okq. rewrite (can_find_ok t cap s z (lf s) R) by (lia || (unfold lf; lia)). cbn [bind]. split; [reflexivity|assumption].
  - (* index_of *)
    destruct (okz [c]) eqn:E; [|discriminate]. bools. injection H as <- <- <-.
    exists s. unfold okq. rewrite (index_of_ok t cap s c R) by (inversion E; unfold okc in *; lia). cbn [bind]. split; [reflexivity|assumption].
  - (* is_numeric *)
    injection H as <- <- <-. exists s. rewrite (numeric_ok t cap s R). cbn [bind]. split; [reflexivity|assumption].
  - (* len *)
    injection H as <- <- <-. exists s. unfold str_len. rewrite (r_len _ _ _ R). split; [reflexivity|assumption].
  - (* capacity *)
    injection H as <- <- <-. exists s. unfold str_capacity. rewrite (r_cap _ _ _ R). split; [reflexivity|assumption].
Qed.

Lemma run_ok dbg : forall ops t cap s t' cap' outs, srep t cap s -> trun (t, cap) ops = Some (t', cap', outs) ->
  exists s', srun dbg s ops = Ok (s', outs) /\ srep t' cap' s'.
Proof.
  induction ops as [|o ops IH]; intros t cap s t' cap' outs R H; cbn [trun srun fst snd] in *.
  - injection H as <- <- <-. eauto.
  - destruct (tstep (t, cap) o) as [[[t1 cap1] out]|] eqn:E; [|discriminate].
    destruct (trun (t1, cap1) ops) as [[[t2 cap2] outs2]|] eqn:E2; [|discriminate]. injection H as <- <- <-.
    destruct (step_ok dbg _ _ _ _ _ _ _ R E) as (s1 & E1 & R1). rewrite E1. cbn [bind fst snd].
    destruct (IH _ _ _ _ _ _ R1 E2) as (s2 & E3 & R2). rewrite E3. cbn [bind fst snd]. eauto.
Qed.
