(** Proofs about command line parsing. *)
From Verif Require Import Base BaseFacts StrModel StrModel2 StrSpec StrProofs StrProofs2 StrMain NumModel NumProofs ArgModel ArgSpec.

Lemma pop_first_empty dbg cr r t cap s a b : srep [] cr r -> srep t cap s -> cut [61] t = Some (a, b) -> 0 < zlen a ->
  cr + zlen a + 1 <= alloc_max ->
  exists r' s', str_pop_get_first dbg (Some r) s [61] = Ok (Some r', s') /\ srep a (cr + zlen a) r' /\ srep b cap s'.
Proof.
  intros Rr R Hc Ha Hf. pose proof R as R0. destruct R0 as [P O L C LE RM F V]. unfold str_pop_get_first.
  pose proof (cut_some _ _ _ _ Hc) as Et. change (zlen [61]) with 1.
  replace ((sl s =? 0) || is_nil [61]) with false by (cbn [is_nil]; rewrite L, Et; zl; zlia).
  rewrite (z_ok _ _ _ R). cbn [bind]. rewrite strstr_cut, Hc, L. replace (zlen t - (zlen t - zlen a)) with (zlen a) by lia.
  assert (zlen a < zlen t) as Hat by (rewrite Et; zl; zlia).
  rewrite (w64_small (zlen a)) by zlia. replace (zlen a =? 0) with false by lia.
  pose proof (r_len _ _ _ Rr) as Lr. rewrite Lr. change (zlen []) with 0. pose proof (r_le _ _ _ Rr) as Lle. change (zlen []) with 0 in Lle.
  replace (0 <? zlen a) with true by lia. rewrite Z.sub_0_r, w64_small by zlia.
  destruct (reserve_ok dbg [] cr r (zlen a) Rr) as (r1 & E1 & R1); [lia|lia|]. rewrite E1. cbn [bind].
  destruct (clear_append dbg [] (cr + zlen a) r1 t (zlen a) R1 O) as (r2 & E2 & R2); [lia|lia|].
  destruct (str_clear r1) as [sp1| | |]; try discriminate. cbn [bind] in *. rewrite E2. cbn [bind].
  rewrite (w64_small (zlen a + 1)) by (rewrite Et in *; zl; zlia).
  rewrite Et in R. rewrite (app_assoc a) in R.
  destruct (remove_ok dbg [] (a ++ [61]) b cap s 0 (zlen a + 1) R) as (s' & Es & Rs & _); [reflexivity|zl; lia|left; zl; lia|].
  rewrite Es. cbn [bind app] in *. exists r2, s'. split; [reflexivity|]. split; [|exact Rs].
  rewrite Et in R2. rewrite firstn_zlen in R2 by reflexivity. replace (Z.max (cr + zlen a) (zlen a)) with (cr + zlen a) in R2 by lia. exact R2.
Qed.

(** * The table *)
Lemma valid_good o : opt_valid o = true <-> good_opt o.
Proof.
  unfold opt_valid, good_opt. destruct (o_long o) as [l|], (o_short o) as [s|].
  2-4: split; [discriminate|]; intros ((l' & s' & A & B & _) & _); discriminate.
  rewrite !andb_true_iff. split.
  - intros ((P & S) & T). split; [exists l, s; repeat split; lia|]. split; [exact P|]. destruct (o_type o); congruence.
  - intros ((l' & s' & A & B & Hs) & P & T). injection B as <-. repeat split; [exact P|lia|]. destruct (o_type o); congruence.
Qed.
Lemma validate_good opts : argopt_validate opts = true <-> forall o, In o opts -> good_opt o.
Proof. unfold argopt_validate. rewrite forallb_forall. split; intros H o Ho; apply valid_good; auto. Qed.

Lemma is_named_ok o n : good_opt o -> is_named o n = true <-> has_name o n.
Proof.
  intros ((l & s & A & B & _) & _). unfold is_named, has_name. rewrite A, B, orb_true_iff, !equals_z_ok.
  split; intros [H|H]; [left|right|left|right]; congruence.
Qed.

Lemma find_named opts n : (forall o, In o opts -> good_opt o) -> forall i j, named opts n i -> find_opt n opts j = Some (j + i)%nat.
Proof.
  induction opts as [|o opts IH]; intros G i j [(x & E & Hx) F].
  { destruct i; discriminate. }
  cbn [find_opt]. destruct i as [|i].
  - injection E as <-. apply is_named_ok in Hx; [|apply G; now left]. rewrite Hx. f_equal. lia.
  - destruct (is_named o n) eqn:N.
    + exfalso. apply (F 0%nat o); [lia|reflexivity|]. apply is_named_ok; [apply G; now left|exact N].
    + rewrite (IH ltac:(intros; apply G; now right) i (S j)); [f_equal; lia|]. split; [exists x; now split|].
      intros k y Hk Ey. apply (F (S k)); [lia|exact Ey].
Qed.
Lemma find_unnamed opts n : (forall o, In o opts -> good_opt o) -> (forall o, In o opts -> ~ has_name o n) -> forall j, find_opt n opts j = None.
Proof.
  induction opts as [|o opts IH]; intros G H j; [reflexivity|]. cbn [find_opt]. destruct (is_named o n) eqn:N.
  - exfalso. apply (H o); [now left|]. apply is_named_ok; [apply G; now left|exact N].
  - apply IH; intros; [apply G|apply H]; now right.
Qed.

(** * One assignment *)
Lemma first_is t c : c <> 0 -> first_byte t = c <-> exists r, t = c :: r.
Proof.
  intros Hc. destruct t as [|x t]; cbn [first_byte].
  - split; [intros; lia|intros (r & E); discriminate].
  - split; [intros ->; now exists t|intros (r & E); congruence].
Qed.
Lemma assign_ok dbg ty v t : ready ty v -> oks t -> zlen t + 1 <= alloc_max -> (ty = TStr -> t <> []) ->
  exists v', assign_value dbg ty v t = Ok v' /\ holds ty v' t /\ (ty <> TCstr -> ready ty v').
Proof.
  intros R O Hf Hs. destruct ty as [w|w| | | | | | |]; cbn [ready] in R; try contradiction; cbn [assign_value holds].
  - assert (exists n, conv_str_to_i w t = Ok n) as (n & E).
    { unfold conv_str_to_i. rewrite static_numeric. cbn [bind]. destruct (forallb numch t); cbn [negb]; eauto. }
    exists (VNum n). split; [rewrite E; reflexivity|]. split; [|now cbn]. exists n. split; [reflexivity|]. split; [exact E|]. split.
    + intros D Hd. rewrite (str_to_i_digits w t R D Hd) in E. congruence.
    + intros N. destruct (str_to_other w t N) as [_ E']. congruence.
  - assert (exists n, conv_str_to_u w t = Ok n) as (n & E).
    { unfold conv_str_to_u. rewrite static_numeric. cbn [bind]. destruct (forallb numch t); cbn [negb]; eauto. }
    exists (VNum n). split; [rewrite E; reflexivity|]. split; [|now cbn]. exists n. split; [reflexivity|]. split; [exact E|]. split.
    + intros D Hd. rewrite (str_to_u_digits w t R D Hd) in E. congruence.
    + intros N. destruct (str_to_other w t N) as [E' _]. congruence.
  - rewrite static_numeric. cbn [bind]. eexists. split; [reflexivity|]. split; [reflexivity|now cbn].
  - eexists. split; [reflexivity|]. split; [|now cbn]. eexists. split; [reflexivity|].
    rewrite orb_true_iff, equals_z_ok, Z.eqb_eq, first_is by lia. tauto.
  - eexists. split; [reflexivity|]. split; [destruct t; reflexivity|now cbn].
  - specialize (Hs eq_refl). assert (0 < zlen t) as Ht by (destruct t; [contradiction|rewrite zlen_cons; pose proof (zlen_nonneg t); lia]).
    destruct R as [->|(s & t0 & cap & -> & R)].
    + destruct (create_ok dbg t O Ht Hf) as (s & E & Rs). rewrite E. cbn [bind]. eexists. split; [reflexivity|]. split; [eauto|]. intros _. right. eauto.
    + destruct (clear_ok _ _ _ R) as (s1 & E1 & R1). rewrite E1. cbn [bind]. pose proof (r_fit _ _ _ R).
      destruct (append_ok dbg [] cap s1 t R1 O Ht) as (s2 & E2 & R2); [zl; lia|]. rewrite E2. cbn [bind].
      eexists. split; [reflexivity|]. cbn [app] in R2. split; [eauto|]. intros _. right. eauto.
  - subst v. pose proof (zlen_nonneg t). rewrite c_calloc_ok by lia. cbn [bind].
    assert (zlen (zblk t) = zlen t + 1) as Hz by (unfold zblk; zl; lia).
    assert (bwrite (repeat (Some 0) (Z.to_nat (zlen t + 1))) 0 (zblk t) = Ok (zblk t)) as ->.
    { pose proof (bwrite_app [] (repeat (Some 0) (Z.to_nat (zlen t + 1))) [] 0 (zblk t)) as B. cbn [app] in B. rewrite !app_nil_r in B.
      apply B; zl; try reflexivity. lia. }
    cbn [bind]. eexists. split; [reflexivity|]. split; [reflexivity|]. congruence.
Qed.

(** * Lists of values *)
Lemma set_nth_length {A} (l : list A) j x : length (set_nth l j x) = length l.
Proof. revert j; induction l; intros [|j]; cbn; auto. Qed.
Lemma nth_set_same {A} (l : list A) j x y : nth_error l j = Some y -> nth_error (set_nth l j x) j = Some x.
Proof. revert j; induction l; intros [|j] H; cbn in *; try discriminate; auto. Qed.
Lemma nth_set_other {A} (l : list A) j k x : j <> k -> nth_error (set_nth l j x) k = nth_error l k.
Proof. revert j k; induction l; intros [|j] [|k] H; cbn; try reflexivity; try lia; apply IHl; lia. Qed.

Definition okvals (opts : list opt) (vals : list value) (l : list (nat * text)) : Prop :=
  forall i o t, nth_error opts i = Some o -> In (i, t) l -> exists v, nth_error vals i = Some v /\ ready (o_type o) v.

Lemma assign_step dbg opts vals i t l o : nth_error opts i = Some o -> okvals opts vals ((i, t) :: l) -> assignable opts ((i, t) :: l) ->
  oks t -> zlen t + 1 <= alloc_max ->
  exists vals1, assign_nth dbg opts vals i t = Ok vals1 /\ okvals opts vals1 l /\ assignable opts l /\
    (forall vals', assigned opts vals1 l vals' -> assigned opts vals ((i, t) :: l) vals').
Proof.
  intros Eo K A O Hf. destruct (K i o t Eo (or_introl eq_refl)) as (v & Ev & R).
  destruct (A i o [] t l Eo eq_refl) as [A1 A2].
  destruct (assign_ok dbg (o_type o) v t R O Hf A1) as (v' & E & H & R'). unfold assign_nth. rewrite Eo, Ev, E. cbn [bind].
  exists (set_nth vals i v'). split; [reflexivity|]. split; [|split].
  - intros j p u Ej Hj. destruct (Nat.eq_dec i j) as [<-|N].
    + exists v'. split; [now apply (nth_set_same _ _ _ v)|]. rewrite Eo in Ej. injection Ej as <-. apply R'.
      intros T. apply (A2 T u Hj).
    + rewrite nth_set_other by assumption. apply (K j p u Ej). now right.
  - intros j p l1 u l2 Ej El. apply (A j p ((i, t) :: l1) u l2 Ej). now rewrite El.
  - intros vals' (L & B & C). split; [now rewrite L, set_nth_length|]. split.
    + intros j p l1 u l2 Ej El Hn. destruct l1 as [|x l1].
      * injection El as <- <- <-. rewrite Eo in Ej. injection Ej as <-. exists v'. split; [|exact H].
        rewrite (C i Hn). now apply (nth_set_same _ _ _ v).
      * injection El as _ El. now apply (B j p l1 u l2).
    + intros j Hn. rewrite C by (intros u Hu; apply (Hn u); now right). apply nth_set_other. intros <-. apply (Hn t). now left.
Qed.

Lemma assigned_nil opts vals : assigned opts vals [] vals.
Proof. split; [reflexivity|]. split; [|reflexivity]. intros i o l1 t l2 _ E. destruct l1; discriminate. Qed.

(** * The loop *)
Lemma total_nonneg args : 0 <= total args.
Proof. induction args as [|a args IH]; cbn [total fold_right]; [lia|]. pose proof (zlen_nonneg a). unfold total in IH. lia. Qed.
Lemma total_cons a args : total (a :: args) = zlen a + total args.
Proof. reflexivity. Qed.

Lemma nonempty_len {A} (l : list A) : l <> [] -> 0 < zlen l.
Proof. intros H. destruct l; [contradiction|]. rewrite zlen_cons. pose proof (zlen_nonneg l). lia. Qed.

(** One argument without split: [key] is the argument. *)
Lemma key_plain dbg a sarg ssplit c1 c2 : oks a -> a <> [] -> srep [] c1 sarg -> srep [] c2 ssplit -> Z.max c1 (zlen a) + 1 <= alloc_max ->
  ~ In 61 a \/ (exists v, a = 61 :: v) ->
  exists s1, str_append dbg sarg a = Ok s1 /\ srep a (Z.max c1 (zlen a)) s1 /\ str_pop_get_first dbg (Some ssplit) s1 [61] = Ok (Some ssplit, s1).
Proof.
  intros O Hn R1 R2 Hf H. pose proof (nonempty_len a Hn).
  destruct (append_ok dbg [] c1 sarg a R1 O) as (s1 & E & R); [lia|zl; lia|]. cbn [app] in R. change (zlen []) with 0 in R. rewrite Z.add_0_l in R.
  exists s1. split; [exact E|]. split; [exact R|]. apply (pop_first_none _ _ _ _ _ _ R). right. destruct H as [H|(v & ->)].
  - left. now apply cut_char_none.
  - right. exists v. apply (cut_intro [61] [] v). intros. zl. zlia.
Qed.
Lemma cut_eq n v : ~ In 61 n -> cut [61] (n ++ [61] ++ v) = Some (n, v).
Proof.
  intros H. apply cut_intro. intros a' b' E. destruct (Z.le_gt_cases (zlen n) (zlen a')) as [L|L]; [exact L|]. exfalso. apply H.
  assert (length a' < length n)%nat as L' by (unfold zlen in L; lia).
  assert (nth_error (n ++ [61] ++ v) (length a') = Some 61) as X by (rewrite E, nth_error_app2, Nat.sub_diag by lia; reflexivity).
  rewrite nth_error_app1 in X by lia. now apply nth_error_In in X.
Qed.
Lemma key_split dbg n v sarg ssplit c1 c2 : oks (n ++ [61] ++ v) -> n <> [] -> ~ In 61 n -> srep [] c1 sarg -> srep [] c2 ssplit ->
  Z.max c1 (zlen (n ++ [61] ++ v)) + 1 <= alloc_max -> c2 + zlen n + 1 <= alloc_max ->
  exists s1 s2 p2, str_append dbg sarg (n ++ [61] ++ v) = Ok s1 /\ str_pop_get_first dbg (Some ssplit) s1 [61] = Ok (Some p2, s2) /\
    srep n (c2 + zlen n) p2 /\ srep v (Z.max c1 (zlen (n ++ [61] ++ v))) s2.
Proof.
  intros O Hn N R1 R2 Hf Hg. pose proof (nonempty_len n Hn).
  destruct (append_ok dbg [] c1 sarg _ R1 O) as (s1 & E & R); [zl; zlia|change (zlen []) with 0; lia|]. cbn [app] in R. change (zlen []) with 0 in R. rewrite Z.add_0_l in R.
  destruct (pop_first_empty dbg c2 ssplit _ _ s1 n v R2 R (cut_eq n v N)) as (p2 & s2 & E2 & Rp & Rs); [lia|lia|].
  exists s1, s2, p2. tauto.
Qed.

Lemma named_opt opts n i : named opts n i -> exists o, nth_error opts i = Some o.
Proof. intros [(o & E & _) _]. eauto. Qed.

Lemma loop_ok dbg opts args l rest : (forall o, In o opts -> good_opt o) -> given opts args l rest ->
  forall vals sarg ssplit c1 c2, okvals opts vals l -> assignable opts l -> Forall oks args ->
  srep [] c1 sarg -> srep [] c2 ssplit -> Z.max c1 (total args) + 1 <= alloc_max -> c2 + total args + 1 <= alloc_max ->
  exists vals' sarg' ssplit' c1' c2', parse_loop dbg opts vals sarg ssplit args = parse_loop dbg opts vals' sarg' ssplit' rest /\
    assigned opts vals l vals' /\ Forall oks rest /\
    srep [] c1' sarg' /\ srep [] c2' ssplit' /\ Z.max c1' (total rest) + 1 <= alloc_max /\ c2' + total rest + 1 <= alloc_max.
Proof.
  intros G D. induction D as [args|n i v args l rest Nm Nn Ne D IH|n i v args l rest Nm Nn Ne Nv D IH|n i args l rest Nm Nn Ne Na D IH];
    intros vals sarg ssplit c1 c2 K A O R1 R2 F1 F2.
  - exists vals, sarg, ssplit, c1, c2. split; [reflexivity|]. split; [apply assigned_nil|]. tauto.
  - inversion O as [|? ? Oa Or]; subst. rewrite total_cons in F1, F2. pose proof (total_nonneg args).
    assert (zlen (n ++ [61] ++ v) = zlen n + 1 + zlen v) as Hl by (zl; lia). pose proof (zlen_nonneg v). pose proof (zlen_nonneg n).
    destruct (key_split dbg n v sarg ssplit c1 c2 Oa Nn Ne R1 R2) as (s1 & s2 & p2 & E1 & E2 & Rp & Rs); [lia|lia|].
    cbn [parse_loop]. rewrite E1. cbn [bind]. rewrite E2. cbn [bind]. unfold str_len. rewrite (r_len _ _ _ Rp).
    pose proof (nonempty_len n Nn). replace (zlen n =? 0) with false by lia. cbn [negb].
    rewrite (z_ok _ _ _ Rp). cbn [bind]. rewrite (find_named opts n G i 0 Nm). cbn [Nat.add].
    rewrite (z_ok _ _ _ Rs). cbn [bind]. destruct (named_opt _ _ _ Nm) as (o & Eo).
    assert (oks v) as Ov by (apply Forall_app in Oa as [_ Oa]; now inversion Oa).
    destruct (assign_step dbg opts vals i v l o Eo K A Ov) as (vals1 & Ea & K1 & A1 & Q); [lia|].
    rewrite Ea. cbn [bind]. destruct (clear_ok _ _ _ Rs) as (s3 & E3 & R3). rewrite E3. cbn [bind].
    destruct (clear_ok _ _ _ Rp) as (p3 & E4 & R4). rewrite E4. cbn [bind].
    destruct (IH vals1 s3 p3 _ _ K1 A1 Or R3 R4) as (vals' & a' & b' & d1 & d2 & EE & AA & Rest); [lia|lia|].
    exists vals', a', b', d1, d2. split; [exact EE|]. split; [now apply Q|exact Rest].
  - inversion O as [|? ? Oa Or]; subst. inversion Or as [|? ? Ov Or']; subst. rewrite !total_cons in F1, F2. pose proof (total_nonneg args).
    pose proof (zlen_nonneg v). pose proof (zlen_nonneg n).
    destruct (key_plain dbg n sarg ssplit c1 c2 Oa Nn R1 R2) as (s1 & E1 & Rs & E2); [lia|now left|].
    cbn [parse_loop]. rewrite E1. cbn [bind]. rewrite E2. cbn [bind]. unfold str_len. rewrite (r_len _ _ _ R2). change (negb (zlen [] =? 0)) with false. cbv iota.
    rewrite (z_ok _ _ _ Rs). cbn [bind]. rewrite (find_named opts n G i 0 Nm). cbn [Nat.add].
    assert (negb (first_byte v =? 45) = true) as Hv.
    { apply negb_true_iff, Z.eqb_neq. intros HH. apply first_is in HH as (r & ->); [|lia]. now apply (Nv r). }
    rewrite Hv. cbv iota. destruct (named_opt _ _ _ Nm) as (o & Eo).
    destruct (assign_step dbg opts vals i v l o Eo K A Ov) as (vals1 & Ea & K1 & A1 & Q); [lia|].
    rewrite Ea. cbn [bind]. destruct (clear_ok _ _ _ Rs) as (s3 & E3 & R3). rewrite E3. cbn [bind].
    destruct (clear_ok _ _ _ R2) as (p3 & E4 & R4). rewrite E4. cbn [bind].
    destruct (IH vals1 s3 p3 _ _ K1 A1 Or' R3 R4) as (vals' & a' & b' & d1 & d2 & EE & AA & Rest); [lia|lia|].
    exists vals', a', b', d1, d2. split; [exact EE|]. split; [now apply Q|exact Rest].
  - inversion O as [|? ? Oa Or]; subst. rewrite total_cons in F1, F2. pose proof (total_nonneg args). pose proof (zlen_nonneg n).
    destruct (key_plain dbg n sarg ssplit c1 c2 Oa Nn R1 R2) as (s1 & E1 & Rs & E2); [lia|now left|].
    cbn [parse_loop]. rewrite E1. cbn [bind]. rewrite E2. cbn [bind]. unfold str_len. rewrite (r_len _ _ _ R2). change (negb (zlen [] =? 0)) with false. cbv iota.
    rewrite (z_ok _ _ _ Rs). cbn [bind]. rewrite (find_named opts n G i 0 Nm). cbn [Nat.add]. destruct (named_opt _ _ _ Nm) as (o & Eo).
    destruct (assign_step dbg opts vals i [49] l o Eo K A) as (vals1 & Ea & K1 & A1 & Q); [repeat constructor; lia|vm_compute; discriminate|].
    destruct (clear_ok _ _ _ Rs) as (s3 & E3 & R3). destruct (clear_ok _ _ _ R2) as (p3 & E4 & R4).
    destruct (IH vals1 s3 p3 _ _ K1 A1 Or R3 R4) as (vals' & a' & b' & d1 & d2 & EE & AA & Rest); [lia|lia|].
    exists vals', a', b', d1, d2. split; [|split; [now apply Q|exact Rest]]. rewrite <- EE.
    destruct args as [|v args'].
    + rewrite Ea. cbn [bind]. rewrite E3. cbn [bind]. rewrite E4. reflexivity.
    + destruct (Na v args' eq_refl) as (r & ->). cbn [first_byte]. change (negb (45 =? 45)) with false. cbv iota.
      rewrite Ea. cbn [bind]. rewrite E3. cbn [bind]. rewrite E4. reflexivity.
Qed.

Lemma help_ok a : help_arg a = true <-> (exists r, a = 63 :: r) \/ a = [45; 104] \/ a = [45; 45; 104; 101; 108; 112].
Proof. unfold help_arg. rewrite !orb_true_iff, !equals_z_ok, Z.eqb_eq, first_is by lia. tauto. Qed.
Lemma help_test args : match args with [a] => help_arg a | _ => false end = true <-> asks_help args.
Proof.
  unfold asks_help. destruct args as [|a [|b args]].
  - split; [discriminate|intros (a & E & _); discriminate].
  - rewrite help_ok. split; [intros H; exists a; now split|]. intros (x & E & H). injection E as <-. exact H.
  - split; [discriminate|intros (x & E & _); discriminate].
Qed.

(** The start of the loop. *)
Lemma parse_start dbg opts vals args : good_table opts -> ~ asks_help args ->
  exists s1 s2, srep [] 16 s1 /\ srep [] 16 s2 /\ argopt_parse dbg opts vals args = parse_loop dbg opts vals s1 s2 args.
Proof.
  intros [Ne G] H. unfold argopt_parse. rewrite enforce_true by (pose proof (nonempty_len opts Ne); lia). cbn [bind].
  pose proof G as G'. apply validate_good in G'. rewrite G'. cbn [negb].
  destruct (match args with [a] => help_arg a | _ => false end) eqn:E; [apply help_test in E; contradiction|].
  destruct (create_capacity_ok dbg 16) as (s1 & E1 & R1); [lia|vm_compute; discriminate|]. rewrite E1. cbn [bind].
  exists s1, s1. tauto.
Qed.

Lemma parse_success dbg opts vals args l : good_table opts -> ~ asks_help args -> given opts args l [] ->
  okvals opts vals l -> assignable opts l -> Forall oks args -> total args + 17 <= alloc_max ->
  exists vals', argopt_parse dbg opts vals args = Ok (0, vals') /\ assigned opts vals l vals'.
Proof.
  intros GT H D K A O F. destruct (parse_start dbg opts vals args GT H) as (s1 & s2 & R1 & R2 & E). pose proof (total_nonneg args).
  destruct (loop_ok dbg opts args l [] (proj2 GT) D vals s1 s2 16 16 K A O R1 R2) as (vals' & a' & b' & d1 & d2 & EE & AA & _); [lia|lia|].
  exists vals'. split; [|exact AA]. rewrite E, EE. reflexivity.
Qed.

Lemma find_bad opts n : (forall o, In o opts -> good_opt o) -> (forall o, In o opts -> ~ has_name o n) -> find_opt n opts 0 = None.
Proof. intros. now apply find_unnamed. Qed.

Lemma first_eq a : In 61 a -> exists n v, a = n ++ [61] ++ v /\ ~ In 61 n.
Proof.
  induction a as [|c a IH]; [contradiction|]. intros H. destruct (Z.eq_dec c 61) as [->|N].
  - exists [], a. split; [reflexivity|tauto].
  - destruct IH as (n & v & -> & Hn). { destruct H; [congruence|assumption]. }
    exists (c :: n), v. split; [reflexivity|]. intros [E|E]; [congruence|now apply Hn].
Qed.

Lemma parse_error dbg opts vals args l bad rest : good_table opts -> ~ asks_help args -> given opts args l (bad :: rest) -> bad <> [] -> unknown opts bad ->
  okvals opts vals l -> assignable opts l -> Forall oks args -> total args + 17 <= alloc_max ->
  exists vals', argopt_parse dbg opts vals args = Ok (-1, vals') /\ assigned opts vals l vals'.
Proof.
  intros GT H D Hb [U1 U2] K A O F. destruct (parse_start dbg opts vals args GT H) as (s1 & s2 & R1 & R2 & E). pose proof (total_nonneg args).
  destruct (loop_ok dbg opts args l _ (proj2 GT) D vals s1 s2 16 16 K A O R1 R2) as (vals' & a' & b' & d1 & d2 & EE & AA & OO & Ra & Rb & Fa & Fb); [lia|lia|].
  exists vals'. split; [|exact AA]. rewrite E, EE. inversion OO as [|? ? Ob Or]; subst. rewrite total_cons in Fa, Fb. pose proof (total_nonneg rest).
  destruct GT as [_ G]. cbn [parse_loop].
  assert ((~ In 61 bad \/ exists v, bad = 61 :: v) \/ exists n v, bad = n ++ [61] ++ v /\ n <> [] /\ ~ In 61 n) as [C|(n & v & -> & Nn & Ne)].
  { destruct (in_dec Z.eq_dec 61 bad) as [I|I]; [|tauto]. destruct (first_eq bad I) as (n & v & -> & Hn). destruct n as [|c n].
    - left. right. now exists v.
    - right. exists (c :: n), v. split; [reflexivity|]. split; [discriminate|exact Hn]. }
  - destruct (key_plain dbg bad a' b' d1 d2 Ob Hb Ra Rb) as (t1 & E1 & Rs & E2); [lia|exact C|].
    rewrite E1. cbn [bind]. rewrite E2. cbn [bind]. unfold str_len. rewrite (r_len _ _ _ Rb). change (negb (zlen [] =? 0)) with false. cbv iota.
    rewrite (z_ok _ _ _ Rs). cbn [bind]. rewrite (find_bad opts bad G (U2 C)). reflexivity.
  - assert (zlen (n ++ [61] ++ v) = zlen n + 1 + zlen v) as Hl by (zl; lia). pose proof (zlen_nonneg v). pose proof (nonempty_len n Nn).
    destruct (key_split dbg n v a' b' d1 d2 Ob Nn Ne Ra Rb) as (t1 & t2 & p2 & E1 & E2 & Rp & Rs); [lia|lia|].
    rewrite E1. cbn [bind]. rewrite E2. cbn [bind]. unfold str_len. rewrite (r_len _ _ _ Rp). replace (zlen n =? 0) with false by lia. cbn [negb].
    rewrite (z_ok _ _ _ Rp). cbn [bind]. rewrite (find_bad opts n G (U1 n v eq_refl Nn Ne)). reflexivity.
Qed.

(** Every argument vector is covered by one of the two. *)
Lemma named_dec opts n : (forall o, In o opts -> good_opt o) -> (exists i, named opts n i) \/ (forall o, In o opts -> ~ has_name o n).
Proof.
  induction opts as [|o opts IH]; intros G; [right; contradiction|].
  destruct (is_named o n) eqn:N.
  - left. exists 0%nat. split; [|intros j ? ?; lia]. exists o. split; [reflexivity|]. apply is_named_ok in N; [exact N|apply G; now left].
  - assert (~ has_name o n) as N' by (intros X; apply is_named_ok in X; [congruence|apply G; now left]).
    destruct IH as [(i & (x & E & X) & F)|F]; [intros; apply G; now right| |].
    + left. exists (S i). split; [exists x; now split|]. intros [|j] y Hj Ey; [injection Ey as <-; exact N'|]. apply (F j y); [lia|exact Ey].
    + right. intros y [<-|Hy]; [exact N'|now apply F].
Qed.

Lemma given_total opts : (forall o, In o opts -> good_opt o) -> (forall o n, In o opts -> has_name o n -> ~ In 61 n) ->
  forall args, Forall (fun a => a <> []) args ->
  exists l rest, given opts args l rest /\ (rest = [] \/ exists bad r, rest = bad :: r /\ bad <> [] /\ unknown opts bad).
Proof.
  intros G NE args. remember (length args) as k eqn:Hk. revert args Hk. induction k as [k IH] using lt_wf_ind. intros args -> F.
  destruct args as [|a args]; [exists [], []; split; [constructor|now left]|]. inversion F as [|? ? Fa Fr]; subst.
  assert ((~ In 61 a \/ exists v, a = 61 :: v) \/ exists n v, a = n ++ [61] ++ v /\ n <> [] /\ ~ In 61 n) as [C|(n & v & -> & Nn & Ne)].
  { destruct (in_dec Z.eq_dec 61 a) as [I|I]; [|tauto]. destruct (first_eq a I) as (n & v & -> & Hn). destruct n as [|c n].
    - left. right. now exists v.
    - right. exists (c :: n), v. split; [reflexivity|]. split; [discriminate|exact Hn]. }
  - destruct (named_dec opts a G) as [(i & Hi)|Hn].
    + destruct (named_opt _ _ _ Hi) as (o & Eo). pose proof Hi as [(o' & Eo' & Ho') _]. pose proof (NE o' a (nth_error_In _ _ Eo') Ho') as Na.
      destruct args as [|w args'].
      { exists [(i, [49])], []. split; [|now left]. apply g_flag; try assumption; [discriminate|constructor]. }
      inversion Fr as [|? ? Fw Fr']; subst. destruct (Z.eq_dec (first_byte w) 45) as [W|W].
      * destruct (IH (length (w :: args')) ltac:(cbn; lia) (w :: args') eq_refl Fr) as (l & rest & D & X).
        exists ((i, [49]) :: l), rest. split; [|exact X]. apply g_flag; try assumption.
        intros v args'' E. injection E as <- <-. apply first_is in W; [exact W|lia].
      * destruct (IH (length args') ltac:(cbn; lia) args' eq_refl Fr') as (l & rest & D & X).
        exists ((i, w) :: l), rest. split; [|exact X]. apply g_val; try assumption. intros r ->. now apply W.
    + exists [], (a :: args). split; [constructor|]. right. exists a, args. split; [reflexivity|]. split; [exact Fa|]. split; [|intros; now apply Hn].
      intros n v E Hnn Hne. destruct C as [C|(v' & ->)]; [exfalso; apply C; rewrite E; apply in_or_app; right; now left|].
      destruct n as [|c n]; [contradiction|]. injection E as <- _. exfalso. apply Hne. now left.
  - destruct (named_dec opts n G) as [(i & Hi)|Hn].
    + destruct (IH (length args) ltac:(cbn; lia) args eq_refl Fr) as (l & rest & D & X).
      exists ((i, v) :: l), rest. split; [|exact X]. now apply g_eq.
    + exists [], ((n ++ [61] ++ v) :: args). split; [constructor|]. right. exists (n ++ [61] ++ v), args. split; [reflexivity|]. split; [exact Fa|]. split.
      * intros n' v' E Hn' Hne'. assert (n' = n) as ->; [|exact Hn].
        pose proof (cut_eq n v Ne) as C1. pose proof (cut_eq n' v' Hne') as C2. rewrite <- E in C2. congruence.
      * intros [X|(w & X)].
        { exfalso. apply X. apply in_or_app. right. now left. }
        destruct n as [|c n]; [contradiction|]. injection X as -> _. exfalso. apply Ne. now left.
Qed.

(** * Help *)
Lemma loop_status dbg opts : forall k args vals s1 s2 r vals', (length args <= k)%nat -> parse_loop dbg opts vals s1 s2 args = Ok (r, vals') -> r = 0 \/ r = -1.
Proof.
  induction k as [|k IH]; intros args vals s1 s2 r vals' Hk H.
  { destruct args; [|cbn in Hk; lia]. injection H as <- _. now left. }
  destruct args as [|a args]; [injection H as <- _; now left|]. cbn [parse_loop] in H. cbn [length] in Hk.
  destruct (str_append dbg s1 a) as [t1| | |]; try discriminate. cbn [bind] in H.
  destruct (str_pop_get_first dbg (Some s2) t1 [61]) as [[[p|] q]| | |]; try discriminate. cbn [bind] in H. cbv zeta in H.
  destruct (str_z (if negb (str_len p =? 0) then p else q)) as [key| | |]; try discriminate. cbn [bind] in H.
  destruct (find_opt key opts 0) as [j|]; [|injection H as <- _; now right].
  destruct (str_z q) as [t| | |]; try discriminate. cbn [bind] in H.
  match type of H with (let* _ := ?e in _) = _ => destruct e as [vs| | |]; try discriminate end. cbn [bind] in H.
  destruct (str_clear q) as [q1| | |]; try discriminate. cbn [bind] in H. destruct (str_clear p) as [p1| | |]; try discriminate. cbn [bind] in H.
  destruct (negb (str_len p =? 0)); [apply IH in H; [exact H|lia]|].
  destruct args as [|w args]; [apply IH in H; [exact H|cbn; lia]|].
  destruct (negb (first_byte w =? 45)); apply IH in H; cbn in *; try exact H; lia.
Qed.

Lemma parse_help dbg opts vals args vals' : opts <> [] ->
  argopt_parse dbg opts vals args = Ok (1, vals') <-> (good_table opts /\ asks_help args /\ vals' = vals).
Proof.
  intros Ne. unfold argopt_parse. rewrite enforce_true by (pose proof (nonempty_len opts Ne); lia). cbn [bind].
  destruct (argopt_validate opts) eqn:V; cbn [negb].
  - destruct (match args with [a] => help_arg a | _ => false end) eqn:E.
    + apply help_test in E. pose proof (proj1 (validate_good opts) V) as V1. split; [|intros (_ & _ & ->); reflexivity]. intros X. injection X as <-. split; [split; assumption|]. split; [exact E|reflexivity].
    + split.
      * intros X. destruct (str_create_capacity dbg 16) as [s1| | |]; try discriminate. cbn [bind] in X.
        apply (loop_status dbg opts (length args)) in X; [lia|lia].
      * intros (_ & H & _). apply help_test in H. congruence.
  - split; [discriminate|]. intros ((_ & H) & _). pose proof (proj2 (validate_good opts) H); congruence.
Qed.

Lemma bad_table dbg opts vals args : opts <> [] -> ~ (forall o, In o opts -> good_opt o) -> argopt_parse dbg opts vals args = Ok (-1, vals).
Proof.
  intros Ne H. unfold argopt_parse. rewrite enforce_true by (pose proof (nonempty_len opts Ne); lia). cbn [bind].
  destruct (argopt_validate opts) eqn:V; [pose proof (proj1 (validate_good opts) V); contradiction|reflexivity].
Qed.

(** * char* options *)
Lemma cstr_null dbg t : oks t -> zlen t + 1 <= alloc_max -> assign_value dbg TCstr (VCstr None) t = Ok (VCstr (Some (zblk t))).
Proof.
  intros O F. destruct (assign_ok dbg TCstr (VCstr None) t eq_refl O F) as (v' & E & H & _); [discriminate|]. cbn [holds] in H. now subst.
Qed.
(** Not longer than the old text: the tail of the old text stays. *)
Lemma cstr_shorter dbg a b t q : oks a -> oks b -> zlen t = zlen a ->
  assign_value dbg TCstr (VCstr (Some (map Some (a ++ b) ++ Some 0 :: q))) t = Ok (VCstr (Some (map Some (t ++ b) ++ Some 0 :: q))).
Proof.
  intros Oa Ob L. cbn [assign_value]. rewrite cstr_app by (apply oks_nonul, Forall_app; now split). cbn [bind].
  replace (zlen (a ++ b) <? zlen t) with false by (zl; zlia). cbn [bind].
  rewrite map_app, <- app_assoc. pose proof (bwrite_app [] (map Some a) (map Some b ++ Some 0 :: q) 0 (map Some t)) as B. cbn [app] in B.
  rewrite B by (zl; try reflexivity; lia). cbn [bind]. now rewrite map_app, <- app_assoc.
Qed.
(** Longer than a non-empty old text: written beyond the block. *)
Lemma cstr_longer dbg z t q : oks z -> 0 < zlen z -> zlen z < zlen t -> zlen t <= alloc_max ->
  assign_value dbg TCstr (VCstr (Some (map Some z ++ Some 0 :: q))) t = UB.
Proof.
  intros O Hz L F. cbn [assign_value]. rewrite cstr_app by (now apply oks_nonul). cbn [bind].
  replace (zlen z <? zlen t) with true by lia. unfold c_realloc. rewrite dassert_true by lia. cbn [bind].
  replace (zlen t - zlen z =? 0) with false by lia. replace (zlen t - zlen z <=? alloc_max) with true by lia. cbn [bind].
  unfold bwrite. match goal with |- context [firstn ?k ?l ++ repeat None ?n] => assert (zlen (firstn k l ++ repeat (@None Z) n) = zlen t - zlen z) as -> end.
  { unfold zlen at 1. rewrite app_length, firstn_length, repeat_length. lia. }
  replace (0 + zlen (map Some t) <=? zlen t - zlen z) with false by (zl; lia). reflexivity.
Qed.
(** From the empty text: not terminated. *)
Lemma cstr_from_empty dbg t q : oks t -> 0 < zlen t -> zlen t <= alloc_max -> zlen (Some 0 :: q) <= zlen t ->
  exists b, assign_value dbg TCstr (VCstr (Some (Some 0 :: q))) t = Ok (VCstr (Some b)) /\ b = map Some t /\ cstr b = UB.
Proof.
  intros O L F Q. cbn [assign_value]. change (cstr (Some 0 :: q)) with (@Ok (list Z) []). cbn [bind]. change (zlen []) with 0.
  replace (0 <? zlen t) with true by lia. unfold c_realloc. rewrite dassert_true by lia. cbn [bind].
  replace (zlen t - 0 =? 0) with false by lia. replace (zlen t - 0 <=? alloc_max) with true by lia. cbn [bind].
  match goal with |- context [bwrite ?l 0 _] => assert (zlen l = zlen t) as HL end.
  { unfold zlen at 1. rewrite app_length, firstn_length, repeat_length. unfold zlen in *. lia. }
  match goal with |- context [bwrite ?l 0 _] => pose proof (bwrite_app [] l [] 0 (map Some t) eq_refl) as B end. cbn [app] in B. rewrite !app_nil_r in B.
  rewrite B by (zl; lia). cbn [bind]. eexists. split; [reflexivity|]. split; [reflexivity|].
  clear - O. induction t as [|c t IH]; [reflexivity|]. inversion O as [|? ? Oc Ot]; subst. cbn [map cstr]. unfold okc in Oc. replace (c =? 0) with false by lia.
  now rewrite IH.
Qed.
Lemma cstr_same dbg a t q : oks a -> zlen t = zlen a ->
  assign_value dbg TCstr (VCstr (Some (map Some a ++ Some 0 :: q))) t = Ok (VCstr (Some (map Some t ++ Some 0 :: q))).
Proof.
  intros O L. pose proof (cstr_shorter dbg a [] t q O (Forall_nil _) L) as H. now rewrite !app_nil_r in H.
Qed.
