From Coq Require Import Lia.
From Verif Require Import Base BaseFacts StrModel StrModel2 StrSpec StrProofs StrProofs2 StrProofs3 StrMain FsModel PathModel FsSpec PathProofs FsProofs FsMain ExactFs RaceModel.
Local Open Scope list_scope.
Local Open Scope Z_scope.

(** A property of the file system and each process kept by every step of any process is kept by every schedule. *)
Lemma nth_wstep cwd ps : forall fs i fs' ps', wstep cwd fs ps i = (fs', ps') ->
  length ps' = length ps /\
  (forall j, j <> i -> nth_error ps' j = nth_error ps j) /\
  (match nth_error ps i with
   | Some p => fs' = fst (pstep cwd fs p) /\ nth_error ps' i = Some (snd (pstep cwd fs p))
   | None => fs' = fs
   end).
Proof.
  induction ps as [|p ps IH]; intros fs i fs' ps' H; cbn [wstep] in H.
  - injection H as <- <-. split; [reflexivity|]. split; [reflexivity|]. now destruct i.
  - destruct i as [|i].
    + destruct (pstep cwd fs p) as [f q] eqn:E. injection H as <- <-. split; [reflexivity|]. split; [intros [|j] Hj; [congruence|reflexivity]|]. cbn [nth_error]. rewrite E. now split.
    + destruct (wstep cwd fs ps i) as [f q] eqn:E. injection H as <- <-. apply IH in E as (L & N & M). split; [cbn [length]; now rewrite L|].
      split; [intros [|j] Hj; [reflexivity|apply N; congruence]|]. exact M.
Qed.
Lemma run_inv cwd (I : fsys -> nat -> proc -> Prop) (J : fsys -> Prop) :
  (forall fs i p, J fs -> I fs i p -> let '(fs', p') := pstep cwd fs p in J fs' /\ I fs' i p' /\ forall j q, I fs j q -> I fs' j q) ->
  forall sched fs ps, J fs -> (forall i p, nth_error ps i = Some p -> I fs i p) ->
  let '(fs', ps') := run cwd fs ps sched in J fs' /\ length ps' = length ps /\ forall i p, nth_error ps' i = Some p -> I fs' i p.
Proof.
  intros St sched. induction sched as [|k sched IH]; intros fs ps HJ HI; cbn [run]; [auto|].
  destruct (wstep cwd fs ps k) as [fs1 ps1] eqn:E. apply nth_wstep in E as (L & N & M).
  destruct (nth_error ps k) as [p|] eqn:Ek.
  - specialize (St fs k p HJ (HI k p Ek)). destruct (pstep cwd fs p) as [f q] eqn:Ep. cbn [fst snd] in M. destruct M as [-> M]. destruct St as (J1 & I1 & K1).
    assert (forall i p0, nth_error ps1 i = Some p0 -> I f i p0) as HI1.
    { intros i p0 H. destruct (Nat.eq_dec i k) as [->|D]; [rewrite M in H; injection H as <-; exact I1|]. apply K1, HI. rewrite <- N; [exact H|exact D]. }
    specialize (IH f ps1 J1 HI1). destruct (run cwd f ps1 sched) as [f2 p2]. now rewrite <- L.
  - subst fs1. assert (forall i p0, nth_error ps1 i = Some p0 -> I fs i p0) as HI1.
    { intros i p0 H. destruct (Nat.eq_dec i k) as [->|D]; [|apply HI; rewrite <- N; [exact H|exact D]].
      exfalso. apply nth_error_None in Ek. assert (nth_error ps1 k <> None) as X by congruence. apply nth_error_Some in X. lia. }
    specialize (IH fs ps1 HJ HI1). destruct (run cwd fs ps1 sched) as [f2 p2]. now rewrite <- L.
Qed.

(** * The system call of one step *)
Lemma sys_mkdir_step fs cwd z ns1 n : let st := start cwd z in let zf := pfx (is_abs z) ++ slashed (ns1 ++ [n]) in
  wf fs -> Forall rawname (ns1 ++ [n]) -> (forall a b, ns1 = a ++ b -> lookup fs (dest st a) = Some EDir) ->
  (lookup fs (dest st (ns1 ++ [n])) = None \/ lookup fs (dest st (ns1 ++ [n])) = Some EDir) ->
  let fs' := match fs_mkdir fs cwd zf with Some f => f | None => fs end in
  wf fs' /\ forall q, lookup fs' q = if path_dec q (dest st (ns1 ++ [n])) then Some EDir else lookup fs q.
Proof.
  intros st zf W F D K fs'. assert (rawname n) as (Nn & On & Nn47). { apply Forall_app in F as [_ F]. now inversion F. }
  assert (start cwd zf = st) as Es by (apply raw_pfx_start; [exact F|destruct ns1; discriminate]).
  assert (comps zf = (if is_abs z then [[]] else []) ++ ns1 ++ [n] ++ [[]]) as Ec by (unfold zf; rewrite raw_pfx_comps by exact F; now rewrite <- app_assoc).
  pose proof (D [] ns1 eq_refl) as L0. cbn [dest fold_left] in L0.
  assert (walk fs st ((if is_abs z then [[]] else []) ++ ns1) = Some (dest st ns1)) as Wk.
  { destruct (is_abs z); cbn [app]; [cbn [walk]; rewrite L0; destruct (name_dec [] []); [|contradiction]|]; apply walk_dest; exact D. }
  pose proof (D ns1 [] (eq_sym (app_nil_r ns1))) as Lc. set (cur := dest st ns1) in *.
  assert (zf <> []) as Hz. { intros E. rewrite E in Ec. cbn [comps] in Ec. destruct (is_abs z), ns1; try discriminate; destruct ns1; discriminate. }
  rewrite dest_app in *. fold cur in K |- *. cbn [dest fold_left] in *.
  assert (fs_mkdir fs cwd zf = if special n then None else match lookup fs (cur ++ [n]) with Some _ => None | None => Some (store fs (cur ++ [n]) EDir) end) as Em.
  { unfold fs_mkdir, new_entry, rev_comps. destruct zf as [|c zf'] eqn:Ez; [contradiction|]. rewrite Ec, app_assoc, drop_slashes by exact Nn.
    rewrite Es, rev_involutive, Wk, Lc. destruct (special n); [reflexivity|]. now destruct (lookup fs (cur ++ [n])). }
  assert (forall p, lookup fs p = Some EDir -> wf fs /\ forall q, lookup fs q = if path_dec q p then Some EDir else lookup fs q) as Same.
  { intros p Lp. split; [exact W|]. intros q. destruct (path_dec q p) as [->|]; [exact Lp|reflexivity]. }
  unfold fs'. rewrite Em. clear fs' Em. unfold special, onward in *. destruct (name_dec n []) as [|_]; [contradiction|].
  destruct (name_dec n dot) as [Ed|Nd]; [now apply Same|].
  destruct (name_dec n dotdot) as [Ed|Ndd]; [apply Same; now apply up_dir|].
  destruct K as [K|K]; rewrite K; [|now apply Same]. split.
  - apply wf_store; trivial; [apply wf_names with (fs := fs); [exact W|congruence]|repeat split; assumption|intros _; now right].
  - intros q. apply lookup_store. destruct cur; discriminate.
Qed.
(** The check of one step. *)
Lemma sys_stat_step fs cwd z ns1 n : let st := start cwd z in let zf := pfx (is_abs z) ++ slashed (ns1 ++ [n]) in
  Forall rawname (ns1 ++ [n]) -> path_exists fs cwd zf = true -> lookup fs (dest st (ns1 ++ [n])) = Some EDir.
Proof.
  intros st zf F H. assert (start cwd zf = st) as Es by (apply raw_pfx_start; [exact F|destruct ns1; discriminate]).
  assert (comps zf = ((if is_abs z then [[]] else []) ++ ns1 ++ [n]) ++ [[]]) as Ec by (unfold zf; rewrite raw_pfx_comps by exact F; now rewrite <- ?app_assoc).
  unfold path_exists, fs_stat, resolve in H. destruct zf as [|c zf'] eqn:Ez; [discriminate|].
  destruct (walk fs (start cwd (c :: zf')) (comps (c :: zf'))) as [p|] eqn:Wk; [|discriminate].
  apply walk_inv in Wk as [_ Dp]. rewrite Es in Dp. specialize (Dp _ _ _ Ec).
  rewrite <- (dest_filter ((if is_abs z then [[]] else []) ++ ns1 ++ [n])) in Dp. rewrite filter_app in Dp.
  replace (filter nonempty (if is_abs z then [[]] else [])) with (@nil name) in Dp by (destruct (is_abs z); reflexivity). cbn [app] in Dp.
  rewrite dest_filter in Dp. exact Dp.
Qed.

(** * Nested creation by several processes *)
Section Nested.
  Variables (cwd : path) (fs0 : fsys) (zs : list (list Z)).
  Hypothesis W0 : wf fs0.
  Hypothesis C0 : lookup fs0 cwd = Some EDir.
  Hypothesis Oz : Forall oks zs.
  (** Nothing but directories in the way. *)
  Hypothesis K0 : forall z a b, In z zs -> names z = a ++ b -> lookup fs0 (dest (start cwd z) a) = None \/ lookup fs0 (dest (start cwd z) a) = Some EDir.
  (** The places on the way of one of the paths. *)
  Definition onway (q : path) : Prop := exists z a b, In z zs /\ names z = a ++ b /\ q = dest (start cwd z) a.

  Definition J (fs : fsys) : Prop := wf fs /\ forall q, (lookup fs q = lookup fs0 q \/ (onway q /\ lookup fs q = Some EDir)).
  Definition dirs_of (fs : fsys) (z : list Z) (ns : list name) : Prop := forall a b, ns = a ++ b -> lookup fs (dest (start cwd z) a) = Some EDir.
  Definition acts (z : list Z) (pre ns : list name) : list act := map (fun ns => AMkdir (pfx (is_abs z) ++ slashed ns)) (prefixes pre ns).
  Definition I (fs : fsys) (i : nat) (p : proc) : Prop :=
    exists z, nth_error zs i = Some z /\
    ((p = parents z) \/ (exists ns1 ns2, names z = ns1 ++ ns2 /\ dirs_of fs z ns1 /\ p_todo p = acts z ns1 ns2 /\ (ns2 = [] -> p_armed p = false))).

  Lemma J_K fs : J fs -> forall z a b, In z zs -> names z = a ++ b -> lookup fs (dest (start cwd z) a) = None \/ lookup fs (dest (start cwd z) a) = Some EDir.
  Proof.
    intros [_ H] z a b Hz E. destruct (H (dest (start cwd z) a)) as [-> | [_ ->]]; [exact (K0 z a b Hz E)|now right].
  Qed.
  Lemma J_dir fs q : J fs -> lookup fs0 q = Some EDir -> lookup fs q = Some EDir.
  Proof. intros [_ H] L. destruct (H q) as [-> | [_ ->]]; [exact L|reflexivity]. Qed.
  Lemma start_dir fs z : J fs -> lookup fs (start cwd z) = Some EDir.
  Proof. intros HJ. unfold start. destruct z as [|c z]; [exact (J_dir _ _ HJ C0)|]. destruct (c =? 47); [reflexivity|exact (J_dir _ _ HJ C0)]. Qed.
  Lemma guard_true fs z : J fs -> In z zs -> path_exists fs cwd z = true -> dirs_of fs z (names z).
  Proof.
    intros HJ Hz Ex a b E. unfold path_exists, fs_stat in Ex. destruct (resolve fs cwd z) as [p|] eqn:Rs; [|discriminate]. unfold resolve in Rs. destruct z as [|c z]; [discriminate|].
    apply walk_inv in Rs as [Ep Dp].
    destruct b as [|m b].
    - rewrite app_nil_r in E. subst a. destruct (J_K fs HJ (c :: z) (names (c :: z)) [] Hz (eq_sym (app_nil_r _))) as [X|X]; [|exact X]. unfold names in X. rewrite dest_filter, <- Ep in X. rewrite X in Ex. discriminate.
    - unfold names in E. apply filter_prefix in E as (a' & b' & E & Ea). rewrite <- Ea, dest_filter. exact (Dp a' m b' E).
  Qed.

  Lemma nested_step fs i p : J fs -> I fs i p -> let '(fs', p') := pstep cwd fs p in J fs' /\ I fs' i p' /\ forall j q, I fs j q -> I fs' j q.
  Proof.
    intros HJ (z & Ez & H). assert (In z zs) as Hz by (eapply nth_error_In; exact Ez).
    assert (Forall rawname (names z)) as Rz. { apply raw_names. rewrite Forall_forall in Oz. now apply Oz. }
    destruct H as [->|(ns1 & ns2 & En & D & Et & Ea)].
    - unfold pstep, parents. cbn [p_todo p_answers p_armed]. split; [exact HJ|]. split; [|auto].
      exists z. split; [exact Ez|]. right. destruct (path_exists fs cwd z) eqn:Ex.
      + exists (names z), []. split; [now rewrite app_nil_r|]. split; [now apply guard_true|]. now split.
      + exists [], (names z). split; [reflexivity|]. split; [|now split].
        intros a b E. symmetry in E. apply app_eq_nil in E as [-> _]. exact (start_dir fs z HJ).
    - unfold pstep. rewrite Et. unfold acts. destruct ns2 as [|n ns2]; cbn [prefixes map].
      { split; [exact HJ|]. split; [|auto]. exists z. split; [exact Ez|]. right. exists ns1, []. auto. }
      set (zf := pfx (is_abs z) ++ slashed (ns1 ++ [n])).
      assert (names z = (ns1 ++ [n]) ++ ns2) as En' by (rewrite <- app_assoc; exact En).
      assert (Forall rawname (ns1 ++ [n])) as R1. { rewrite En' in Rz. apply Forall_app in Rz. tauto. }
      pose proof (J_K fs HJ z (ns1 ++ [n]) ns2 Hz En') as K.
      assert (forall f, (forall q, lookup f q = if path_dec q (dest (start cwd z) (ns1 ++ [n])) then Some EDir else lookup fs q) -> wf f ->
                J f /\ dirs_of f z (ns1 ++ [n]) /\ forall j q, I fs j q -> I f j q) as Next.
      { intros f Lf Wf. split; [|split].
        - split; [exact Wf|]. intros q. rewrite Lf. destruct (path_dec q (dest (start cwd z) (ns1 ++ [n]))) as [->|]; [|apply HJ].
          right. split; [|reflexivity]. exists z, (ns1 ++ [n]), ns2. auto.
        - intros a b E. rewrite Lf. destruct (path_dec _ _) as [|Nq]; [reflexivity|]. destruct b as [|m b] using rev_ind.
          + rewrite app_nil_r in E. subst a. contradiction.
          + clear IHb. rewrite app_assoc in E. apply app_inj_tail in E as [E _]. exact (D a b E).
        - intros j q (z' & Ez' & H). exists z'. split; [exact Ez'|]. destruct H as [->|(m1 & m2 & Em & Dm & Tm & Am)]; [now left|]. right. exists m1, m2. split; [exact Em|]. split; [|now split].
          intros a b E. rewrite Lf. destruct (path_dec _ _); [reflexivity|]. exact (Dm a b E). }
      assert (forall f l, dirs_of f z (ns1 ++ [n]) -> I f i (mk_proc (acts z (ns1 ++ [n]) ns2) false l)) as Adv.
      { intros f l Df. exists z. split; [exact Ez|]. right. exists (ns1 ++ [n]), ns2. auto. }
      destruct (p_armed p) eqn:Ar.
      + destruct (sys_mkdir_step fs cwd z ns1 n (proj1 HJ) R1 D K) as [Wf Lf]. fold zf in Wf, Lf.
        destruct (fs_mkdir fs cwd zf) as [f|]; destruct (Next _ Lf Wf) as (J1 & D1 & K1); (split; [exact J1|]); (split; [now apply Adv|exact K1]).
      + destruct (path_exists fs cwd zf) eqn:Ex.
        * pose proof (sys_stat_step fs cwd z ns1 n R1 Ex) as Ld. split; [exact HJ|]. split; [|auto]. apply Adv.
          apply (Next fs); [|exact (proj1 HJ)]. intros q. destruct (path_dec q _) as [->|]; [exact Ld|reflexivity].
        * split; [exact HJ|]. split; [|auto]. exists z. split; [exact Ez|]. right. exists ns1, (n :: ns2). split; [exact En|]. split; [exact D|]. split; [reflexivity|discriminate].
  Qed.

  Theorem nested sched : let '(fs, ps) := run cwd fs0 (map parents zs) sched in
    wf fs /\ (forall q, (lookup fs q = lookup fs0 q \/ (onway q /\ lookup fs q = Some EDir))) /\ length ps = length zs /\
    forall i z p, nth_error zs i = Some z -> nth_error ps i = Some p -> finished p = true ->
      forall a b, names z = a ++ b -> lookup fs (dest (start cwd z) a) = Some EDir.
  Proof.
    pose proof (run_inv cwd I J nested_step sched fs0 (map parents zs)) as R.
    assert (J fs0) as HJ by (split; [exact W0|intros q; now left]). specialize (R HJ).
    assert (forall i p, nth_error (map parents zs) i = Some p -> I fs0 i p) as HI.
    { intros i p H. rewrite nth_error_map in H. destruct (nth_error zs i) as [z|] eqn:E; [|discriminate]. injection H as <-. exists z. split; [exact E|now left]. }
    specialize (R HI). destruct (run cwd fs0 (map parents zs) sched) as [fs ps]. destruct R as ([W H] & L & Q). split; [exact W|]. split; [exact H|].
    split; [now rewrite L, map_length|]. intros i z p Ez Ep Fp a b E. destruct (Q i p Ep) as (z' & Ez' & X). rewrite Ez in Ez'. injection Ez' as <-.
    destruct X as [->|(ns1 & ns2 & En & D & Et & _)]; [discriminate|]. unfold finished in Fp. rewrite Et in Fp. destruct ns2 as [|n ns2]; [|discriminate].
    rewrite app_nil_r in En. rewrite En in E. exact (D a b E).
  Qed.
End Nested.

(** * Every process gets done *)
Definition left_over (p : proc) : Z := 2 * zlen (p_todo p) - (if p_armed p then 1 else 0).
Lemma pstep_less cwd fs p : p_todo p <> [] -> left_over (snd (pstep cwd fs p)) <= left_over p - 1.
Proof.
  intros H. unfold pstep, left_over. destruct (p_todo p) as [|a l] eqn:E; [contradiction|]. pose proof (zlen_nonneg l). rewrite (zlen_cons a l).
  destruct a as [z|z|z].
  - destruct (path_exists fs cwd z); cbn [snd p_todo p_armed]; change (zlen (@nil act)) with 0; destruct (p_armed p); lia.
  - destruct (p_armed p); [destruct (fs_mkdir fs cwd z); cbn [snd p_todo p_armed]; lia|].
    destruct (path_exists fs cwd z); cbn [snd p_todo p_armed]; rewrite ?zlen_cons; lia.
  - destruct (p_armed p); [destruct (fs_remove _ fs cwd z); cbn [snd p_todo p_armed]; lia|].
    destruct (path_exists fs cwd z); cbn [snd p_todo p_armed]; rewrite ?zlen_cons; lia.
Qed.
Lemma pstep_done cwd fs p : p_todo p = [] -> pstep cwd fs p = (fs, p).
Proof. intros H. unfold pstep. now rewrite H. Qed.
Lemma all_done cwd i sched : forall fs ps p0, nth_error ps i = Some p0 -> left_over p0 <= Z.of_nat (count_occ Nat.eq_dec sched i) ->
  exists p, nth_error (snd (run cwd fs ps sched)) i = Some p /\ finished p = true.
Proof.
  assert (forall sched fs ps p0, nth_error ps i = Some p0 -> p_todo p0 = [] -> nth_error (snd (run cwd fs ps sched)) i = Some p0) as Stay.
  { intros s. induction s as [|k s IH]; intros fs ps p0 H T; cbn [run]; [exact H|]. destruct (wstep cwd fs ps k) as [f q] eqn:E. apply IH; [|exact T].
    apply nth_wstep in E as (_ & N & M). destruct (Nat.eq_dec i k) as [->|D]; [|now rewrite N]. rewrite H in M. destruct M as [_ M]. now rewrite M, pstep_done. }
  induction sched as [|k sched IH]; intros fs ps p0 H L; cbn [run].
  - exists p0. split; [exact H|]. cbn in L. unfold left_over in L. unfold finished. destruct (p_todo p0) as [|a l]; [reflexivity|].
    rewrite zlen_cons in L. pose proof (zlen_nonneg l). destruct (p_armed p0); lia.
  - destruct (p_todo p0) as [|a l] eqn:T.
    { destruct (wstep cwd fs ps k) as [f q] eqn:E. pose proof (Stay (k :: sched) fs ps p0 H T) as S. cbn [run] in S. rewrite E in S. exists p0. split; [exact S|]. unfold finished. now rewrite T. }
    destruct (wstep cwd fs ps k) as [f q] eqn:E. apply nth_wstep in E as (_ & N & M). cbn [count_occ] in L. destruct (Nat.eq_dec k i) as [->|D].
    + rewrite H in M. destruct M as [_ M]. apply (IH f q _ M). pose proof (pstep_less cwd fs p0 ltac:(congruence)). lia.
    + apply (IH f q p0); [rewrite N by congruence; exact H|exact L].
Qed.
Lemma below_len ns : forall pre, length (prefixes pre ns) = length ns.
Proof. induction ns as [|n ns IH]; intros pre; [reflexivity|]. cbn [prefixes length]. now rewrite IH. Qed.
Lemma parents_left z : left_over (parents z) = 2 * zlen (names z) + 2.
Proof. unfold left_over, parents, zlen. cbn [p_todo p_armed length]. rewrite map_length, below_len. lia. Qed.

(** * One process alone is the function *)
Lemma run_app cwd s1 : forall s2 fs ps, run cwd fs ps (s1 ++ s2) = let '(f, q) := run cwd fs ps s1 in run cwd f q s2.
Proof. induction s1 as [|k s1 IH]; intros s2 fs ps; cbn [app run]; [reflexivity|]. destruct (wstep cwd fs ps k) as [f q]. apply IH. Qed.
Lemma run_alone cwd fs p k : run cwd fs [p] (repeat 0%nat (S k)) = let '(f, q) := pstep cwd fs p in run cwd f [q] (repeat 0%nat k).
Proof. cbn [repeat run wstep]. now destruct (pstep cwd fs p). Qed.
Lemma alone_mkdir cwd fs z l ans : exists k b, run cwd fs [mk_proc (AMkdir z :: l) false ans] (repeat 0%nat k) = (fst (path_mkdir fs cwd z), [mk_proc l false (ans ++ [b])]) /\ b = snd (path_mkdir fs cwd z).
Proof.
  unfold path_mkdir. destruct (path_exists fs cwd z) eqn:E.
  - exists 1%nat, true. rewrite run_alone. unfold pstep at 1. cbn [p_todo p_armed p_answers]. rewrite E. now split.
  - destruct (fs_mkdir fs cwd z) as [f|] eqn:M; [exists 2%nat, true|exists 2%nat, false]; rewrite run_alone; unfold pstep at 1; cbn [p_todo p_armed p_answers]; rewrite E, run_alone; unfold pstep at 1; cbn [p_todo p_armed p_answers]; rewrite M; now split.
Qed.
Lemma alone_remove cwd fs z l ans : exists k b, run cwd fs [mk_proc (ARemove z :: l) false ans] (repeat 0%nat k) = (fst (path_remove (fun _ => false) fs cwd z), [mk_proc l false (ans ++ [b])]) /\ b = snd (path_remove (fun _ => false) fs cwd z).
Proof.
  unfold path_remove. destruct (path_exists fs cwd z) eqn:E; cbn [negb].
  - destruct (fs_remove _ fs cwd z) as [f|] eqn:M; [exists 2%nat, true|exists 2%nat, false]; rewrite run_alone; unfold pstep at 1; cbn [p_todo p_armed p_answers]; rewrite E, run_alone; unfold pstep at 1; cbn [p_todo p_armed p_answers]; rewrite M; now split.
  - exists 1%nat, false. rewrite run_alone. unfold pstep at 1. cbn [p_todo p_armed p_answers]. rewrite E. now split.
Qed.
Lemma alone_loop cwd z : forall ns2 ns1 fs ans, exists k ans', run cwd fs [mk_proc (acts z ns1 ns2) false ans] (repeat 0%nat k) =
  (fold_left (fun f ns => fst (path_mkdir f cwd (pfx (is_abs z) ++ slashed ns))) (prefixes ns1 ns2) fs, [mk_proc [] false ans']).
Proof.
  induction ns2 as [|n ns2 IH]; intros ns1 fs ans; unfold acts; cbn [prefixes map fold_left].
  - exists 0%nat, ans. reflexivity.
  - destruct (alone_mkdir cwd fs (pfx (is_abs z) ++ slashed (ns1 ++ [n])) (acts z (ns1 ++ [n]) ns2) ans) as (k1 & b & E1 & _).
    destruct (IH (ns1 ++ [n]) (fst (path_mkdir fs cwd (pfx (is_abs z) ++ slashed (ns1 ++ [n])))) (ans ++ [b])) as (k2 & ans' & E2).
    exists (k1 + k2)%nat, ans'. rewrite repeat_app, run_app. unfold acts in E1, E2. rewrite E1. exact E2.
Qed.
Lemma mkdir_loop_fold dbg cwd z : forall ns2 ds ns1 sfull cap fs,
  Forall rawname ns2 -> Forall2 (fun p x => exists c, srep p c x) ns2 ds ->
  srep (pfx (is_abs z) ++ slashed ns1) cap sfull -> zlen (pfx (is_abs z) ++ slashed (ns1 ++ ns2)) + 1 <= alloc_max ->
  mkdir_loop dbg cwd ds sfull fs = Ok (fold_left (fun f ns => fst (path_mkdir f cwd (pfx (is_abs z) ++ slashed ns))) (prefixes ns1 ns2) fs).
Proof.
  induction ns2 as [|n ns2 IH]; intros ds ns1 sfull cap fs F D R Hf; inversion D as [|? d ? ds' [cd Rd] D']; subst; cbn [mkdir_loop prefixes fold_left]; [reflexivity|].
  inversion F as [|? ? On F2]; subst.
  assert (0 < zlen n) as Hn0 by (destruct On as [H1 _]; destruct n; [congruence|]; rewrite zlen_cons; zlia).
  rewrite (z_ok _ _ _ Rd). cbn [bind].
  assert (zlen (slashed (ns1 ++ n :: ns2)) = zlen (slashed ns1) + zlen n + 1 + zlen (slashed ns2)) as Lt.
  { unfold slashed. rewrite flat_map_app. cbn [flat_map]. rewrite !zlen_app. zl. lia. }
  pose proof Hf as Hf0. rewrite zlen_app, Lt in Hf. pose proof (zlen_nonneg (slashed ns2)).
  destruct (append_ok dbg _ cap sfull n R) as (s1 & E1 & R1); [apply On|exact Hn0|rewrite zlen_app; destruct R; lia|].
  rewrite E1. cbn [bind].
  destruct (append_ok dbg _ _ s1 sep R1 sep_ok) as (s2 & E2 & R2); [rewrite sep_len; lia|rewrite !zlen_app, ?sep_len; destruct R; lia|].
  rewrite E2. cbn [bind]. rewrite (z_ok _ _ _ R2). cbn [bind].
  assert (((pfx (is_abs z) ++ slashed ns1) ++ n) ++ sep = pfx (is_abs z) ++ slashed (ns1 ++ [n])) as Et.
  { unfold slashed, sep. rewrite flat_map_app. cbn [flat_map]. now rewrite app_nil_r, !app_assoc. }
  rewrite Et in *. match type of R2 with srep _ ?c _ => apply (IH ds' (ns1 ++ [n]) s2 c) end; trivial. rewrite <- app_assoc. exact Hf0.
Qed.
Lemma alone_parents dbg cwd fs z : oks z -> In 47 z -> names z <> [] -> (forall a, z <> a ++ [47; 47]) -> zlen z + 2 <= alloc_max ->
  exists k fs' p, run cwd fs [parents z] (repeat 0%nat k) = (fs', [p]) /\ finished p = true /\ path_mkdir_parents dbg fs cwd z = Ok (fs', true).
Proof.
  intros O Hin Hne Hdd Hf. destruct (path_exists fs cwd z) eqn:Ex.
  - exists 1%nat, fs. eexists. split; [|split; [|unfold path_mkdir_parents; now rewrite Ex]].
    + rewrite run_alone. unfold pstep at 1, parents. cbn [p_todo]. rewrite Ex. reflexivity.
    + reflexivity.
  - destruct (mkdir_parents_loop dbg fs cwd z O Hin Hne Hdd Hf Ex) as (sf & cap & ds & E & R & D). rewrite E.
    rewrite (mkdir_loop_fold dbg cwd z (names z) ds [] sf cap fs (raw_names z O) D R) by (cbn [app]; pose proof (pfx_len z); lia). cbn [bind].
    destruct (alone_loop cwd z (names z) [] fs []) as (k & ans & Er). exists (1 + k)%nat. do 2 eexists. rewrite repeat_app, run_app. cbn [repeat].
    assert (run cwd fs [parents z] [0%nat] = (fs, [mk_proc (acts z [] (names z)) false []])) as ->. { change [0%nat] with (repeat 0%nat 1). rewrite run_alone. unfold pstep at 1, parents. cbn [p_todo]. rewrite Ex. reflexivity. }
    split; [exact Er|]. split; reflexivity.
Qed.

(** * One directory, several processes *)
Lemma run_ind cwd (G : fsys -> list proc -> Prop) :
  (forall fs ps i, G fs ps -> let '(f, q) := wstep cwd fs ps i in G f q) ->
  forall sched fs ps, G fs ps -> let '(f, q) := run cwd fs ps sched in G f q.
Proof.
  intros St sched. induction sched as [|k sched IH]; intros fs ps H; cbn [run]; [exact H|]. specialize (St fs ps k H). destruct (wstep cwd fs ps k) as [f q]. now apply IH.
Qed.
Lemma walk_mono fs f cs : (forall q e, lookup fs q = Some e -> lookup f q = Some e) -> forall cur q, walk fs cur cs = Some q -> walk f cur cs = Some q.
Proof.
  intros M. induction cs as [|c cs IH]; intros cur q H; cbn [walk] in *; [exact H|]. destruct (lookup fs cur) as [e|] eqn:L; [|discriminate]. rewrite (M _ _ L). destruct e; [|discriminate].
  destruct (name_dec c []); [now apply IH|]. destruct (name_dec c dot); [now apply IH|]. destruct (name_dec c dotdot); [now apply IH|].
  destruct (lookup fs (cur ++ [c])) as [e|] eqn:L2; [|discriminate]. rewrite (M _ _ L2). now apply IH.
Qed.
Lemma new_entry_none fs cwd z p : new_entry fs cwd z = Some p -> lookup fs p = None /\ p <> [].
Proof.
  unfold new_entry. destruct z as [|a z]; [discriminate|]. destruct (rev_comps (a :: z)) as [|c r]; [discriminate|]. destruct (special c); [discriminate|].
  destruct (walk _ _ _) as [d|]; [|discriminate]. destruct (lookup fs d) as [[]|]; try discriminate. destruct (lookup fs (d ++ [c])) eqn:L; [discriminate|].
  intros E. injection E as <-. split; [exact L|]. destruct d; discriminate.
Qed.
Lemma new_entry_taken fs cwd z p : new_entry fs cwd z = Some p -> new_entry (store fs p EDir) cwd z = None.
Proof.
  intros E. pose proof (new_entry_none fs cwd z p E) as [L N].
  assert (forall q e, lookup fs q = Some e -> lookup (store fs p EDir) q = Some e) as M.
  { intros q e H. rewrite lookup_store by exact N. destruct (path_dec q p) as [->|]; [congruence|exact H]. }
  unfold new_entry in *. destruct z as [|a z]; [reflexivity|]. destruct (rev_comps (a :: z)) as [|c r]; [reflexivity|]. destruct (special c); [reflexivity|].
  destruct (walk fs _ _) as [d|] eqn:W; [|discriminate]. rewrite (walk_mono fs _ _ M _ _ W). destruct (lookup fs d) as [e|] eqn:Ld; [|discriminate]. rewrite (M _ _ Ld). destruct e; [|discriminate].
  destruct (lookup fs (d ++ [c])) eqn:L2; [discriminate|]. injection E as <-. rewrite lookup_store by exact N. destruct (path_dec (d ++ [c]) (d ++ [c])); [reflexivity|contradiction].
Qed.
Lemma nth_map_const A B (x : B) (l : list A) i : nth_error (map (fun _ => x) l) i = match nth_error l i with Some _ => Some x | None => None end.
Proof. rewrite nth_error_map. now destruct (nth_error l i). Qed.

  Lemma wstep_split cwd fs ps : forall i, (i < length ps)%nat -> exists a q b, ps = a ++ q :: b /\ wstep cwd fs ps i = (fst (pstep cwd fs q), a ++ snd (pstep cwd fs q) :: b).
  Proof.
    revert fs. induction ps as [|q ps IH]; intros fs i H; [cbn in H; lia|]. destruct i as [|i]; cbn [wstep].
    - exists [], q, ps. destruct (pstep cwd fs q) as [f r]. now split.
    - destruct (IH fs i) as (a & r & b & -> & E); [cbn in H; lia|]. exists (q :: a), r, b. rewrite E. now split.
  Qed.
  Lemma wstep_out cwd fs ps : forall i, (length ps <= i)%nat -> wstep cwd fs ps i = (fs, ps).
  Proof. revert fs. induction ps as [|q ps IH]; intros fs i H; [reflexivity|]. destruct i as [|i]; [cbn in H; lia|]. cbn [wstep]. rewrite IH by (cbn in H; lia). reflexivity. Qed.

Section One.
  Variables (cwd : path) (fs0 : fsys) (z : list Z) (p : path).
  Definition fresh (q : proc) : Prop := p_todo q = [AMkdir z] /\ p_answers q = [].
  Definition G1 (fs : fsys) (ps : list proc) : Prop :=
    (fs = fs0 /\ Forall fresh ps) \/
    (fs = store fs0 p EDir /\ Forall (fun q => fresh q \/ exists b, q = mk_proc [] false [b]) ps /\ Exists (fun q => q = mk_proc [] false [true]) ps).
  Hypothesis X0 : path_exists fs0 cwd z = false.
  Hypothesis N0 : new_entry fs0 cwd z = Some p.

  Lemma G1_step fs ps i : G1 fs ps -> let '(f, q) := wstep cwd fs ps i in G1 f q.
  Proof.
    intros H. destruct (Nat.lt_ge_cases i (length ps)) as [Hi|Hi]; [|now rewrite wstep_out].
    destruct (wstep_split cwd fs ps i Hi) as (a & q & b & -> & ->). destruct H as [[-> F]|(-> & F & E)].
    - apply Forall_app in F as [Fa F]. inversion F as [|? ? [T A] Fb]; subst. unfold pstep. rewrite T.
      destruct (p_armed q) eqn:Ar.
      + unfold fs_mkdir. rewrite N0. cbn [fst snd]. right. split; [reflexivity|]. split.
        * apply Forall_app. split; [revert Fa; apply Forall_impl; auto|]. constructor; [right; exists true; now rewrite A|]. revert Fb. apply Forall_impl. auto.
        * apply Exists_app. right. left. now rewrite A.
      + rewrite X0. cbn [fst snd]. left. split; [reflexivity|]. apply Forall_app. split; [exact Fa|]. constructor; [|exact Fb]. now split.
    - apply Forall_app in F as [Fa F]. inversion F as [|? ? Fq Fb]; subst.
      assert (forall r, (fresh r \/ exists b, r = mk_proc [] false [b]) -> (q = mk_proc [] false [true] -> r = q) -> G1 (store fs0 p EDir) (a ++ r :: b)) as Nx.
      { intros r Hr Hq. right. split; [reflexivity|]. split; [apply Forall_app; split; [exact Fa|constructor; assumption]|].
        apply Exists_app in E as [E|E]; [apply Exists_app; now left|]. apply Exists_app. right. inversion E as [? ? Eq|? ? Eb]; subst; [left; now apply Hq|now right]. }
      destruct Fq as [[T A]|[v ->]].
      + assert (q <> mk_proc [] false [true]) as Nq by (intros ->; discriminate).
        unfold pstep. rewrite T. destruct (p_armed q) eqn:Ar.
        * unfold fs_mkdir. rewrite (new_entry_taken fs0 cwd z p N0). cbn [fst snd]. apply Nx; [right; exists false; now rewrite A|congruence].
        * destruct (path_exists (store fs0 p EDir) cwd z); cbn [fst snd]; (apply Nx; [|congruence]); [right; exists true; now rewrite A|left; now split].
      + rewrite pstep_done by reflexivity. cbn [fst snd]. apply Nx; [right; eauto|reflexivity].
  Qed.
  Theorem one_dir n sched : let '(fs, ps) := run cwd fs0 (repeat (one_mkdir z) n) sched in
    (forall q, In q ps -> p_answers q = [] \/ p_answers q = [true] \/ p_answers q = [false]) /\
    ((forall q, In q ps -> finished q = false) /\ fs = fs0 \/
     fs = store fs0 p EDir /\ exists q, In q ps /\ finished q = true /\ p_answers q = [true]).
  Proof.
    pose proof (run_ind cwd G1 G1_step sched fs0 (repeat (one_mkdir z) n)) as R.
    assert (G1 fs0 (repeat (one_mkdir z) n)) as H. { left. split; [reflexivity|]. apply Forall_forall. intros q Hq. apply repeat_spec in Hq as ->. now split. }
    specialize (R H). destruct (run cwd fs0 (repeat (one_mkdir z) n) sched) as [fs ps]. destruct R as [[-> F]|(-> & F & E)].
    - rewrite Forall_forall in F. split; [intros q Hq; left; now apply F|]. left. split; [|reflexivity]. intros q Hq. unfold finished. destruct (F q Hq) as [-> _]. reflexivity.
    - rewrite Forall_forall in F. split.
      + intros q Hq. destruct (F q Hq) as [[_ A]|[b ->]]; [now left|]. right. destruct b; [now left|now right].
      + right. split; [reflexivity|]. apply Exists_exists in E as (q & Hq & ->). exists (mk_proc [] false [true]). now repeat split.
  Qed.
End One.

(** * Removing one file, several processes *)
Section Gone.
  Variables (cwd : path) (fs0 : fsys) (z : list Z) (p : path) (w : list Z).
  Hypothesis R0 : resolve fs0 cwd z = Some p.
  Hypothesis L0 : lookup fs0 p = Some (EFile w).
  Let fs1 := remove_key fs0 p.
  Lemma gone_none : match resolve fs1 cwd z with Some q => lookup fs1 q = None | None => True end.
  Proof.
    assert (p <> []) as Np by (intros ->; discriminate).
    assert (forall q, lookup fs1 q = if path_dec q p then None else lookup fs0 q) as Lk.
    { intros q. destruct q as [|x q]; [destruct (path_dec [] p); [congruence|reflexivity]|]. now apply lookup_remove. }
    destruct (resolve fs1 cwd z) as [q|] eqn:E; [|trivial]. unfold resolve in *. destruct z as [|c z']; [discriminate|].
    assert (forall q e, lookup fs1 q = Some e -> lookup fs0 q = Some e) as M. { intros r e H. rewrite Lk in H. now destruct (path_dec r p). }
    apply (walk_mono fs1 fs0 _ M) in E. rewrite R0 in E. injection E as ->. rewrite Lk. destruct (path_dec q q); [reflexivity|contradiction].
  Qed.
  Lemma gone_exists : path_exists fs1 cwd z = false.
  Proof. unfold path_exists, fs_stat. pose proof gone_none as H. destruct (resolve fs1 cwd z) as [q|]; [now rewrite H|reflexivity]. Qed.
  Lemma gone_remove : fs_remove (fun _ => false) fs1 cwd z = None.
  Proof. unfold fs_remove. pose proof gone_none as H. destruct (resolve fs1 cwd z) as [q|]; [now rewrite H|reflexivity]. Qed.

  Definition waits (q : proc) : Prop := p_todo q = [ARemove z] /\ p_answers q = [].
  Definition lost (q : proc) : Prop := waits q \/ q = mk_proc [] false [false].
  Definition G2 (fs : fsys) (ps : list proc) : Prop :=
    (fs = fs0 /\ Forall waits ps) \/
    (fs = fs1 /\ exists a b, ps = a ++ mk_proc [] false [true] :: b /\ Forall lost a /\ Forall lost b).
  Lemma lost_step q : lost q -> fst (pstep cwd fs1 q) = fs1 /\ lost (snd (pstep cwd fs1 q)).
  Proof.
    intros [[T A]| ->]; [|rewrite pstep_done by reflexivity; split; [reflexivity|now right]]. unfold pstep. rewrite T. destruct (p_armed q).
    - rewrite gone_remove. split; [reflexivity|]. right. cbn [snd]. now rewrite A.
    - rewrite gone_exists. split; [reflexivity|]. right. cbn [snd]. now rewrite A.
  Qed.
  Lemma G2_step fs ps i : G2 fs ps -> let '(f, q) := wstep cwd fs ps i in G2 f q.
  Proof.
    intros H. destruct (Nat.lt_ge_cases i (length ps)) as [Hi|Hi]; [|now rewrite wstep_out].
    destruct (wstep_split cwd fs ps i Hi) as (a & q & b & -> & ->). destruct H as [[-> F]|(-> & a' & b' & E & Fa & Fb)].
    - apply Forall_app in F as [Fa F]. inversion F as [|? ? [T A] Fb]; subst. unfold pstep. rewrite T. destruct (p_armed q) eqn:Ar.
      + unfold fs_remove. rewrite R0, L0. cbn [fst snd]. right. split; [reflexivity|]. exists a, b. rewrite A. split; [reflexivity|].
        split; [revert Fa|revert Fb]; apply Forall_impl; intros; now left.
      + unfold path_exists, fs_stat. rewrite R0, L0. cbn [fst snd]. left. split; [reflexivity|]. apply Forall_app. split; [exact Fa|]. constructor; [now split|exact Fb].
    - assert (forall (x y : list proc) u v c d, x ++ u :: c = y ++ v :: d ->
        (exists m, y = x ++ u :: m /\ c = m ++ v :: d) \/ (x = y /\ u = v /\ c = d) \/ (exists m, x = y ++ v :: m /\ d = m ++ u :: c)) as Sp.
      { clear. induction x as [|s x IH]; intros y u v c d E; destruct y as [|t y]; cbn [app] in E; injection E as -> E.
        - right. left. auto.
        - left. exists y. now split.
        - right. right. exists x. now split.
        - apply IH in E as [(m & -> & ->)|[(-> & -> & ->)|(m & -> & ->)]]; [left; now exists m|right; left; auto|right; right; now exists m]. }
      destruct (Sp a a' q _ b b' E) as [(m & -> & ->)|[(-> & -> & ->)|(m & -> & ->)]].
      + apply Forall_app in Fa as [F1 F2]. inversion F2 as [|? ? Fq Fm]; subst. destruct (lost_step q Fq) as [-> Lq]. right. split; [reflexivity|].
        exists (a ++ snd (pstep cwd fs1 q) :: m), b'. split; [now rewrite <- app_assoc|]. split; [|exact Fb]. apply Forall_app. split; [exact F1|]. now constructor.
      + rewrite pstep_done by reflexivity. cbn [fst snd]. right. split; [reflexivity|]. exists a', b'. auto.
      + apply Forall_app in Fb as [F1 F2]. inversion F2 as [|? ? Fq Fm]; subst. destruct (lost_step q Fq) as [-> Lq]. right. split; [reflexivity|].
        exists a', (m ++ snd (pstep cwd fs1 q) :: b). split; [now rewrite <- app_assoc|]. split; [exact Fa|]. apply Forall_app. split; [exact F1|]. now constructor.
  Qed.
  Theorem one_file n sched : let '(fs, ps) := run cwd fs0 (repeat (one_remove z) n) sched in
    (fs = fs0 /\ forall q, In q ps -> finished q = false) \/
    (fs = remove_key fs0 p /\ exists a q b, ps = a ++ q :: b /\ finished q = true /\ p_answers q = [true] /\
       forall r, In r (a ++ b) -> finished r = true -> p_answers r = [false]).
  Proof.
    pose proof (run_ind cwd G2 G2_step sched fs0 (repeat (one_remove z) n)) as R.
    assert (G2 fs0 (repeat (one_remove z) n)) as H. { left. split; [reflexivity|]. apply Forall_forall. intros q Hq. apply repeat_spec in Hq as ->. now split. }
    specialize (R H). destruct (run cwd fs0 (repeat (one_remove z) n) sched) as [fs ps]. destruct R as [[-> F]|(-> & a & b & -> & Fa & Fb)].
    - left. split; [reflexivity|]. rewrite Forall_forall in F. intros q Hq. unfold finished. destruct (F q Hq) as [-> _]. reflexivity.
    - right. split; [reflexivity|]. exists a, (mk_proc [] false [true]), b. repeat split. intros r Hr Fr.
      assert (lost r) as [[T _]| ->]; [|unfold finished in Fr; rewrite T in Fr; discriminate|reflexivity].
      assert (Forall lost (a ++ b)) as Fab by (apply Forall_app; now split). rewrite Forall_forall in Fab. now apply Fab.
  Qed.
End Gone.
