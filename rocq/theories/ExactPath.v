(** Paths: what happens in the cases left out by C59, C61, C62 and C66. *)
From Coq Require Import Lia.
From Verif Require Import Base BaseFacts PlistModel StrModel StrModel2 StrSpec StrProofs StrProofs2 StrProofs3 StrMain FsModel PathModel PathProofs.

(** The text left in the string passed: its own, or question marks in a new one. *)
Definition left_text (s : option str) (z t : text) : Prop :=
  match s with Some st => exists cap, srep t cap st | None => t = repeat 63 (length z) end.

Lemma basename_core dbg s z : oks z -> In 47 z -> zlen z + 1 <= alloc_max -> target_ok s (zlen z) ->
  exists st t cap, srep t cap st /\ left_text s z t /\ zlen z <= cap /\
  path_basename dbg s z =
    let* ptr := base_loop (length z) z (zlen z - 1) in
    match ptr with
    | None => Ok (Some st)
    | Some i => let* st := str_clear st in let* st := str_append dbg st (skipn (Z.to_nat i) z) in Ok (Some st)
    end.
Proof.
  intros O Hn Hf Ht. unfold path_basename.
  assert (0 < zlen z) as Lz by (destruct z; [easy|zl; zlia]).
  change (str_can_find (S (length (sb (str_create_static z)))) (str_create_static z) sep)
    with (str_can_find (S (length (sb (as_str z)))) (as_str z) sep).
  pose proof (as_str_rep z O Hf) as R0.
  rewrite (can_find_ok _ _ _ _ _ R0) by (rewrite ?sep_len; pose proof (fuel_len _ _ _ R0); lia). cbn [bind].
  assert (zlen (split_on sep z) <> 1) as HC.
  { intros H. apply pieces_one in H; [|rewrite sep_len; lia|lia]. apply in_split in Hn as (d & b & ->). destruct (cut_sep_some d b) as (x & y & E).
    unfold sep in *. cbn [app] in E. rewrite E in H. discriminate. }
  replace (zlen (split_on sep z) - 1 =? 0) with false by lia.
  assert (exists st0 t0 cap0, (match s with Some s => Ok s | None => str_create_len dbg (zlen z) end) = Ok st0 /\ srep t0 cap0 st0 /\ left_text s z t0 /\ cap0 + (zlen z - zlen t0) + 1 <= alloc_max)
    as (st0 & t0 & cap0 & E0 & R1 & Lt & Hc).
  { destruct s as [s|].
    - destruct (Ht s eq_refl) as (t & cap & R & H). exists s, t, cap. split; [reflexivity|]. split; [exact R|]. split; [now exists cap|]. zlia.
    - destruct (create_len_ok dbg (zlen z)) as (s1 & E1 & R1 & _); [zlia|lia|]. exists s1. eexists. eexists. split; [exact E1|]. split; [exact R1|].
      split; [cbn [left_text]; unfold zlen; now rewrite Nat2Z.id|]. zl. zlia. }
  rewrite E0. cbn [bind]. rewrite (w64_small (zlen z - 1)) by zlia.
  assert (exists st1 cap1, (if str_len st0 <? zlen z then str_reserve dbg st0 (w64 (zlen z - str_len st0)) else Ok st0) = Ok st1 /\ srep t0 cap1 st1 /\ cap1 + 1 <= alloc_max /\ zlen z <= cap1)
    as (st1 & cap1 & E1 & R2 & Hc1 & Hc2).
  { unfold str_len. rewrite (r_len _ _ _ R1). destruct (zlen t0 <? zlen z) eqn:El.
    - rewrite w64_small by zlia. destruct (reserve_ok dbg t0 cap0 st0 (zlen z - zlen t0) R1) as (s' & E' & R'); [lia|lia|].
      exists s'. eexists. split; [exact E'|]. split; [exact R'|]. destruct R1. lia.
    - exists st0, cap0. split; [reflexivity|]. split; [exact R1|]. destruct R1. lia. }
  exists st1, t0, cap1. split; [exact R2|]. split; [exact Lt|]. split; [exact Hc2|].
  destruct (base_loop (length z) z (zlen z - 1)) as [p| | |]; [|reflexivity..]. cbn [bind]. rewrite E1. cbn [bind]. reflexivity.
Qed.

Lemma base_loop_none z : (forall i, 0 < i < zlen z - 1 -> nth_error z (Z.to_nat i) <> Some 47) ->
  forall k i, i < zlen z -> base_loop k z i = Ok None.
Proof.
  intros N. induction k as [|k IH]; intros i Hi; cbn [base_loop]; [reflexivity|]. destruct (0 <? i) eqn:P; [|reflexivity]. apply Z.ltb_lt in P.
  assert (Z.to_nat i < length z)%nat as Li by (unfold zlen in Hi; lia).
  destruct (nth_error z (Z.to_nat i)) as [c|] eqn:E; [|apply nth_error_None in E; lia].
  assert (bbyte (zblk z) i = Ok c) as ->.
  { apply nth_error_split in E as (a & b & -> & La). unfold zblk. rewrite map_app, <- app_assoc. cbn [map app]. apply bbyte_app. zl. unfold zlen. lia. }
  cbn [bind]. destruct (Z.eq_dec i (zlen z - 1)) as [->|Ne].
  - rewrite Z.eqb_refl. cbn [negb]. rewrite andb_false_r. apply IH. lia.
  - specialize (N i ltac:(lia)). rewrite E in N. replace (c =? 47) with false by (symmetry; apply Z.eqb_neq; intros ->; now apply N). cbn [andb]. apply IH. lia.
Qed.

(** The separators that count are those strictly inside the path. *)
Lemma basename_cases dbg s z : oks z -> zlen z + 1 <= alloc_max -> target_ok s (zlen z) ->
  (z = [] -> path_basename dbg s z = Abort) /\
  (z <> [] -> ~ In 47 z -> path_basename dbg s z = Ok s) /\
  (In 47 z -> (forall i, 0 < i < zlen z - 1 -> nth_error z (Z.to_nat i) <> Some 47) ->
     exists st t cap, path_basename dbg s z = Ok (Some st) /\ srep t cap st /\ left_text s z t) /\
  (forall d b c, z = d ++ [47] ++ b ++ [c] -> 0 < zlen d -> ~ In 47 b ->
     exists st cap, path_basename dbg s z = Ok (Some st) /\ srep (b ++ [c]) cap st).
Proof.
  intros O Hf Ht. split; [|split; [|split]].
  - intros ->. reflexivity.
  - intros Nz Hn. unfold path_basename.
    change (str_can_find (S (length (sb (str_create_static z)))) (str_create_static z) sep)
      with (str_can_find (S (length (sb (as_str z)))) (as_str z) sep).
    assert (0 < zlen z) as Lz by (destruct z; [easy|zl; zlia]).
    pose proof (as_str_rep z O Hf) as R0.
    rewrite (can_find_ok _ _ _ _ _ R0) by (rewrite ?sep_len; pose proof (fuel_len _ _ _ R0); lia). cbn [bind].
    assert (zlen (split_on sep z) = 1) as ->; [|reflexivity].
    apply pieces_one; [rewrite sep_len; lia|lia|]. apply cut_none. intros a b E. apply Hn. rewrite E. apply in_or_app. right. now left.
  - intros Hn N. destruct (basename_core dbg s z O Hn Hf Ht) as (st & t & cap & R & L & _ & E). rewrite (base_loop_none z N) in E by lia. cbn [bind] in E. now exists st, t, cap.
  - intros d b c Ez Hd Hb.
    destruct (basename_core dbg s z O) as (st & t & cap & R & L & Lc & E); [rewrite Ez; apply in_or_app; right; now left|exact Hf|exact Ht|].
    assert (base_loop (length z) z (zlen z - 1) = Ok (Some (zlen d + 1))) as EB.
    { subst z. assert (exists k, length (d ++ [47] ++ b ++ [c]) = S k /\ (length b < k)%nat) as (k & -> & Hk).
      { rewrite !app_length. cbn [length]. unfold zlen in Hd. exists (length d + S (length b))%nat. lia. }
      cbn [base_loop]. replace (zlen (d ++ [47] ++ b ++ [c]) - 1) with (zlen (d ++ [47] ++ b)) by (zl; lia).
      replace (0 <? zlen (d ++ [47] ++ b)) with true by (zl; zlia). unfold zblk.
      replace (map Some (d ++ [47] ++ b ++ [c]) ++ [Some 0]) with (map Some (d ++ [47] ++ b) ++ Some c :: [Some 0]) by (rewrite !map_app, <- !app_assoc; reflexivity).
      rewrite bbyte_app by (zl; lia). cbn [bind]. rewrite Z.eqb_refl. cbn [negb]. rewrite andb_false_r.
      replace (zlen (d ++ [47] ++ b) - 1) with (zlen d + zlen b) by (zl; lia). apply base_loop_ok; trivial. zl. zlia. }
    rewrite EB in E. cbn [bind] in E. destruct (clear_ok _ _ _ R) as (st2 & E2 & R3). rewrite E2 in E. cbn [bind] in E.
    replace (skipn (Z.to_nat (zlen d + 1)) z) with (b ++ [c]) in E.
    2:{ rewrite Ez, app_assoc. rewrite skipn_zlen; [reflexivity|zl; lia]. }
    assert (oks (b ++ [c])) as Ob. { rewrite Ez in O. apply oks_app in O. destruct O as [_ O]. apply oks_app in O. tauto. }
    pose proof (r_fit _ _ _ R) as F.
    destruct (append_ok dbg [] cap st2 (b ++ [c]) R3 Ob) as (st3 & E3 & R4); [zl; zlia|cbn [app]; rewrite Ez in Lc; zl; zlia|]. rewrite E3 in E. cbn [bind app] in *. eauto.
Qed.
(** Every path falls under one of them. *)
Lemma basename_total (z : text) : z = [] \/ (z <> [] /\ ~ In 47 z) \/
  (In 47 z /\ forall i, 0 < i < zlen z - 1 -> nth_error z (Z.to_nat i) <> Some 47) \/
  exists d b c, z = d ++ [47] ++ b ++ [c] /\ 0 < zlen d /\ ~ In 47 b.
Proof.
  destruct z as [|x z]; [now left|]. right. destruct (in_dec Z.eq_dec 47 (x :: z)) as [I|N]; [|left; now split]. right.
  destruct z as [|y z0] using rev_ind.
  - left. split; [exact I|]. intros i Hi. zl. cbn in Hi. lia.
  - clear IHz0. rename z0 into m. destruct (in_dec Z.eq_dec 47 m) as [J|N].
    + right. assert (exists a b, m = a ++ [47] ++ b /\ ~ In 47 b) as (a & b & -> & Nb).
      { clear -J. induction m as [|c m IH] using rev_ind; [easy|]. destruct (Z.eq_dec c 47) as [->|Ne].
        - exists m, []. split; [reflexivity|easy].
        - apply in_app_or in J as [J|[J|[]]]; [|congruence]. destruct (IH J) as (a & b & -> & Nb). exists a, (b ++ [c]). split; [now rewrite <- !app_assoc|].
          intros X. apply in_app_or in X as [X|[X|[]]]; [now apply Nb|congruence]. }
      exists (x :: a), b, y. split; [cbn [app]; now rewrite <- app_assoc|]. split; [zl; zlia|exact Nb].
    + left. split; [exact I|]. intros i Hi E. replace (Z.to_nat i) with (S (Z.to_nat (i - 1))) in E by lia. cbn [nth_error] in E.
      rewrite nth_error_app1 in E by (unfold zlen in Hi; cbn [length] in Hi; rewrite app_length in Hi; cbn [length] in Hi; lia). apply nth_error_In in E. now apply N.
Qed.

(** vt_path_build: nothing to join, and empty components. *)
Lemma build_nothing (dbg : bool) t cap st : srep t cap st ->
  path_build dbg (Some st) [] = (if dbg then Abort else UB) /\ path_build dbg None [] = (if dbg then Abort else UB) /\ path_build_n true None [] = Abort.
Proof. intros R. split; [reflexivity|]. split; [|reflexivity]. destruct dbg; vm_compute; reflexivity. Qed.
Lemma append_empty_debug s : str_append true s [] = Abort.
Proof. reflexivity. Qed.
Lemma append_release t cap s z : srep t cap s -> oks z -> Z.max cap (zlen t + zlen z) + 1 <= alloc_max ->
  exists s', str_append false s z = Ok s' /\ srep (t ++ z) (Z.max cap (zlen t + zlen z)) s'.
Proof.
  intros R O H. destruct z as [|x z]; [|apply append_ok; trivial; zl; zlia].
  pose proof R as [P O' L C LE RM F V]. change (zlen (@nil Z)) with 0 in *. rewrite app_nil_r. replace (Z.max cap (zlen t + 0)) with cap by lia.
  unfold str_append, str_append_n. cbn [dassert bind zlen length]. change (zlen (@nil Z)) with 0.
  assert (str_has_space s <? 0 = false) as -> by (apply Z.ltb_ge; unfold str_has_space, w64; apply Z.mod_pos_bound; reflexivity).
  cbn [bind]. unfold scopy. cbn [Z.eqb bind]. rewrite L, Z.add_0_r, w64_small by (pose proof (zlen_nonneg t); unfold two64, alloc_max in *; lia). cbn [set_len sl].
  pose proof (zlen_nonneg t). destruct (sput_ok (set_len s (zlen t)) (zlen t) 0 V) as (b' & E & Lb & Pb & _); [cbn [set_len sb]; lia|]. cbn [set_len sb sl sc sv ss] in *. rewrite E.
  eexists. split; [reflexivity|]. constructor; cbn [sb sl sc sv]; try assumption; try reflexivity; try lia.
  rewrite (pre_firstn_eq (map Some t)) in Pb; [exact Pb|exact (pre_text _ _ _ R)|zl; reflexivity].
Qed.
Lemma join_release : forall l t cap st x, srep (t ++ x) cap st -> Forall oks l -> Z.max cap (zlen (t ++ join_with sep (x :: l))) + 1 <= alloc_max ->
  exists s' cap', join_loop false st sep l = Ok s' /\ srep (t ++ join_with sep (x :: l)) cap' s'.
Proof.
  induction l as [|y l IH]; intros t cap st x R Ol Hf; cbn [join_loop].
  - exists st, cap. split; [reflexivity|exact R].
  - inversion Ol; subst. rewrite join_cons in * by discriminate.
    assert (zlen y <= zlen (join_with sep (y :: l))) as Hlen. { destruct l; [cbn [join_with]; lia|]. rewrite join_cons by discriminate. zl. zlia. }
    destruct (append_release _ cap st sep R sep_ok) as (s1 & E1 & R1); [zl; zlia|]. rewrite E1. cbn [bind].
    destruct (append_release _ _ s1 y R1) as (s2 & E2 & R2); [assumption|zl; zlia|]. rewrite E2. cbn [bind].
    destruct (IH (t ++ x ++ sep) (Z.max (Z.max cap (zlen (t ++ x) + zlen sep)) (zlen ((t ++ x) ++ sep) + zlen y)) s2 y) as (s3 & c3 & E3 & R3).
    + rewrite <- !app_assoc in *. exact R2.
    + assumption.
    + zl. zlia.
    + exists s3, c3. split; [exact E3|]. rewrite <- !app_assoc in R3. exact R3.
Qed.
Lemma build_release t cap st x l : srep t cap st -> Forall oks (x :: l) -> Z.max cap (zlen (t ++ join_with sep (x :: l))) + 1 <= alloc_max ->
  exists s' cap', path_build false (Some st) (x :: l) = Ok s' /\ srep (t ++ join_with sep (x :: l)) cap' s'.
Proof.
  intros R O H. inversion O; subst. unfold path_build, str_join. cbn [bind].
  assert (zlen x <= zlen (join_with sep (x :: l))) as Hlen. { destruct l; [cbn [join_with]; lia|]. rewrite join_cons by discriminate. zl. zlia. }
  destruct (append_release t cap st x R) as (s1 & E1 & R1); [assumption|zl; lia|]. rewrite E1. cbn [bind]. apply (join_release l t _ s1 x R1); [assumption|]. zl. lia.
Qed.
Lemma join_debug_empty : forall l1 l2 t cap st, srep t cap st -> okpieces l1 -> Z.max cap (zlen (t ++ join_with sep ([] :: l1))) + 2 <= alloc_max ->
  join_loop true st sep (l1 ++ [] :: l2) = Abort.
Proof.
  induction l1 as [|y l1 IH]; intros l2 t cap st R Ol Hf; cbn [join_loop app].
  - destruct (append_ok true t cap st sep R sep_ok) as (s1 & E1 & R1); [rewrite sep_len; lia|zl; cbn [join_with] in Hf; zl; rewrite sep_len; zlia|]. rewrite E1. reflexivity.
  - inversion Ol as [|y' l' [Oy Hy] Hl']; subst. rewrite join_cons in Hf by discriminate. cbn [app] in Hf.
    assert (zlen y <= zlen (join_with sep (y :: l1))) as Hlen. { destruct l1; [cbn [join_with]; lia|]. rewrite join_cons by discriminate. zl. zlia. }
    destruct (append_ok true t cap st sep R sep_ok) as (s1 & E1 & R1); [rewrite sep_len; lia|zl; zlia|]. rewrite E1. cbn [bind].
    destruct (append_ok true _ _ s1 y R1) as (s2 & E2 & R2); [assumption|assumption|zl; zlia|]. rewrite E2. cbn [bind].
    apply (IH l2 _ _ s2 R2 Hl'). destruct l1 as [|w l1]; [cbn [join_with] in *; zl; zlia|]. rewrite join_cons in * by discriminate. zl. zlia.
Qed.
Lemma build_debug_empty t cap st l1 l2 : srep t cap st -> okpieces l1 -> Z.max cap (zlen (t ++ join_with sep l1)) + 3 <= alloc_max ->
  path_build true (Some st) (l1 ++ [] :: l2) = Abort.
Proof.
  intros R Ol Hf. destruct l1 as [|x l1]; [reflexivity|]. inversion Ol as [|y' l' [Ox Hx] Hl']; subst. unfold path_build, str_join. cbn [app bind].
  assert (zlen x <= zlen (join_with sep (x :: l1))) as Hlen. { destruct l1; [cbn [join_with]; lia|]. rewrite join_cons by discriminate. zl. zlia. }
  destruct (append_ok true t cap st x R) as (s1 & E1 & R1); [assumption|assumption|zl; lia|]. rewrite E1. cbn [bind].
  apply (join_debug_empty l1 l2 _ _ s1 R1 Hl'). destruct l1 as [|w l1]; [cbn [join_with] in *; zl; zlia|]. rewrite join_cons in * by discriminate. cbn [app]. zl. zlia.
Qed.

(** vt_path_expand_tilda: the tilde alone and the empty path. *)
Lemma tilde_alone h : path_expand_tilda true (Some h) [126] = Abort /\ path_expand_tilda true None [126] = path_expand_tilda false None [126].
Proof. split; vm_compute; reflexivity. Qed.
Lemma tilde_empty (dbg : bool) home : if dbg then path_expand_tilda dbg home [] = Abort else exists s, path_expand_tilda dbg home [] = Ok s /\ srep [] 0 s.
Proof.
  destruct dbg; [reflexivity|]. eexists. split; [vm_compute; reflexivity|]. constructor; cbn [sb sl sc sv]; try reflexivity; try (zl; lia); try (now constructor); try (vm_compute; congruence).
  exists []. reflexivity.
Qed.

(** Reading an empty file. *)
Lemma read_empty fs cwd z : fs_stat fs cwd z = Some (EFile []) ->
  file_read true fs cwd z = Abort /\ exists s, file_read false fs cwd z = Ok (Some s) /\ sb s = [Some 0] /\ sl s = 0.
Proof.
  intros E. unfold file_read. rewrite E. assert (path_get_file_size fs cwd z = 0) as ->. { unfold path_get_file_size. rewrite E. reflexivity. }
  split; [reflexivity|]. eexists. split; [vm_compute; reflexivity|]. now split.
Qed.
