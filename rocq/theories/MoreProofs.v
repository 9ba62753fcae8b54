(** Proofs for PropsMore.v. *)
From Verif Require Import Base BaseFacts VecModel VecSpec VecProofs VecProofs2 PlistModel PlistSpec PlistProofs SpanModel
  StrModel StrModel2 StrSpec StrProofs StrProofs2 StrProofs3 StrMain FsModel PathModel FsSpec PathProofs FsProofs FsMain FsMain2.

(** * Emptiness *)
Lemma empties :
  (forall es xs cap v, vrep es xs cap v -> (vec_is_empty v = true <-> xs = [])) /\
  (forall xs cap p, prep xs cap p -> (plist_is_empty p = true <-> xs = [])) /\
  (forall t cap s, srep t cap s -> (str_is_empty s = true <-> t = [])).
Proof.
  repeat split; intros E; try (subst; reflexivity).
  - apply zlen_0. unfold vec_is_empty in E. rewrite (vr_len _ _ _ _ H) in E. lia.
  - subst. unfold vec_is_empty. rewrite (vr_len _ _ _ _ H). reflexivity.
  - apply zlen_0. unfold plist_is_empty in E. rewrite (pr_len _ _ _ H) in E. lia.
  - subst. unfold plist_is_empty. rewrite (pr_len _ _ _ H). reflexivity.
  - apply zlen_0. unfold str_is_empty in E. rewrite (r_len _ _ _ H) in E. lia.
  - subst. unfold str_is_empty. rewrite (r_len _ _ _ H). reflexivity.
Qed.

(** * Apply *)
Lemma vec_apply_offsets es n : forall i, map (fun x => Some (fst x)) (VecModel.apply_loop n es i) = offsets es i n.
Proof. induction n as [|n IH]; intros i; cbn; [reflexivity|]. now rewrite IH. Qed.
Lemma vec_apply_index es n : forall i, map snd (VecModel.apply_loop n es (Z.of_nat i)) = map Z.of_nat (seq i n).
Proof.
  induction n as [|n IH]; intros i; cbn [VecModel.apply_loop map snd seq]; [reflexivity|].
  f_equal. rewrite <- IH. do 2 f_equal. lia.
Qed.
Lemma vec_apply_ok es xs cap v : vrep es xs cap v ->
  map snd (vec_apply v) = map Z.of_nat (seq 0 (length xs)) /\
  Forall2 (fun a x => bread (a_blk v) (fst a) es = Ok (map Some x)) (vec_apply v) xs.
Proof.
  intros H. unfold vec_apply. rewrite (vr_len _ _ _ _ H), (vr_es _ _ _ _ H), to_nat_zlen. split.
  - exact (vec_apply_index es (length xs) 0).
  - pose proof (offsets_read es xs cap v H xs [] eq_refl) as F. rewrite zlen_nil in F.
    rewrite <- vec_apply_offsets in F. revert F. generalize (VecModel.apply_loop (length xs) es 0). intros l.
    generalize xs at 1 2. intros ys. revert ys. induction l as [|a l IH]; intros ys F; inversion F; subst; constructor; auto.
Qed.

Fixpoint imap (f : Z -> Z -> Z) (i : Z) (t : text) : text :=
  match t with [] => [] | c :: t' => f c i :: imap f (i + 1) t' end.

Lemma str_apply_loop (f : Z -> Z -> Z) cap : (forall c i, okc c -> okc (f c i)) ->
  forall rest s d, srep (d ++ rest) cap s ->
  exists s', StrModel2.apply_loop (length rest) s f (zlen d) = Ok s' /\ srep (d ++ imap f (zlen d) rest) cap s'.
Proof.
  intros Hg rest. induction rest as [|x rest IH]; intros s d R; cbn [length StrModel2.apply_loop imap]; [eauto|].
  rewrite (byte_mid _ _ _ _ _ R). cbn [bind].
  assert (okc x) as Ox. { destruct R as [_ O _ _ _ _ _ _]. apply oks_app in O as [_ O]. now inversion O. }
  destruct (put_mid _ _ _ _ _ (f x (zlen d)) R (Hg x (zlen d) Ox)) as (s1 & E1 & R1 & _). rewrite E1. cbn [bind].
  destruct (IH s1 (d ++ [f x (zlen d)])) as (s2 & E2 & R2); [now rewrite <- app_assoc|].
  zl. exists s2. replace (zlen d + (1 + 0)) with (zlen d + 1) in * by lia.
  split; [exact E2|]. now rewrite <- app_assoc in R2.
Qed.
Lemma str_apply_ok f t cap s : srep t cap s -> (forall c i, okc c -> okc (f c i)) ->
  exists s', str_apply s f = Ok s' /\ srep (imap f 0 t) cap s'.
Proof.
  intros R Hf. unfold str_apply. rewrite (r_len _ _ _ R), to_nat_zlen. exact (str_apply_loop f cap Hf t s [] R).
Qed.

(** * Backward iteration *)
Lemma w64_m1 : w64 (-1) = two64 - 1. Proof. reflexivity. Qed.
Lemma w64_m2 : w64 (-2) = two64 - 2. Proof. reflexivity. Qed.

Lemma bbyte_high b i : zlen b <= i -> bbyte b i = UB.
Proof. intros H. unfold bbyte. replace (i <? zlen b) with false by lia. now rewrite andb_false_r. Qed.

Lemma plist_back_step xs cap p a x r k : prep xs cap p -> xs = a ++ x :: r -> zlen r = k + 2 -> 0 <= k ->
  plist_slide_back (pslide p k) = Ok (pslide p (k + 1), x).
Proof.
  intros H E Hr Hk. pose proof H as [[tl Hb] Hl Hc Hs Hm Hle Hp].
  assert (zlen xs = zlen a + 1 + zlen r) as L by (rewrite E; autorewrite with zlen; lia).
  pose proof (zlen_nonneg a). unfold plist_slide_back. cbn [pslide p_slider p_len p_blk p_cap]. rewrite Hl.
  replace (k <? zlen xs) with true by lia. unfold alloc_max in *.
  rewrite (w64_small (k + 1)) by (unfold two64; lia). rewrite (w64_small (zlen xs - (k + 1))) by (unfold two64; lia).
  rewrite (w64_small (zlen xs - (k + 1) - 2)) by (unfold two64; lia).
  assert (slot_get (p_blk p) (zlen xs - (k + 1) - 2) = Ok x) as G.
  { unfold slot_get. rewrite Hb, E, map_app, <- app_assoc. cbn [map app]. apply bbyte_app. rewrite <- E. autorewrite with zlen; lia. }
  rewrite G. unfold pslide. rewrite Hl. reflexivity.
Qed.

Lemma plist_back_run xs cap p : prep xs cap p -> forall a r k, xs = rev a ++ r -> zlen r = k + 2 -> 0 <= k ->
  pcalls plist_slide_back (length a) (pslide p k) = Ok (pslide p (k + zlen a), a).
Proof.
  intros H. induction a as [|x a IH]; intros r k E Hr Hk; cbn [length pcalls].
  - rewrite zlen_nil. now replace (k + 0) with k by lia.
  - cbn [rev] in E. rewrite <- app_assoc in E. cbn [app] in E.
    rewrite (plist_back_step xs cap p (rev a) x r k H E Hr Hk). cbn [bind fst snd].
    rewrite (IH (x :: r) (k + 1) E) by (autorewrite with zlen; lia). cbn [bind fst snd].
    autorewrite with zlen. now replace (k + 1 + zlen a) with (k + (1 + zlen a)) by lia.
Qed.

Lemma plist_back_ub xs cap p k : prep xs cap p -> 0 <= k < zlen xs -> zlen xs - 2 <= k -> plist_slide_back (pslide p k) = UB.
Proof.
  intros H Hk Hk2. pose proof H as [[tl Hb] Hl Hc Hs Hm Hle Hp]. unfold alloc_max in *.
  unfold plist_slide_back. cbn [pslide p_slider p_len p_blk p_cap]. rewrite Hl.
  replace (k <? zlen xs) with true by lia.
  rewrite (w64_small (k + 1)) by (unfold two64; lia). rewrite (w64_small (zlen xs - (k + 1))) by (unfold two64; lia).
  unfold slot_get. rewrite bbyte_high; [reflexivity|].
  assert (zlen xs - (k + 1) - 2 = -1 \/ zlen xs - (k + 1) - 2 = -2) as [-> | ->] by lia; rewrite ?w64_m1, ?w64_m2; unfold two64; lia.
Qed.

Lemma pslide_id p : p_slider p = 0 -> pslide p 0 = p.
Proof. intros H. unfold pslide. rewrite <- H. now destruct p. Qed.

Lemma pcalls_ub f n m p q os : pcalls f n p = Ok (q, os) -> f q = UB -> (0 < m)%nat -> pcalls f (n + m) p = UB.
Proof.
  revert p q os. induction n as [|n IH]; intros p q os; cbn [pcalls Nat.add].
  - intros [= -> <-] H Hm. destruct m; [lia|]. cbn [pcalls]. now rewrite H.
  - intros E H Hm. apply bind_ok in E as (r1 & H1 & E). rewrite H1. cbn [bind].
    apply bind_ok in E as (r2 & H2 & E). injection E as <- <-.
    rewrite (IH (fst r1) (fst r2) (snd r2)); auto. rewrite H2. now destruct r2.
Qed.

Lemma plist_back_all xs cap p : prep xs cap p -> p_slider p = 0 ->
  (2 <= zlen xs -> pcalls plist_slide_back (length xs - 2) p = Ok (pslide p (zlen xs - 2), rev (firstn (length xs - 2) xs))) /\
  (xs <> [] -> pcalls plist_slide_back (length xs - 1) p = UB \/ zlen xs = 1 /\ plist_slide_back p = UB).
Proof.
  intros H H0. assert (2 <= zlen xs -> pcalls plist_slide_back (length xs - 2) p = Ok (pslide p (zlen xs - 2), rev (firstn (length xs - 2) xs))) as A.
  { intros L. rewrite <- (pslide_id p H0) at 1.
    pose proof (plist_back_run xs cap p H (rev (firstn (length xs - 2) xs)) (skipn (length xs - 2) xs) 0) as E.
    rewrite rev_involutive, firstn_skipn in E. rewrite rev_length, firstn_length in E.
    autorewrite with zlen in E. unfold zlen in L. rewrite Nat.min_l in E by lia.
    rewrite E; [|reflexivity|unfold zlen; lia|lia]. do 2 f_equal. f_equal. unfold zlen. lia. }
  split; [exact A|]. intros Hn. destruct xs as [|x [|y xs]]; [contradiction| |].
  - right. split; [reflexivity|]. rewrite <- (pslide_id p H0). apply (plist_back_ub [x] cap); [assumption| |]; unfold zlen; cbn [length]; lia.
  - left. assert (2 <= zlen (x :: y :: xs)) as L by (rewrite !zlen_cons; pose proof (zlen_nonneg xs); lia).
    replace (length (x :: y :: xs) - 1)%nat with ((length (x :: y :: xs) - 2) + 1)%nat by (cbn; lia).
    eapply pcalls_ub; [apply A, L| |lia].
    apply (plist_back_ub (x :: y :: xs) cap); [assumption|pose proof (zlen_nonneg xs); lia..].
Qed.

(** The characters vt_str_slide_back gives in [n] calls. *)
Fixpoint back_chars (n : nat) (s : str) : res (str * list Z) :=
  match n with
  | O => Ok (s, [])
  | S n' => let* r := str_slide_back s in
            match snd r with
            | None => Ok (fst r, [])
            | Some c => let* r' := back_chars n' (fst r) in Ok (fst r', c :: snd r')
            end
  end.

Lemma str_back_step t cap s a x r k : srep t cap s -> t = a ++ x :: r -> zlen r = k + 2 -> 0 <= k ->
  str_slide_back (set_slider s k) = Ok (set_slider s (k + 1), Some x).
Proof.
  intros R E Hr Hk. pose proof (r_le _ _ _ R). pose proof (r_fit _ _ _ R).
  assert (zlen t = zlen a + 1 + zlen r) as L by (rewrite E; autorewrite with zlen; lia).
  pose proof (zlen_nonneg a). unfold alloc_max in *. unfold str_slide_back, set_slider. cbn [sl ss sb sc sv]. rewrite (r_len _ _ _ R).
  replace (k <? zlen t) with true by lia. rewrite (w64_small (k + 1)) by (unfold two64; lia).
  rewrite (w64_small (zlen t - (k + 1) - 2)) by (unfold two64; lia).
  assert (bbyte (sb s) (zlen t - (k + 1) - 2) = Ok x) as ->; [|reflexivity].
  replace (zlen t - (k + 1) - 2) with (zlen a) by lia. apply (byte_mid a x r cap). now rewrite <- E.
Qed.

Lemma str_back_run t cap s : srep t cap s -> forall a r k, t = rev a ++ r -> zlen r = k + 2 -> 0 <= k ->
  back_chars (length a) (set_slider s k) = Ok (set_slider s (k + zlen a), a).
Proof.
  intros H. induction a as [|x a IH]; intros r k E Hr Hk; cbn [length back_chars].
  - rewrite zlen_nil. now replace (k + 0) with k by lia.
  - cbn [rev] in E. rewrite <- app_assoc in E. cbn [app] in E.
    rewrite (str_back_step t cap s (rev a) x r k H E Hr Hk). cbn [bind fst snd].
    rewrite (IH (x :: r) (k + 1) E) by (autorewrite with zlen; lia). cbn [bind fst snd].
    autorewrite with zlen. now replace (k + 1 + zlen a) with (k + (1 + zlen a)) by lia.
Qed.

Lemma str_back_ub t cap s k : srep t cap s -> zlen (sb s) <= alloc_max -> 0 <= k < zlen t -> zlen t - 2 <= k ->
  str_slide_back (set_slider s k) = UB.
Proof.
  intros R M Hk Hk2. pose proof (r_le _ _ _ R). pose proof (r_fit _ _ _ R). unfold alloc_max in *.
  unfold str_slide_back, set_slider. cbn [sl ss sb sc sv]. rewrite (r_len _ _ _ R).
  replace (k <? zlen t) with true by lia. rewrite (w64_small (k + 1)) by (unfold two64; lia).
  rewrite bbyte_high; [reflexivity|].
  assert (zlen t - (k + 1) - 2 = -1 \/ zlen t - (k + 1) - 2 = -2) as [-> | ->] by lia; rewrite ?w64_m1, ?w64_m2; unfold two64; lia.
Qed.

Lemma str_back_all t cap s : srep t cap s -> ss s = 0 -> zlen (sb s) <= alloc_max -> 2 <= zlen t ->
  back_chars (length t - 2) s = Ok (set_slider s (zlen t - 2), rev (firstn (length t - 2) t)) /\
  str_slide_back (set_slider s (zlen t - 2)) = UB.
Proof.
  intros H H0 M L. assert (set_slider s 0 = s) as I by (unfold set_slider; rewrite <- H0; now destruct s).
  split.
  - rewrite <- I at 1.
    pose proof (str_back_run t cap s H (rev (firstn (length t - 2) t)) (skipn (length t - 2) t) 0) as E.
    rewrite rev_involutive, firstn_skipn in E. rewrite rev_length, firstn_length in E.
    autorewrite with zlen in E. unfold zlen in L. rewrite Nat.min_l in E by lia.
    rewrite E; [|reflexivity|unfold zlen; lia|lia]. do 2 f_equal. f_equal. unfold zlen. lia.
  - apply (str_back_ub t cap); [assumption..|lia|lia].
Qed.

(** * Memory *)
Lemma memcopy_ok b dst src n : 0 <= dst -> 0 <= src -> 0 <= n -> dst + n <= zlen b -> src + n <= zlen b ->
  dst + n <= src \/ src + n <= dst ->
  vt_memcopy b dst src n = bmove b dst src n.
Proof.
  intros. unfold vt_memcopy, bmove, bcopy_in. destruct (n =? 0) eqn:E; [reflexivity|].
  destruct (bread b src n); cbn [bind]; try reflexivity. destruct (dst =? src); [reflexivity|].
  replace ((dst <? src + n) && (src <? dst + n)) with false by lia. reflexivity.
Qed.
Lemma memcopy_both a x m y c : zlen x = zlen y ->
  vt_memcopy (a ++ x ++ m ++ y ++ c) (zlen a) (zlen a + zlen x + zlen m) (zlen x) = Ok (a ++ y ++ m ++ y ++ c) /\
  vt_memcopy (a ++ x ++ m ++ y ++ c) (zlen a + zlen x + zlen m) (zlen a) (zlen x) = Ok (a ++ x ++ m ++ x ++ c).
Proof.
  intros H. pose proof (zlen_nonneg a). pose proof (zlen_nonneg x). pose proof (zlen_nonneg m). pose proof (zlen_nonneg c).
  split; rewrite memcopy_ok by (autorewrite with zlen; lia); unfold bmove; destruct (zlen x =? 0) eqn:E.
  - assert (x = []) as -> by (apply zlen_0; lia). assert (y = []) as -> by (apply zlen_0; lia). reflexivity.
  - replace (a ++ x ++ m ++ y ++ c) with ((a ++ x ++ m) ++ y ++ c) at 1 by now rewrite <- !app_assoc.
    rewrite bread_app by (autorewrite with zlen; lia). cbn [bind]. now rewrite bwrite_app by lia.
  - assert (x = []) as -> by (apply zlen_0; lia). assert (y = []) as -> by (apply zlen_0; lia). reflexivity.
  - rewrite bread_app by lia. cbn [bind]. replace (a ++ x ++ m ++ y ++ c) with ((a ++ x ++ m) ++ y ++ c) by now rewrite <- !app_assoc.
    rewrite bwrite_app by (autorewrite with zlen; lia). now rewrite <- !app_assoc.
Qed.
Lemma memset_ok p m s value : vt_memset (p ++ m ++ s) (zlen p) value (zlen m) =
  Ok (p ++ repeat (Some (value mod 256)) (length m) ++ s).
Proof.
  unfold vt_memset. destruct (zlen m =? 0) eqn:E.
  - assert (m = []) as -> by (apply zlen_0; lia). reflexivity.
  - rewrite to_nat_zlen. apply bwrite_app; [reflexivity|]. unfold zlen. now rewrite repeat_length.
Qed.

(** * vt_str_is_numeric_z *)
Lemma numeric_z_ok dbg z : 0 < zlen z ->
  forall n, 0 < n <= zlen z -> str_is_numeric_z dbg z n = Ok (forallb numch (firstn (Z.to_nat n) z)).
Proof.
  intros Hz n Hn. unfold str_is_numeric_z. rewrite dassert_true by lia. cbn [bind].
  assert (forall k a r, z = a ++ r -> (k <= length r)%nat -> numeric_loop k (zblk z) (zlen a) = Ok (forallb numch (firstn k r))) as H.
  { induction k as [|k IH]; intros a r E L; [reflexivity|]. destruct r as [|x r]; [cbn in L; lia|].
    cbn [numeric_loop firstn forallb].
    assert (bbyte (zblk z) (zlen a) = Ok x) as ->.
    { unfold zblk. rewrite E, map_app, <- app_assoc. cbn [map app]. apply bbyte_app. now autorewrite with zlen. }
    cbn [bind]. rewrite numch_eq. destruct (numch x); cbn [negb andb]; [|reflexivity].
    replace (zlen a + 1) with (zlen (a ++ [x])) by (autorewrite with zlen; lia). apply IH; [now rewrite <- app_assoc|cbn in L; lia]. }
  apply (H _ [] z eq_refl). unfold zlen in Hn. lia.
Qed.

(** * Path queries *)
Lemma stat_plain fs cwd z : wf fs -> plain z -> names z <> [] ->
  fs_stat fs cwd z = match lookup fs (target cwd z) with
                     | Some (EFile c) => if (last z 0 =? 47) then None else Some (EFile c)
                     | x => x
                     end.
Proof.
  intros W P Hn. assert (z <> []) as Hz by (intros ->; now apply Hn).
  unfold fs_stat. destruct (lookup fs (target cwd z)) as [[|c]|] eqn:L.
  - rewrite resolve_dir by assumption. exact L.
  - destruct (last z 0 =? 47) eqn:E.
    + destruct (resolve fs cwd z) as [p|] eqn:R; [|reflexivity]. exfalso.
      pose proof (resolve_inv _ _ _ _ P R) as [_ ->].
      rewrite resolve_walk in R by assumption.
      destruct (exists_last Hz) as (y & c0 & Ez). subst z. rewrite last_last in E. apply Z.eqb_eq in E. subst c0.
      change (y ++ [47]) with (y ++ 47 :: []) in R. rewrite comps_app, walk_app in R.
      destruct (walk fs (start cwd (y ++ [47])) (comps y)) as [q|] eqn:Q; [|discriminate].
      cbn [comps] in R. rewrite walk_nil in R. destruct (lookup fs q) as [[|]|] eqn:Lq; try discriminate.
      cbn [walk] in R. injection R as ->. congruence.
    + destruct (exists_last Hn) as (ns & n & En).
      assert (resolve fs cwd z = Some (target cwd z)) as ->; [|exact L].
      rewrite resolve_walk by assumption. unfold target. rewrite En.
      assert (exists cs, comps z = cs ++ [n] /\ filter nonempty cs = ns) as (cs & Ec & Ef).
      { assert (last (comps z) [] <> []) as Hm.
        { apply last_comp; [exact Hz|]. intros a ->. rewrite last_last in E. discriminate. }
        assert (comps z <> []) as Hc by (intros X; rewrite X in Hm; now apply Hm).
        destruct (exists_last Hc) as (cs & m & Em). rewrite Em, last_last in Hm.
        exists cs. unfold names in En. rewrite Em, filter_app in En. cbn [filter] in En.
        assert (nonempty m = true) as Nm by (destruct m; [contradiction|reflexivity]). rewrite Nm in En.
        apply app_inj_tail in En as [-> ->]. split; [exact Em|reflexivity]. }
      pose proof (plain_comps _ P) as F. rewrite Ec in *. apply Forall_app in F as [F1 F2]. inversion F2 as [|? ? On _]; subst.
      assert (okname n) as On'.
      { destruct On as [->|On]; [|exact On]. exfalso.
        assert (In [] (names z)) as I by (rewrite En; apply in_or_app; right; left; reflexivity).
        unfold names in I. apply filter_In in I as [_ I]. discriminate. }
      rewrite walk_entry; auto. unfold target in L. rewrite En in L. rewrite L. discriminate.
  - rewrite resolve_missing by assumption. reflexivity.
Qed.

(** What the path denotes, if anything: a path ending in a separator denotes only a
    directory. *)
Definition denoted (fs : fsys) (cwd : path) (z : text) : option entry :=
  match lookup fs (target cwd z) with
  | Some (EFile c) => if last z 0 =? 47 then None else Some (EFile c)
  | x => x
  end.

Lemma queries_ok fs cwd z : wf fs -> plain z -> names z <> [] ->
  (path_exists fs cwd z = true <-> denoted fs cwd z <> None) /\
  (path_is_dir fs cwd z = true <-> denoted fs cwd z = Some EDir) /\
  (path_is_file fs cwd z = true <-> exists c, denoted fs cwd z = Some (EFile c)) /\
  (forall c, denoted fs cwd z = Some (EFile c) -> path_get_file_size fs cwd z = zlen c) /\
  (path_get_file_size fs cwd z = -1 <-> denoted fs cwd z = None).
Proof.
  intros W P Hn. pose proof (stat_plain fs cwd z W P Hn) as E. fold (denoted fs cwd z) in E.
  unfold path_exists, path_is_dir, path_is_file, path_get_file_size. rewrite E.
  destruct (denoted fs cwd z) as [[|c]|]; cbn [size_of]; repeat split; intros; try congruence; try discriminate; eauto.
  - destruct H as [? H]. discriminate.
  - pose proof (zlen_nonneg c). lia.
  - destruct H as [? H]. discriminate.
Qed.

(** * The file writing functions *)
Lemma writers_ok dbg fs cwd z ns n w (append ln : bool) (txt : text) :
  In (w, append, ln)
    [(file_write, false, false); (file_writeln, false, true); (file_append, true, false); (file_appendln, true, true);
     (file_writef, false, false); (file_writefln, false, true)] ->
  let old := match lookup fs (target cwd z) with Some (EFile c) => if append then c else [] | _ => [] end in
  let c := old ++ txt ++ (if ln then [10] else []) in
  wf fs -> plain z -> (forall a, z <> a ++ [47]) -> names z = ns ++ [n] ->
  lookup fs (start cwd z ++ ns) = Some EDir -> lookup fs (target cwd z) <> Some EDir ->
  0 < zlen c \/ dbg = false -> zlen c + 1 <= alloc_max ->
  exists fs' s, w fs cwd z txt = (fs', true) /\ wf fs' /\
    lookup fs' (target cwd z) = Some (EFile c) /\ (forall q, q <> target cwd z -> lookup fs' q = lookup fs q) /\
    file_read dbg fs' cwd z = Ok (Some s) /\ sb s = map Some c ++ [Some 0] /\ sl s = zlen c.
Proof.
  intros I. cbn [In] in I. repeat destruct I as [I|I]; try contradiction; injection I as <- <- <-;
    [exact (write_read dbg fs cwd z ns n false false txt)|exact (write_read dbg fs cwd z ns n false true txt)
    |exact (write_read dbg fs cwd z ns n true false txt)|exact (write_read dbg fs cwd z ns n true true txt)
    |exact (write_read dbg fs cwd z ns n false false txt)|exact (write_read dbg fs cwd z ns n false true txt)].
Qed.
