(** Outcomes in the remaining cases: leap years and month lengths of every year, popping the empty path, single
    directories for every path, ports beyond 16 bits, waits of any length, typed calls with types too wide, NaNs,
    the string lost by vt_str_split_between, paths with composed last pieces, columns out of range. *)
From Coq Require Import Reals.
From Flocq Require Import IEEE754.Binary.
From Verif Require Import Base BaseFacts VecModel VecSpec VecProofs SpanModel TypedModel TypedSpec TypedProofs DtModel DtProofs DtProofs2 NumModel SockModel SockProofs FloatModel OwnModel OwnSpec OwnProofs StrModel StrModel2 StrSpec StrProofs StrProofs2 StrProofs3 StrMain FsModel FsSpec FsProofs FsMain PathModel PathProofs ExactPath PathLaws MatModel MatProofs MatMain.
Local Open Scope list_scope.
Local Open Scope Z_scope.

(** * Dates *)
Lemma leap_every y : is_leap_year y = (y <? 0) || (y mod 4 =? 0).
Proof.
  unfold is_leap_year, min_year. destruct (y <? 0) eqn:E; [reflexivity|]. cbn [orb]. rewrite Z.rem_mod_nonneg by lia. reflexivity.
Qed.
Lemma year_every y : find_days_in_year y = if (y <? 0) || (y mod 4 =? 0) then 366 else 365.
Proof. unfold find_days_in_year. now rewrite leap_every. Qed.
Lemma month_every y m : find_days_in_month y m =
  mlen ((y <? 0) || (0 <? y) && (y mod 4 =? 0)) (Z.max 1 (Z.min 12 m) - 1).
Proof.
  unfold find_days_in_month. rewrite leap_every.
  assert ((if m <? 1 then 1 else if 12 <? m then 12 else m) = Z.max 1 (Z.min 12 m)) as -> by (destruct (m <? 1) eqn:?, (12 <? m) eqn:?; lia).
  replace ((0 <? (if y <? 0 then min_year else y)) && ((y <? 0) || (y mod 4 =? 0))) with ((y <? 0) || (0 <? y) && (y mod 4 =? 0)).
  2:{ unfold min_year. destruct (y <? 0) eqn:E; [reflexivity|]. reflexivity. }
  set (k := Z.max 1 (Z.min 12 m)). assert (1 <= k <= 12) as K by (unfold k; lia). clearbody k.
  assert (k = 1 \/ k = 2 \/ k = 3 \/ k = 4 \/ k = 5 \/ k = 6 \/ k = 7 \/ k = 8 \/ k = 9 \/ k = 10 \/ k = 11 \/ k = 12) as C by lia.
  repeat destruct C as [->|C]; try subst k; destruct ((y <? 0) || (0 <? y) && (y mod 4 =? 0)); reflexivity.
Qed.

(** * Popping the empty path *)
Lemma pop_empty q : zlen q < alloc_max -> path_pop (Some 0 :: q) = UB.
Proof.
  intros H. unfold path_pop. assert (cstr (Some 0 :: q) = Ok []) as -> by reflexivity. cbn [bind].
  assert (str_len (str_create_static []) = 0) as -> by reflexivity.
  assert (bbyte (Some 0 :: q) (w64 (0 - 1)) = UB) as ->; [|reflexivity].
  change (w64 (0 - 1)) with 18446744073709551615. unfold bbyte.
  replace (18446744073709551615 <? zlen (Some 0 :: q)) with false; [reflexivity|].
  symmetry. apply Z.ltb_ge. rewrite zlen_cons. unfold alloc_max in H. lia.
Qed.

(** * Single directories *)
Lemma mkdir_exists fs cwd z : path_exists fs cwd z = true -> path_mkdir fs cwd z = (fs, true).
Proof. intros H. unfold path_mkdir. now rewrite H. Qed.
Lemma comps_trail c k : ~ In 47 c -> comps (c ++ repeat 47 k) = c :: repeat [] k.
Proof.
  intros N. destruct k as [|k]; [cbn [repeat]; rewrite app_nil_r; now apply comps_name|].
  cbn [repeat]. rewrite comps_app, (comps_name c N). cbn [app]. f_equal. clear. induction k as [|k IH]; [reflexivity|].
  cbn [repeat]. change (47 :: repeat 47 k) with ([] ++ 47 :: repeat 47 k). rewrite comps_app, IH. reflexivity.
Qed.
Lemma drop_repeat k l : drop_nil (repeat [] k ++ l) = drop_nil l.
Proof. induction k; [reflexivity|assumption]. Qed.
Lemma repeat_rev A (x : A) k : rev (repeat x k) = repeat x k.
Proof. induction k as [|k IH]; [reflexivity|]. cbn [repeat rev]. rewrite IH. symmetry. apply repeat_cons. Qed.
Lemma rev_comps_name c k : ~ In 47 c -> c <> [] -> rev_comps (c ++ repeat 47 k) = [c].
Proof.
  intros N E. unfold rev_comps. rewrite comps_trail by assumption. cbn [rev]. rewrite repeat_rev, drop_repeat. destruct c; [congruence|reflexivity].
Qed.
Lemma rev_comps_below d c k : ~ In 47 c -> c <> [] -> rev_comps (d ++ 47 :: c ++ repeat 47 k) = c :: rev (comps d).
Proof.
  intros N E. unfold rev_comps. rewrite comps_app, comps_trail, rev_app_distr by assumption. cbn [rev].
  rewrite repeat_rev, <- !app_assoc, drop_repeat. destruct c; [congruence|reflexivity].
Qed.
Definition made (fs : fsys) (p : path) (c : name) : fsys * bool :=
  match lookup fs p, lookup fs (p ++ [c]) with
  | Some EDir, None => if special c then (fs, false) else (store fs (p ++ [c]) EDir, true)
  | _, _ => (fs, false)
  end.
Lemma mkdir_below fs cwd d c k : c <> [] -> ~ In 47 c -> let z := d ++ 47 :: c ++ repeat 47 k in path_exists fs cwd z = false ->
  path_mkdir fs cwd z = match match d with [] => Some [] | _ => resolve fs cwd d end with Some p => made fs p c | None => (fs, false) end.
Proof.
  intros Hc N z X. unfold path_mkdir. rewrite X. unfold fs_mkdir, new_entry.
  assert (exists x y, z = x :: y) as (x & y & Ez) by (unfold z; destruct d; cbn; eauto).
  rewrite Ez. rewrite <- Ez. unfold z at 1. rewrite rev_comps_below by assumption. rewrite rev_involutive.
  assert (walk fs (start cwd z) (comps d) = match d with [] => match lookup fs [] with Some EDir => Some [] | _ => None end | _ => resolve fs cwd d end) as ->.
  { unfold z. destruct d as [|d0 d]; [|reflexivity]. cbn. reflexivity. }
  unfold made. destruct d as [|d0 d].
  - destruct (lookup fs []) as [[]|] eqn:L; try (now destruct (special c)). rewrite L. destruct (lookup fs ([] ++ [c])); now destruct (special c).
  - destruct (resolve fs cwd (d0 :: d)) as [p|]; [|now destruct (special c)].
    destruct (lookup fs p) as [[]|]; try (now destruct (special c)). destruct (lookup fs (p ++ [c])); now destruct (special c).
Qed.
Lemma mkdir_here fs cwd c k : c <> [] -> ~ In 47 c -> let z := c ++ repeat 47 k in path_exists fs cwd z = false -> path_mkdir fs cwd z = made fs cwd c.
Proof.
  intros Hc N z X. unfold path_mkdir. rewrite X. unfold fs_mkdir, new_entry.
  destruct c as [|c0 c']; [congruence|]. assert (z = c0 :: c' ++ repeat 47 k) as Ez by reflexivity.
  rewrite Ez. rewrite <- Ez. unfold z at 1. rewrite rev_comps_name by assumption.
  assert (start cwd z = cwd) as ->. { unfold start, z. cbn [app]. replace (c0 =? 47) with false; [reflexivity|]. symmetry. apply Z.eqb_neq. intros ->. apply N. now left. }
  cbn [rev walk]. unfold made. destruct (lookup fs cwd) as [[]|]; try (now destruct (special (c0 :: c'))).
  destruct (lookup fs (cwd ++ [c0 :: c'])); now destruct (special (c0 :: c')).
Qed.
Lemma mkdir_nothing fs cwd k : path_exists fs cwd (repeat 47 k) = false -> path_mkdir fs cwd (repeat 47 k) = (fs, false).
Proof.
  intros X. unfold path_mkdir. rewrite X. unfold fs_mkdir, new_entry. destruct k as [|k]; [reflexivity|]. cbn [repeat].
  assert (rev_comps (47 :: repeat 47 k) = []) as ->; [|reflexivity].
  unfold rev_comps. change (47 :: repeat 47 k) with ([] ++ repeat 47 (S k)). rewrite comps_trail by (intros []). cbn [rev].
  rewrite repeat_rev, drop_repeat. reflexivity.
Qed.
Lemma mkdir_shapes (z : list Z) : (exists k, z = repeat 47 k) \/ exists c k, c <> [] /\ ~ In 47 c /\ (z = c ++ repeat 47 k \/ exists d, z = d ++ 47 :: c ++ repeat 47 k).
Proof.
  induction z as [|x z IH]; [left; now exists 0%nat|]. destruct IH as [[k ->]|(c & k & Hc & N & H)].
  - destruct (Z.eq_dec x 47) as [->|D]; [left; now exists (S k)|]. right. exists [x], k. split; [discriminate|]. split; [intros [->|[]]; congruence|]. now left.
  - right. destruct H as [->|[d ->]].
    + destruct (Z.eq_dec x 47) as [->|D]; [exists c, k; repeat split; trivial; right; now exists []|].
      exists (x :: c), k. split; [discriminate|]. split; [intros [->|H]; [congruence|tauto]|]. now left.
    + exists c, k. repeat split; trivial. right. now exists (x :: d).
Qed.

(** * Ports and waits *)
Lemma htons_mod p : htons p = htons (p mod 65536).
Proof. unfold htons. now rewrite Z.mod_mod by lia. Qed.
Lemma ports_every tcp port u : startup_server tcp port u = startup_server tcp (port mod 65536) u.
Proof. unfold startup_server. now rewrite htons_mod. Qed.
Lemma address_every port a : socket_make_address port a = socket_make_address (port mod 65536) a.
Proof.
  unfold socket_make_address. f_equal. unfold htons. now rewrite !signed16_mod, Z.mod_mod by lia.
Qed.
Lemma wait_every t : (t mod 2 ^ 32 < 2 ^ 31 -> poll_timeout t = t mod 2 ^ 32) /\ (2 ^ 31 <= t mod 2 ^ 32 -> poll_timeout t < 0).
Proof.
  unfold poll_timeout, to_signed. change (2 ^ (32 - 1)) with (2 ^ 31). pose proof (Z.mod_pos_bound t (2 ^ 32) ltac:(lia)).
  destruct (t mod 2 ^ 32 <? 2 ^ 31) eqn:E; lia.
Qed.

(** * Types wider than the elements *)
Lemma wide_val t b m off x es : width t < es -> copy_val b m off (Ext (enc t x)) es = UB.
Proof.
  intros H. unfold copy_val, bread. rewrite zlen_map, enc_len. replace (0 + es <=? width t) with false by lia. now rewrite andb_false_r.
Qed.

(** * NaNs *)
Lemma nan_lt prec emax (x y : binary_float prec emax) : is_nan prec emax x = true \/ is_nan prec emax y = true -> f_lt x y = false.
Proof. intros H. unfold f_lt. destruct x, y; cbn in *; try reflexivity; destruct H; discriminate. Qed.
Lemma nan_min_max prec emax (x y : binary_float prec emax) : is_nan prec emax x = true \/ is_nan prec emax y = true -> f_min x y = y /\ f_max x y = y.
Proof. intros H. unfold f_min, f_max. rewrite (nan_lt _ _ x y H), (nan_lt _ _ y x) by tauto. now split. Qed.

(** * The lost string *)
Lemma between_lost z zl zr l r L : wfl L -> strstr z zl = Some l -> strstr z zr = Some r -> r <= l ->
  exists x L', own_split_between None z zl zr L = (None, L') /\ gains L L' [x].
Proof.
  intros W El Er H. unfold own_split_between. rewrite El, Er. pose proof (new_gains L W) as G. destruct (l_new L) as [x L0].
  replace (l <? r) with false by lia. exists x, L0. now split.
Qed.

(** * Columns out of range *)
Lemma column_wraps i j c : 0 < c -> index_2d_to_1d i j c = index_2d_to_1d (i + j / c) (j mod c) c.
Proof.
  intros H. unfold index_2d_to_1d, w64. rewrite !Zplus_mod_idemp_l. f_equal. pose proof (Z.div_mod j c). nia.
Qed.

Lemma wide_back dbg t es xs cap v x : vrep es xs cap v -> width t < es -> grown (zlen xs) cap * es <= alloc_max -> vec_push_back_t dbg t v x = UB.
Proof.
  intros H W G. destruct (vec_grow_rep dbg es xs cap v H G) as (v' & m & E & R & _). unfold vec_push_back_t, vec_push_back. rewrite E. cbn [bind fst snd].
  rewrite wide_val by (destruct R; lia). reflexivity.
Qed.
Lemma wide_insert dbg t es xs cap v x i : vrep es xs cap v -> width t < es -> grown (zlen xs) cap * es <= alloc_max -> 0 <= i < zlen xs -> vec_insert_t dbg t v x i = UB.
Proof.
  intros H W G I. destruct (vec_grow_rep dbg es xs cap v H G) as (v' & m & E & R & _). unfold vec_insert_t, vec_insert.
  rewrite dassert_true by (destruct H; lia). cbn [bind]. rewrite E. cbn [bind fst snd].
  match goal with |- bind ?m _ = UB => assert (m = UB \/ exists b, m = Ok b) as [->|[b ->]] end; [|reflexivity|].
  { unfold bmove. destruct (_ =? 0); [right; eauto|]. unfold bread. destruct (_ && _); [|now left]. cbn [bind]. unfold bwrite. destruct (_ && _); [right; eauto|now left]. }
  cbn [bind]. rewrite wide_val by (destruct R; lia). reflexivity.
Qed.
Lemma wide_front dbg t es xs cap v x : vrep es xs cap v -> width t < es -> grown (zlen xs) cap * es <= alloc_max -> vec_push_front_t dbg t v x = UB.
Proof.
  intros H W G. unfold vec_push_front_t, vec_push_front. destruct (vec_len v =? 0) eqn:E; [exact (wide_back dbg t es xs cap v x H W G)|].
  apply (wide_insert dbg t es xs cap v x 0 H W G). unfold vec_len in E. destruct H. pose proof (zlen_nonneg xs). lia.
Qed.
Lemma wide_set dbg t es xs cap v x i : vrep es xs cap v -> width t < es -> 0 <= i < zlen xs -> vec_set_t dbg t v x i = UB.
Proof.
  intros H W I. unfold vec_set_t, vec_set. rewrite dassert_true by (destruct H; lia). cbn [bind]. unfold array_set.
  rewrite dassert_true by (destruct H; lia). cbn [bind].
  rewrite wide_val by (destruct H; lia). reflexivity.
Qed.

(** * Paths whose last piece is composed *)
Lemma build_composed dbg x l b : okpieces (x :: l ++ [b]) -> zlen (join_with [47] (x :: l ++ [b])) + 1 <= alloc_max ->
  exists s, path_build dbg None (x :: l ++ [b]) = Ok s /\ str_z s = Ok (join_with [47] (x :: l) ++ [47] ++ b) /\
  (forall d e c, b = d ++ [47] ++ e ++ [c] -> ~ In 47 e ->
     exists st cap, path_basename dbg None (join_with [47] (x :: l ++ [b])) = Ok (Some st) /\ srep (e ++ [c]) cap st) /\
  (forall e, b = e ++ [47] -> ~ In 47 e ->
     exists st cap, path_basename dbg None (join_with [47] (x :: l ++ [b])) = Ok (Some st) /\ srep (e ++ [47]) cap st) /\
  (forall d e, b = d ++ [47] ++ e -> ~ In 47 e ->
     exists blk, path_pop (sb s) = Ok blk /\ cstr blk = Ok (join_with [47] (x :: l) ++ [47] ++ d)).
Proof.
  intros O A. destruct (build_new_ok dbg x (l ++ [b]) O A) as (s & E & R).
  pose proof O as O'. rewrite app_comm_cons in O'. apply Forall_app in O' as [O1 O2]. inversion O2 as [|? ? [Ob Lb] _]; subst.
  set (p := join_with [47] (x :: l)). pose proof (r_ok _ _ _ R) as Od. change sep with [47] in *. rewrite join_last in *. fold p in A, R, Od |- *.
  assert (0 < zlen p) as Lp.
  { unfold p. inversion O1 as [|? ? [Ox Lx] _]; subst. destruct l as [|y l]; [exact Lx|]. change (0 < zlen (x ++ [47] ++ join_with [47] (y :: l))). rewrite zlen_app. pose proof (zlen_nonneg ([47] ++ join_with [47] (y :: l))). lia. }
  destruct (basename_cases dbg None (p ++ [47] ++ b) Od A ltac:(intros r Hr; discriminate)) as (_ & _ & _ & B).
  exists s. split; [exact E|]. split; [exact (z_ok _ _ _ R)|]. split; [|split].
  - intros d e c -> N. apply (B (p ++ [47] ++ d) e c); [now rewrite <- !app_assoc|rewrite zlen_app; pose proof (zlen_nonneg ([47] ++ d)); lia|exact N].
  - intros e -> N. apply (B p e 47); [reflexivity|exact Lp|exact N].
  - intros d e -> N. destruct (r_pre _ _ _ R) as [q Q]. unfold zblk in Q. rewrite <- app_assoc in Q. cbn [app] in Q.
    assert (p ++ [47] ++ d ++ [47] ++ e = (p ++ [47] ++ d) ++ [47] ++ e) as X by now rewrite <- !app_assoc.
    exists (map Some (p ++ [47] ++ d) ++ Some 0 :: map Some e ++ Some 0 :: q). split.
    + rewrite Q. change (p ++ 47 :: d ++ 47 :: e) with (p ++ [47] ++ d ++ [47] ++ e). rewrite X. apply pop_ok; rewrite <- ?X; assumption.
    + apply cstr_app. apply oks_nonul. rewrite X in Od. apply Forall_app in Od. tauto.
Qed.

(** * Joining and splitting, replacing twice *)
Lemma join_split_every dbg sep x l ps : oks sep -> 0 < zlen sep -> okpieces (x :: l) -> zlen (join_with sep (x :: l)) + 1 <= alloc_max ->
  scan sep (join_with sep (x :: l)) ps -> zlen sep <= zlen (join_with sep (x :: l)) ->
  exists s, str_join dbg None sep (x :: l) = Ok s /\ str_z s = Ok (join_with sep (x :: l)) /\
    (zlen ps = 1 -> str_split dbg (lf s) s sep = Ok None) /\
    (1 < zlen ps -> (forall l', ps <> l' ++ [[]; []]) ->
      exists qs, str_split dbg (lf s) s sep = Ok (Some qs) /\ Forall2 (fun p q => str_z q = Ok p) (filter nonempty ps) qs).
Proof.
  intros Os Hs Hl Hf Sc Hle. destruct (join_new_ok dbg sep x l Os Hs Hl Hf) as (s & E & R). exists s. split; [exact E|]. split; [exact (z_ok _ _ _ R)|].
  destruct (split_scan dbg _ _ _ _ _ R (conj Hs Hle) Sc) as [A B]. split; [exact A|]. intros H1 H2. destruct (B H1 H2) as (qs & Eq & F).
  exists qs. split; [exact Eq|]. clear - F. induction F as [|p q ps' qs Rp F IH]; constructor; [exact (z_ok _ _ _ Rp)|assumption].
Qed.
Lemma replace_twice dbg t cap s sub rsub ps qs : srep t cap s -> 0 < zlen sub -> 0 < zlen rsub -> oks sub -> oks rsub ->
  scan sub t ps -> scan rsub (join_with rsub ps) qs ->
  zlen (join_with sub qs) + zlen (join_with rsub ps) + cap + 1 <= alloc_max ->
  exists s1 s2 cap2, str_replace dbg (lf s) s sub rsub = Ok s1 /\ str_z s1 = Ok (join_with rsub ps) /\
    str_replace dbg (lf s1) s1 rsub sub = Ok s2 /\ srep (join_with sub qs) cap2 s2.
Proof.
  intros R Hs Hr Os Or Sc Sc2 A. pose proof (zlen_nonneg (join_with sub qs)). pose proof (zlen_nonneg (join_with rsub ps)). pose proof (r_le _ _ _ R). pose proof (zlen_nonneg t).
  destruct (replace_scan dbg t cap s sub rsub ps R Hs Hr Or Sc) as (Et & s1 & cap1 & E1 & R1); [lia|].
  assert (cap1 + 1 <= alloc_max) as C1 by exact (r_fit _ _ _ R1).
  destruct (replace_scan dbg (join_with rsub ps) cap1 s1 rsub sub qs R1 Hr Hs Os Sc2) as (_ & s2 & cap2 & E2 & R2); [lia|].
  exists s1, s2, cap2. pose proof (z_ok _ _ _ R1). tauto.
Qed.

(** * Reading a matrix with another type *)
Lemma mat_read dbg ty el m t i j : is_table el m t -> 0 <= i < t_rows t -> 0 <= j < t_cols t ->
  mat_get_t dbg ty m i j =
    match m_blk m with Some b => deref ty b ((i * t_cols t + j) * el) | None => UB end.
Proof.
  intros (Hr & Hc & He & Hb & (b & -> & Lb & G)) Hi Hj. unfold mat_get_t, mat_get.
  assert (in_bounds (mk_mat (Some b) (t_rows t) (t_cols t) el) i j = true) as ->.
  { unfold in_bounds. cbn [m_rows m_cols]. lia. }
  cbn [negb bind m_blk].
  destruct (offset_eq (t_rows t) (t_cols t) el Hr Hc He Hb b i j (conj Hi Hj)) as [-> _]. reflexivity.
Qed.
Lemma mat_read_narrow dbg ty el m t i j x : is_table el m t -> 0 <= i < t_rows t -> 0 <= j < t_cols t -> el mod width ty = 0 ->
  t_at t i j = map Some x -> mat_get_t dbg ty m i j = Ok (dec ty (firstn (Z.to_nat (width ty)) x)).
Proof.
  intros H Hi Hj D X. rewrite (mat_read dbg ty el m t i j H Hi Hj). destruct H as (Hr & Hc & He & Hb & (b & -> & Lb & G)).
  cbn [m_blk]. specialize (G i j (conj Hi Hj)). rewrite X in G. assert (0 < width ty) as Wp by (destruct ty; reflexivity).
  unfold deref. assert (((i * t_cols t + j) * el) mod width ty = 0) as ->.
  { apply Z.mod_divide in D; [|lia]. apply Z.mod_divide; [lia|]. now apply Z.divide_mul_r. }
  cbn [Z.eqb negb]. apply Z.mod_divide in D; [|lia]. destruct D as [k D].
  assert (0 < k) by (destruct (Z.lt_ge_cases 0 k); [assumption|]; assert (k * width ty <= 0) by (apply Z.mul_nonpos_nonneg; lia); lia).
  assert (width ty <= el) as Hw by nia.
  set (o := (i * t_cols t + j) * el) in *. unfold bread in G |- *.
  destruct ((0 <=? o) && (0 <=? el) && (o + el <=? zlen b)) eqn:C; [|discriminate].
  assert ((0 <=? o) && (0 <=? width ty) && (o + width ty <=? zlen b) = true) as -> by lia.
  injection G as G. cbn [bind].
  assert (firstn (Z.to_nat (width ty)) (skipn (Z.to_nat o) b) = map Some (firstn (Z.to_nat (width ty)) x)) as ->.
  { rewrite <- firstn_map, <- G, firstn_firstn. f_equal. lia. }
  now rewrite all_init_map.
Qed.
Lemma mat_read_last dbg ty el m t : is_table el m t -> el < width ty -> mat_get_t dbg ty m (t_rows t - 1) (t_cols t - 1) = UB.
Proof.
  intros H W. pose proof H as (Hr & Hc & He & Hb & (b & Em & Lb & G)). rewrite (mat_read dbg ty el m t _ _ H) by lia. rewrite Em. cbn [m_blk].
  unfold deref. destruct (negb _); [reflexivity|]. unfold bread.
  replace (_ + width ty <=? zlen b) with false; [now rewrite andb_false_r|]. symmetry. apply Z.leb_gt. rewrite Lb. nia.
Qed.
