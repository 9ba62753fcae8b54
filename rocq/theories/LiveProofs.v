(** Proofs for C222, C223. *)
From Verif Require Import Base BaseFacts StrModel StrSpec StrProofs FsModel PathModel FsSpec FsProofs FsMain FsMain2 LiveModel.

Lemma live_len sched : forall off n, (length (fread_live sched off n) <= n)%nat.
Proof.
  induction sched as [|[k c] sched IH]; intros off n; cbn [fread_live]; [cbn; lia|].
  assert (length (firstn (Nat.min k n) (skipn off c)) <= n)%nat as L by (rewrite firstn_length; lia). destruct (firstn (Nat.min k n) (skipn off c)) as [|x d]; [cbn; lia|].
  rewrite app_length. specialize (IH (off + length (x :: d))%nat (n - length (x :: d))%nat). lia.
Qed.
Lemma live_bytes sched : forall off n i, (i < length (fread_live sched off n))%nat ->
  exists k c, In (k, c) sched /\ nth_error (fread_live sched off n) i = nth_error c (off + i).
Proof.
  induction sched as [|[k c] sched IH]; intros off n i H; cbn [fread_live] in *; [cbn in H; lia|].
  destruct (firstn (Nat.min k n) (skipn off c)) as [|x d] eqn:E; [cbn in H; lia|]. set (y := x :: d) in *.
  rewrite app_length in H. destruct (Nat.lt_ge_cases i (length y)) as [Li|Li].
  - exists k, c. split; [now left|]. rewrite nth_error_app1 by exact Li. rewrite <- E in Li |- *. rewrite firstn_length in Li.
    rewrite <- (firstn_skipn (Nat.min k n) (skipn off c)) in E. clear E.
    assert (nth_error (skipn off c) i = nth_error c (off + i)) as <-.
    { clear. revert c. induction off as [|off IH]; intros c; [reflexivity|]. destruct c; [now destruct i|]. apply IH. }
    rewrite <- (firstn_skipn (Nat.min k n) (skipn off c)) at 2. rewrite nth_error_app1; [reflexivity|rewrite firstn_length; exact Li].
  - destruct (IH (off + length y)%nat (n - length y)%nat (i - length y)%nat ltac:(lia)) as (k' & c' & I & X). exists k', c'. split; [now right|].
    rewrite nth_error_app2 by lia. rewrite X. f_equal. lia.
Qed.
Lemma prefix_ext (d c : list Z) : (forall i, (i < length d)%nat -> nth_error d i = nth_error c i) -> d = firstn (length d) c.
Proof.
  revert c. induction d as [|x d IH]; intros c H; [reflexivity|]. destruct c as [|y c]; [specialize (H 0%nat ltac:(cbn; lia)); discriminate H|].
  pose proof (H 0%nat ltac:(cbn; lia)) as H0. injection H0 as ->. cbn [length firstn]. f_equal. apply IH. intros i Hi. exact (H (S i) ltac:(cbn; lia)).
Qed.
Lemma live_same sched c n : Forall (fun r => snd r = c) sched -> let d := fread_live sched 0 n in d = firstn (length d) c /\ (length d <= length c)%nat.
Proof.
  intros F d. assert (d = firstn (length d) c) as X.
  { apply prefix_ext. intros i Hi. destruct (live_bytes sched 0 n i Hi) as (k & c' & I & Y). rewrite Forall_forall in F. specialize (F _ I). cbn in F. subst c'. exact Y. }
  split; [exact X|]. rewrite X, firstn_length. lia.
Qed.

(** The string made, with its storage filled from the front. *)
Lemma create_fill dbg m (d : list Z) : 0 < m \/ (dbg = false /\ m = 0) -> m + 1 <= alloc_max -> zlen d <= m ->
  exists s0 s, str_create_len dbg m = Ok s0 /\ sl s0 = m /\ swrite s0 0 (map Some d) = Ok s /\ sl s = m /\ sv s = false /\ (zlen d = m -> sb s = map Some d ++ [Some 0]).
Proof.
  intros Hm A Hd. pose proof (zlen_nonneg d).
  assert (exists s0, str_create_len dbg m = Ok s0 /\ sl s0 = m /\ sv s0 = false /\ sb s0 = repeat (Some 63) (Z.to_nat m) ++ [Some 0]) as (s0 & E0 & L0 & V0 & B0).
  { unfold str_create_len. rewrite w64_small by (unfold two64, alloc_max in *; lia). assert (dassert dbg (0 <? m) = Ok tt) as ->.
    { destruct Hm as [Hm|[-> _]]; [apply dassert_true; lia|reflexivity]. }
    cbn [bind]. rewrite c_calloc_ok by (unfold array_size, alloc_max; lia). cbn [bind]. rewrite c_calloc_ok by lia. cbn [bind].
    assert (repeat (Some 0) (Z.to_nat (m + 1)) = repeat (Some 0) (Z.to_nat m) ++ [Some 0]) as Er.
    { rewrite Z2Nat.inj_add, repeat_app by lia. reflexivity. }
    destruct (m =? 0) eqn:E.
    - eexists. split; [reflexivity|]. cbn [sl sc sv sb]. repeat split. rewrite Er. replace m with 0 by lia. reflexivity.
    - unfold swrite. cbn [sv sb sl sc ss]. rewrite Er.
      replace (repeat (Some 0) (Z.to_nat m) ++ [Some 0]) with ([] ++ repeat (Some 0) (Z.to_nat m) ++ [Some 0]) by reflexivity.
      rewrite bwrite_app; [|reflexivity|rewrite !zlen_repeat; lia]. cbn [bind app]. eexists. split; [reflexivity|]. cbn [sl sc sv sb]. repeat split. }
  exists s0. unfold swrite. rewrite V0, B0.
  replace (repeat (Some 63) (Z.to_nat m)) with (repeat (Some 63) (length d) ++ repeat (Some 63) (Z.to_nat m - length d)) by (rewrite <- repeat_app; f_equal; unfold zlen in *; lia).
  rewrite <- app_assoc. change (repeat (Some 63) (length d) ++ repeat (Some 63) (Z.to_nat m - length d) ++ [Some 0]) with ([] ++ repeat (Some 63) (length d) ++ repeat (Some 63) (Z.to_nat m - length d) ++ [Some 0]).
  rewrite bwrite_app; [|reflexivity|rewrite zlen_map, zlen_repeat; reflexivity]. cbn [bind app]. eexists. split; [exact E0|]. split; [exact L0|]. split; [reflexivity|]. cbn [sl sv sb].
  split; [exact L0|]. split; [reflexivity|]. intros X. replace (Z.to_nat m - length d)%nat with 0%nat by (unfold zlen in *; lia). reflexivity.
Qed.

Lemma live_ok dbg fs1 fs2 cwd z e c sched : fs_stat fs1 cwd z = Some e -> fs_stat fs2 cwd z = Some (EFile c) -> 0 < zlen c \/ dbg = false -> zlen c + 1 <= alloc_max ->
  let d := fread_live sched 0 (length c) in
  (zlen d = zlen c -> exists s, live_read dbg fs1 fs2 cwd z sched = Ok (Some s) /\ sb s = map Some d ++ [Some 0] /\ sl s = zlen c) /\
  (zlen d <> zlen c -> live_read dbg fs1 fs2 cwd z sched = Ok None).
Proof.
  intros S1 S2 Hd A d. unfold live_read, path_get_file_size. rewrite S1, S2. cbn [size_of]. pose proof (zlen_nonneg c). replace (zlen c <? 0) with false by lia.
  assert (zlen d <= zlen c) as Ld by (pose proof (live_len sched 0 (length c)); unfold zlen, d; lia).
  destruct (create_fill dbg (zlen c) d) as (s0 & s & E0 & L0 & E1 & L1 & _ & B); [destruct Hd as [Hd|Hd]; [now left|destruct (Z.eq_dec (zlen c) 0); [right; now split|left; lia]]|exact A|exact Ld|].
  rewrite E0. cbn [bind]. rewrite L0. replace (Z.to_nat (zlen c)) with (length c) by (unfold zlen; lia). fold d. rewrite E1. cbn [bind]. rewrite L1. split; intros X.
  - replace (zlen d =? zlen c) with true by lia. exists s. split; [reflexivity|]. split; [now apply B|exact L1].
  - replace (zlen d =? zlen c) with false by lia. reflexivity.
Qed.
Lemma live_empty fs1 fs2 cwd z e sched : fs_stat fs1 cwd z = Some e -> fs_stat fs2 cwd z = Some (EFile []) -> live_read true fs1 fs2 cwd z sched = Abort.
Proof. intros S1 S2. unfold live_read, path_get_file_size. rewrite S1, S2. reflexivity. Qed.

Lemma live_alone dbg fs cwd z c : fs_stat fs cwd z = Some (EFile c) -> live_read dbg fs fs cwd z [(length c, c)] = file_read dbg fs cwd z.
Proof.
  intros S. unfold live_read, file_read, path_get_file_size. rewrite S. cbn [size_of fread_entry]. destruct (zlen c <? 0); [reflexivity|].
  unfold str_create_len. destruct (dassert dbg (0 <? zlen c)) as [[]| | |]; try reflexivity. cbn [bind]. destruct (c_calloc dbg array_size) as [b0| | |]; try reflexivity. cbn [bind].
  destruct (c_calloc dbg (w64 (zlen c + 1))) as [b| | |]; try reflexivity. cbn [bind].
  assert (forall s, sl s = zlen c -> (let d := fread_live [(length c, c)] 0 (Z.to_nat (sl s)) in let* s' := swrite s 0 (map Some d) in if zlen d =? sl s' then Ok (Some s') else Ok None) =
    (let d := firstn (Z.to_nat (sl s)) c in let* s' := swrite s 0 (map Some d) in if zlen d =? sl s' then Ok (Some s') else Ok None)) as G.
  { intros s L. rewrite L. replace (Z.to_nat (zlen c)) with (length c) by (unfold zlen; lia). assert (fread_live [(length c, c)] 0 (length c) = firstn (length c) c) as ->; [|reflexivity].
    cbn [fread_live skipn]. rewrite Nat.min_id. destruct (firstn (length c) c); [reflexivity|]. now rewrite app_nil_r. }
  destruct (zlen c =? 0); [apply G; reflexivity|].
  unfold swrite at 1 3. cbn [sv sb sl sc ss]. destruct (bwrite b 0 (repeat (Some 63) (Z.to_nat (zlen c)))) as [b'| | |]; try reflexivity. cbn [bind]. apply G. reflexivity.
Qed.
Lemma live_cases dbg fs1 fs2 cwd z e old new size sched : let moment c := c = old \/ exists k, c = firstn k new in
  fs_stat fs1 cwd z = Some e -> fs_stat fs2 cwd z = Some (EFile size) -> Forall (fun r => moment (snd r)) sched ->
  zlen size + 1 <= alloc_max -> 0 < zlen size \/ dbg = false ->
  live_read dbg fs1 fs2 cwd z sched = Ok None \/
  exists s d, live_read dbg fs1 fs2 cwd z sched = Ok (Some s) /\ sb s = map Some d ++ [Some 0] /\ sl s = zlen d /\ zlen d = zlen size /\
    (forall i, (i < length d)%nat -> nth_error d i = nth_error old i \/ nth_error d i = nth_error new i) /\
    (forall r, sched = [r] -> d = firstn (length d) old \/ d = firstn (length d) new).
Proof.
  intros moment S1 S2 F A Hd. destruct (live_ok dbg fs1 fs2 cwd z e size sched S1 S2 Hd A) as [H1 H2]. set (d := fread_live sched 0 (length size)) in *.
  assert (forall c i x, moment c -> nth_error c i = Some x -> nth_error old i = Some x \/ nth_error new i = Some x) as G.
  { intros c i x [->|[k ->]] X; [now left|right]. rewrite <- (firstn_skipn k new). rewrite nth_error_app1; [exact X|]. apply nth_error_Some. congruence. }
  destruct (Z.eq_dec (zlen d) (zlen size)) as [E|E]; [right|left; now apply H2]. destruct (H1 E) as (s & X1 & X2 & X3). exists s, d.
  split; [exact X1|]. split; [exact X2|]. split; [congruence|]. split; [exact E|]. split.
  - intros i Hi. destruct (live_bytes sched 0 (length size) i Hi) as (k & c & I & X). fold d in X. cbn [Nat.add] in X. rewrite Forall_forall in F. specialize (F _ I). cbn [snd] in F.
    destruct (nth_error d i) as [x|] eqn:Ex; [|apply nth_error_None in Ex; lia]. symmetry in X. destruct (G c i x F X) as [Y|Y]; [left|right]; congruence.
  - intros r ->. inversion F as [|? ? Mr _]; subst. destruct (live_same [r] (snd r) (length size) ltac:(constructor; [reflexivity|constructor])) as [D L]. fold d in D, L.
    destruct Mr as [M|[k M]]; [left; now rewrite <- M|right]. rewrite D at 1. rewrite M, firstn_firstn. rewrite M, firstn_length in L. f_equal. lia.
Qed.

(** A file that only grows. *)
Lemma live_grow sched c : forall off n, (off + n = length c)%nat -> Forall (fun r => (0 < fst r)%nat /\ exists x, snd r = c ++ x) sched -> (n <= length sched)%nat ->
  fread_live sched off n = skipn off c.
Proof.
  induction sched as [|[k e] sched IH]; intros off n E F L.
  - cbn [length] in L. cbn [fread_live]. rewrite skipn_all2 by lia. reflexivity.
  - inversion F as [|? ? [Hk [x Hx]] F']; subst. cbn [fst snd] in Hk, Hx. subst e. cbn [fread_live]. cbn [length] in L.
    assert (length (skipn off c) = n) as Ls by (rewrite skipn_length; lia).
    replace (firstn (Nat.min k n) (skipn off (c ++ x))) with (firstn (Nat.min k n) (skipn off c)).
    2:{ rewrite skipn_app, firstn_app. rewrite Ls. replace (Nat.min k n - n)%nat with 0%nat by lia. cbn [firstn]. now rewrite app_nil_r. }
    set (m := Nat.min k n). assert (length (firstn m (skipn off c)) = m) as Lm by (rewrite firstn_length; lia).
    destruct (firstn m (skipn off c)) as [|y d] eqn:Ed.
    + cbn [length] in Lm. assert (n = 0)%nat as -> by lia. destruct (skipn off c); [reflexivity|cbn [length] in Ls; lia].
    + rewrite Lm. rewrite (IH (off + m)%nat (n - m)%nat); [|lia|exact F'|cbn [length] in Lm; lia]. rewrite <- Ed. rewrite <- (firstn_skipn m (skipn off c)) at 2. f_equal. clear.
      revert c. induction off as [|off IH]; intros c; [reflexivity|]. destruct c; [now rewrite !skipn_nil|]. apply IH.
Qed.
Lemma live_grows dbg fs1 fs2 cwd z e c sched : fs_stat fs1 cwd z = Some e -> fs_stat fs2 cwd z = Some (EFile c) -> 0 < zlen c \/ dbg = false -> zlen c + 1 <= alloc_max ->
  Forall (fun r => exists x, snd r = c ++ x) sched ->
  (forall s, live_read dbg fs1 fs2 cwd z sched = Ok (Some s) -> sb s = map Some c ++ [Some 0] /\ sl s = zlen c) /\
  (Forall (fun r => (0 < fst r)%nat) sched -> (length c <= length sched)%nat \/ (exists k x sched', sched = (k, x) :: sched' /\ (length c <= k)%nat) ->
   exists s, live_read dbg fs1 fs2 cwd z sched = Ok (Some s)) /\
  (live_read dbg fs1 fs2 cwd z sched = Ok None \/ exists s, live_read dbg fs1 fs2 cwd z sched = Ok (Some s)).
Proof.
  intros S1 S2 Hd A F. destruct (live_ok dbg fs1 fs2 cwd z e c sched S1 S2 Hd A) as [H1 H2]. set (d := fread_live sched 0 (length c)) in *.
  assert (d = firstn (length d) c) as D.
  { apply prefix_ext. intros i Hi. destruct (live_bytes sched 0 (length c) i Hi) as (k & c' & I & X). fold d in X. cbn [Nat.add] in X. rewrite Forall_forall in F. destruct (F _ I) as [x Hx]. cbn [snd] in Hx. subst c'.
    rewrite X. apply nth_error_app1. pose proof (live_len sched 0 (length c)). fold d in H. lia. }
  split; [|split].
  - intros s Es. destruct (Z.eq_dec (zlen d) (zlen c)) as [E|E]; [|rewrite (H2 E) in Es; discriminate Es]. destruct (H1 E) as (s' & X1 & X2 & X3). assert (s' = s) as -> by congruence.
    split; [|exact X3]. rewrite X2. rewrite D at 1. replace (length d) with (length c) by (unfold zlen in E; lia). now rewrite firstn_all.
  - intros Fk H. assert (zlen d = zlen c) as E; [|destruct (H1 E) as (s & X & _); now exists s]. destruct H as [H|(k & x & sched' & -> & H)].
    + unfold d. rewrite (live_grow sched c 0 (length c)); [reflexivity|reflexivity| |exact H]. rewrite Forall_forall in F, Fk |- *. intros r Hr. split; [now apply Fk|now apply F].
    + inversion F as [|? ? [y Hy] _]; subst. cbn [snd] in Hy. subst x. unfold d. cbn [fread_live skipn]. replace (Nat.min k (length c)) with (length c) by lia. rewrite firstn_app, firstn_all, Nat.sub_diag. cbn [firstn]. rewrite app_nil_r.
      destruct c as [|u v]; [reflexivity|]. unfold zlen. rewrite app_length. pose proof (live_len sched' (0 + length (u :: v)) (length (u :: v) - length (u :: v))). lia.
  - destruct (Z.eq_dec (zlen d) (zlen c)) as [E|E]; [right|left; now apply H2]. destruct (H1 E) as (s & X & _). now exists s.
Qed.

(** Into a buffer. *)
Lemma live_buffer dbg fs1 fs2 cwd z b k sched : 0 < k <= zlen b ->
  exists ok d, live_read_to_buffer dbg fs1 fs2 cwd z b k sched = Ok (ok, map Some d ++ skipn (length d) b) /\ zlen d <= k /\
    (ok = true -> zlen d = Z.min k (path_get_file_size fs2 cwd z)) /\
    (forall i, (i < length d)%nat -> exists n c, In (n, c) sched /\ nth_error d i = nth_error c i) /\
    (forall c, fs_stat fs2 cwd z = Some (EFile c) -> Forall (fun r => exists x, snd r = c ++ x) sched -> ok = true -> d = firstn (Z.to_nat k) c).
Proof.
  intros Hk. unfold live_read_to_buffer. rewrite dassert_true by lia. cbn [bind].
  assert (N : exists ok d, Ok (false, b) = Ok (ok, map Some d ++ skipn (length d) b) /\ zlen d <= k /\
    (ok = true -> zlen d = Z.min k (path_get_file_size fs2 cwd z)) /\
    (forall i, (i < length d)%nat -> exists n c, In (n, c) sched /\ nth_error d i = nth_error c i) /\
    (forall c, fs_stat fs2 cwd z = Some (EFile c) -> Forall (fun r => exists x, snd r = c ++ x) sched -> ok = true -> d = firstn (Z.to_nat k) c)).
  { exists false, []. split; [reflexivity|]. split; [change (zlen (@nil Z)) with 0; lia|]. split; [discriminate|]. split; [intros i Hi; cbn in Hi; lia|discriminate]. }
  destruct (fs_stat fs1 cwd z); [|exact N]. destruct (Z.ltb_spec (path_get_file_size fs2 cwd z) 0) as [_|Hs]; [exact N|]. clear N.
  set (fsize := path_get_file_size fs2 cwd z) in *. set (n := if k <=? fsize then k else fsize).
  assert (Hn : n = Z.min k fsize) by (unfold n; destruct (k <=? fsize) eqn:E; lia). clearbody n. subst n.
  set (d := fread_live sched 0 (Z.to_nat (Z.min k fsize))). assert (Ld : zlen d <= Z.min k fsize).
  { pose proof (live_len sched 0 (Z.to_nat (Z.min k fsize))). unfold zlen, d. lia. }
  rewrite bwrite_val by (rewrite ?zlen_map; lia). cbn [bind]. change (Z.to_nat 0) with 0%nat. cbn [firstn app Nat.add]. rewrite map_length.
  exists (zlen d =? Z.min k fsize), d. split; [reflexivity|]. split; [lia|]. split; [intros E; now apply Z.eqb_eq in E|].
  assert (G : forall i, (i < length d)%nat -> exists n c, In (n, c) sched /\ nth_error d i = nth_error c i) by (intros i Hi; exact (live_bytes sched 0 _ i Hi)).
  split; [exact G|]. intros c S2 F E. apply Z.eqb_eq in E. unfold fsize, path_get_file_size in E. rewrite S2 in E. cbn [size_of] in E.
  assert (D : d = firstn (length d) c).
  { apply prefix_ext. intros i Hi. destruct (G i Hi) as (n & c' & I & X). rewrite Forall_forall in F. destruct (F _ I) as [x Hx]. cbn [snd] in Hx. subst c'. rewrite X.
    apply nth_error_app1. unfold zlen in E. lia. }
  rewrite D. destruct (Z.le_gt_cases k (zlen c)) as [Q|Q].
  - f_equal. unfold zlen in *. lia.
  - rewrite !firstn_all2 by (unfold zlen in *; lia). reflexivity.
Qed.
Lemma live_buffer_alone dbg fs cwd z b k c : fs_stat fs cwd z = Some (EFile c) ->
  live_read_to_buffer dbg fs fs cwd z b k [(length c, c)] = file_read_to_buffer dbg fs cwd z b k.
Proof.
  intros S. unfold live_read_to_buffer, file_read_to_buffer, path_get_file_size. rewrite S. cbn [size_of fread_entry].
  destruct (dassert dbg (0 <? k)) as [[]| | |]; try reflexivity. cbn [bind]. destruct (zlen c <? 0); [reflexivity|].
  set (n := if k <=? zlen c then k else zlen c). assert (fread_live [(length c, c)] 0 (Z.to_nat n) = firstn (Z.to_nat n) c) as ->; [|reflexivity].
  cbn [fread_live skipn]. replace (Nat.min (length c) (Z.to_nat n)) with (Z.to_nat n) by (unfold n, zlen; destruct (k <=? Z.of_nat (length c)) eqn:E; lia).
  destruct (firstn (Z.to_nat n) c); [reflexivity|]. now rewrite app_nil_r.
Qed.
