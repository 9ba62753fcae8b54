(** Proofs about spans, index helpers and memory helpers. *)
From Coq Require Import String.
From Verif Require Import Base BaseFacts VecModel VecSpec VecProofs SpanModel PlistModel.
From Coq Require Import ZifyBool ZifyNat.

(** ** Spans *)
Lemma span_from_ok dbg off n es : 0 < n -> 0 < es -> span_from dbg off n es = Ok (mk_span off n es).
Proof. intros. unfold span_from. rewrite !dassert_true by lia. reflexivity. Qed.

Lemma span_get_rep dbg es pre xs post i : uniform es xs -> 0 < es -> zlen xs * es < two64 -> 0 <= i < zlen xs ->
  exists x, nth_error xs (Z.to_nat i) = Some x /\
    span_get dbg (pre ++ map Some (concat xs) ++ post) (mk_span (zlen pre) (zlen xs) es) i = Ok (map Some x).
Proof.
  intros Hu He Hm Hi. destruct (split_elem xs i Hi) as (p & x & s & -> & Hp).
  exists x. split.
  { rewrite <- Hp, to_nat_zlen, nth_error_app2, Nat.sub_diag by lia. reflexivity. }
  apply uniform_app in Hu as [Hu1 Hu2]. apply uniform_cons in Hu2 as [Hx Hu2].
  unfold span_get. cbn [s_len s_off s_es]. rewrite !dassert_true by lia. cbn [bind].
  rewrite w64_small by nia. rewrite concat_mid, <- !app_assoc, app_assoc. apply bread_app.
  - rewrite zlen_app, zlen_map, (zlen_concat es p Hu1). lia.
  - rewrite zlen_map. lia.
Qed.

Lemma span_set_rep dbg es pre p x s post d : uniform es (p ++ x :: s) -> 0 < es ->
  zlen (p ++ x :: s) * es < two64 -> zlen d = es ->
  span_set dbg (pre ++ map Some (concat (p ++ x :: s)) ++ post)
           (mk_span (zlen pre) (zlen (p ++ x :: s)) es) d (zlen p) =
  Ok (pre ++ map Some (concat (p ++ d :: s)) ++ post).
Proof.
  intros Hu He Hm Hd.
  apply uniform_app in Hu as [Hu1 Hu2]. apply uniform_cons in Hu2 as [Hx Hu2].
  unfold span_set. cbn [s_len s_off s_es]. autorewrite with zlen in *.
  pose proof (zlen_nonneg p). pose proof (zlen_nonneg s).
  rewrite !dassert_true by lia. cbn [bind]. rewrite ext_read by assumption. cbn [bind].
  rewrite w64_small by nia. rewrite !concat_mid, <- !app_assoc, (app_assoc pre), bwrite_app.
  - rewrite <- !app_assoc. reflexivity.
  - rewrite zlen_app, zlen_map, (zlen_concat es p Hu1). lia.
  - rewrite !zlen_map. lia.
Qed.

(** Any index outside is stopped in debug builds. *)
Lemma span_bounds b s i d : s_len s <= i -> span_get true b s i = Abort /\ span_set true b s d i = Abort.
Proof.
  intros H. unfold span_get, span_set, dassert. replace (i <? s_len s) with false by lia. split; reflexivity.
Qed.

Lemma span_from_to_ok dbg es pre a xs post : uniform es a -> 0 < es -> 0 < zlen a ->
  zlen (a ++ xs) * es < two64 ->
  span_from_to dbg (zlen pre) (zlen a) (zlen (a ++ xs)) es =
    Ok (mk_span (zlen (pre ++ map Some (concat a))) (zlen xs) es) /\
  pre ++ map Some (concat (a ++ xs)) ++ post = (pre ++ map Some (concat a)) ++ map Some (concat xs) ++ post.
Proof.
  intros Hu He Ha Hm. autorewrite with zlen in *. pose proof (zlen_nonneg xs). split.
  - unfold span_from_to. rewrite !dassert_true by lia. cbn [bind].
    rewrite !w64_small by (unfold two64 in *; nia). rewrite (zlen_concat es a Hu). do 2 f_equal. lia.
  - rewrite concat_app, map_app, <- !app_assoc. reflexivity.
Qed.

Lemma span_from_to_range dbg es pre a xs post i : uniform es (a ++ xs) -> 0 < es -> 0 < zlen a ->
  zlen (a ++ xs) * es < two64 ->
  exists s, span_from_to dbg (zlen pre) (zlen a) (zlen (a ++ xs)) es = Ok s /\ span_len s = zlen xs /\
    (0 <= i < zlen xs -> exists x, nth_error (a ++ xs) (Z.to_nat (zlen a + i)) = Some x /\
       span_get dbg (pre ++ map Some (concat (a ++ xs)) ++ post) s i = Ok (map Some x)).
Proof.
  intros Hu He Ha Hm. apply uniform_app in Hu as [Hu1 Hu2].
  destruct (span_from_to_ok dbg es pre a xs post Hu1 He Ha Hm) as [E1 E2].
  eexists; split; [exact E1|]. split; [reflexivity|]. intros Hi.
  rewrite E2. destruct (span_get_rep dbg es (pre ++ map Some (concat a)) xs post i Hu2 He) as (x & Hn & Hg).
  { rewrite zlen_app in Hm. nia. }
  { exact Hi. }
  exists x. split; [|exact Hg].
  rewrite nth_error_app2 by (unfold zlen in *; lia). rewrite <- Hn. f_equal. unfold zlen. lia.
Qed.

(** ** Index mappings *)
Lemma index2_roundtrip row col ncols : 0 <= row -> 0 <= col < ncols -> ncols * row + col < two64 ->
  index_1d_to_2d (index_2d_to_1d row col ncols) ncols = Ok (row, col).
Proof.
  intros Hr Hc Hm. unfold index_1d_to_2d, index_2d_to_1d.
  replace (ncols =? 0) with false by lia.
  rewrite (w64_small (ncols * row)) by nia. rewrite w64_small by nia.
  do 2 f_equal.
  - symmetry. apply (Z.div_unique_pos _ _ _ col); [lia|nia].
  - symmetry. apply (Z.mod_unique_pos _ _ row); [lia|nia].
Qed.

Lemma index2_inverse idx ncols : 0 <= idx < two64 -> 0 < ncols ->
  exists row col, index_1d_to_2d idx ncols = Ok (row, col) /\ 0 <= row /\ 0 <= col < ncols /\
    index_2d_to_1d row col ncols = idx.
Proof.
  intros Hi Hn. unfold index_1d_to_2d, index_2d_to_1d. replace (ncols =? 0) with false by lia.
  pose proof (Z.div_mod idx ncols ltac:(lia)). pose proof (Z.mod_pos_bound idx ncols Hn).
  pose proof (Z.div_pos idx ncols ltac:(lia) Hn).
  do 2 eexists. split; [reflexivity|]. split; [lia|]. split; [lia|].
  assert (0 <= ncols * (idx / ncols)) by (apply Z.mul_nonneg_nonneg; lia).
  rewrite (w64_small (ncols * _)) by lia. rewrite w64_small by lia. lia.
Qed.

Lemma index2_injective r1 c1 r2 c2 ncols : 0 <= r1 -> 0 <= c1 < ncols -> ncols * r1 + c1 < two64 ->
  0 <= r2 -> 0 <= c2 < ncols -> ncols * r2 + c2 < two64 ->
  index_2d_to_1d r1 c1 ncols = index_2d_to_1d r2 c2 ncols -> r1 = r2 /\ c1 = c2.
Proof.
  intros A B C D E F G. pose proof (index2_roundtrip r1 c1 ncols A B C) as H1.
  pose proof (index2_roundtrip r2 c2 ncols D E F) as H2. rewrite G, H2 in H1. injection H1. auto.
Qed.

Lemma index3_roundtrip row col depth nrows ncols :
  0 <= row < nrows -> 0 <= col < ncols -> 0 <= depth -> (depth + 1) * (nrows * ncols) <= two64 ->
  nrows * ncols < two64 ->
  index_1d_to_3d (index_3d_to_1d row col depth nrows ncols) nrows ncols = Ok (row, col, depth).
Proof.
  intros Hr Hc Hd Hm Hnc. unfold index_1d_to_3d, index_3d_to_1d.
  assert (row * ncols + col < nrows * ncols) as Hlt by nia.
  assert (0 <= row * ncols) by nia.
  assert (0 <= depth * (nrows * ncols)) by nia.
  assert (0 < nrows * ncols) by nia.
  assert (depth * ncols <= depth * (nrows * ncols)) by nia.
  assert (depth * nrows <= depth * (nrows * ncols)) by nia.
  rewrite (w64_small (nrows * ncols)) by nia.
  rewrite (w64_small (depth * ncols)) by nia.
  replace (depth * ncols * nrows) with (depth * (nrows * ncols)) by ring.
  rewrite (w64_small (depth * (nrows * ncols))) by nia.
  rewrite (w64_small (row * ncols)) by nia.
  rewrite (w64_small (_ + row * ncols)) by nia.
  rewrite (w64_small (_ + col)) by nia.
  replace (nrows * ncols =? 0) with false by lia. replace (ncols =? 0) with false by lia.
  set (M := nrows * ncols) in *.
  assert ((depth * M + row * ncols + col) / M = depth) as ->.
  { symmetry. apply (Z.div_unique_pos _ _ _ (row * ncols + col)); lia. }
  rewrite (w64_small (depth * nrows)) by nia.
  replace (depth * nrows * ncols) with (depth * M) by (unfold M; ring).
  rewrite (w64_small (depth * M)) by lia.
  replace (depth * M + row * ncols + col - depth * M) with (row * ncols + col) by ring.
  rewrite w64_small by lia.
  do 2 f_equal. f_equal.
  - symmetry. apply (Z.div_unique_pos _ _ _ col); lia.
  - symmetry. apply (Z.mod_unique_pos _ _ row); lia.
Qed.

Lemma index3_inverse idx nrows ncols : 0 <= idx < two64 -> 0 < nrows -> 0 < ncols -> nrows * ncols < two64 ->
  exists row col depth, index_1d_to_3d idx nrows ncols = Ok (row, col, depth) /\
    0 <= row < nrows /\ 0 <= col < ncols /\ 0 <= depth /\
    index_3d_to_1d row col depth nrows ncols = idx.
Proof.
  intros Hi Hr Hc Hm. unfold index_1d_to_3d, index_3d_to_1d.
  assert (0 < nrows * ncols) as HM by nia.
  rewrite (w64_small (nrows * ncols)) by lia.
  replace (nrows * ncols =? 0) with false by lia. replace (ncols =? 0) with false by lia.
  set (M := nrows * ncols) in *.
  pose proof (Z.div_mod idx M ltac:(lia)) as E. pose proof (Z.mod_pos_bound idx M HM) as B.
  pose proof (Z.div_pos idx M ltac:(lia) HM) as D.
  set (d := idx / M) in *. set (off := idx mod M) in *.
  assert (0 <= d * M) by nia.
  assert (d * nrows <= d * M) by (unfold M; nia).
  assert (d * ncols <= d * M) by (unfold M; nia).
  rewrite (w64_small (d * nrows)) by nia.
  replace (d * nrows * ncols) with (d * M) by (unfold M; ring).
  rewrite (w64_small (d * M)) by lia.
  replace (idx - d * M) with off by lia.
  rewrite (w64_small off) by lia.
  pose proof (Z.div_mod off ncols ltac:(lia)) as E2. pose proof (Z.mod_pos_bound off ncols Hc) as B2.
  pose proof (Z.div_pos off ncols ltac:(lia) Hc) as D2.
  do 3 eexists. split; [reflexivity|].
  split; [split; [lia|apply Z.div_lt_upper_bound; [lia|unfold M in B; lia]]|].
  split; [lia|]. split; [lia|].
  rewrite (w64_small (d * ncols)) by nia.
  replace (d * ncols * nrows) with (d * M) by (unfold M; ring).
  rewrite (w64_small (d * M)) by lia.
  assert (0 <= off / ncols * ncols) by nia.
  rewrite (w64_small (off / ncols * ncols)) by lia.
  rewrite (w64_small (d * M + _)) by lia.
  rewrite w64_small by lia. lia.
Qed.

(** ** Memory helpers *)

(** Generic swap of two disjoint ranges (either may come first). *)
Lemma gswap_forward dbg a x m y c n : zlen x = n -> zlen y = n -> 0 < n <= alloc_max ->
  bswap dbg (a ++ x ++ m ++ y ++ c) (zlen a) (zlen a + n + zlen m) n = Ok (a ++ y ++ m ++ x ++ c) /\
  bswap dbg (a ++ x ++ m ++ y ++ c) (zlen a + n + zlen m) (zlen a) n = Ok (a ++ y ++ m ++ x ++ c).
Proof.
  intros Hx Hy Hn. pose proof (zlen_nonneg a). pose proof (zlen_nonneg m).
  unfold bswap. rewrite !dassert_true by lia. cbn [bind]. rewrite !c_calloc_ok by lia. cbn [bind].
  assert (forall u v, a ++ u ++ m ++ v ++ c = (a ++ u ++ m) ++ v ++ c) as R
    by (intros; rewrite <- !app_assoc; reflexivity).
  assert (forall u v, zlen u = n -> bread (a ++ u ++ m ++ v ++ c) (zlen a) n = Ok u) as R1
    by (intros; apply bread_app; lia).
  assert (forall u v, zlen u = n -> zlen v = n -> bread (a ++ u ++ m ++ v ++ c) (zlen a + n + zlen m) n = Ok v) as R2
    by (intros; rewrite R; apply bread_app; rewrite ?zlen_app; lia).
  assert (forall u v w, zlen u = n -> zlen w = n -> bwrite (a ++ u ++ m ++ v ++ c) (zlen a) w = Ok (a ++ w ++ m ++ v ++ c)) as W1
    by (intros; apply bwrite_app; lia).
  assert (forall u v w, zlen u = n -> zlen v = n -> zlen w = n ->
            bwrite (a ++ u ++ m ++ v ++ c) (zlen a + n + zlen m) w = Ok (a ++ u ++ m ++ w ++ c)) as W2
    by (intros; rewrite !R; apply bwrite_app; rewrite ?zlen_app; lia).
  unfold bcopy_in. split.
  - rewrite R1 by assumption. cbn [bind]. rewrite R2 by assumption. cbn [bind].
    replace (zlen a =? zlen a + n + zlen m) with false by lia.
    replace ((zlen a <? zlen a + n + zlen m + n) && (zlen a + n + zlen m <? zlen a + n)) with false by lia.
    rewrite W1 by assumption. cbn [bind]. apply W2; assumption.
  - rewrite R2 by assumption. cbn [bind]. rewrite R1 by assumption. cbn [bind].
    replace (zlen a + n + zlen m =? zlen a) with false by lia.
    replace ((zlen a + n + zlen m <? zlen a + n) && (zlen a <? zlen a + n + zlen m + n)) with false by lia.
    rewrite W2 by assumption. cbn [bind]. apply W1; assumption.
Qed.

Lemma pswap_forward a x m y c :
  slot_swap (a ++ x :: m ++ y :: c) (zlen a) (zlen a + 1 + zlen m) = Ok (a ++ y :: m ++ x :: c).
Proof.
  pose proof (zlen_nonneg a). pose proof (zlen_nonneg m). unfold slot_swap.
  change (a ++ x :: m ++ y :: c) with (a ++ [x] ++ m ++ y :: c).
  rewrite bread_app by (autorewrite with zlen; lia). cbn [bind].
  assert (bread (a ++ [x] ++ m ++ y :: c) (zlen a + 1 + zlen m) 1 = Ok [y]) as R.
  { replace (a ++ [x] ++ m ++ y :: c) with ((a ++ [x] ++ m) ++ [y] ++ c) by (rewrite <- !app_assoc; reflexivity).
    apply bread_app; autorewrite with zlen; lia. }
  rewrite R. cbn [bind]. rewrite bwrite_app by (autorewrite with zlen; lia). cbn [bind].
  replace (a ++ [y] ++ m ++ y :: c) with ((a ++ [y] ++ m) ++ [y] ++ c) by (rewrite <- !app_assoc; reflexivity).
  rewrite bwrite_app by (autorewrite with zlen; lia). rewrite <- !app_assoc. reflexivity.
Qed.

Lemma memcmp_exact a x m y c : zlen x = zlen y ->
  vt_memcmp (a ++ map Some x ++ m ++ map Some y ++ c) (zlen a) (zlen a + zlen x + zlen m) (zlen x) =
  Ok (if list_eq_dec Z.eq_dec x y then negb (zlen x =? 0) else false).
Proof.
  intros Hl. unfold vt_memcmp. destruct (Z.eqb_spec (zlen x) 0) as [E|E].
  - destruct (list_eq_dec Z.eq_dec x y); reflexivity.
  - rewrite bread_app by (autorewrite with zlen; lia). cbn [bind].
    replace (a ++ map Some x ++ m ++ map Some y ++ c) with ((a ++ map Some x ++ m) ++ map Some y ++ c)
      by (rewrite <- !app_assoc; reflexivity).
    rewrite bread_app by (autorewrite with zlen; lia). cbn [bind].
    rewrite all_init_map, memcmp_eq_map. f_equal.
    destruct (list_eq_dec Z.eq_dec x y) as [F|F].
    + apply bytes_eqb_spec. exact F.
    + destruct (bytes_eqb x y) eqn:G; [|reflexivity]. apply bytes_eqb_spec in G. contradiction.
Qed.

(** memmove as if through a temporary: every cell of the result is known. *)
Lemma memmove_cells b dst src n b' : 0 <= dst -> 0 <= src -> 0 <= n -> dst + n <= zlen b -> src + n <= zlen b ->
  bmove b dst src n = Ok b' ->
  zlen b' = zlen b /\
  forall i, 0 <= i < zlen b ->
    nth_error b' (Z.to_nat i) =
    nth_error b (Z.to_nat (if (dst <=? i) && (i <? dst + n) then src + (i - dst) else i)).
Proof.
  intros Hd Hs Hn Hdl Hsl. unfold bmove. destruct (Z.eqb_spec n 0) as [->|N].
  { intros [= <-]. split; [reflexivity|]. intros i Hi.
    replace ((dst <=? i) && (i <? dst + 0)) with false by lia. reflexivity. }
  unfold bread. replace ((0 <=? src) && (0 <=? n) && (src + n <=? zlen b)) with true by lia. cbn [bind].
  set (d := firstn (Z.to_nat n) (skipn (Z.to_nat src) b)).
  assert (zlen d = n) as Ld by (unfold d; autorewrite with zlen; lia).
  unfold bwrite. rewrite Ld. replace ((0 <=? dst) && (dst + n <=? zlen b)) with true by lia.
  intros [= <-]. pose proof (zlen_nonneg b).
  split.
  - autorewrite with zlen. rewrite Ld. unfold zlen in *. lia.
  - intros i Hi.
    assert (length (firstn (Z.to_nat dst) b) = Z.to_nat dst) as Lf by (rewrite firstn_length; unfold zlen in *; lia).
    destruct (Z.lt_ge_cases i dst) as [C|C].
    + replace ((dst <=? i) && (i <? dst + n)) with false by lia.
      rewrite nth_error_app1 by (rewrite Lf; lia).
      rewrite <- (firstn_skipn (Z.to_nat dst) b) at 2. rewrite nth_error_app1 by (rewrite Lf; lia). reflexivity.
    + rewrite nth_error_app2 by (rewrite Lf; lia). rewrite Lf.
      destruct (Z.lt_ge_cases i (dst + n)) as [C2|C2].
      * replace ((dst <=? i) && (i <? dst + n)) with true by lia.
        rewrite nth_error_app1 by (unfold zlen in *; lia). unfold d.
        rewrite <- (firstn_skipn (Z.to_nat src) b) at 2.
        rewrite nth_error_app2 by (rewrite firstn_length; lia).
        replace (Z.to_nat (src + (i - dst)) - length (firstn (Z.to_nat src) b))%nat with (Z.to_nat i - Z.to_nat dst)%nat
          by (rewrite firstn_length; unfold zlen in *; lia).
        rewrite <- (firstn_skipn (Z.to_nat n) (skipn (Z.to_nat src) b)) at 2.
        rewrite nth_error_app1; [reflexivity|]. fold d. unfold zlen in *. lia.
      * replace ((dst <=? i) && (i <? dst + n)) with false by lia.
        rewrite nth_error_app2 by (unfold zlen in *; lia).
        rewrite <- (firstn_skipn (Z.to_nat dst + length d) b) at 2.
        rewrite nth_error_app2 by (rewrite firstn_length; unfold zlen in *; lia).
        f_equal. rewrite firstn_length. unfold zlen in *. lia.
Qed.

Lemma memmove_total b dst src n : 0 <= dst -> 0 <= src -> 0 <= n -> dst + n <= zlen b -> src + n <= zlen b ->
  exists b', bmove b dst src n = Ok b' /\ zlen b' = zlen b /\
  forall i, 0 <= i < zlen b ->
    nth_error b' (Z.to_nat i) =
    nth_error b (Z.to_nat (if (dst <=? i) && (i <? dst + n) then src + (i - dst) else i)).
Proof.
  intros A B C D E.
  assert (exists b', bmove b dst src n = Ok b') as [b' H].
  { unfold bmove. destruct (n =? 0); [eauto|].
    destruct (bread_range b src n) as (d & -> & Hd); [lia..|]. cbn [bind].
    destruct (bwrite_range b dst d) as (b' & -> & _); [lia..|]. eauto. }
  exists b'. split; [exact H|]. exact (memmove_cells b dst src n b' A B C D E H).
Qed.

Lemma status_names_distinct : NoDup error_str.
Proof. repeat constructor; cbn; intuition discriminate. Qed.

Lemma status_to_str_spec : forall e, 0 <= e ->
  (e < 11 -> exists s, status_to_str e = Ok (Some s)) /\
  (11 <= e -> status_to_str e = Ok None) /\
  (forall e', 0 <= e' < 11 -> e < 11 -> status_to_str e = status_to_str e' -> e = e').
Proof.
  intros e He. unfold status_to_str, status_count. split; [|split].
  - intros H. replace (e <? 11) with true by lia.
    destruct (nth_error error_str (Z.to_nat e)) eqn:E; [eauto|].
    apply nth_error_None in E. cbn [length error_str] in E. lia.
  - intros H. replace (e <? 11) with false by lia. reflexivity.
  - intros e' He' H. replace (e <? 11) with true by lia. replace (e' <? 11) with true by lia.
    pose proof status_names_distinct as N. rewrite NoDup_nth_error in N.
    destruct (nth_error error_str (Z.to_nat e)) eqn:E; destruct (nth_error error_str (Z.to_nat e')) eqn:E';
      try discriminate; intros X.
    + injection X as ->. assert (Z.to_nat e = Z.to_nat e') by (apply N; [cbn [length error_str]; lia|congruence]). lia.
    + apply nth_error_None in E. cbn [length error_str] in E. lia.
Qed.
