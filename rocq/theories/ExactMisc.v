(** Views, spans, vectors and clamping: the cases left out by C04, C15, C45, C51 and C74. *)
From Coq Require Import Lia.
From Verif Require Import Base BaseFacts VecModel VecSpec VecProofs VecAlias SpanModel SpanProofs NumModel NumProofs StrModel StrModel2 StrSpec StrProofs StrProofs2 StrProofs3 StrMain PathProofs.

(** Views *)
Lemma cstr_own z : oks z -> cstr (zblk z) = Ok z.
Proof. intros O. rewrite <- (app_nil_r (zblk z)). now apply cstr_zblk. Qed.
Lemma view_swrite s off d : sv s = true -> swrite s off d = UB.
Proof. intros V. unfold swrite. now rewrite V. Qed.
Lemma view_sput s off c : sv s = true -> sput s off c = UB.
Proof. apply view_swrite. Qed.
Lemma view_read z off n : 0 <= off -> 0 <= n -> off + n <= zlen z + 1 -> exists d, bread (zblk z) off n = Ok d.
Proof. intros A B C. destruct (bread_range (zblk z) off n) as (d & E & _); trivial; [rewrite zlen_zblk; lia|]. now exists d. Qed.
Lemma view_smove z l dst src n : 0 <= src -> 0 < n -> src + n <= zlen z + 1 -> smove (mk_str (zblk z) l 0 true 0) dst src n = UB.
Proof. intros A B C. unfold smove. replace (n =? 0) with false by lia. cbn [sb]. destruct (view_read z src n) as (d & ->); try lia. cbn [bind]. now apply view_swrite. Qed.
Lemma view_scopy z l dst x n : 0 < n <= zlen x + 1 -> scopy (mk_str (zblk z) l 0 true 0) dst x 0 n = UB.
Proof. intros B. unfold scopy. replace (n =? 0) with false by lia. destruct (view_read x 0 n) as (d & ->); try lia. cbn [bind]. now apply view_swrite. Qed.
Lemma view_space z n : 0 < zlen z <= alloc_max -> 0 <= n <= alloc_max -> str_has_space (str_create_static z) <? n = false.
Proof.
  intros H N. apply Z.ltb_ge. unfold str_has_space, str_create_static. cbn [sc sl]. unfold w64. rewrite <- (Z_mod_plus_full _ 1).
  rewrite Z.mod_small; unfold two64, alloc_max in *; lia.
Qed.
Lemma view_remove dbg z from n : 0 < zlen z <= alloc_max -> 0 <= from < zlen z -> 0 < n < two64 -> str_remove dbg (str_create_static z) from n = UB.
Proof.
  intros H F N. unfold str_remove, str_create_static. cbn [sl]. rewrite !dassert_true by (apply Z.ltb_lt; lia). cbn [bind].
  assert (w64 (zlen z - from) = zlen z - from) as W by (apply w64_small; unfold two64, alloc_max in *; lia). rewrite W.
  set (m := if zlen z - from <? n then zlen z - from else n). assert (0 < m <= zlen z - from) as M by (unfold m; destruct (zlen z - from <? n) eqn:X; lia).
  rewrite (w64_small (from + m)) by (unfold two64, alloc_max in *; lia). rewrite (w64_small (zlen z - (from + m))) by (unfold two64, alloc_max in *; lia).
  destruct (Z.eq_dec (zlen z - (from + m)) 0) as [->|Ne].
  - unfold smove. cbn [Z.eqb bind]. now apply view_sput.
  - rewrite view_smove by lia. reflexivity.
Qed.

Lemma view_insert dbg z x i : 0 < zlen z <= alloc_max -> zlen x <= alloc_max -> 0 <= i < zlen z -> str_insert dbg (str_create_static z) x i = UB.
Proof.
  intros H Hx I. pose proof (zlen_nonneg x). unfold str_insert. rewrite dassert_true by (unfold str_create_static; cbn [sl]; apply Z.ltb_lt; lia). cbn [bind].
  rewrite view_space by lia. cbn [bind]. unfold str_create_static at 1 2. cbn [sl]. rewrite (w64_small (zlen z - i)) by (unfold two64, alloc_max in *; lia).
  rewrite view_smove by lia. reflexivity.
Qed.
Lemma view_append dbg z x : zlen z <= alloc_max -> 0 < zlen x <= alloc_max ->
  str_append dbg (str_create_static z) x = if zlen z =? 0 then Abort else UB.
Proof.
  intros H Hx. pose proof (zlen_nonneg z). unfold str_append, str_append_n. rewrite dassert_true by (apply Z.ltb_lt; lia). cbn [bind].
  destruct (zlen z =? 0) eqn:E.
  - apply Z.eqb_eq in E. assert (z = []) as -> by (destruct z; [reflexivity|zl; zlia]).
    change (str_has_space (str_create_static [])) with 0. replace (0 <? zlen x) with true by lia. unfold str_reserve.
    rewrite w64_small by (unfold two64, alloc_max in *; lia). rewrite dassert_true by (apply Z.ltb_lt; lia). reflexivity.
  - apply Z.eqb_neq in E. rewrite view_space by lia. cbn [bind]. unfold str_create_static. rewrite view_scopy by lia. reflexivity.
Qed.
Lemma view_remove_first z x : 0 < zlen z <= alloc_max -> oks z -> 0 < zlen x -> (exists a b, z = a ++ x ++ b) -> str_remove_first (str_create_static z) x = UB.
Proof.
  intros H O Hx (a & b & E). unfold str_remove_first, str_z, str_create_static. cbn [sb]. rewrite cstr_own by exact O. cbn [bind]. rewrite strstr_cut.
  destruct (cut x z) as [[p q]|] eqn:C; [|exfalso; exact (proj1 (cut_none _ _) C a b E)]. pose proof (cut_some _ _ _ _ C) as Ez. cbn [sl].
  assert (zlen z = zlen p + zlen x + zlen q) as Lz by (rewrite Ez; zl; lia). pose proof (zlen_nonneg p). pose proof (zlen_nonneg q).
  rewrite w64_small by (unfold two64, alloc_max in *; lia). destruct (Z.eq_dec (zlen z - (zlen p + zlen x)) 0) as [->|Ne].
  - unfold smove. cbn [Z.eqb bind]. now rewrite view_sput.
  - rewrite view_smove by lia. reflexivity.
Qed.
Lemma view_all dbg z : 0 < zlen z <= alloc_max -> oks z ->
  let v := str_create_static z in
  str_clear v = UB /\ str_validate_len v = UB /\
  (forall x, 0 < zlen x <= alloc_max -> str_append dbg v x = UB) /\
  (forall x i, zlen x <= alloc_max -> 0 <= i < zlen z -> str_insert dbg v x i = UB) /\
  (forall from n, 0 <= from < zlen z -> 0 < n < two64 -> str_remove dbg v from n = UB) /\
  (forall x n, 0 < n <= zlen z -> n <= zlen x + 1 -> str_set_n dbg v x n = UB) /\
  (forall c i, 0 <= i < zlen z -> str_set_c dbg v c i = UB) /\
  (forall x, 0 < zlen x -> (exists a b, z = a ++ x ++ b) -> str_remove_first v x = UB) /\
  (forall c, str_remove_c v c = UB) /\ str_to_uppercase v = UB /\ str_to_lowercase v = UB.
Proof.
  intros H O v. split; [reflexivity|]. split; [destruct z; reflexivity|]. split; [|split; [|split; [|split; [|split; [|split; [|split]]]]]].
  - intros x Hx. unfold v. rewrite view_append by lia. now replace (zlen z =? 0) with false by lia.
  - intros. now apply view_insert.
  - intros. now apply view_remove.
  - intros x n Hn Hx. unfold str_set_n. rewrite dassert_true by (apply Z.ltb_lt; lia). unfold v, str_create_static. cbn [sl bind].
    replace (n <=? zlen z) with true by lia. cbn [enforce bind]. rewrite view_scopy by lia. reflexivity.
  - intros c i Hi. unfold str_set_c. rewrite dassert_true by (unfold v, str_create_static; cbn [sl]; apply Z.ltb_lt; lia). reflexivity.
  - intros x Hx E. now apply view_remove_first.
  - intros c. unfold str_remove_c, v, str_create_static. cbn [sl].
    assert (forall k l i off, (forall j, 0 <= j < Z.of_nat k -> exists y, bbyte (zblk z) (i + j) = Ok y) ->
      (exists o, rmc_loop k (mk_str (zblk z) l 0 true 0) c i off = Ok (mk_str (zblk z) l 0 true 0, o)) \/ rmc_loop k (mk_str (zblk z) l 0 true 0) c i off = UB) as L.
    { induction k as [|k IH]; intros l i off Hr; cbn [rmc_loop]; [left; now exists off|]. cbn [sb]. destruct (Hr 0 ltac:(lia)) as (y & Ey). rewrite Z.add_0_r in Ey. rewrite Ey. cbn [bind].
      destruct (memb y c); [|right; now rewrite view_sput]. apply IH. intros j Hj. replace (i + 1 + j) with (i + (j + 1)) by lia. apply Hr. lia. }
    destruct (L (Z.to_nat (zlen z)) (zlen z) 0 0) as [(o & ->)| -> ]; [|cbn [bind fst snd]; now apply view_sput|reflexivity].
    intros j Hj. cbn [Z.add]. assert (Z.to_nat j < length z)%nat as Lj by (unfold zlen in *; lia).
    destruct (nth_error z (Z.to_nat j)) as [y|] eqn:E; [|apply nth_error_None in E; lia]. exists y.
    apply nth_error_split in E as (p & q & -> & Lp). unfold zblk. rewrite map_app, <- app_assoc. cbn [map app]. apply bbyte_app. zl. unfold zlen. lia.
  - destruct z as [|x z]; [zl; lia|]. unfold str_to_uppercase, str_to_lowercase, v, str_create_static. cbn [sl].
    replace (Z.to_nat (zlen (x :: z))) with (S (length z)) by (unfold zlen; cbn [length]; lia). split; reflexivity.
Qed.

(** Ranges from element 0 *)
Lemma span_from_zero off to es : span_from_to true off 0 to es = Abort.
Proof. reflexivity. Qed.
Lemma span_zero_release es pre xs post i : uniform es xs -> 0 < es -> zlen xs * es < two64 ->
  exists s, span_from_to false (zlen pre) 0 (zlen xs) es = Ok s /\ span_len s = zlen xs /\
  (0 <= i < zlen xs -> exists x, nth_error xs (Z.to_nat i) = Some x /\ span_get false (pre ++ map Some (concat xs) ++ post) s i = Ok (map Some x)).
Proof.
  intros U He Hm. pose proof (zlen_nonneg xs). unfold span_from_to. cbn [dassert bind]. eexists. split; [reflexivity|].
  change (w64 (0 * es)) with 0. rewrite Z.sub_0_r, Z.add_0_r, w64_small by (unfold two64 in *; nia). split; [reflexivity|]. intros Hi.
  destruct (span_get_rep false es pre xs post i U He) as (x & Hn & Hg); [lia|exact Hi|]. now exists x.
Qed.

(** Sizes that wrap *)
Lemma vec_create_exact dbg n es : 0 < n < two64 -> 0 < es < two64 ->
  vec_create dbg n es =
    (let p := w64 (n * es) in
     if alloc_max <? p then Abort else if p =? 0 then (if dbg then Abort else Ok (mk_arr [] 0 n es 0)) else
     Ok (mk_arr (repeat (Some 0) (Z.to_nat p)) 0 n es 0)) /\
  (two64 <= n * es -> w64 (n * es) < n * es).
Proof.
  intros Hn He. assert (0 <= w64 (n * es) < two64) as W by (unfold w64; apply Z.mod_pos_bound; reflexivity). split.
  - unfold vec_create, c_calloc. rewrite !dassert_true by (apply Z.ltb_lt; lia). cbn [bind]. cbv zeta.
    destruct (w64 (n * es) =? 0) eqn:Z0.
    + apply Z.eqb_eq in Z0. rewrite Z0. destruct dbg; reflexivity.
    + apply Z.eqb_neq in Z0. rewrite dassert_true by (apply Z.ltb_lt; lia). cbn [bind]. destruct (alloc_max <? w64 (n * es)) eqn:A.
      * apply Z.ltb_lt in A. replace (w64 (n * es) <=? alloc_max) with false by lia. reflexivity.
      * apply Z.ltb_ge in A. replace (w64 (n * es) <=? alloc_max) with true by lia. reflexivity.
  - intros H. lia.
Qed.

(** Clamping between crossed bounds *)
Lemma clamp_crossed x l h : h < l -> cmp_clamp x l h = l.
Proof. unfold cmp_clamp, cmp_max, cmp_min. intros H. repeat match goal with |- context [if ?c then _ else _] => destruct c eqn:?; try lia end. Qed.

(** An own element inserted further to the front *)
Lemma Ok_inj {A} (x y : A) : Ok x = Ok y -> x = y.
Proof. now intros [= ->]. Qed.
Lemma bmove_shift b dst src n b' o m : bmove b dst src n = Ok b' -> 0 <= src -> src <= o -> 0 <= m -> o + m <= src + n -> 0 < n ->
  bread b' (o + (dst - src)) m = bread b o m.
Proof.
  unfold bmove. intros H Hs Ho Hm Hn Hp. replace (n =? 0) with false in H by lia. apply bind_ok in H as (d & Hr & Hw).
  assert (src + n <= zlen b) as Hb.
  { unfold bread in Hr. destruct ((0 <=? src) && (0 <=? n) && (src + n <=? zlen b)) eqn:E; [|discriminate]. lia. }
  assert (exists P A M C Q, b = P ++ A ++ M ++ C ++ Q /\ zlen P = src /\ zlen A = o - src /\ zlen M = m /\ zlen C = src + n - o - m) as (P & A & M & C & Q & E & LP & LA & LM & LC).
  { exists (firstn (Z.to_nat src) b), (firstn (Z.to_nat (o - src)) (skipn (Z.to_nat src) b)),
      (firstn (Z.to_nat m) (skipn (Z.to_nat (o - src)) (skipn (Z.to_nat src) b))),
      (firstn (Z.to_nat (src + n - o - m)) (skipn (Z.to_nat m) (skipn (Z.to_nat (o - src)) (skipn (Z.to_nat src) b)))),
      (skipn (Z.to_nat (src + n - o - m)) (skipn (Z.to_nat m) (skipn (Z.to_nat (o - src)) (skipn (Z.to_nat src) b)))).
    split; [now rewrite !firstn_skipn|]. repeat split; rewrite zlen_firstn, ?zlen_skipn; lia. }
  assert (d = A ++ M ++ C) as ->.
  { rewrite E in Hr. replace (P ++ A ++ M ++ C ++ Q) with (P ++ (A ++ M ++ C) ++ Q) in Hr by now rewrite <- !app_assoc.
    rewrite bread_app in Hr; [now apply Ok_inj in Hr|lia|zl; lia]. }
  replace (bread b o m) with (Ok M).
  2:{ rewrite E. replace (P ++ A ++ M ++ C ++ Q) with ((P ++ A) ++ M ++ (C ++ Q)) by now rewrite <- !app_assoc. symmetry. apply bread_app; zl; lia. }
  unfold bwrite in Hw. destruct ((0 <=? dst) && (dst + zlen (A ++ M ++ C) <=? zlen b)) eqn:E'; [|discriminate]. apply Ok_inj in Hw. rewrite <- Hw.
  set (R := skipn _ b). replace (firstn (Z.to_nat dst) b ++ (A ++ M ++ C) ++ R) with ((firstn (Z.to_nat dst) b ++ A) ++ M ++ (C ++ R)) by now rewrite <- !app_assoc.
  pose proof (zlen_nonneg (A ++ M ++ C)). apply bread_app; [|lia]. rewrite zlen_app, zlen_firstn. lia.
Qed.
Lemma vec_insert_own_before dbg es p y x s cap v i : vrep es ((p ++ [y]) ++ x :: s) cap v -> zlen ((p ++ [y]) ++ x :: s) < cap -> 0 <= i <= zlen p ->
  exists o w, vec_get_ptr dbg v (zlen (p ++ [y])) = Ok o /\ vec_insert dbg v (Own o) i = Ok w /\
              vrep es (seq_insert ((p ++ [y]) ++ x :: s) (Z.to_nat i) y) cap w.
Proof.
  intros H Hlt Hi. exists (zlen (p ++ [y]) * es).
  assert (vrep es (p ++ y :: (x :: s)) cap v) as H'. { now rewrite <- app_assoc in H. }
  destruct (rep_read _ _ _ _ _ _ H') as [Hr Hy].
  set (xs := (p ++ [y]) ++ x :: s) in *.
  assert (zlen xs = zlen p + 2 + zlen s) as Lx by (unfold xs; zl; lia). pose proof (zlen_nonneg p). pose proof (zlen_nonneg s).
  assert (grown (zlen xs) cap = cap) as Hg by (unfold grown; replace (_ =? _) with false by lia; reflexivity).
  destruct (vec_insert_rep dbg es _ cap v y i H Hy) as (w & Hw & Hrep & _); [lia|rewrite Hg; apply H|].
  rewrite Hg in Hrep. exists w. split; [eapply own_ptr; exact H|]. split; [|exact Hrep]. rewrite <- Hw.
  pose proof H as [[tl Hb] Hu Hl Hc He Hp Hs Hm Hle Hcp].
  assert (vec_grow dbg v = Ok (v, false)) as G.
  { unfold vec_grow, vec_has_space. rewrite Hc, Hl. rewrite (w64_le _ cap es) by lia. replace (_ =? 0) with false by lia. reflexivity. }
  unfold vec_insert in *. rewrite G in *. rewrite Hl in *.
  rewrite dassert_true in * by lia. cbn [bind fst snd] in *.
  apply bind_ok in Hw as (b & Hb1 & Hw). rewrite Hb1. cbn [bind].
  rewrite He in *. rewrite (w64_mul i cap es) in * by lia.
  rewrite Hl in Hb1. rewrite (w64_le (i + 1) cap es), (w64_mul (i + 1) cap es), (w64_le (zlen xs - i) cap es), (w64_mul (zlen xs - i) cap es) in Hb1 by lia.
  rewrite (copy_own b (i * es) (zlen (p ++ [y]) * es) es y); [reflexivity| |exact Hy|].
  - rewrite <- Hr. replace (zlen (p ++ [y]) * es) with (zlen p * es + ((i + 1) * es - i * es)) by (zl; lia).
    apply (bmove_shift _ _ _ _ _ _ _ Hb1); nia.
  - right; left. zl. nia.
Qed.
