(** Proofs about matrices. *)
From Verif Require Import Base BaseFacts StrModel NumModel VecModel TypedModel MatModel.

Lemma bread_left p x off n : 0 <= off -> 0 <= n -> off + n <= zlen p -> bread (p ++ x) off n = bread p off n.
Proof.
  intros H1 H2 H3. unfold bread. autorewrite with zlen. pose proof (zlen_nonneg x).
  replace ((0 <=? off) && (0 <=? n) && (off + n <=? zlen p + zlen x)) with true by lia. replace ((0 <=? off) && (0 <=? n) && (off + n <=? zlen p)) with true by lia.
  f_equal. rewrite skipn_app, firstn_app. replace (Z.to_nat n - length (skipn (Z.to_nat off) p))%nat with O; [now rewrite app_nil_r|].
  rewrite skipn_length. unfold zlen in *. lia.
Qed.
Lemma bread_right p x off n : zlen p <= off -> 0 <= n -> bread (p ++ x) off n = bread x (off - zlen p) n.
Proof.
  intros H1 H2. unfold bread. autorewrite with zlen. pose proof (zlen_nonneg p).
  replace ((0 <=? off) && (0 <=? n) && (off + n <=? zlen p + zlen x)) with ((0 <=? off - zlen p) && (0 <=? n) && (off - zlen p + n <=? zlen x)) by lia.
  destruct ((0 <=? off - zlen p) && _ && _); [|reflexivity]. f_equal. f_equal. rewrite skipn_app, skipn_all2 by (unfold zlen in *; lia). cbn [app]. f_equal. unfold zlen. lia.
Qed.
Lemma bwrite_split b off d b' : bwrite b off d = Ok b' -> exists p m s, b = p ++ m ++ s /\ b' = p ++ d ++ s /\ zlen p = off /\ zlen m = zlen d.
Proof.
  unfold bwrite. destruct ((0 <=? off) && (off + zlen d <=? zlen b)) eqn:E; [|discriminate]. intros H. injection H as <-.
  pose proof (zlen_nonneg d). destruct (split_at b off ltac:(lia)) as (p & r & -> & Lp). autorewrite with zlen in E.
  destruct (split_at r (zlen d) ltac:(lia)) as (m & s & -> & Lm). exists p, m, s. split; [reflexivity|].
  split; [|now split]. rewrite firstn_zlen by lia. do 2 f_equal. rewrite app_assoc. replace (Z.to_nat off + length d)%nat with (length (p ++ m)); [apply skipn_exact|].
  rewrite app_length. unfold zlen in *. lia.
Qed.
Lemma read_same b off d b' : bwrite b off d = Ok b' -> bread b' off (zlen d) = Ok d.
Proof. intros H. destruct (bwrite_split b off d b' H) as (p & m & s & -> & -> & Lp & Lm). now apply bread_app. Qed.
Lemma read_other b off d b' o n : bwrite b off d = Ok b' -> 0 <= o -> 0 <= n -> o + n <= off \/ off + zlen d <= o -> bread b' o n = bread b o n.
Proof.
  intros H Ho Hn D. destruct (bwrite_split b off d b' H) as (p & m & s & -> & -> & Lp & Lm). destruct D as [D|D].
  - now rewrite !bread_left by lia.
  - rewrite !app_assoc. rewrite !bread_right by (rewrite ?zlen_app; lia). now rewrite !zlen_app, Lm.
Qed.
Lemma write_len b off d b' : bwrite b off d = Ok b' -> zlen b' = zlen b.
Proof. intros H. destruct (bwrite_split b off d b' H) as (p & m & s & -> & -> & Lp & Lm). autorewrite with zlen. lia. Qed.

(** The matrix of [rows] by [cols] elements [g i j]. *)
Section Grid.
  Variable rows cols el : Z.
  Hypothesis Hr : 0 < rows. Hypothesis Hc : 0 < cols. Hypothesis He : 0 < el.
  Hypothesis Hb : rows * cols * el <= alloc_max.

  Definition inside (i j : Z) : Prop := 0 <= i < rows /\ 0 <= j < cols.
  Definition grid_of (m : mat) (g : Z -> Z -> list cell) : Prop :=
    exists b, m = mk_mat (Some b) rows cols el /\ zlen b = rows * cols * el /\
    forall i j, inside i j -> bread b ((i * cols + j) * el) el = Ok (g i j).

  Lemma bytes_eq : bytes rows cols el = rows * cols * el.
  Proof.
    unfold bytes. assert (0 < rows * cols) by nia. assert (rows * cols <= rows * cols * el) by nia. unfold alloc_max in Hb.
    rewrite (w64_small (rows * cols)) by (unfold two64; lia). apply w64_small. unfold two64. nia.
  Qed.
  Lemma offset_eq b i j : inside i j -> offset (mk_mat (Some b) rows cols el) i j = (i * cols + j) * el /\ 0 <= (i * cols + j) * el /\ (i * cols + j) * el + el <= rows * cols * el.
  Proof.
    intros [Hi Hj]. unfold offset. cbn [m_cols m_el]. assert (0 <= i * cols) by nia. assert (i * cols + j + 1 <= rows * cols) as K by nia.
    assert (rows * cols <= rows * cols * el) by nia. unfold alloc_max in Hb.
    assert (0 <= (i * cols + j) * el) by nia. assert ((i * cols + j) * el + el <= rows * cols * el) by nia.
    rewrite (w64_small (i * cols)) by (unfold two64; lia). rewrite (w64_small (i * cols + j)) by (unfold two64; lia). rewrite w64_small by (unfold two64; lia). lia.
  Qed.
  Lemma bounds_inside b i j : 0 <= i -> 0 <= j -> in_bounds (mk_mat (Some b) rows cols el) i j = true <-> inside i j.
  Proof. intros Hi Hj. unfold in_bounds, inside. cbn [m_rows m_cols]. lia. Qed.
  Lemma apart i j i' j' : inside i j -> inside i' j' -> (i, j) <> (i', j') -> (i' * cols + j') * el + el <= (i * cols + j) * el \/ (i * cols + j) * el + el <= (i' * cols + j') * el.
  Proof.
    intros [Hi Hj] [Hi' Hj'] N. assert (i * cols + j <> i' * cols + j') as K.
    { intros E. apply N. assert (i = i') by nia. subst. f_equal. lia. }
    assert (i * cols + j < i' * cols + j' \/ i' * cols + j' < i * cols + j) as [D|D] by lia; [right|left]; nia.
  Qed.

  Lemma element_len m g i j : grid_of m g -> inside i j -> zlen (g i j) = el.
  Proof.
    intros (b & -> & L & G) I. specialize (G i j I). destruct (offset_eq b i j I) as (_ & H1 & H2).
    destruct (bread_range b ((i * cols + j) * el) el ltac:(lia) ltac:(lia) ltac:(lia)) as (x & E & Lx). rewrite G in E. now injection E as ->.
  Qed.
  Definition put_at (g : Z -> Z -> list cell) (i j : Z) (d : list cell) : Z -> Z -> list cell :=
    fun i' j' => if (i' =? i) && (j' =? j) then d else g i' j'.
  Lemma write_grid b g i j d : grid_of (mk_mat (Some b) rows cols el) g -> inside i j -> zlen d = el ->
    exists b', bwrite b (offset (mk_mat (Some b) rows cols el) i j) d = Ok b' /\ grid_of (mk_mat (Some b') rows cols el) (put_at g i j d).
  Proof.
    intros (b0 & E0 & L & G) I Ld. injection E0 as <-. destruct (offset_eq b i j I) as (E & H1 & H2). rewrite E.
    destruct (bwrite_range b ((i * cols + j) * el) d ltac:(lia) ltac:(lia)) as (b' & W & L'). exists b'. split; [exact W|]. exists b'. split; [reflexivity|]. split; [lia|].
    intros i' j' I'. unfold put_at. destruct ((i' =? i) && (j' =? j)) eqn:Q.
    - assert (i' = i) as -> by lia. assert (j' = j) as -> by lia. pose proof (read_same _ _ _ _ W) as R. now rewrite Ld in R.
    - destruct (offset_eq b i' j' I') as (_ & H1' & H2'). rewrite (read_other _ _ _ _ _ _ W); [now apply G|lia|lia|]. rewrite Ld. apply apart; try assumption. intros X. injection X as -> ->. lia.
  Qed.

  Lemma create_grid dbg : exists m, mat_create dbg rows cols el = Ok (Some m) /\ grid_of m (fun _ _ => repeat (Some 0) (Z.to_nat el)).
  Proof.
    unfold mat_create. rewrite bytes_eq. replace ((rows =? 0) || (cols =? 0) || (alloc_max <? rows * cols * el)) with false by lia. eexists. split; [reflexivity|].
    eexists. split; [reflexivity|]. split; [rewrite zlen_repeat; nia|]. intros i j I. destruct (offset_eq [] i j I) as (_ & H1 & H2).
    set (o := (i * cols + j) * el) in *. replace (repeat (Some 0) (Z.to_nat (rows * cols * el))) with (repeat (Some 0) (Z.to_nat o) ++ repeat (Some 0) (Z.to_nat el) ++ repeat (Some 0) (Z.to_nat (rows * cols * el - o - el))).
    - apply bread_app; rewrite zlen_repeat; lia.
    - rewrite <- !repeat_app. f_equal. lia.
  Qed.
  Lemma set_grid dbg m g v i j : grid_of m g -> 0 <= i -> 0 <= j -> zlen v = el ->
    if in_bounds m i j then exists m', mat_set dbg m v i j = Ok (m', Success) /\ grid_of m' (put_at g i j v)
    else mat_set dbg m v i j = if dbg then Abort else Ok (m, Error_bounds).
  Proof.
    intros G Hi Hj Lv. pose proof G as (b & -> & L & _). destruct (in_bounds _ i j) eqn:B; unfold mat_set; rewrite B; cbn [negb].
    - apply bounds_inside in B; try assumption. cbn [m_el m_blk m_rows m_cols]. assert (bread v 0 el = Ok v) as ->.
      { rewrite <- (app_nil_r v) at 1. change (v ++ []) with ([] ++ v ++ []). now apply bread_app. }
      cbn [bind]. destruct (write_grid b g i j v G B Lv) as (b' & W & G'). rewrite W. cbn [bind]. eauto.
    - now destruct dbg.
  Qed.
  Lemma get_grid dbg m g i j : grid_of m g -> 0 <= i -> 0 <= j ->
    if in_bounds m i j then exists o b, mat_get dbg m i j = Ok (Some o) /\ m_blk m = Some b /\ bread b o el = Ok (g i j) /\ o = (i * cols + j) * el
    else mat_get dbg m i j = if dbg then Abort else Ok None.
  Proof.
    intros G Hi Hj. pose proof G as (b & -> & L & R). destruct (in_bounds _ i j) eqn:B; unfold mat_get; rewrite B; cbn [negb].
    - apply bounds_inside in B; try assumption. destruct (offset_eq b i j B) as (E & _). rewrite E. exists ((i * cols + j) * el), b. cbn [m_blk]. auto.
    - now destruct dbg.
  Qed.
  Lemma clear_grid m g : grid_of m g -> exists m', mat_clear m = Ok m' /\ grid_of m' (fun _ _ => repeat (Some 0) (Z.to_nat el)).
  Proof.
    intros (b & -> & L & _). unfold mat_clear. cbn [m_blk m_rows m_cols m_el]. rewrite bytes_eq.
    assert (bwrite b 0 (repeat (Some 0) (Z.to_nat (rows * cols * el))) = Ok (repeat (Some 0) (Z.to_nat (rows * cols * el)))) as ->.
    { change b with ([] ++ b) at 1. rewrite <- (app_nil_r b) at 1. rewrite (bwrite_app [] b []); [|reflexivity|rewrite zlen_repeat; nia]. cbn [app]. now rewrite app_nil_r. }
    cbn [bind]. destruct (create_grid false) as (m' & E & G). unfold mat_create in E. rewrite bytes_eq in E. replace ((rows =? 0) || (cols =? 0) || (alloc_max <? rows * cols * el)) with false in E by lia.
    injection E as <-. eauto.
  Qed.

  (** What a function leaves in every element. *)
  Variable f : list cell -> Z -> Z -> list cell.
  Hypothesis Hf : forall c i j, zlen (f c i j) = zlen c.
  Lemma visit_grid m g i j : grid_of m g -> inside i j -> exists m', mat_visit f m i j = Ok m' /\ grid_of m' (put_at g i j (f (g i j) i j)).
  Proof.
    intros G I. pose proof G as (b & -> & L & R). unfold mat_visit, mat_get. replace (in_bounds (mk_mat (Some b) rows cols el) i j) with true.
    2:{ symmetry. apply bounds_inside; unfold inside in I; try lia. exact I. }
    cbn [negb bind m_blk m_el m_rows m_cols]. assert (bread b (offset (mk_mat (Some b) rows cols el) i j) el = Ok (g i j)) as X by (destruct (offset_eq b i j I) as (E & _); rewrite E; now apply R).
    rewrite X. cbn [bind].
    destruct (write_grid b g i j (f (g i j) i j) G I) as (b' & W & G'); [rewrite Hf; now apply (element_len _ _ _ _ G)|]. rewrite W. cbn [bind]. eauto.
  Qed.
  Lemma row_grid k : forall m g i j, grid_of m g -> 0 <= i < rows -> 0 <= j -> j + Z.of_nat k <= cols ->
    exists m', apply_row f k m i j = Ok m' /\ grid_of m' (fun i' j' => if (i' =? i) && (j <=? j') && (j' <? j + Z.of_nat k) then f (g i' j') i' j' else g i' j').
  Proof.
    induction k as [|k IH]; intros m g i j G Hi Hj Hk; cbn [apply_row].
    - exists m. split; [reflexivity|]. destruct G as (b & E & L & R). exists b. repeat split; try assumption. intros i' j' I.
      replace ((i' =? i) && (j <=? j') && (j' <? j + Z.of_nat 0)) with false by lia. now apply R.
    - destruct (visit_grid m g i j G ltac:(split; lia)) as (m1 & -> & G1). cbn [bind]. destruct (IH m1 _ i (j + 1) G1 Hi ltac:(lia) ltac:(lia)) as (m' & -> & G2). exists m'. split; [reflexivity|].
      destruct G2 as (b & E & L & R). exists b. repeat split; try assumption. intros i' j' I. rewrite (R i' j' I). f_equal. unfold put_at.
      destruct ((i' =? i) && (j' =? j)) eqn:Q.
      + assert (i' = i) as -> by lia. assert (j' = j) as -> by lia. replace ((i =? i) && (j + 1 <=? j) && (j <? j + 1 + Z.of_nat k)) with false by lia.
        now replace ((i =? i) && (j <=? j) && (j <? j + Z.of_nat (S k))) with true by lia.
      + replace ((i' =? i) && (j <=? j') && (j' <? j + Z.of_nat (S k))) with ((i' =? i) && (j + 1 <=? j') && (j' <? j + 1 + Z.of_nat k)) by lia. reflexivity.
  Qed.
  Lemma rows_grid k : forall m g i, grid_of m g -> 0 <= i -> i + Z.of_nat k <= rows ->
    exists m', apply_rows f k m i = Ok m' /\ grid_of m' (fun i' j' => if (i <=? i') && (i' <? i + Z.of_nat k) then f (g i' j') i' j' else g i' j').
  Proof.
    induction k as [|k IH]; intros m g i G Hi Hk; cbn [apply_rows].
    - exists m. split; [reflexivity|]. destruct G as (b & E & L & R). exists b. repeat split; try assumption. intros i' j' I.
      replace ((i <=? i') && (i' <? i + Z.of_nat 0)) with false by lia. now apply R.
    - assert (m_cols m = cols) as -> by (destruct G as (b & -> & _); reflexivity).
      destruct (row_grid (Z.to_nat cols) m g i 0 G ltac:(lia) ltac:(lia) ltac:(lia)) as (m1 & -> & G1). cbn [bind].
      destruct (IH m1 _ (i + 1) G1 ltac:(lia) ltac:(lia)) as (m' & -> & G2). exists m'. split; [reflexivity|].
      destruct G2 as (b & E & L & R). exists b. repeat split; try assumption. intros i' j' I. rewrite (R i' j' I). f_equal. destruct I as [Ii Ij].
      replace ((i' =? i) && (0 <=? j') && (j' <? 0 + Z.of_nat (Z.to_nat cols))) with (i' =? i) by lia.
      destruct (i' =? i) eqn:Q.
      + replace ((i + 1 <=? i') && (i' <? i + 1 + Z.of_nat k)) with false by lia. now replace ((i <=? i') && (i' <? i + Z.of_nat (S k))) with true by lia.
      + now replace ((i <=? i') && (i' <? i + Z.of_nat (S k))) with ((i + 1 <=? i') && (i' <? i + 1 + Z.of_nat k)) by lia.
  Qed.
  Lemma apply_grid m g : grid_of m g -> exists m', mat_apply f m = Ok m' /\ grid_of m' (fun i j => f (g i j) i j).
  Proof.
    intros G. unfold mat_apply. assert (m_rows m = rows) as -> by (destruct G as (b & -> & _); reflexivity).
    destruct (rows_grid (Z.to_nat rows) m g 0 G ltac:(lia) ltac:(lia)) as (m' & -> & G'). exists m'. split; [reflexivity|].
    destruct G' as (b & E & L & R). exists b. repeat split; try assumption. intros i j I. rewrite (R i j I). f_equal. unfold inside in I. now replace ((0 <=? i) && (i <? 0 + Z.of_nat (Z.to_nat rows))) with true by lia.
  Qed.
End Grid.
