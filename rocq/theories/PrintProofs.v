(** Lemmas about PrintModel.v. *)
From Verif Require Import Base BaseFacts NumModel NumProofs AllocModel PrintModel.
From Coq Require Import String.
Local Open Scope list_scope.

(** A line of the help text: short name, long name and description, the names moved to the
    right in columns of width [w1] and [w2]. *)
Definition row (w1 w2 : Z) (s l d line : list Z) : Prop :=
  exists a b, line = repeat 32 a ++ s ++ [32] ++ repeat 32 b ++ l ++ [32] ++ d ++ [10] /\
    Z.of_nat a + zlen s = w1 /\ Z.of_nat b + zlen l = w2.

(** Everything there, and lengths that fit an int. *)
Definition printable (o : hopt) : Prop :=
  exists l s d, h_long o = Some l /\ h_short o = Some s /\ h_desc o = Some d /\ zlen l < 2 ^ 31 /\ zlen s < 2 ^ 31.

Lemma s32_id n : 0 <= n < 2 ^ 31 -> s32 n = n.
Proof.
  intros H. unfold s32. change (2 ^ 31) with 2147483648 in *. change (2 ^ 32) with 4294967296. rewrite Z.mod_small by lia. lia.
Qed.

Lemma pad_row w z : zlen z <= w -> exists a, pad_s w z = repeat 32 a ++ z /\ Z.of_nat a + zlen z = w.
Proof.
  intros H. pose proof (zlen_nonneg z). unfold pad_s. replace (w <? 0) with false by lia.
  exists (Z.to_nat w - List.length z)%nat. split; auto. unfold zlen in *. lia.
Qed.

Lemma help_row os ol s l d : zlen s <= os -> zlen l <= ol -> row os ol s l d (help_line os ol s l d).
Proof.
  intros A B. destruct (pad_row os s A) as [a [EA LA]]. destruct (pad_row ol l B) as [b [EB LB]].
  exists a, b. unfold help_line. rewrite EA, EB, <- !app_assoc. auto.
Qed.

Lemma paddings_ok opts : Forall printable opts -> forall ol os,
  exists ol' os', paddings opts ol os = Ok (ol', os') /\ ol <= ol' /\ os <= os' /\
    (forall o l, In o opts -> h_long o = Some l -> zlen l <= ol') /\
    (forall o s, In o opts -> h_short o = Some s -> zlen s <= os') /\
    (ol' = ol \/ exists o l, In o opts /\ h_long o = Some l /\ zlen l = ol') /\
    (os' = os \/ exists o s, In o opts /\ h_short o = Some s /\ zlen s = os').
Proof.
  induction 1 as [|o opts (l & s & d & HL & HS & HD & BL & BS) F IH]; intros ol os; cbn [paddings].
  - exists ol, os. repeat split; auto; try lia; intros ? ? [].
  - rewrite HL, HS. cbn [given bind]. pose proof (zlen_nonneg l). pose proof (zlen_nonneg s).
    rewrite !s32_id by lia. unfold cmp_max.
    destruct (IH (if ol <? zlen l then zlen l else ol) (if os <? zlen s then zlen s else os))
      as (ol' & os' & E & A & B & C & D & X & Y).
    exists ol', os'. rewrite E. split; [reflexivity|].
    assert (ol <= ol' /\ zlen l <= ol') by (destruct (ol <? zlen l) eqn:Q; lia).
    assert (os <= os' /\ zlen s <= os') by (destruct (os <? zlen s) eqn:Q; lia).
    split; [lia|]. split; [lia|]. split.
    { intros o' l' [<-|I] Q; [|eauto]. assert (l' = l) by congruence. subst. lia. }
    split.
    { intros o' s' [<-|I] Q; [|eauto]. assert (s' = s) by congruence. subst. lia. }
    split.
    + destruct X as [X|(o' & l' & I & Q & R)]; [|right; exists o', l'; cbn; auto].
      destruct (ol <? zlen l) eqn:Q; [right; exists o, l; cbn; auto|left; auto].
    + destruct Y as [Y|(o' & s' & I & Q & R)]; [|right; exists o', s'; cbn; auto].
      destruct (os <? zlen s) eqn:Q; [right; exists o, s; cbn; auto|left; auto].
Qed.

Lemma help_lines_ok os ol opts : Forall printable opts ->
  (forall o l, In o opts -> h_long o = Some l -> zlen l <= ol) ->
  (forall o s, In o opts -> h_short o = Some s -> zlen s <= os) ->
  exists lines, help_lines os ol opts = Ok (List.concat lines) /\
    Forall2 (fun o line => exists l s d, h_long o = Some l /\ h_short o = Some s /\ h_desc o = Some d /\ row os ol s l d line) opts lines.
Proof.
  induction 1 as [|o opts (l & s & d & HL & HS & HD & BL & BS) F IH]; intros A B; cbn [help_lines].
  - exists []. split; [reflexivity|constructor].
  - rewrite HL, HS, HD. cbn [given bind].
    destruct IH as (lines & E & R); [intros; eapply A; eauto; now right|intros; eapply B; eauto; now right|].
    rewrite E. cbn [bind]. exists (help_line os ol s l d :: lines). split; [reflexivity|]. constructor; auto.
    exists l, s, d. do 3 (split; [assumption|]). apply help_row; [eapply B|eapply A]; eauto; now left.
Qed.

Lemma help_ok header footer opts : opts <> [] -> Forall printable opts ->
  exists w1 w2 lines last,
    print_help header footer opts = Ok (opt_line header ++ List.concat lines ++ last ++ opt_line footer) /\
    Forall2 (fun o line => exists l s d, h_long o = Some l /\ h_short o = Some s /\ h_desc o = Some d /\ row w1 w2 s l d line) opts lines /\
    row w1 w2 (txt "-h") (txt "--help") (txt "This help information.") last /\
    (w1 = 2 \/ exists o s, In o opts /\ h_short o = Some s /\ zlen s = w1) /\
    (w2 = 6 \/ exists o l, In o opts /\ h_long o = Some l /\ zlen l = w2).
Proof.
  intros N F. unfold print_help, enforce. destruct opts as [|o0 opts0]; [congruence|].
  replace (1 <=? zlen (o0 :: opts0)) with true by (rewrite zlen_cons; pose proof (zlen_nonneg opts0); lia). cbn [bind].
  destruct (paddings_ok _ F 6 2) as (ol & os & E & A & B & C & D & X & Y). rewrite E. cbn [bind fst snd].
  destruct (help_lines_ok os ol _ F C D) as (lines & E2 & R). rewrite E2. cbn [bind].
  exists os, ol, lines. eexists. split; [reflexivity|]. split; [exact R|].
  split; [apply help_row; [exact B|exact A]|]. auto.
Qed.

Lemma paddings_null opts : forall ol os,
  (exists o, In o opts /\ (h_long o = None \/ h_short o = None)) -> paddings opts ol os = UB.
Proof.
  induction opts as [|o opts IH]; intros ol os (x & I & H); [destruct I|]. cbn [paddings].
  destruct (h_long o) as [l|] eqn:HL; [|reflexivity]. cbn [given bind].
  destruct (h_short o) as [s|] eqn:HS; [|reflexivity]. cbn [given bind].
  apply IH. destruct I as [<-|I]; [destruct H; congruence|]. eauto.
Qed.
Lemma help_null header footer opts :
  (exists o, In o opts /\ (h_long o = None \/ h_short o = None)) -> print_help header footer opts = UB.
Proof.
  intros H. unfold print_help, enforce. destruct H as (o & I & H). destruct opts as [|o0 opts0]; [destruct I|].
  replace (1 <=? zlen (o0 :: opts0)) with true by (rewrite zlen_cons; pose proof (zlen_nonneg opts0); lia). cbn [bind].
  rewrite paddings_null by eauto. reflexivity.
Qed.

(** * Statistics *)

(** A number moved to the right in a column of ten characters, or wider if it needs more. *)
Definition cell (n : Z) (z : list Z) : Prop :=
  exists k d, z = repeat 32 k ++ d /\ decimal n d /\ (n < 10 ^ 10 -> zlen z = 10) /\ (10 ^ 10 <= n -> k = 0%nat).

Lemma dval_ge z : Forall digit z -> forall acc, acc * 10 ^ zlen z <= dval acc z.
Proof.
  induction 1 as [|c z D F IH]; intros acc; cbn [dval]; [rewrite zlen_nil; lia|].
  rewrite zlen_cons, Z.pow_add_r by (pose proof (zlen_nonneg z); lia). specialize (IH (10 * acc + (c - 48))).
  red in D. assert (0 < 10 ^ zlen z) by (apply Z.pow_pos_nonneg; [lia|apply zlen_nonneg]). nia.
Qed.
Lemma dval_lt z : Forall digit z -> forall acc, dval acc z < (acc + 1) * 10 ^ zlen z.
Proof.
  induction 1 as [|c z D F IH]; intros acc; cbn [dval]; [rewrite zlen_nil; lia|].
  rewrite zlen_cons, Z.pow_add_r by (pose proof (zlen_nonneg z); lia). specialize (IH (10 * acc + (c - 48))).
  red in D. assert (0 < 10 ^ zlen z) by (apply Z.pow_pos_nonneg; [lia|apply zlen_nonneg]). nia.
Qed.
Lemma decimal_len n d k : decimal n d -> 1 <= k -> (n < 10 ^ k <-> zlen d <= k).
Proof.
  intros (F & N & V & H) K. destruct d as [|c d]; [congruence|]. cbn [dval hd] in *.
  inversion F as [|? ? D F']; subst. pose proof (zlen_nonneg d). rewrite zlen_cons. split; intros L.
  - destruct (Z.eq_dec c 48) as [->|C]; [specialize (H eq_refl); injection H as ->; rewrite zlen_nil; lia|].
    pose proof (dval_ge d F' (10 * 0 + (c - 48))) as G. red in D.
    assert (10 ^ zlen d <= dval (10 * 0 + (c - 48)) d).
    { assert (0 < 10 ^ zlen d) by (apply Z.pow_pos_nonneg; lia). nia. }
    assert (10 ^ zlen d < 10 ^ k) by lia. apply Z.pow_lt_mono_r_iff in H2; lia.
  - pose proof (dval_lt d F' (10 * 0 + (c - 48))) as G. red in D.
    assert (0 < 10 ^ zlen d) by (apply Z.pow_pos_nonneg; lia).
    assert (10 ^ (1 + zlen d) <= 10 ^ k) by (apply Z.pow_le_mono_r; lia). rewrite Z.pow_add_r in H2 by lia. nia.
Qed.

Lemma cell_ok n : 0 <= n < two64 -> cell n (pad_s 10 (fmt_int n)).
Proof.
  intros B. pose proof (fmt_ok n B) as D. pose proof (decimal_len n _ 10 D) as L.
  unfold pad_s. change (10 <? 0) with false. cbn match.
  exists (Z.to_nat 10 - List.length (fmt_int n))%nat, (fmt_int n). split; [reflexivity|]. split; [exact D|]. split; intros Q.
  - assert (zlen (fmt_int n) <= 10) by (apply L; [lia|exact Q]). autorewrite with zlen. unfold zlen in *. lia.
  - assert (~ zlen (fmt_int n) <= 10) by (intros X; apply L in X; lia). unfold zlen in *. lia.
Qed.

Lemma stats_table a :
  0 <= c_allocs a < two64 -> 0 <= c_reallocs a < two64 -> 0 <= c_frees a < two64 -> 0 <= c_bytes a < two64 -> 0 <= c_freed a < two64 ->
  exists z1 z2 z3 z4 z5 z6,
  print_stats a =
    txt "|-------------------------|" ++ [10] ++ txt "|    MALLOCATOR STATS     |" ++ [10] ++ txt "|-------------------------|" ++ [10] ++
    (txt "| N   ALLOCS | " ++ z1 ++ txt " |" ++ [10]) ++ (txt "| N REALLOCS | " ++ z2 ++ txt " |" ++ [10]) ++
    (txt "| N    FREES | " ++ z3 ++ txt " |" ++ [10]) ++ txt "|-------------------------|" ++ [10] ++
    (txt "| B T.ALLOCD | " ++ z4 ++ txt " |" ++ [10]) ++ (txt "| B C.ALLOCD | " ++ z5 ++ txt " |" ++ [10]) ++
    (txt "| B    FREED | " ++ z6 ++ txt " |" ++ [10]) ++ txt "|-------------------------|" ++ [10] ++
    txt "| (N) - COUNT             |" ++ [10] ++ txt "| (B) - BYTES             |" ++ [10] ++
    txt "| (T) - TOTAL             |" ++ [10] ++ txt "| (C) - CURRENT           |" ++ [10] ++ txt "|-------------------------|" ++ [10] /\
  cell (c_allocs a) z1 /\ cell (c_reallocs a) z2 /\ cell (c_frees a) z3 /\
  cell (w64 (c_bytes a + c_freed a)) z4 /\ cell (c_bytes a) z5 /\ cell (c_freed a) z6.
Proof.
  intros B1 B2 B3 B4 B5.
  exists (pad_s 10 (fmt_int (c_allocs a))), (pad_s 10 (fmt_int (c_reallocs a))), (pad_s 10 (fmt_int (c_frees a))),
    (pad_s 10 (fmt_int (w64 (c_bytes a + c_freed a)))), (pad_s 10 (fmt_int (c_bytes a))), (pad_s 10 (fmt_int (c_freed a))). split.
  - unfold print_stats, stat_row, rule. rewrite <- !app_assoc. reflexivity.
  - assert (0 <= w64 (c_bytes a + c_freed a) < two64) by (apply Z.mod_pos_bound; reflexivity).
    do 5 (split; [apply cell_ok; assumption|]). apply cell_ok; assumption.
Qed.
