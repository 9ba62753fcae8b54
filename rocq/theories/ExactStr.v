(** Strings: what happens in the cases left out by C25, C26, C28, C32, C33, C35, C36 and C38. *)
From Coq Require Import Lia.
From Verif Require Import Base BaseFacts StrModel StrModel2 StrSpec StrProofs StrProofs2 StrMain.

Lemma find_long t cap s sub : srep t cap s -> zlen t < zlen sub ->
  str_find s sub = Abort /\ str_index_find s sub = Abort /\ (forall f, str_can_find f s sub = Abort).
Proof.
  intros R H. assert (enforce (zlen sub <=? sl s) = Abort) as E by (rewrite (r_len _ _ _ R); replace (zlen sub <=? zlen t) with false by lia; reflexivity).
  unfold str_index_find, str_find, str_can_find. rewrite E. cbn [bind]. now split; [|split].
Qed.
Lemma replace_first_long dbg t cap s sub rsub : srep t cap s -> zlen t < zlen sub -> 0 < zlen rsub -> str_replace_first dbg s sub rsub = Abort.
Proof.
  intros R H Hr. unfold str_replace_first. pose proof (zlen_nonneg t).
  replace (is_nil sub || is_nil rsub) with false by (destruct sub; [zl; lia|]; destruct rsub; [zl; lia|]; reflexivity).
  now rewrite (proj1 (find_long _ _ _ _ R H)).
Qed.

Lemma strstr_nil t : strstr t [] = Some 0.
Proof. destruct t; reflexivity. Qed.
Lemma count_empty t cap s : srep t cap s -> forall f a b n, t = a ++ b -> count_loop f (sb s) [] (zlen a) n = NoFuel.
Proof.
  intros R f. induction f as [|f IH]; intros a b n ->; [reflexivity|]. cbn [count_loop].
  rewrite (cstr_mid _ _ _ _ _ R eq_refl). cbn [bind]. rewrite strstr_nil. replace (zlen a + 0 + zlen (@nil Z)) with (zlen a) by (zl; lia). now apply (IH a b).
Qed.
Lemma can_find_empty t cap s : srep t cap s -> forall f, str_can_find f s [] = NoFuel.
Proof.
  intros R f. unfold str_can_find. rewrite (r_len _ _ _ R). pose proof (zlen_nonneg t). replace (zlen (@nil Z) <=? zlen t) with true by (symmetry; apply Z.leb_le; zl; lia).
  cbn [enforce bind]. exact (count_empty t cap s R f [] t 0 eq_refl).
Qed.

Lemma last_empty t cap s : srep t cap s -> forall f, last_loop f (sb s) [] 0 = NoFuel.
Proof.
  intros R f. induction f as [|f IH]; [reflexivity|]. cbn [last_loop]. change (0 + zlen (@nil Z)) with (zlen (@nil Z)).
  rewrite (cstr_mid [] t cap s _ R eq_refl). cbn [bind]. rewrite strstr_nil. exact IH.
Qed.

Lemma remove_last_absent dbg t cap s z : srep t cap s -> cut z t = None -> forall f, str_remove_last dbg f s z = UB.
Proof. intros R C f. unfold str_remove_last. rewrite (z_ok _ _ _ R). cbn [bind]. now rewrite strstr_cut, C. Qed.
Lemma remove_last_empty dbg t cap s : srep t cap s -> forall f, str_remove_last dbg f s [] = NoFuel.
Proof. intros R f. unfold str_remove_last. rewrite (z_ok _ _ _ R). cbn [bind]. rewrite strstr_nil. now rewrite (last_empty _ _ _ R). Qed.
Lemma remove_last_front (dbg : bool) t cap s z b f : srep t cap s -> 0 < zlen z -> (length t < f)%nat -> last_cut (length t) z t = Some ([], b) ->
  (if dbg then str_remove_last dbg f s z = Abort else exists s', str_remove_last dbg f s z = Ok (s', true) /\ srep t cap s').
Proof.
  intros R Hz Hf Hc. unfold str_remove_last. rewrite (z_ok _ _ _ R). cbn [bind].
  destruct (last_ok_scan _ _ _ _ _ _ _ R Hz Hf Hc) as (i & Ei & El). rewrite Ei, El. cbn [bind].
  pose proof R as [P O L C LE RM F V]. rewrite L. change (zlen (@nil Z)) with 0. rewrite Z.sub_0_r. pose proof (zlen_nonneg t).
  rewrite (w64_small (zlen t)) by zlia. unfold str_remove. rewrite L.
  rewrite (dassert_true dbg (0 <? zlen z)) by lia. cbn [bind].
  destruct dbg; [cbn [dassert]; rewrite Z.ltb_irrefl; reflexivity|]. cbn [dassert bind].
  rewrite Z.sub_diag. change (w64 0) with 0. replace (0 <? zlen z) with true by lia. rewrite Z.add_0_r, (w64_small (zlen t)) by zlia. rewrite Z.sub_diag. change (w64 0) with 0.
  unfold smove. cbn [Z.eqb bind]. rewrite L, Z.sub_0_r, (w64_small (zlen t)) by zlia.
  cbn [set_len sl].
  destruct (sput_ok (set_len s (zlen t)) (zlen t) 0 V) as (b' & E & Lb & Pb & _); [cbn [set_len sb]; zlia|].
  cbn [set_len sb sl sc sv ss] in *. rewrite E. cbn [bind]. eexists. split; [reflexivity|].
  constructor; cbn [sb sl sc sv]; try assumption; try reflexivity; try lia.
  rewrite (pre_firstn_eq (map Some t) _ _ (pre_text _ _ _ R)) in Pb by (now rewrite zlen_map). exact Pb.
Qed.

Lemma replace_last_absent dbg t cap s sub rsub : srep t cap s -> 0 < zlen sub -> 0 < zlen rsub -> cut sub t = None -> forall f, str_replace_last dbg f s sub rsub = UB.
Proof.
  intros R Hs Hr C f. unfold str_replace_last.
  replace (is_nil sub || is_nil rsub) with false by (destruct sub; [zl; lia|]; destruct rsub; [zl; lia|]; reflexivity).
  rewrite (z_ok _ _ _ R). cbn [bind]. now rewrite strstr_cut, C.
Qed.

(** Stripping when nothing remains. *)
Lemma lead_all f s cap : forall p d k, srep (d ++ p) cap s -> forallb f p = true -> f 0 = false -> (length p < k)%nat ->
  lead_loop k f (sb s) (zlen d) = Ok (zlen d + zlen p).
Proof.
  induction p as [|x p IH]; intros d k R Fp F0 Hk; (destruct k; cbn [length] in Hk; [lia|]); cbn [lead_loop].
  - rewrite app_nil_r in R. assert (bbyte (sb s) (zlen d) = Ok 0) as ->.
    { destruct R as [[q P] O L C LE RM F V]. rewrite P. unfold zblk. rewrite <- app_assoc. cbn [app]. apply bbyte_app. zl. lia. }
    cbn [bind]. rewrite F0. f_equal. zl. lia.
  - rewrite (byte_mid _ _ _ _ _ R). cbn [bind forallb] in *. apply andb_true_iff in Fp as [Fx Fp]. rewrite Fx.
    replace (zlen d + 1) with (zlen (d ++ [x])) by (zl; lia). rewrite (IH (d ++ [x])); [|now rewrite <- app_assoc|assumption|assumption|lia]. f_equal. zl. lia.
Qed.
Lemma tail_under f s cap t : srep t cap s -> zlen (sb s) <= alloc_max -> forallb f t = true ->
  forall q p k, t = p ++ q -> (length p < k)%nat -> tail_loop k f (sb s) (zlen t) (w64 (- zlen q)) = UB.
Proof.
  intros R B Ft q p. revert q. induction p as [|x p IH] using rev_ind; intros q k E Hk; (destruct k; [lia|]); cbn [tail_loop].
  - cbn [app] in E. subst q. assert (w64 (w64 (- zlen t) + zlen t - 1) = two64 - 1) as ->.
    { unfold w64. rewrite <- Z.add_sub_assoc, Zplus_mod_idemp_l. replace (- zlen t + (zlen t - 1)) with (-1) by lia. reflexivity. }
    unfold bbyte. replace (two64 - 1 <? zlen (sb s)) with false by (symmetry; apply Z.ltb_ge; unfold two64, alloc_max in *; lia). now rewrite Bool.andb_false_r.
  - rewrite <- app_assoc in E. cbn [app] in E.
    assert (w64 (w64 (- zlen q) + zlen t - 1) = zlen p) as ->.
    { unfold w64. rewrite <- Z.add_sub_assoc, Zplus_mod_idemp_l. rewrite E. zl. replace (- zlen q + (zlen p + (1 + zlen q) - 1)) with (zlen p) by lia.
      apply Z.mod_small. pose proof R as [P O L C LE RM F V]. rewrite E in LE. zl. zlia. }
    rewrite E in R. rewrite (byte_mid _ _ _ _ _ R). cbn [bind]. rewrite E in Ft. rewrite forallb_app in Ft. cbn [forallb] in Ft. apply andb_prop in Ft as (_ & Ft). apply andb_prop in Ft as (Fx & _). rewrite Fx.
    replace (w64 (w64 (- zlen q) - 1)) with (w64 (- zlen (x :: q))).
    2: { unfold w64. rewrite <- (Z.add_opp_r _ 1), Zplus_mod_idemp_l. f_equal. zl. lia. }
    rewrite <- E in R. apply (IH (x :: q)); [exact E|]. rewrite app_length in Hk. cbn [length] in Hk. lia.
Qed.
Lemma strip_by_all f t cap s k : srep t cap s -> zlen (sb s) <= alloc_max -> forallb f t = true -> f 0 = false -> (length t < k)%nat -> strip_by k f s = UB.
Proof.
  intros R B Ft F0 Hk. unfold strip_by. change 0 with (zlen (@nil Z)) at 1. rewrite (lead_all f s cap t [] k R Ft F0 Hk). cbn [bind]. change (zlen (@nil Z) + zlen t) with (zlen t).
  rewrite (r_len _ _ _ R), Z.sub_diag. change (w64 0) with (w64 (- zlen (@nil Z))).
  rewrite (tail_under f s cap t R B Ft [] t k); [reflexivity|now rewrite app_nil_r|exact Hk].
Qed.

(** Splitting when the text ends in two separators. *)
Definition doomed (ps : list text) : Prop := ps = [[]] \/ exists l, ps = l ++ [[]; []].
Lemma pieces_ne k sep t : pieces k sep t <> [].
Proof. destruct k; cbn [pieces]; [discriminate|]. destruct (cut sep t) as [[? ?]|]; discriminate. Qed.
Lemma split_doomed dbg sep cap s t : 0 < zlen sep -> srep t cap s -> zlen (sb s) = zlen t + 1 -> forall f k rest d acc, t = d ++ rest ->
  (length rest + 1 < f)%nat -> (length rest <= k)%nat -> doomed (pieces k sep rest) -> split_loop f dbg (sb s) sep (zlen d) acc = UB.
Proof.
  intros Hs R B f. induction f as [|f IH]; intros k rest d acc Et H1 H2 D; [lia|]. cbn [split_loop]. pose proof R as Rt. rewrite Et in R.
  rewrite (cstr_mid _ _ _ _ _ R eq_refl). cbn [bind]. rewrite strstr_cut.
  pose proof R as R0. destruct R0 as [P O L C LE RM F V]. apply oks_app in O as [Od Or].
  assert (rest = [] -> cut sep rest = None /\ split_loop f dbg (sb s) sep (zlen d + zlen sep) acc = UB) as End.
  { intros ->. split; [now apply cut_nil|]. destruct f; [cbn [length] in H1; lia|]. cbn [split_loop]. unfold cstr_at.
    rewrite app_nil_r in Et. subst d. destruct (Z.eq_dec (zlen sep) 1) as [E1|E1].
    - replace (zlen t + zlen sep) with (zlen (sb s)) by lia. pose proof (zlen_nonneg (sb s)). replace ((0 <=? zlen (sb s)) && (zlen (sb s) <=? zlen (sb s))) with true by lia.
      rewrite to_nat_zlen, skipn_all. reflexivity.
    - replace (zlen t + zlen sep <=? zlen (sb s)) with false by lia. now rewrite Bool.andb_false_r. }
  destruct (cut sep rest) as [[a b]|] eqn:E.
  - destruct rest as [|r0 rest']; [destruct (End eq_refl) as (X & _); rewrite cut_nil in E by assumption; discriminate|].
    destruct k as [|k]; [cbn [length] in H2; lia|]. cbn [pieces] in D. rewrite E in D.
    pose proof (cut_shorter _ _ _ _ Hs E) as Hsh. pose proof (cut_some _ _ _ _ E) as Er.
    assert (doomed (pieces k sep b) /\ (a <> [] -> b <> [])) as (Db & Dn).
    { destruct D as [D|(l & D)].
      - injection D as _ D. now apply pieces_ne in D.
      - destruct l as [|l0 l]; cbn [app] in D; injection D as Da Db.
        + subst a. split; [left; exact Db|]. intros X. now destruct X.
        + split; [right; exists l; exact Db|]. intros _ ->. assert (pieces k sep [] = [[]]) as X by (destruct k; cbn [pieces]; [reflexivity|now rewrite cut_nil]).
          rewrite X in Db. destruct l as [|? [|? ?]]; discriminate. }
    destruct (Z.eqb_spec (zlen a) 0) as [Ha|Ha].
    + apply zlen_0 in Ha. subst a. cbn [app] in Er.
      replace (zlen d + zlen sep) with (zlen (d ++ sep)) by (zl; lia).
      apply (IH k b (d ++ sep) acc); [now rewrite Et, Er, <- app_assoc|lia|lia|exact Db].
    + rewrite Er in *.
      destruct (piece_ok dbg a (sep ++ b) cap) as (p & Ep & Rp); [assumption|zlia|zl; zlia|assumption|].
      destruct (str_create_len dbg (zlen a)) as [s1| | |]; try discriminate. cbn [bind] in *. rewrite Ep. cbn [bind].
      destruct b as [|x b]; [exfalso; apply Dn; [intros ->; now apply Ha|reflexivity]|].
      assert (bbyte (sb s) (zlen d + zlen a + zlen sep) = Ok x) as ->.
      { rewrite (app_assoc d), (app_assoc (d ++ a)) in R. rewrite <- (byte_mid _ _ _ _ _ R). f_equal. zl. lia. }
      cbn [bind]. assert (okc x) as Ox. { rewrite !oks_app in Or. destruct Or as (_ & _ & Ox). now inversion Ox. }
      unfold okc in Ox. replace (x =? 0) with false by lia.
      replace (zlen d + zlen a + zlen sep) with (zlen (d ++ a ++ sep)) by (zl; lia).
      apply (IH k (x :: b) (d ++ a ++ sep)); [now rewrite Et, <- !app_assoc|lia|lia|exact Db].
  - assert (pieces k sep rest = [rest]) as Pr by (destruct k; cbn [pieces]; [reflexivity|now rewrite E]). rewrite Pr in D.
    assert (rest = []) as -> by (destruct D as [D|(l & D)]; [now injection D|destruct l as [|? [|? ?]]; discriminate]).
    cbn [Z.eqb zlen length]. apply End. reflexivity.
Qed.

(** Text between markers: the right one first, overlapping markers, nothing in between. *)
Lemma between_late dbg so z zl_ zr a a' c c' : (match so with Some st => exists t cap, srep t cap st | None => True end) ->
  cut zl_ z = Some (a, a') -> cut zr z = Some (c, c') -> zlen c <= zlen a ->
  exists so', str_split_between dbg so z zl_ zr = Ok (None, so') /\ match so, so' with Some _, Some st' => exists cap', srep [] cap' st' | None, None => True | _, _ => False end.
Proof.
  intros S C1 C2 H. unfold str_split_between. rewrite !strstr_cut, C1, C2. replace (zlen a <? zlen c) with false by lia.
  destruct so as [st|]; cbn [bind].
  - destruct S as (t & cap & R). destruct (clear_ok t cap st R) as (s1 & E1 & R1). rewrite E1. cbn [bind]. eexists. split; [reflexivity|]. now exists cap.
  - destruct (create_capacity_ok dbg 16) as (s0 & E0 & R0); [lia|unfold alloc_max; lia|]. rewrite E0. cbn [bind].
    destruct (clear_ok _ _ _ R0) as (s1 & E1 & R1). rewrite E1. cbn [bind]. exists None. now split.
Qed.
Lemma resize_huge dbg t cap s k : srep t cap s -> 0 < k < alloc_max -> str_resize dbg s (two64 - k) = Abort.
Proof.
  intros R H. pose proof (r_view _ _ _ R) as V. unfold str_resize. rewrite dassert_true by (apply Z.ltb_lt; unfold two64, alloc_max in *; lia). rewrite V. cbn [bind enforce negb].
  unfold srealloc, c_realloc. destruct (Z.eq_dec k 1) as [->|N].
  - change (w64 (two64 - 1 + 1)) with 0. destruct dbg; reflexivity.
  - rewrite w64_small by (unfold two64, alloc_max in *; lia). rewrite dassert_true by (apply Z.ltb_lt; unfold two64, alloc_max in *; lia). cbn [bind].
    replace (two64 - k + 1 =? 0) with false by (symmetry; apply Z.eqb_neq; unfold two64, alloc_max in *; lia).
    replace (two64 - k + 1 <=? alloc_max) with false by (symmetry; apply Z.leb_gt; unfold two64, alloc_max in *; lia). reflexivity.
Qed.
Lemma between_overlap dbg so z zl_ zr a a' c c' : (match so with Some st => exists t cap, srep t cap st | None => True end) ->
  cut zl_ z = Some (a, a') -> cut zr z = Some (c, c') -> zlen a < zlen c < zlen a + zlen zl_ -> zlen z < alloc_max ->
  str_split_between dbg so z zl_ zr = Abort.
Proof.
  intros S C1 C2 H B. pose proof (cut_some _ _ _ _ C1) as Ez. assert (zlen zl_ < alloc_max) as Bz by (rewrite Ez in B; zl; zlia).
  unfold str_split_between. rewrite !strstr_cut, C1, C2. replace (zlen a <? zlen c) with true by lia.
  assert (w64 (zlen c - zlen a - zlen zl_) = two64 - (zlen a + zlen zl_ - zlen c)) as W.
  { unfold w64. rewrite <- (Z_mod_plus_full _ 1). rewrite Z.mod_small; [lia|]. pose proof (zlen_nonneg a). unfold two64, alloc_max in *. lia. }
  rewrite W. destruct so as [st|]; cbn [bind].
  - destruct S as (t & cap & R). destruct (clear_ok t cap st R) as (s1 & E1 & R1). rewrite E1. cbn [bind]. rewrite (resize_huge dbg [] cap s1) by (trivial; lia). reflexivity.
  - destruct (create_capacity_ok dbg 16) as (s0 & E0 & R0); [lia|unfold alloc_max; lia|]. rewrite E0. cbn [bind].
    destruct (clear_ok _ _ _ R0) as (s1 & E1 & R1). rewrite E1. cbn [bind]. rewrite (resize_huge dbg [] 16 s1) by (trivial; lia). reflexivity.
Qed.
(** vt_str_resize to 0: ends debug builds; otherwise the string is empty without room. *)
Lemma resize_zero t cap s : srep t cap s -> str_resize true s 0 = Abort /\ exists s', str_resize false s 0 = Ok s' /\ srep [] 0 s'.
Proof.
  intros R. split; [reflexivity|]. pose proof R as [P O L C LE RM F V]. unfold str_resize. cbn [dassert bind]. rewrite V. cbn [enforce negb bind].
  unfold srealloc, c_realloc. change (w64 (0 + 1)) with 1. cbn [dassert bind]. change (1 =? 0) with false. change (1 <=? alloc_max) with true. cbn [bind]. cbn match.
  pose proof (zlen_nonneg t). assert (1 <= zlen (sb s)) as B1 by lia.
  assert (zlen (firstn (Z.to_nat 1) (sb s) ++ repeat None (Z.to_nat 1 - length (sb s))) = 1) as Lb by (unfold zlen in *; rewrite app_length, firstn_length, repeat_length; lia).
  cbn [sb sl sc sv ss]. match goal with |- context [sput ?x 0 0] => destruct (sput_ok x 0 0) as (b' & E & Lb' & Pb & _) end; [exact V|cbn [sb]; lia|].
  cbn [sb sl sc sv ss] in *. rewrite E. eexists. split; [reflexivity|]. constructor; cbn [sb sl sc sv]; try reflexivity; try (zl; lia); try assumption; try (now constructor); try (unfold alloc_max; zl; lia).
  rewrite L. change (zlen (@nil Z)) with 0. destruct (0 <? zlen t) eqn:X; [reflexivity|]. apply Z.ltb_ge in X. lia.
Qed.
Lemma between_nothing dbg so z zl_ zr a a' c c' : (match so with Some st => exists t cap, srep t cap st | None => True end) ->
  cut zl_ z = Some (a, a') -> cut zr z = Some (c, c') -> 0 < zlen zl_ -> zlen c = zlen a + zlen zl_ ->
  if dbg : bool then str_split_between dbg so z zl_ zr = Abort
  else exists s', str_split_between dbg so z zl_ zr = Ok (Some s', match so with Some _ => Some s' | None => None end) /\ srep [] 0 s'.
Proof.
  intros S C1 C2 Hz H. unfold str_split_between. rewrite !strstr_cut, C1, C2. replace (zlen a <? zlen c) with true by lia.
  replace (zlen c - zlen a - zlen zl_) with 0 by lia. change (w64 0) with 0.
  assert (forall st, (exists t cap, srep t cap st) -> exists s1, str_clear st = Ok s1 /\
     if dbg then str_resize dbg s1 0 = Abort
     else exists s2 s3, str_resize dbg s1 0 = Ok s2 /\ (forall x, str_append_n dbg s2 x 0 = Ok s3) /\ srep [] 0 s3) as K.
  { intros st (t & cap & R). destruct (clear_ok t cap st R) as (s1 & E1 & R1). exists s1. split; [exact E1|].
    destruct (resize_zero [] cap s1 R1) as (A & s2 & E2 & R2). destruct dbg; [exact A|]. exists s2.
    pose proof R2 as [P O L C LE RM F V]. unfold str_append_n. cbn [dassert bind].
    assert (str_has_space s2 <? 0 = false) as Hs by (apply Z.ltb_ge; unfold str_has_space; rewrite ?L, ?C; unfold w64; apply Z.mod_pos_bound; reflexivity).
    rewrite Hs. cbn [bind]. unfold scopy. cbn [Z.eqb bind]. rewrite L. change (w64 (zlen (@nil Z) + 0)) with 0. cbn [set_len sl].
    destruct (sput_ok (set_len s2 0) 0 0 V) as (b' & E & Lb' & Pb & _); [cbn [set_len sb]; zl; lia|]. cbn [set_len sb sl sc sv ss] in *. rewrite E.
    eexists. split; [exact E2|]. split; [reflexivity|]. constructor; cbn [sb sl sc sv]; try assumption; try reflexivity; try (zl; lia). }
  destruct so as [st|]; cbn [bind].
  - destruct (K st S) as (s1 & E1 & K1). rewrite E1. cbn [bind]. destruct dbg; [now rewrite K1|]. destruct K1 as (s2 & s3 & E2 & E3 & R3). rewrite E2. cbn [bind]. rewrite E3. cbn [bind]. now exists s3.
  - destruct (create_capacity_ok dbg 16) as (s0 & E0 & R0); [lia|unfold alloc_max; lia|]. rewrite E0. cbn [bind].
    destruct (K s0 (ex_intro _ [] (ex_intro _ 16 R0))) as (s1 & E1 & K1). rewrite E1. cbn [bind]. destruct dbg; [now rewrite K1|]. destruct K1 as (s2 & s3 & E2 & E3 & R3). rewrite E2. cbn [bind]. rewrite E3. cbn [bind]. now exists s3.
Qed.
Lemma forallb_ext_all {A} (f g : A -> bool) l : (forall x, f x = g x) -> forallb f l = forallb g l.
Proof. intros H. induction l as [|x l IH]; cbn; [reflexivity|]. now rewrite H, IH. Qed.
Lemma strip_nothing t cap s : srep t cap s -> zlen (sb s) <= alloc_max ->
  (forallb white t = true -> str_strip (lf s) s = UB) /\
  (forallb (fun c => white c || punct c) t = true -> str_strip_punct (lf s) s = UB) /\
  (forall c, oks c -> 0 < zlen c -> forallb (in_set c) t = true -> str_strip_c (lf s) s c = UB) /\
  str_strip_c (lf s) s [] = NoFuel.
Proof.
  intros R M. pose proof (fuel_len _ _ _ R) as Fu. assert (length t < lf s)%nat as Fl by (unfold lf; lia). split; [|split; [|split]].
  - intros A. unfold str_strip. apply (strip_by_all is_space t cap); trivial.
    rewrite <- A. apply forallb_ext_all. intros c. now rewrite space_white.
  - intros A. unfold str_strip_punct. apply (strip_by_all _ t cap); trivial.
    rewrite <- A. apply forallb_ext_all. intros c. now rewrite space_white, punct_eq.
  - intros c O Hc A. unfold str_strip_c. destruct c as [|x c]; [zl; lia|]. cbn [is_nil]. apply (strip_by_all _ t cap); trivial.
    { rewrite <- A. apply forallb_ext_all. intros y. apply memb_in_set. }
    rewrite memb_in_set. destruct (in_set (x :: c) 0) eqn:E; [|reflexivity]. unfold in_set in E. apply existsb_exists in E as (y & I & Ey). apply Z.eqb_eq in Ey. subst y.
    unfold oks in O. rewrite Forall_forall in O. apply O in I. unfold okc in I. lia.
  - reflexivity.
Qed.
Lemma split_cases dbg t cap s sep : srep t cap s ->
  (zlen t < zlen sep -> str_split dbg (lf s) s sep = Abort) /\
  (sep = [] -> forall f, str_split dbg f s sep = NoFuel) /\
  (forall l, 0 < zlen sep <= zlen t -> scan sep t (l ++ [[]; []]) -> zlen (sb s) = zlen t + 1 -> str_split dbg (lf s) s sep = UB).
Proof.
  intros R. split; [|split].
  - intros H. unfold str_split. destruct (find_long t cap s sep R H) as (_ & _ & ->). reflexivity.
  - intros -> f. unfold str_split. now rewrite (can_find_empty t cap s R f).
  - intros l H S X. destruct (count_scan t cap s sep R H) as (ps & S' & E). pose proof (scan_unique sep t _ ltac:(lia) S) as U. pose proof (scan_unique sep t _ ltac:(lia) S') as U'.
    unfold str_split. rewrite E. cbn [bind]. rewrite U', <- U. pose proof (zlen_nonneg l). replace (zlen (l ++ [[]; []]) - 1 =? 0) with false by (zl; lia).
    pose proof (fuel_len _ _ _ R) as Fu. change 0 with (zlen (@nil Z)) at 1. rewrite (split_doomed dbg sep cap s t ltac:(lia) R X (lf s) (length t) t [] []); try reflexivity; [unfold lf|right; exists l; now rewrite U].
    unfold zlen in X. unfold lf. lia.
Qed.
