From Coq Require Import Lia.
From Verif Require Import Base BaseFacts StrModel StrModel2 StrSpec StrProofs StrProofs2 StrProofs3 StrMain ExactStr CtypeModel.
Local Open Scope list_scope.

(** Bytes the functions are not defined for. *)
Definition undef (l : lib) (c : Z) : bool := match l with CharSigned => (128 <=? c) && (c <=? 254) | _ => false end.
Lemma class_eq l f c : 0 <= c < 256 -> f 255 = false -> ctype_class l f c = if undef l c then UB else Ok (f c).
Proof.
  intros H H0. unfold ctype_class, char_value, undef. destruct l; cbv zeta.
  - now replace ((0 <=? c) && (c <=? 255)) with true by lia.
  - destruct (Z.ltb_spec c 128).
    + replace ((0 <=? c) && (c <=? 255)) with true by lia. now replace ((128 <=? c) && (c <=? 254)) with false by lia.
    + replace ((0 <=? c - 256) && (c - 256 <=? 255)) with false by lia. destruct (Z.eqb_spec (c - 256) (-1)).
      * replace c with 255 by lia. now rewrite H0.
      * now replace ((128 <=? c) && (c <=? 254)) with true by lia.
  - destruct (Z.ltb_spec c 128).
    + now replace ((0 <=? c) && (c <=? 255)) with true by lia.
    + replace ((0 <=? c - 256) && (c - 256 <=? 255)) with false by lia. destruct (Z.eqb_spec (c - 256) (-1)).
      * replace c with 255 by lia. now rewrite H0.
      * now replace (c - 256 + 256) with c by lia.
Qed.
Lemma map_eq l g c : 0 <= c < 256 -> g 255 = 255 -> (forall x, 0 <= x < 256 -> 0 <= g x < 256) -> ctype_map l g c = if undef l c then UB else Ok (g c).
Proof.
  intros H H0 Hg. unfold ctype_map, char_value, undef. destruct l; cbv zeta.
  - replace ((0 <=? c) && (c <=? 255)) with true by lia. now rewrite Z.mod_small by now apply Hg.
  - destruct (Z.ltb_spec c 128).
    + replace ((0 <=? c) && (c <=? 255)) with true by lia. replace ((128 <=? c) && (c <=? 254)) with false by lia. now rewrite Z.mod_small by now apply Hg.
    + replace ((0 <=? c - 256) && (c - 256 <=? 255)) with false by lia. destruct (Z.eqb_spec (c - 256) (-1)) as [E|E].
      * rewrite E. replace c with 255 by lia. rewrite H0. reflexivity.
      * now replace ((128 <=? c) && (c <=? 254)) with true by lia.
  - destruct (Z.ltb_spec c 128).
    + replace ((0 <=? c) && (c <=? 255)) with true by lia. now rewrite Z.mod_small by now apply Hg.
    + replace ((0 <=? c - 256) && (c - 256 <=? 255)) with false by lia. destruct (Z.eqb_spec (c - 256) (-1)) as [E|E].
      * rewrite E. replace c with 255 by lia. rewrite H0. reflexivity.
      * replace (c - 256 + 256) with c by lia. now rewrite Z.mod_small by now apply Hg.
Qed.

(** * Stripping *)
Section Strip.
  Variables (l : lib) (f : Z -> bool) (fm : Z -> res bool).
  Hypothesis Hfm : forall c, 0 <= c < 256 -> fm c = if undef l c then UB else Ok (f c).
  Hypothesis Hu : forall c, undef l c = true -> f c = false.
  Definition look (b : blk) (i : Z) (k : Z) : res Z := match bbyte b i with Ok c => if undef l c then UB else Ok k | _ => Ok k end.
  Definition bytes (b : blk) : Prop := forall i c, bbyte b i = Ok c -> 0 <= c < 256.
  Lemma k_lead_eq b : bytes b -> forall k o, k_lead k fm b o = let* n := lead_loop k f b o in look b n n.
  Proof.
    intros Hb. induction k as [|k IH]; intros o; cbn [k_lead lead_loop]; [reflexivity|]. destruct (bbyte b o) as [c| | |] eqn:E; cbn [bind]; try reflexivity.
    rewrite (Hfm c (Hb _ _ E)). destruct (undef l c) eqn:U; cbn [bind].
    - rewrite (Hu c U). cbn [bind]. unfold look. now rewrite E, U.
    - destruct (f c); [apply IH|]. cbn [bind]. unfold look. now rewrite E, U.
  Qed.
  Lemma k_tail_eq b : bytes b -> forall k o n, k_tail k fm b o n = let* m := tail_loop k f b o n in look b (w64 (m + o - 1)) m.
  Proof.
    intros Hb. induction k as [|k IH]; intros o n; cbn [k_tail tail_loop]; [reflexivity|]. destruct (bbyte b (w64 (n + o - 1))) as [c| | |] eqn:E; cbn [bind]; try reflexivity.
    rewrite (Hfm c (Hb _ _ E)). destruct (undef l c) eqn:U; cbn [bind].
    - rewrite (Hu c U). cbn [bind]. unfold look. now rewrite E, U.
    - destruct (f c); [apply IH|]. cbn [bind]. unfold look. now rewrite E, U.
  Qed.
  Lemma k_strip_eq g t cap s k : (forall c, f c = g c) -> f 0 = false -> srep t cap s -> bytes (sb s) -> zlen (sb s) <= alloc_max -> (length t < k)%nat ->
    k_strip_by k fm s = if forallb g t then UB else if undef l (hd 0 (strip_text g t)) || undef l (last (strip_text g t) 0) then UB else strip_by k f s.
  Proof.
    intros Hfg F0 R Hb B Hk. unfold k_strip_by. rewrite (k_lead_eq _ Hb).
    assert (Hl : forall l0, forallb f l0 = forallb g l0) by (intros l0; induction l0 as [|x l0 IH]; cbn [forallb]; [reflexivity|now rewrite Hfg, IH]).
    destruct (forallb g t) eqn:Hn.
    - pose proof (strip_by_all f t cap s k R B ltac:(now rewrite Hl) F0 Hk) as X. unfold strip_by in X.
      change 0 with (zlen (@nil Z)) in X at 1. change 0 with (zlen (@nil Z)) at 1.
      rewrite (lead_all f s cap t [] k R ltac:(now rewrite Hl) F0 Hk) in X |- *. cbn [bind] in X |- *. change (zlen (@nil Z) + zlen t) with (zlen t) in X |- *.
      assert (look (sb s) (zlen t) (zlen t) = Ok (zlen t)) as ->.
      { unfold look. assert (bbyte (sb s) (zlen t) = Ok 0) as ->; [|unfold undef; now destruct l].
        destruct R as [[q P] O L C LE RM F V]. rewrite P. unfold zblk. rewrite <- app_assoc. cbn [app]. apply bbyte_app. zl. lia. }
      cbn [bind]. rewrite (k_tail_eq _ Hb). rewrite (r_len _ _ _ R), Z.sub_diag in X |- *. change (w64 0) with (w64 (- zlen (@nil Z))) in X |- *.
      rewrite (tail_under f s cap t R B ltac:(now rewrite Hl) [] t k); [reflexivity|now rewrite app_nil_r|exact Hk].
    - destruct (strip_split g t Hn) as (p & c & m & d & q & Et & Es & Fp & Fc & Fq & (m' & Em) & Fd). rewrite Es. cbn [hd].
      pose proof R as R0. destruct R0 as [[qq P] O L C LE RM F V]. unfold strip_by. subst t. rewrite !app_length in Hk.
      assert (length (c :: m) = S (length m')) as Lm by (rewrite Em, app_length; cbn [length]; lia).
      assert (E1 : lead_loop k f (sb s) 0 = Ok (zlen p)).
      { change 0 with (zlen (@nil Z)) at 1. rewrite (lead_loop_ok f s cap p [] c (m ++ q)); [now rewrite zlen_nil, Z.add_0_l|exact R|now rewrite Hl|now rewrite Hfg|lia]. }
      rewrite E1. cbn [bind]. unfold look at 1. rewrite (byte_mid p c (m ++ q) cap s R).
      destruct (undef l c); [reflexivity|]. cbn [bind orb]. rewrite (k_tail_eq _ Hb).
      rewrite L. zl. assert (1 + zlen m = zlen m' + 1) as Lm' by (unfold zlen; cbn [length] in Lm; lia).
      rewrite (w64_small (zlen p + (1 + zlen m + zlen q) - zlen p)) by zlia.
      replace (zlen p + (1 + zlen m + zlen q) - zlen p) with (zlen m' + 1 + zlen q) by lia.
      rewrite (tail_loop_ok f s cap p m' d q []); [|rewrite app_nil_r; rewrite Em, <- app_assoc in R; exact R|now rewrite Hl|now rewrite Hfg|lia].
      cbn [bind]. unfold look. rewrite (w64_small (zlen m' + 1 + zlen p - 1)) by zlia.
      replace (zlen m' + 1 + zlen p - 1) with (zlen (p ++ m')) by (zl; lia).
      rewrite Em in R. rewrite (byte_mid (p ++ m') d q cap s) by (rewrite <- !app_assoc in *; exact R). rewrite Em, last_last. destruct (undef l d); reflexivity.
  Qed.
End Strip.

(** * Numbers and case *)
Lemma okc_byte c : okc c -> 0 <= c < 256. Proof. unfold okc. lia. Qed.
Lemma undef_not l c f : (forall x, f x = true -> x < 128) -> undef l c = true -> f c = false.
Proof. intros H U. destruct (f c) eqn:E; [|reflexivity]. apply H in E. unfold undef in U. destruct l; try discriminate. lia. Qed.
Fixpoint stops (f : Z -> bool) (t : list Z) : option Z := match t with [] => None | c :: t => if f c then stops f t else Some c end.
Lemma k_numeric_ok l t cap s : srep t cap s ->
  k_is_numeric l s = if match stops numch t with Some c => undef l c | None => false end then UB else Ok (forallb numch t).
Proof.
  intros R. unfold k_is_numeric. rewrite (r_len _ _ _ R), to_nat_zlen.
  assert (H : forall rest d, srep (d ++ rest) cap s -> k_numeric_loop l (length rest) (sb s) (zlen d) =
     if match stops numch rest with Some c => undef l c | None => false end then UB else Ok (forallb numch rest)).
  { induction rest as [|x rest IH]; intros d Rd; cbn [length k_numeric_loop forallb stops]; [reflexivity|].
    rewrite (byte_mid _ _ _ _ _ Rd). cbn [bind].
    assert (Ox : okc x) by (destruct Rd as [_ O _ _ _ _ _ _]; apply oks_app in O as [_ O]; now inversion O).
    rewrite (class_eq l is_digit x (okc_byte x Ox) eq_refl). destruct (undef l x) eqn:U; cbn [bind].
    - rewrite (undef_not l x numch) by (try exact U; intros y; unfold numch, in_set; cbn [existsb]; lia). now rewrite U.
    - rewrite numch_eq. destruct (numch x); cbn [negb andb].
      + replace (zlen d + 1) with (zlen (d ++ [x])) by (zl; lia). apply IH. now rewrite <- app_assoc.
      + now rewrite U. }
  exact (H t [] R).
Qed.
Lemma k_map_ok l fm g t cap s : (forall c, okc c -> fm c = if undef l c then UB else Ok (g c)) -> (forall c, okc c -> okc (g c)) -> srep t cap s ->
  if existsb (undef l) t then k_map_loop fm (Z.to_nat (sl s)) s 0 = UB else exists s', k_map_loop fm (Z.to_nat (sl s)) s 0 = Ok s' /\ srep (map g t) cap s'.
Proof.
  intros Hf Hg R. rewrite (r_len _ _ _ R), to_nat_zlen.
  assert (H : forall rest s d, srep (d ++ rest) cap s ->
    if existsb (undef l) rest then k_map_loop fm (length rest) s (zlen d) = UB else exists s', k_map_loop fm (length rest) s (zlen d) = Ok s' /\ srep (d ++ map g rest) cap s').
  { clear s R. induction rest as [|x rest IH]; intros s d R; cbn [length k_map_loop existsb map]; [eauto|].
    rewrite (byte_mid _ _ _ _ _ R). cbn [bind].
    assert (Ox : okc x) by (destruct R as [_ O _ _ _ _ _ _]; apply oks_app in O as [_ O]; now inversion O).
    rewrite (Hf x Ox). destruct (undef l x); cbn [orb bind]; [reflexivity|].
    destruct (put_mid _ _ _ _ _ (g x) R (Hg x Ox)) as (s1 & E1 & R1 & _). rewrite E1. cbn [bind].
    specialize (IH s1 (d ++ [g x])). rewrite <- !app_assoc in IH. cbn [app] in IH. specialize (IH R1).
    replace (zlen d + 1) with (zlen (d ++ [g x])) by (zl; lia). destruct (existsb (undef l) rest); exact IH. }
  exact (H t s [] R).
Qed.
Lemma strips l t cap s : srep t cap s -> bytes (sb s) -> zlen (sb s) <= alloc_max ->
  k_strip l (lf s) s = (if forallb white t then UB else if undef l (hd 0 (strip_text white t)) || undef l (last (strip_text white t) 0) then UB else str_strip (lf s) s) /\
  let wp := fun c => white c || punct c in
  k_strip_punct l (lf s) s = (if forallb wp t then UB else if undef l (hd 0 (strip_text wp t)) || undef l (last (strip_text wp t) 0) then UB else str_strip_punct (lf s) s).
Proof.
  intros R Hb B. assert (Hk : (length t < lf s)%nat).
  { unfold lf. destruct R as [_ O L C LE RM F V]. unfold zlen in *. lia. }
  split.
  - unfold k_strip, str_strip. apply (k_strip_eq l is_space _) with (cap := cap); try assumption; try reflexivity.
    + intros c Hc. now apply class_eq.
    + intros c. apply undef_not. intros x. unfold is_space. lia.
    + exact space_white.
  - intros wp. unfold k_strip_punct, str_strip_punct. apply (k_strip_eq l (fun c => is_space c || is_punct c) _) with (cap := cap); try assumption; try reflexivity.
    + intros c Hc. rewrite (class_eq l is_space c Hc eq_refl), (class_eq l is_punct c Hc eq_refl). destruct (undef l c); cbn [bind]; [reflexivity|]. now destruct (is_space c).
    + intros c. apply (undef_not l c (fun c => is_space c || is_punct c)). intros x. unfold is_space, is_punct. lia.
    + intros c. unfold wp. now rewrite space_white, punct_eq.
Qed.
Lemma cases l t cap s : srep t cap s ->
  (if existsb (undef l) t then k_uppercase l s = UB /\ k_lowercase l s = UB
   else (exists s', k_uppercase l s = Ok s' /\ srep (map upper t) cap s') /\ (exists s', k_lowercase l s = Ok s' /\ srep (map lower t) cap s')).
Proof.
  intros R. pose proof (k_map_ok l (ctype_map l to_upper) upper t cap s) as U. pose proof (k_map_ok l (ctype_map l to_lower) lower t cap s) as L.
  assert (Hu : forall x, 0 <= x < 256 -> 0 <= to_upper x < 256) by (intros x Hx; unfold to_upper, is_lower; destruct ((97 <=? x) && (x <=? 122)) eqn:E; lia).
  assert (Hl : forall x, 0 <= x < 256 -> 0 <= to_lower x < 256) by (intros x Hx; unfold to_lower, is_upper; destruct ((65 <=? x) && (x <=? 90)) eqn:E; lia).
  specialize (U ltac:(intros c Hc; apply map_eq; [now apply okc_byte|reflexivity|exact Hu])).
  specialize (L ltac:(intros c Hc; apply map_eq; [now apply okc_byte|reflexivity|exact Hl])).
  specialize (U ltac:(intros c H; unfold upper, okc in *; destruct ((97 <=? c) && (c <=? 122)) eqn:E; lia) R).
  specialize (L ltac:(intros c H; unfold lower, okc in *; destruct ((65 <=? c) && (c <=? 90)) eqn:E; lia) R).
  unfold k_uppercase, k_lowercase. destruct (existsb (undef l) t); split; assumption.
Qed.
