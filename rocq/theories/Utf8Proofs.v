(** Texts in UTF-8 (RFC 3629) and the calls on strings. *)
From Coq Require Import Lia.
From Verif Require Import Base BaseFacts StrModel StrModel2 StrSpec StrProofs StrProofs2 StrProofs3 StrMain.
Local Open Scope list_scope.

(** One character.  The byte 0 ends a string and is left out. *)
Definition cont (c : Z) : Prop := 128 <= c <= 191.
Inductive uchar : list Z -> Prop :=
| u1 a : 0 < a < 128 -> uchar [a]
| u2 a b : 194 <= a <= 223 -> cont b -> uchar [a; b]
| u3 a b c : 224 <= a <= 239 -> cont b -> cont c -> (a = 224 -> 160 <= b) -> (a = 237 -> b <= 159) -> uchar [a; b; c]
| u4 a b c d : 240 <= a <= 244 -> cont b -> cont c -> cont d -> (a = 240 -> 144 <= b) -> (a = 244 -> b <= 143) -> uchar [a; b; c; d].
Inductive utf8 : list Z -> Prop :=
| utf8_nil : utf8 []
| utf8_cons ch t : uchar ch -> utf8 t -> utf8 (ch ++ t).

Lemma uchar_head ch : uchar ch -> exists h r, ch = h :: r /\ ~ cont h /\ Forall cont r /\ (h < 128 -> r = [] /\ 0 < h).
Proof. unfold cont. intros []; do 2 eexists; (split; [reflexivity|]); (split; [lia|]); (split; [repeat (apply Forall_cons; [assumption|]); apply Forall_nil|]); intros; try lia; split; [reflexivity|lia]. Qed.
Lemma uchar_high ch : uchar ch -> (exists a, ch = [a] /\ 0 < a < 128) \/ Forall (fun c => 128 <= c) ch.
Proof. unfold cont. intros []; [left; eauto|right..]; unfold cont in *; repeat (apply Forall_cons; [lia|]); apply Forall_nil. Qed.
Lemma uchar_unique x y t u : uchar x -> uchar y -> x ++ t = y ++ u -> x = y /\ t = u.
Proof.
  intros [] []; unfold cont in *; cbn [app]; intros E; injection E; intros; subst; try lia; split; try reflexivity; try assumption.
Qed.
Lemma utf8_app x y : utf8 x -> utf8 y -> utf8 (x ++ y).
Proof. induction 1; intros; [assumption|]. rewrite <- app_assoc. constructor; auto. Qed.
Lemma utf8_app_inv x y : utf8 x -> utf8 (x ++ y) -> utf8 y.
Proof.
  induction 1 as [|ch t C T IH]; intros H; [exact H|]. rewrite <- app_assoc in H. inversion H as [E|ch' t' C' T' E].
  - destruct (uchar_head _ C) as (h & r & -> & _). discriminate.
  - symmetry in E. destruct (uchar_unique _ _ _ _ C C' E) as [<- <-]. auto.
Qed.
Definition head_ok (y : list Z) : Prop := match y with [] => True | c :: _ => ~ cont c end.
Lemma utf8_head z : utf8 z -> head_ok z.
Proof. intros [|ch t C _]; [exact Logic.I|]. destruct (uchar_head _ C) as (h & r & -> & H & _). exact H. Qed.
Lemma utf8_split w : utf8 w -> forall x y, w = x ++ y -> head_ok y -> utf8 x /\ utf8 y.
Proof.
  induction 1 as [|ch t C T IH]; intros x y E H.
  - symmetry in E. apply app_eq_nil in E as [-> ->]. split; constructor.
  - destruct x as [|a x]; [cbn [app] in E; subst y; split; [constructor|now constructor]|].
    destruct (le_lt_dec (length ch) (length (a :: x))) as [L|L].
    + assert (exists x', a :: x = ch ++ x') as [x' Ex].
      { exists (skipn (length ch) (a :: x)). rewrite <- (firstn_skipn (length ch) (a :: x)) at 1. f_equal.
        apply (f_equal (firstn (length ch))) in E. rewrite firstn_app, Nat.sub_diag, firstn_all in E. cbn [firstn] in E. rewrite app_nil_r in E.
        rewrite firstn_app in E. replace (length ch - length (a :: x))%nat with 0%nat in E by lia. cbn [firstn] in E. now rewrite app_nil_r in E. }
      rewrite Ex in E |- *. rewrite <- app_assoc in E. apply app_inv_head in E. destruct (IH x' y E H) as [A B]. split; [now constructor|exact B].
    + exfalso. destruct (uchar_head _ C) as (h & r & -> & _ & F & _). cbn [app] in E. injection E as -> E. cbn [length] in L.
      assert (exists q, r = x ++ q /\ q <> []) as (q & -> & Hq).
      { exists (skipn (length x) r). split; [|intros K; apply (f_equal (@length Z)) in K; rewrite skipn_length in K; cbn [length] in K; lia].
        rewrite <- (firstn_skipn (length x) r) at 1. f_equal. apply (f_equal (firstn (length x))) in E.
        rewrite !firstn_app, Nat.sub_diag, firstn_all in E. replace (length x - length r)%nat with 0%nat in E by lia. cbn [firstn] in E. now rewrite !app_nil_r in E. }
      rewrite <- app_assoc in E. apply app_inv_head in E. destruct q as [|c q]; [contradiction|]. subst y. cbn [app head_ok] in H. apply Forall_app in F as [_ F]. inversion F; contradiction.
Qed.
(** A text found in a text is never found inside a character. *)
Lemma utf8_sync a z b : utf8 (a ++ z ++ b) -> utf8 z -> z <> [] -> utf8 a /\ utf8 b.
Proof.
  intros H Z Hz. destruct (utf8_split _ H a (z ++ b) eq_refl) as [A B].
  - destruct z as [|c z]; [contradiction|]. exact (utf8_head _ Z).
  - split; [exact A|]. now apply utf8_app_inv in B.
Qed.
Lemma utf8_cut z t a b : utf8 t -> utf8 z -> z <> [] -> cut z t = Some (a, b) -> utf8 a /\ utf8 b.
Proof. intros T Z Hz E. apply cut_some in E. subst t. now apply (utf8_sync a z b). Qed.
Lemma utf8_delete z : utf8 z -> z <> [] -> forall k t, utf8 t -> utf8 (delete_all k z t).
Proof.
  intros Z Hz. induction k as [|k IH]; intros t T; cbn [delete_all]; [exact T|]. destruct (cut z t) as [[a b]|] eqn:E; [|exact T].
  destruct (utf8_cut z t a b T Z Hz E). apply IH. now apply utf8_app.
Qed.
Lemma utf8_pieces z : utf8 z -> z <> [] -> forall k t, utf8 t -> Forall utf8 (pieces k z t).
Proof.
  intros Z Hz. induction k as [|k IH]; intros t T; cbn [pieces]; [now constructor|]. destruct (cut z t) as [[a b]|] eqn:E; [|now constructor].
  destruct (utf8_cut z t a b T Z Hz E). constructor; auto.
Qed.
Lemma utf8_last_cut z : utf8 z -> z <> [] -> forall k t a b, utf8 t -> last_cut k z t = Some (a, b) -> utf8 a /\ utf8 b.
Proof.
  intros Z Hz. induction k as [|k IH]; intros t a b T; cbn [last_cut]; [discriminate|]. destruct (cut z t) as [[x y]|] eqn:E; [|discriminate].
  destruct (utf8_cut z t x y T Z Hz E) as [X Y]. destruct (last_cut k z y) as [[x' y']|] eqn:E2; intros H; injection H as <- <-; [|now split].
  destruct (IH y x' y' Y E2). split; [|assumption]. apply utf8_app; [exact X|]. now apply utf8_app.
Qed.
Lemma utf8_join r ps : utf8 r -> Forall utf8 ps -> utf8 (join_with r ps).
Proof.
  intros R. induction 1 as [|x l X L IH]; [constructor|]. destruct l as [|y l]; [exact X|]. change (utf8 (x ++ r ++ join_with r (y :: l))). apply utf8_app; [exact X|]. now apply utf8_app.
Qed.

(** ASCII characters *)
Lemma utf8_ascii p : Forall (fun c => 0 < c < 128) p -> utf8 p.
Proof. induction 1 as [|c p H _ IH]; [constructor|]. change (c :: p) with ([c] ++ p). constructor; [now constructor|exact IH]. Qed.
Lemma filter_id {A} (f : A -> bool) l : Forall (fun x => f x = true) l -> filter f l = l.
Proof. induction 1 as [|x l H _ IH]; cbn [filter]; [reflexivity|]. now rewrite H, IH. Qed.
Lemma utf8_filter f t : (forall c, 128 <= c -> f c = true) -> utf8 t -> utf8 (filter f t).
Proof.
  intros H. induction 1 as [|ch t C T IH]; [constructor|]. rewrite filter_app. apply utf8_app; [|exact IH]. destruct (uchar_high _ C) as [(a & -> & Ha)|F].
  - cbn [filter]. destruct (f a); [apply utf8_ascii; now repeat constructor|constructor].
  - rewrite filter_id by (eapply Forall_impl; [|exact F]; exact H). rewrite <- (app_nil_r ch). now repeat constructor.
Qed.
Lemma map_same {A} (f : A -> A) l : Forall (fun x => f x = x) l -> map f l = l.
Proof. induction 1 as [|x l H _ IH]; cbn [map]; [reflexivity|]. now rewrite H, IH. Qed.
Lemma utf8_map g t : (forall c, 128 <= c -> g c = c) -> (forall c, 0 < c < 128 -> 0 < g c < 128) -> utf8 t -> utf8 (map g t).
Proof.
  intros H1 H2. induction 1 as [|ch t C T IH]; [constructor|]. rewrite map_app. apply utf8_app; [|exact IH]. destruct (uchar_high _ C) as [(a & -> & Ha)|F].
  - apply utf8_ascii. repeat constructor; now apply H2.
  - rewrite map_same by (eapply Forall_impl; [|exact F]; exact H1). rewrite <- (app_nil_r ch). now repeat constructor.
Qed.
Lemma utf8_strip f t : (forall c, f c = true -> c < 128) -> oks t -> forallb f t = false -> utf8 t -> utf8 (strip_text f t).
Proof.
  intros H O Hn T. destruct (strip_split f t Hn) as (p & c & m & d & q & Et & Es & Fp & Fc & Fq & _ & Fd). rewrite Es.
  assert (Asc : forall l, oks l -> forallb f l = true -> Forall (fun c => 0 < c < 128) l).
  { intros l Ol Fl. rewrite forallb_forall in Fl. apply Forall_forall. intros x Hx. split; [|apply H, Fl, Hx]. unfold oks in Ol. rewrite Forall_forall in Ol. apply Ol in Hx. unfold okc in Hx. lia. }
  rewrite Et in O, T. apply oks_app in O as [Op O]. apply oks_app in O as [_ Oq].
  apply utf8_app_inv in T; [|now apply utf8_ascii, Asc]. specialize (Asc q Oq Fq).
  apply (utf8_split _ T (c :: m) q eq_refl). destruct Asc as [|x q Hx _]; [exact Logic.I|]. cbn [head_ok]. unfold cont. lia.
Qed.

(** Places between characters. *)
Definition at_char (t : list Z) (i : Z) : Prop := forall c, nth_error t (Z.to_nat i) = Some c -> ~ cont c.
Lemma utf8_at t i : utf8 t -> at_char t i -> utf8 (firstn (Z.to_nat i) t) /\ utf8 (skipn (Z.to_nat i) t).
Proof.
  intros T H. apply (utf8_split t T); [now rewrite firstn_skipn|]. unfold at_char in H. generalize (Z.to_nat i) H. clear. intros n. revert t.
  induction n as [|n IH]; intros [|c t] H; cbn [skipn head_ok]; try exact Logic.I; [now apply H|]. now apply IH.
Qed.
Lemma at_char_iff t i : utf8 t -> at_char t i <-> utf8 (firstn (Z.to_nat i) t).
Proof.
  intros T. split; [intros H; now apply utf8_at|]. intros H c E.
  assert (S : utf8 (skipn (Z.to_nat i) t)) by (apply (utf8_app_inv (firstn (Z.to_nat i) t)); [exact H|now rewrite firstn_skipn]).
  apply utf8_head in S. revert S E. generalize (Z.to_nat i). clear. intros n. revert t. induction n as [|n IH]; intros [|x t]; cbn [skipn nth_error head_ok]; intros S E; try discriminate; [congruence|]. exact (IH t S E).
Qed.

(** What a call must be given to keep a text in UTF-8. *)
Definition ascii (c : Z) : Prop := 0 < c < 128.
Definition uop (t : list Z) (o : sop) : Prop :=
  match o with
  | SAppend z | SAppendf z | SSet z | SRemoveFirst z | SRemoveAll z => utf8 z
  | SAppendN z k | SSetN z k => at_char z k /\ utf8 z
  | SInsert z i | SInsertf i z | SSetAt z i => utf8 z /\ at_char t i
  | SInsertN z i k => at_char z k /\ utf8 z /\ at_char t i
  | SInsertBefore x z | SInsertAfter x z | SReplace x z | SReplaceFirst x z | SReplaceLast x z => utf8 x /\ utf8 z
  | SRemove i k => at_char t i /\ at_char t (i + k)
  | SSetC c i => ascii c /\ forall x, nth_error t (Z.to_nat i) = Some x -> ascii x
  | SResize k => at_char t k
  | SRemoveC c | SStripC c => Forall ascii c
  | SReplaceC c r => Forall ascii c /\ Forall ascii r
  | _ => True
  end.
Lemma in_set_ascii c x : Forall ascii c -> in_set c x = true -> x < 128.
Proof. intros F H. unfold in_set in H. apply existsb_exists in H as (y & Hy & E). apply Z.eqb_eq in E. subst y. rewrite Forall_forall in F. apply F in Hy. unfold ascii in Hy. lia. Qed.
Lemma map_char_ascii c : Forall ascii c -> forall r l x, Forall ascii r -> ascii l -> (128 <= x -> map_char c r l x = x) /\ (ascii x -> ascii (map_char c r l x)).
Proof.
  induction 1 as [|y c Y C IH]; intros r l x R L; cbn [map_char]; [split; [reflexivity|now intros]|]. unfold ascii in *.
  destruct r as [|z r].
  - destruct (Z.eqb_spec x y) as [-> |N]; [split; [lia|now intros]|]. now apply IH.
  - inversion R; subst. destruct (Z.eqb_spec x y) as [-> |N]; [split; [lia|now intros]|]. now apply IH.
Qed.
Lemma grow_some st u o t' cap' out : grow_to st u o = Some (t', cap', out) -> t' = u.
Proof. unfold grow_to. destruct (sfits _); congruence. Qed.
Lemma ne_of (z : list Z) : (0 <? zlen z) = true -> z <> []. Proof. destruct z; discriminate. Qed.
Lemma at_firstn z k : utf8 z -> at_char z k -> utf8 (firstn (Z.to_nat k) z). Proof. intros. now apply utf8_at. Qed.
Lemma at_skipn z k : utf8 z -> at_char z k -> utf8 (skipn (Z.to_nat k) z). Proof. intros. now apply utf8_at. Qed.
Lemma utf8_splice t z i : utf8 t -> utf8 z -> at_char t i -> utf8 (splice t z i).
Proof. intros. unfold splice. apply utf8_app; [now apply at_firstn|]. apply utf8_app; [assumption|now apply at_skipn]. Qed.
Lemma ascii_not c : ascii c -> ~ cont c. Proof. unfold ascii, cont. lia. Qed.
Lemma utf8_put t c i : utf8 t -> ascii c -> 0 <= i -> (forall x, nth_error t (Z.to_nat i) = Some x -> ascii x) -> utf8 (firstn (Z.to_nat i) t ++ c :: skipn (Z.to_nat (i + 1)) t).
Proof.
  intros T C I H. assert (A : at_char t i) by (intros x E; now apply ascii_not, H). destruct (utf8_at t i T A) as [F K].
  apply utf8_app; [exact F|]. change (c :: skipn (Z.to_nat (i + 1)) t) with ([c] ++ skipn (Z.to_nat (i + 1)) t). constructor; [now constructor|].
  replace (Z.to_nat (i + 1)) with (S (Z.to_nat i)) by lia. clear - K H. revert K H. generalize (Z.to_nat i). intros n. revert t.
  induction n as [|n IH]; intros [|x t] K H; cbn [skipn]; try constructor.
  - apply (utf8_app_inv [x]); [|exact K]. apply utf8_ascii. constructor; [now apply H|constructor].
  - now apply IH.
Qed.
Lemma white_ascii c : white c = true -> c < 128.
Proof. intros H. unfold white in H. apply in_set_ascii in H; [exact H|]. repeat (apply Forall_cons; [unfold ascii; lia|]). apply Forall_nil. Qed.
Lemma punct_ascii c : punct c = true -> c < 128.
Proof. intros H. unfold punct in H. apply in_set_ascii in H; [exact H|]. repeat (apply Forall_cons; [unfold ascii; lia|]). apply Forall_nil. Qed.
Lemma upper_high c : (128 <= c -> upper c = c) /\ (ascii c -> ascii (upper c)).
Proof. unfold upper, ascii. destruct (_ && _) eqn:E; [|easy]. apply andb_prop in E as [E1 E2]. apply Z.leb_le in E1, E2. lia. Qed.
Lemma lower_high c : (128 <= c -> lower c = c) /\ (ascii c -> ascii (lower c)).
Proof. unfold lower, ascii. destruct (_ && _) eqn:E; [|easy]. apply andb_prop in E as [E1 E2]. apply Z.leb_le in E1, E2. lia. Qed.
Lemma last_ascii r d : Forall ascii r -> r <> [] -> ascii (last r d).
Proof. induction 1 as [|x r X R IH]; [easy|]. intros _. destruct r; [exact X|]. apply IH. discriminate. Qed.

Lemma utf8_step t cap o t' cap' out : oks t -> utf8 t -> uop t o -> tstep (t, cap) o = Some (t', cap', out) -> utf8 t'.
Proof.
  intros O T U H. destruct o; cbn [tstep uop] in H, U;
    repeat match goal with
    | U : _ /\ _ |- _ => destruct U
    | H : (if ?c then _ else _) = Some _ |- _ => destruct c eqn:?; try discriminate
    | H : (_ && _)%bool = true |- _ => apply andb_prop in H as [? ?]
    | H : match ?c with Some _ => _ | None => _ end = Some _ |- _ => destruct c as [[a b]|] eqn:?; try discriminate
    | H : grow_to _ _ _ = Some _ |- _ => apply grow_some in H; subst
    | H : Some _ = Some _ |- _ => injection H; clear H; intros; subst
    end; eauto using utf8_app, at_firstn, utf8_splice, at_skipn, utf8_nil.
  all: repeat match goal with H : (0 <? zlen _) = true |- _ => apply ne_of in H end.
  all: try match goal with C : cut ?z ?t = Some (_, _), N : ?z <> [], Z : utf8 ?z |- _ => destruct (utf8_cut _ _ _ _ T Z N C) end.
  all: try solve [repeat (apply utf8_app; [assumption|]); assumption].
  - apply utf8_put; auto. now apply Z.leb_le.
  - destruct z as [|x z]; [cbn in Heqo; destruct t; injection Heqo as <- <-; exact T|].
    destruct (utf8_cut _ _ _ _ T U ltac:(discriminate) Heqo). now apply utf8_app.
  - now apply utf8_delete.
  - apply utf8_filter; [|exact T]. intros x X. destruct (in_set c x) eqn:E; [|reflexivity]. apply in_set_ascii in E; [lia|exact U].
  - apply utf8_join; [assumption|]. apply utf8_pieces; assumption.
  - match goal with C : last_cut _ ?z _ = Some (_, _), N : ?z <> [], Z : utf8 ?z |- _ => destruct (utf8_last_cut _ Z N _ _ _ _ T C) end. repeat (apply utf8_app; [assumption|]); assumption.
  - destruct r as [|x r]; [exact T|].
    assert (L : ascii (last (x :: r) 0)) by (apply last_ascii; [assumption|discriminate]).
    apply utf8_map; [| |exact T]; intros y Y; apply map_char_ascii; assumption.
  - apply utf8_strip; auto. exact white_ascii.
  - apply utf8_strip; auto. intros x X. apply Bool.orb_true_iff in X as [X|X]; [now apply white_ascii|now apply punct_ascii].
  - apply utf8_strip; auto; [intros x; now apply in_set_ascii|]. now apply Bool.orb_false_iff in Heqb.
  - apply utf8_map; [| |exact T]; intros y Y; now apply upper_high.
  - apply utf8_map; [| |exact T]; intros y Y; now apply lower_high.
Qed.

Lemma utf8_call dbg t cap s o t' cap' out : srep t cap s -> utf8 t -> uop t o -> tstep (t, cap) o = Some (t', cap', out) ->
  exists s', sstep dbg s o = Ok (s', out) /\ srep t' cap' s' /\ utf8 t'.
Proof.
  intros R T U H. destruct (step_ok dbg _ _ _ _ _ _ _ R H) as (s' & E & R'). exists s'. split; [exact E|]. split; [exact R'|].
  exact (utf8_step _ _ _ _ _ _ (r_ok _ _ _ R) T U H).
Qed.
Fixpoint uops (st : list Z * Z) (ops : list sop) : Prop :=
  match ops with
  | [] => True
  | o :: ops' => uop (fst st) o /\ match tstep st o with Some (t', cap', _) => uops (t', cap') ops' | None => True end
  end.
Lemma utf8_calls dbg ops : forall t cap s t' cap' outs, srep t cap s -> utf8 t -> uops (t, cap) ops -> trun (t, cap) ops = Some (t', cap', outs) ->
  exists s', srun dbg s ops = Ok (s', outs) /\ srep t' cap' s' /\ utf8 t'.
Proof.
  induction ops as [|o ops IH]; intros t cap s t' cap' outs R T U H; cbn [trun srun] in *.
  - injection H as <- <- <-. eauto.
  - cbn [uops fst] in U. destruct U as [U1 U2]. destruct (tstep (t, cap) o) as [[[t1 cap1] out]|] eqn:E; [|discriminate].
    destruct (utf8_call dbg _ _ _ _ _ _ _ R T U1 E) as (s1 & E1 & R1 & T1). rewrite E1. cbn [bind fst snd].
    destruct (trun (t1, cap1) ops) as [[[t2 cap2] outs2]|] eqn:E2; [|discriminate]. injection H as <- <- <-.
    destruct (IH _ _ _ _ _ _ R1 T1 U2 E2) as (s2 & E3 & R2 & T2). rewrite E3. cbn [bind fst snd]. eauto.
Qed.
Lemma utf8_found t cap s z i : srep t cap s -> utf8 t -> utf8 z -> z <> [] -> str_index_find s z = Ok i -> i <> -1 ->
  at_char t i /\ at_char t (i + zlen z) /\ utf8 (firstn (Z.to_nat i) t) /\ utf8 (skipn (Z.to_nat (i + zlen z)) t).
Proof.
  intros R T Z N E Hi. destruct (Z_le_gt_dec (zlen z) (zlen t)) as [L|L].
  2: { unfold str_index_find in E. exfalso. revert E. unfold str_find. rewrite (r_len _ _ _ R). unfold enforce. replace (zlen z <=? zlen t) with false by lia. discriminate. }
  destruct (find_leftmost _ _ _ z R L) as (r & _ & Ei & M). rewrite Ei in E. injection E as <-. destruct r as [i|]; [|contradiction].
  destruct M as (a & b & -> & <- & _). destruct (utf8_sync a z b T Z N) as [A B].
  assert (E1 : firstn (Z.to_nat (zlen a)) (a ++ z ++ b) = a) by (unfold zlen; rewrite Nat2Z.id; rewrite firstn_app, Nat.sub_diag, firstn_all; cbn [firstn]; apply app_nil_r).
  assert (E2 : Z.to_nat (zlen a + zlen z) = length (a ++ z)) by (unfold zlen; rewrite app_length; lia).
  assert (E3 : firstn (length (a ++ z)) (a ++ z ++ b) = a ++ z) by (rewrite app_assoc, firstn_app, Nat.sub_diag, firstn_all; cbn [firstn]; apply app_nil_r).
  assert (E4 : skipn (length (a ++ z)) (a ++ z ++ b) = b) by (rewrite app_assoc, skipn_app, Nat.sub_diag, skipn_all; reflexivity).
  split; [apply at_char_iff; [exact T|now rewrite E1]|]. split; [apply at_char_iff; [exact T|rewrite E2, E3; now apply utf8_app]|].
  rewrite E1, E2, E4. now split.
Qed.
Lemma utf8_parts dbg t cap s sep ps l : srep t cap s -> utf8 t -> utf8 sep -> 0 < zlen sep <= zlen t -> scan sep t ps -> (forall l, ps <> l ++ [[]; []]) ->
  str_split dbg (lf s) s sep = Ok (Some l) -> Forall (fun x => exists p, srep p (zlen p) x /\ utf8 p) l.
Proof.
  intros R T Z L S N E. destruct (split_scan dbg _ _ _ _ _ R L S) as [H1 H2].
  assert (Hp : ps = split_on sep t) by (apply scan_unique; [lia|exact S]).
  assert (U : Forall utf8 ps) by (rewrite Hp; apply utf8_pieces; [exact Z|intros ->; change (0 < 0 <= zlen t) in L; lia|exact T]).
  destruct (Z_le_gt_dec (zlen ps) 1) as [K|K].
  - assert (zlen ps = 1). { assert (1 <= zlen ps); [|lia]. rewrite Hp. unfold split_on. clear. unfold zlen. destruct (length t); cbn [pieces]; [cbn; lia|]. destruct (cut sep t) as [[a b]|]; cbn [length]; lia. }
    rewrite H1 in E by assumption. discriminate.
  - destruct (H2 ltac:(lia) N) as (l' & E' & F). rewrite E in E'. injection E' as <-. clear - F U.
    assert (V : Forall utf8 (filter nonempty ps)) by (apply Forall_forall; intros x Hx; apply filter_In in Hx as [Hx _]; rewrite Forall_forall in U; now apply U).
    revert V. induction F; intros V; [constructor|]. inversion V; subst. constructor; eauto.
Qed.
Lemma utf8_pop dbg sr t cap s sep : srep t cap s -> utf8 t -> utf8 sep -> 0 < zlen sep ->
  (forall a b, cut sep t = Some (a, b) -> 0 < zlen a -> target_ok sr (zlen a) ->
   exists r s' capr, str_pop_get_first dbg sr s sep = Ok (Some r, s') /\ srep a capr r /\ srep b cap s' /\ utf8 a /\ utf8 b) /\
  (forall a b, last_cut (length t) sep t = Some (a, b) -> 0 < zlen b -> target_ok sr (zlen b) ->
   exists r s' capr, str_pop_get_last dbg (lf s) sr s sep = Ok (Some r, s') /\ srep b capr r /\ srep a cap s' /\ utf8 a /\ utf8 b).
Proof.
  intros R T Z L. assert (N : sep <> []) by (intros ->; change (0 < 0) in L; lia). split; intros a b C P G.
  - destruct (pop_first_ok dbg sr _ _ _ _ _ _ R L C P G) as (r & s' & capr & E & Ra & Rb). destruct (utf8_cut _ _ _ _ T Z N C). eauto 10.
  - assert (FL : (length t < lf s)%nat) by (pose proof (fuel_len _ _ _ R); unfold lf; lia).
    destruct (pop_last_ok dbg sr _ _ _ _ _ _ (lf s) R L C P FL G) as (r & s' & capr & E & Ra & Rb). destruct (utf8_last_cut _ Z N _ _ _ _ T C). eauto 10.
Qed.
Lemma utf8_between a zl_ m zr b : utf8 (a ++ zl_ ++ m ++ zr ++ b) -> utf8 zl_ -> zl_ <> [] -> utf8 zr -> zr <> [] -> utf8 m.
Proof.
  intros T L NL R NR. destruct (utf8_sync a zl_ _ T L NL) as [_ X]. now destruct (utf8_sync m zr b X R NR).
Qed.
