(** Splitting, joining, popping, comparing, views. *)
From Verif Require Import Base BaseFacts StrModel StrModel2 StrSpec StrProofs StrProofs2 StrProofs3.

(** * Splitting *)
Definition safe (ps : list text) : Prop := ps <> [[]] /\ forall l, ps <> l ++ [[]; []].

Lemma pieces_nil k sep rest : pieces k sep rest = [[]] -> rest = [].
Proof. intros H. rewrite <- (join_pieces k sep rest), H. reflexivity. Qed.

Lemma piece_ok dbg a r cap : oks (a ++ r) -> 0 < zlen a -> zlen (a ++ r) <= cap -> cap + 1 <= alloc_max ->
  exists p, (let* piece := str_create_len dbg (zlen a) in str_set_n dbg piece (a ++ r) (zlen a)) = Ok p /\ srep a (zlen a) p.
Proof.
  intros O Ha Hc Hf. zl. destruct (create_len_ok dbg (zlen a)) as (s1 & E1 & R1 & _); [lia|zlia|]. rewrite E1. cbn [bind].
  destruct (set_n_ok dbg _ _ s1 (a ++ r) (zlen a) R1 O) as (s2 & E2 & R2); [zl; zlia|zl; zlia|].
  rewrite firstn_zlen in R2 by reflexivity. eauto.
Qed.

Lemma split_loop_ok dbg sep cap s : 0 < zlen sep -> forall f k rest d acc, srep (d ++ rest) cap s ->
  (length rest < f)%nat -> (length rest <= k)%nat -> safe (pieces k sep rest) ->
  exists l, split_loop f dbg (sb s) sep (zlen d) acc = Ok (acc ++ l) /\
    Forall2 (fun p x => srep p (zlen p) x) (filter nonempty (pieces k sep rest)) l.
Proof.
  intros Hs f. induction f as [|f IH]; intros k rest d acc R H1 H2 [S1 S2]; [lia|]. cbn [split_loop].
  rewrite (cstr_mid _ _ _ _ _ R eq_refl). cbn [bind]. rewrite strstr_cut.
  pose proof R as R0. destruct R0 as [P O L C LE RM F V]. apply oks_app in O as [Od Or].
  assert (cut sep rest = None -> rest <> [] -> pieces k sep rest = [rest] ->
    exists l, (let* piece := str_create_len dbg (zlen rest) in
               let* piece0 := str_set_n dbg piece rest (zlen rest) in Ok (acc ++ [piece0])) = Ok (acc ++ l)
     /\ Forall2 (fun p x => srep p (zlen p) x) (filter nonempty [rest]) l) as Hlast.
  { intros _ Hne _. assert (0 < zlen rest) by (destruct rest; [contradiction|zl; zlia]).
    destruct (piece_ok dbg rest [] cap) as (p & E & Rp); [now rewrite app_nil_r|assumption|rewrite app_nil_r; zl; zlia|assumption|].
    rewrite app_nil_r in E. destruct (str_create_len dbg (zlen rest)) as [s1| | |]; try discriminate. cbn [bind] in *. rewrite E. cbn [bind].
    exists [p]. split; [reflexivity|]. cbn [filter]. unfold nonempty at 1. replace (zlen rest =? 0) with false by lia. cbn [negb].
    constructor; [assumption|constructor]. }
  destruct k as [|k].
  { destruct rest; [|cbn [length] in H2; lia]. cbn [pieces] in S1. contradiction. }
  cbn [pieces] in *. destruct (cut sep rest) as [[a b]|] eqn:E.
  - pose proof (cut_shorter _ _ _ _ Hs E) as Hsh. pose proof (cut_some _ _ _ _ E) as Er.
    assert (safe (pieces k sep b) \/ b = []) as Hsafe.
    { destruct b as [|x b]; [now right|left]. split.
      - intros X. apply pieces_nil in X. discriminate.
      - intros l X. apply (S2 (a :: l)). rewrite X. reflexivity. }
    destruct (Z.eqb_spec (zlen a) 0) as [Ha|Ha].
    + apply zlen_0 in Ha. subst a. cbn [app] in Er.
      destruct Hsafe as [Hsafe| ->].
      2:{ exfalso. apply (S2 []). cbn [app]. destruct k; cbn [pieces]; [reflexivity|now rewrite cut_nil]. }
      destruct (IH k b (d ++ sep) acc) as (l & El & Fl); [subst rest; now rewrite <- app_assoc|lia|lia|assumption|].
      exists l. split; [rewrite <- El; f_equal; zl; lia|]. exact Fl.
    + rewrite Er in *. 
      destruct (piece_ok dbg a (sep ++ b) cap) as (p & Ep & Rp); [assumption|zlia|zl; zlia|assumption|].
      destruct (str_create_len dbg (zlen a)) as [s1| | |]; try discriminate. cbn [bind] in *. rewrite Ep. cbn [bind].
      cbn [filter]. unfold nonempty at 1. replace (zlen a =? 0) with false by lia. cbn [negb].
      destruct b as [|x b].
      * assert (bbyte (sb s) (zlen d + zlen a + zlen sep) = Ok 0) as ->.
        { destruct P as [q P]. rewrite P. unfold zblk. rewrite <- app_assoc. cbn [app]. apply bbyte_app. zl. lia. }
        cbn [bind]. exists [p]. split; [reflexivity|].
        assert (pieces k sep [] = [[]]) as -> by (destruct k; cbn [pieces]; [reflexivity|now rewrite cut_nil]).
        constructor; [assumption|constructor].
      * destruct Hsafe as [Hsafe|]; [|discriminate].
        assert (bbyte (sb s) (zlen d + zlen a + zlen sep) = Ok x) as ->.
        { replace (zlen d + zlen a + zlen sep) with (zlen (d ++ a ++ sep)) by (zl; lia).
          apply (byte_mid _ x b cap). now rewrite <- !app_assoc. }
        cbn [bind]. assert (okc x) as Ox. { rewrite !oks_app in Or. destruct Or as (_ & _ & Ox). now inversion Ox. }
        unfold okc in Ox. replace (x =? 0) with false by lia.
        destruct (IH k (x :: b) (d ++ a ++ sep) (acc ++ [p])) as (l & El & Fl); [now rewrite <- !app_assoc|lia|lia|assumption|].
        exists (p :: l). split; [|now constructor].
        rewrite <- app_assoc in El. cbn [app] in El. rewrite <- El. f_equal. zl. lia.
  - destruct rest as [|x rest]; [contradiction|].
    replace (zlen (x :: rest) =? 0) with false by (zl; zlia). apply Hlast; [reflexivity|discriminate|reflexivity].
Qed.

Lemma pieces_one k sep t : 0 < zlen sep -> (length t <= k)%nat -> zlen (pieces k sep t) = 1 <-> cut sep t = None.
Proof.
  intros Hs H. destruct k; cbn [pieces].
  - destruct t; [|cbn [length] in H; lia]. rewrite cut_nil by assumption. zl. split; [reflexivity|lia].
  - destruct (cut sep t) as [[a b]|]; zl; [|split; [reflexivity|lia]]. pose proof (pieces_pos k sep b). split; [lia|discriminate].
Qed.

Lemma split_some_ok dbg t cap s sep f : srep t cap s -> 0 < zlen sep <= zlen t -> (length t < f)%nat ->
  cut sep t <> None -> (forall l, split_on sep t <> l ++ [[]; []]) ->
  exists l, str_split dbg f s sep = Ok (Some l) /\ Forall2 (fun p x => srep p (zlen p) x) (filter nonempty (split_on sep t)) l.
Proof.
  intros R Hs Hf Hc Hp. unfold str_split. rewrite (can_find_ok t cap s sep f R) by assumption. cbn [bind].
  pose proof (pieces_one (length t) sep t ltac:(lia) ltac:(lia)) as X. fold (split_on sep t) in X.
  destruct (Z.eqb_spec (zlen (split_on sep t) - 1) 0) as [E|_]; [exfalso; apply Hc, X; lia|].
  change 0 with (zlen (@nil Z)).
  destruct (split_loop_ok dbg sep cap s ltac:(lia) f (length t) t [] []) as (l & El & Fl); [assumption|lia|lia| |].
  - split; [|assumption]. intros E. apply pieces_nil in E. subst t. unfold zlen in Hs. cbn [length] in Hs. lia.
  - rewrite El. cbn [bind app]. eauto.
Qed.
Lemma split_none_ok dbg t cap s sep f : srep t cap s -> 0 < zlen sep <= zlen t -> (length t < f)%nat ->
  cut sep t = None -> str_split dbg f s sep = Ok None.
Proof.
  intros R Hs Hf Hc. unfold str_split. rewrite (can_find_ok t cap s sep f R) by assumption. cbn [bind].
  apply (pieces_one (length t)) in Hc; [|lia|lia]. fold (split_on sep t) in Hc. rewrite Hc. reflexivity.
Qed.

(** * Joining *)
Lemma join_loop_ok dbg sep : oks sep -> 0 < zlen sep -> forall l t cap st x, srep (t ++ x) cap st -> okpieces l ->
  Z.max cap (zlen (t ++ join_with sep (x :: l))) + 1 <= alloc_max ->
  exists s', join_loop dbg st sep l = Ok s' /\
    srep (t ++ join_with sep (x :: l)) (Z.max cap (zlen (t ++ join_with sep (x :: l)))) s'.
Proof.
  intros Os Hs l. induction l as [|y l IH]; intros t cap st x R Hl Hf; cbn [join_loop].
  - exists st. split; [reflexivity|]. cbn [join_with]. pose proof (r_le _ _ _ R). replace (Z.max cap (zlen (t ++ x))) with cap by lia. exact R.
  - inversion Hl as [|y' l' [Oy Hy] Hl']; subst. rewrite join_cons in * by discriminate.
    assert (zlen y <= zlen (join_with sep (y :: l))) as Hlen.
    { destruct l; [cbn [join_with]; lia|]. rewrite join_cons by discriminate. zl. zlia. }
    destruct (append_ok dbg _ cap st sep R) as (s1 & E1 & R1); [assumption|assumption|zl; zlia|]. rewrite E1. cbn [bind].
    destruct (append_ok dbg _ _ s1 y R1) as (s2 & E2 & R2); [assumption|assumption|zl; zlia|]. rewrite E2. cbn [bind].
    destruct (IH (t ++ x ++ sep) (Z.max (Z.max cap (zlen (t ++ x) + zlen sep)) (zlen ((t ++ x) ++ sep) + zlen y)) s2 y) as (s3 & E3 & R3).
    + rewrite <- !app_assoc in *. exact R2.
    + assumption.
    + rewrite <- !app_assoc. zl. zlia.
    + exists s3. split; [exact E3|]. rewrite <- !app_assoc in R3.
      match goal with H : srep _ ?u s3 |- srep _ ?v s3 => replace v with u by (zl; zlia) end. exact R3.
Qed.

Lemma join_ok dbg t cap st sep x l : srep t cap st -> oks sep -> 0 < zlen sep -> okpieces (x :: l) ->
  Z.max cap (zlen (t ++ join_with sep (x :: l))) + 1 <= alloc_max ->
  exists s', str_join dbg (Some st) sep (x :: l) = Ok s' /\
    srep (t ++ join_with sep (x :: l)) (Z.max cap (zlen (t ++ join_with sep (x :: l)))) s'.
Proof.
  intros R Os Hs Hl Hf. inversion Hl as [|y' l' [Ox Hx] Hl']; subst. unfold str_join. cbn [bind].
  assert (zlen x <= zlen (join_with sep (x :: l))) as Hlen.
  { destruct l; [cbn [join_with]; lia|]. rewrite join_cons by discriminate. zl. zlia. }
  destruct (append_ok dbg t cap st x R) as (s1 & E1 & R1); [assumption|assumption|zl; lia|]. rewrite E1. cbn [bind].
  destruct (join_loop_ok dbg sep Os Hs l t _ s1 x R1 Hl') as (s2 & E2 & R2); [zl; lia|].
  exists s2. split; [exact E2|].
  match goal with H : srep _ ?u s2 |- srep _ ?v s2 => replace v with u by (zl; zlia) end. exact R2.
Qed.

Lemma join_new_ok dbg sep x l : oks sep -> 0 < zlen sep -> okpieces (x :: l) ->
  zlen (join_with sep (x :: l)) + 1 <= alloc_max ->
  exists s', str_join dbg None sep (x :: l) = Ok s' /\ srep (join_with sep (x :: l)) (Z.max 16 (zlen (join_with sep (x :: l)))) s'.
Proof.
  intros Os Hs Hl Hf. destruct (create_capacity_ok dbg 16) as (s0 & E0 & R0); [lia|unfold alloc_max; lia|].
  destruct (join_ok dbg [] 16 s0 sep x l R0 Os Hs Hl) as (s' & E' & R'); [cbn [app]; unfold alloc_max in *; lia|].
  exists s'. split; [|exact R']. unfold str_join in *. rewrite E0. exact E'.
Qed.

Lemma join_n_loop_ok dbg sep : oks sep -> 0 < zlen sep -> forall l t cap st x, srep t cap st -> okpieces (x :: l) ->
  Z.max cap (zlen (t ++ join_with sep (x :: l))) + 1 <= alloc_max ->
  exists s', join_n_loop dbg st sep (x :: l) = Ok s' /\
    srep (t ++ join_with sep (x :: l)) (Z.max cap (zlen (t ++ join_with sep (x :: l)))) s'.
Proof.
  intros Os Hs l. induction l as [|y l IH]; intros t cap st x R Hl Hf; inversion Hl as [|y' l' [Ox Hx] Hl']; subst; cbn [join_n_loop].
  - cbn [join_with] in *. zl. destruct (append_ok dbg t cap st x R) as (s1 & E1 & R1); try assumption. eauto.
  - rewrite join_cons in * by discriminate. zl.
    destruct (append_ok dbg t cap st x R) as (s1 & E1 & R1); try assumption; [zlia|]. rewrite E1. cbn [bind].
    destruct (append_ok dbg _ _ s1 sep R1) as (s2 & E2 & R2); try assumption; [zl; zlia|]. rewrite E2. cbn [bind].
    destruct (IH _ _ s2 y R2 Hl') as (s3 & E3 & R3).
    + zl. zlia.
    + exists s3. split; [exact E3|]. rewrite <- !app_assoc in R3.
      match goal with H : srep _ ?u s3 |- srep _ ?v s3 => replace v with u by (zl; zlia) end. exact R3.
Qed.
Lemma join_n_ok dbg t cap st sep x l : srep t cap st -> oks sep -> 0 < zlen sep -> okpieces (x :: l) ->
  Z.max cap (zlen (t ++ join_with sep (x :: l))) + 1 <= alloc_max ->
  exists s', str_join_n dbg (Some st) sep (x :: l) = Ok s' /\
    srep (t ++ join_with sep (x :: l)) (Z.max cap (zlen (t ++ join_with sep (x :: l)))) s'.
Proof.
  intros R Os Hs Hl Hf. unfold str_join_n. rewrite dassert_true by (zl; zlia). cbn [bind]. now apply join_n_loop_ok.
Qed.

Lemma clear_of_ext sep x r : clear_of sep x -> cut sep (x ++ sep ++ r) = Some (x, r).
Proof.
  intros H. apply cut_intro. intros a' b' E. destruct (Z.le_gt_cases (zlen x) (zlen a')) as [|Hlt]; [assumption|exfalso].
  (* a' is a proper prefix of x, and the occurrence ends inside x ++ sep *)
  destruct (split_at b' (zlen b' - zlen r)) as (b1 & b2 & -> & Lb).
  { apply (f_equal (@zlen _)) in E. zl. zlia. }
  rewrite !app_assoc in E. rewrite <- (app_assoc a'), <- (app_assoc a') in E.
  assert (zlen (x ++ sep) = zlen (a' ++ sep ++ b1)) as Ln by (apply (f_equal (@zlen _)) in E; zl; lia).
  rewrite !app_assoc in *. destruct (app_len_inj _ _ _ _ E Ln) as [E1 _]. rewrite <- app_assoc in E1.
  pose proof (cut_leftmost _ _ _ _ H a' b1 E1). lia.
Qed.

Lemma pieces_join sep : 0 < zlen sep -> forall l x k, (length (join_with sep (x :: l)) <= k)%nat ->
  Forall (clear_of sep) (removelast (x :: l)) -> cut sep (last l x) = None ->
  pieces k sep (join_with sep (x :: l)) = x :: l.
Proof.
  intros Hs l. induction l as [|y l IH]; intros x k Hk Hc Hl.
  - cbn [join_with last] in *. destruct k; cbn [pieces]; [reflexivity|]. now rewrite Hl.
  - rewrite join_cons in * by discriminate.
    change (removelast (x :: y :: l)) with (x :: removelast (y :: l)) in Hc. inversion Hc as [|x' l' Hx Hc']; subst.
    destruct k as [|k].
    { exfalso. rewrite !app_length in Hk. unfold zlen in Hs. lia. }
    cbn [pieces]. rewrite clear_of_ext by assumption. f_equal. apply IH; [|assumption|].
    + rewrite !app_length in Hk. unfold zlen in Hs. lia.
    + rewrite <- Hl. f_equal. clear. revert y. induction l as [|z l IHl]; intros y; [reflexivity|].
      change (last (z :: l) y = last (z :: l) x). clear. revert z. induction l as [|w l IHl]; intros z; [reflexivity|].
      cbn [last]. apply IHl.
Qed.

(** A separator of one character. *)
Lemma clear_of_char c x : ~ In c x -> clear_of [c] x.
Proof.
  intros H. unfold clear_of. change (x ++ [c]) with (x ++ [c] ++ []). apply cut_intro. intros a' b' E.
  destruct (Z.le_gt_cases (zlen x) (zlen a')) as [|Hlt]; [assumption|exfalso]. apply H.
  destruct (split_at x (zlen a')) as (p & q & Ex & Lp); [zlia|]. subst x. rewrite <- app_assoc in E.
  destruct (app_len_inj _ _ _ _ E Lp) as [-> E2]. destruct q as [|y q]; [rewrite app_nil_r in Hlt; lia|].
  injection E2 as -> _. apply in_or_app. right. now left.
Qed.
Lemma cut_char_none c x : ~ In c x -> cut [c] x = None.
Proof. intros H. apply cut_none. intros a b ->. apply H. apply in_or_app. right. now left. Qed.

(** * Between two markers *)
Lemma between_body dbg st t cap a zl_ m zr b : srep t cap st -> oks (a ++ zl_ ++ m ++ zr ++ b) -> 0 < zlen m ->
  zlen (a ++ zl_ ++ m ++ zr ++ b) + 1 <= alloc_max ->
  exists s', (let* st := str_clear st in
    if zlen a <? zlen (a ++ zl_ ++ m) then
      let n := w64 (zlen (a ++ zl_ ++ m) - zlen a - zlen zl_) in
      let* st := str_resize dbg st n in
      str_append_n dbg st (skipn (Z.to_nat (zlen (a ++ zl_ ++ m) - n)) (a ++ zl_ ++ m ++ zr ++ b)) n
    else UB) = Ok s' /\ srep m (zlen m) s'.
Proof.
  intros R O Hm Hf. destruct (clear_ok t cap st R) as (s1 & E1 & R1). rewrite E1. cbn [bind].
  replace (zlen a <? zlen (a ++ zl_ ++ m)) with true by (zl; zlia). zl.
  rewrite (w64_small (zlen a + (zlen zl_ + zlen m) - zlen a - zlen zl_)) by zlia.
  replace (zlen a + (zlen zl_ + zlen m) - zlen a - zlen zl_) with (zlen m) by lia. cbn zeta.
  destruct (resize_ok dbg [] cap s1 (zlen m) R1) as (s2 & E2 & R2); [lia|zlia|]. rewrite E2. cbn [bind].
  rewrite firstn_nil in R2. rewrite (app_assoc a). rewrite skipn_zlen by (zl; lia).
  rewrite !oks_app in O.
  destruct (append_n_ok dbg [] (zlen m) s2 (m ++ zr ++ b) (zlen m) R2) as (s3 & E3 & R3).
  - rewrite !oks_app. tauto.
  - zl. zlia.
  - zl. zlia.
  - exists s3. split; [exact E3|]. rewrite firstn_zlen in R3 by reflexivity. cbn [app] in R3. zl.
    replace (Z.max (zlen m) (0 + zlen m)) with (zlen m) in R3 by lia. exact R3.
Qed.

Lemma between_ok dbg st t cap a zl_ m zr b : srep t cap st -> oks (a ++ zl_ ++ m ++ zr ++ b) -> 0 < zlen m ->
  zlen (a ++ zl_ ++ m ++ zr ++ b) + 1 <= alloc_max ->
  cut zl_ (a ++ zl_ ++ m ++ zr ++ b) = Some (a, m ++ zr ++ b) ->
  cut zr (a ++ zl_ ++ m ++ zr ++ b) = Some (a ++ zl_ ++ m, b) ->
  exists s', str_split_between dbg (Some st) (a ++ zl_ ++ m ++ zr ++ b) zl_ zr = Ok (Some s', Some s') /\ srep m (zlen m) s'.
Proof.
  intros R O Hm Hf C1 C2. destruct (between_body dbg st t cap a zl_ m zr b R O Hm Hf) as (s' & E & R').
  exists s'. split; [|exact R']. unfold str_split_between. rewrite !strstr_cut, C1, C2. cbn [bind].
  destruct (str_clear st) as [s1| | |]; try discriminate. cbn [bind] in *.
  destruct (zlen a <? zlen (a ++ zl_ ++ m)); [|discriminate]. cbn zeta in *.
  destruct (str_resize dbg s1 _) as [s2| | |]; try discriminate. cbn [bind] in *. rewrite E. reflexivity.
Qed.
Lemma between_new_ok dbg a zl_ m zr b : oks (a ++ zl_ ++ m ++ zr ++ b) -> 0 < zlen m ->
  zlen (a ++ zl_ ++ m ++ zr ++ b) + 1 <= alloc_max ->
  cut zl_ (a ++ zl_ ++ m ++ zr ++ b) = Some (a, m ++ zr ++ b) ->
  cut zr (a ++ zl_ ++ m ++ zr ++ b) = Some (a ++ zl_ ++ m, b) ->
  exists s', str_split_between dbg None (a ++ zl_ ++ m ++ zr ++ b) zl_ zr = Ok (Some s', None) /\ srep m (zlen m) s'.
Proof.
  intros O Hm Hf C1 C2. destruct (create_capacity_ok dbg 16) as (s0 & E0 & R0); [lia|unfold alloc_max; lia|].
  destruct (between_body dbg s0 [] 16 a zl_ m zr b R0 O Hm Hf) as (s' & E & R').
  exists s'. split; [|exact R']. unfold str_split_between. rewrite !strstr_cut, C1, C2, E0. cbn [bind].
  destruct (str_clear s0) as [s1| | |]; try discriminate. cbn [bind] in *.
  destruct (zlen a <? zlen (a ++ zl_ ++ m)); [|discriminate]. cbn zeta in *.
  destruct (str_resize dbg s1 _) as [s2| | |]; try discriminate. cbn [bind] in *. rewrite E. reflexivity.
Qed.
Lemma between_absent dbg so z zl_ zr : cut zl_ z = None \/ cut zr z = None -> str_split_between dbg so z zl_ zr = Ok (None, so).
Proof.
  intros H. unfold str_split_between. rewrite !strstr_cut. destruct H as [-> | ->]; [reflexivity|].
  destruct (cut zl_ z) as [[? ?]|]; reflexivity.
Qed.

(** * Popping *)
Lemma clear_append dbg t cap s z k : srep t cap s -> oks z -> 0 < k <= zlen z -> Z.max cap k + 1 <= alloc_max ->
  exists s', (let* s := str_clear s in str_append_n dbg s z k) = Ok s' /\ srep (firstn (Z.to_nat k) z) (Z.max cap k) s'.
Proof.
  intros R O Hk Hf. destruct (clear_ok t cap s R) as (s1 & E1 & R1). rewrite E1. cbn [bind].
  destruct (append_n_ok dbg [] cap s1 z k R1 O Hk) as (s2 & E2 & R2); [zl; lia|]. zl. eauto.
Qed.

(** The result string before it is filled: new, or the caller's, extended when its text
    is shorter. *)
Lemma pop_target dbg sr n ex : 0 < n -> 0 <= ex -> n + 1 <= alloc_max ->
  (forall r, sr = Some r -> exists t cap, srep t cap r /\ cap + n + ex + 1 <= alloc_max) ->
  exists sp t cap, (let* sp := match sr with Some r => Ok r | None => str_create_len dbg n end in
    (if sl sp <? n then str_reserve dbg sp (w64 (n - sl sp + ex)) else Ok sp)) = Ok sp /\ srep t cap sp /\ Z.max cap n + 1 <= alloc_max.
Proof.
  intros Hn Hx Hf Hr. destruct sr as [r|].
  - destruct (Hr r eq_refl) as (t & cap & R & Hc). cbn [bind]. pose proof (r_len _ _ _ R). pose proof (r_le _ _ _ R).
    destruct (Z.ltb_spec (sl r) n).
    + rewrite w64_small by zlia. destruct (reserve_ok dbg t cap r (n - sl r + ex) R) as (s' & E & R'); [lia|zlia|].
      exists s', t, (cap + (n - sl r + ex)). split; [exact E|]. split; [exact R'|]. zlia.
    + exists r, t, cap. split; [reflexivity|]. split; [exact R|]. zlia.
  - destruct (create_len_ok dbg n) as (s1 & E1 & R1 & _); [lia|lia|]. rewrite E1. cbn [bind].
    rewrite (r_len _ _ _ R1). zl. replace (Z.of_nat (Z.to_nat n) <? n) with false by lia.
    exists s1, (repeat 63 (Z.to_nat n)), n. split; [reflexivity|]. split; [exact R1|]. lia.
Qed.

Lemma pop_first_ok dbg sr t cap s sep a b : srep t cap s -> 0 < zlen sep -> cut sep t = Some (a, b) -> 0 < zlen a ->
  target_ok sr (zlen a) ->
  exists r s' capr, str_pop_get_first dbg sr s sep = Ok (Some r, s') /\ srep a capr r /\ srep b cap s'.
Proof.
  intros R Hs Hc Ha Ht. pose proof R as R0. destruct R0 as [P O L C LE RM F V]. unfold str_pop_get_first.
  pose proof (cut_some _ _ _ _ Hc) as Et.
  replace ((sl s =? 0) || is_nil sep) with false by (destruct sep; [zl; lia|]; cbn [is_nil]; rewrite L, Et; zl; zlia).
  rewrite (z_ok _ _ _ R). cbn [bind]. rewrite strstr_cut, Hc, L. replace (zlen t - (zlen t - zlen a)) with (zlen a) by lia.
  assert (zlen a < zlen t) as Hat by (rewrite Et; zl; zlia).
  rewrite (w64_small (zlen a)) by zlia. replace (zlen a =? 0) with false by lia.
  destruct (pop_target dbg sr (zlen a) 0) as (sp & tp & cp & Ep & Rp & Hp); [lia|lia|zlia| |].
  { intros r Er. destruct (Ht r Er) as (x & y & Rx & Hy). exists x, y. split; [assumption|lia]. }
  rewrite Z.add_0_r in Ep || idtac.
  assert (exists sp0, match sr with Some r => Ok r | None => str_create_len dbg (zlen a) end = Ok sp0 /\
     (if sl sp0 <? zlen a then str_reserve dbg sp0 (w64 (zlen a - sl sp0)) else Ok sp0) = Ok sp) as (sp0 & E0 & E0').
  { destruct (match sr with Some r => Ok r | None => str_create_len dbg (zlen a) end) as [x| | |]; try discriminate.
    exists x. split; [reflexivity|]. cbn [bind] in Ep. rewrite Z.add_0_r in Ep. exact Ep. }
  rewrite E0. cbn [bind]. rewrite E0'. cbn [bind].
  destruct (clear_append dbg tp cp sp t (zlen a) Rp O) as (r & Er & Rr); [lia|lia|].
  destruct (str_clear sp) as [sp1| | |]; try discriminate. cbn [bind] in *. rewrite Er. cbn [bind].
  rewrite (w64_small (zlen a + zlen sep)) by (rewrite Et in *; zl; zlia).
  rewrite Et in R. rewrite (app_assoc a) in R.
  destruct (remove_ok dbg [] (a ++ sep) b cap s 0 (zlen a + zlen sep) R) as (s' & Es & Rs & _); [reflexivity|zl; lia|left; zl; lia|].
  rewrite Es. cbn [bind app] in *. exists r, s', (Z.max cp (zlen a)). split; [reflexivity|]. split; [|exact Rs].
  rewrite Et in Rr. rewrite firstn_zlen in Rr by reflexivity. exact Rr.
Qed.

Lemma pop_first_none dbg sr t cap s sep : srep t cap s -> zlen sep = 0 \/ cut sep t = None \/ (exists b, cut sep t = Some ([], b)) ->
  str_pop_get_first dbg sr s sep = Ok (sr, s).
Proof.
  intros R H. unfold str_pop_get_first. destruct ((sl s =? 0) || is_nil sep) eqn:E; [reflexivity|].
  apply orb_false_iff in E as [E1 E2]. rewrite (z_ok _ _ _ R). cbn [bind]. rewrite strstr_cut.
  destruct H as [H|[->|(b & ->)]].
  - apply zlen_0 in H. subst. discriminate.
  - reflexivity.
  - rewrite (r_len _ _ _ R). zl. replace (zlen t - (zlen t - 0)) with 0 by lia. reflexivity.
Qed.

Lemma pop_last_ok dbg sr t cap s sep a b f : srep t cap s -> 0 < zlen sep -> last_cut (length t) sep t = Some (a, b) -> 0 < zlen b ->
  (length t < f)%nat -> target_ok sr (zlen b) ->
  exists r s' capr, str_pop_get_last dbg f sr s sep = Ok (Some r, s') /\ srep b capr r /\ srep a cap s'.
Proof.
  intros R Hs Hc Hb Hfu Ht. pose proof R as R0. destruct R0 as [P O L C LE RM F V]. unfold str_pop_get_last.
  pose proof (last_cut_some _ _ _ _ _ Hc) as Et.
  assert (zlen t = zlen a + zlen sep + zlen b) as Lt by (rewrite Et; zl; lia).
  replace ((sl s =? 0) || is_nil sep) with false by (destruct sep; [zl; lia|]; cbn [is_nil]; rewrite L, Lt; zl; zlia).
  rewrite (z_ok _ _ _ R). cbn [bind].
  destruct (last_ok_scan _ _ _ _ _ _ _ R Hs Hfu Hc) as (i & Ei & El). rewrite Ei, El. cbn [bind]. rewrite L.
  replace (zlen t - zlen a - zlen sep) with (zlen b) by lia.
  rewrite (w64_small (zlen b)) by zlia. replace (zlen b =? 0) with false by lia.
  destruct (pop_target dbg sr (zlen b) 1) as (sp & tp & cp & Ep & Rp & Hp); [lia|lia|zlia| |].
  { intros r Er. destruct (Ht r Er) as (x & y & Rx & Hy). exists x, y. split; [assumption|lia]. }
  assert (exists sp0, match sr with Some r => Ok r | None => str_create_len dbg (zlen b) end = Ok sp0 /\
     (if sl sp0 <? zlen b then str_reserve dbg sp0 (w64 (zlen b - sl sp0 + 1)) else Ok sp0) = Ok sp) as (sp0 & E0 & E0').
  { destruct (match sr with Some r => Ok r | None => str_create_len dbg (zlen b) end) as [x| | |]; try discriminate.
    exists x. split; [reflexivity|]. exact Ep. }
  rewrite E0. cbn [bind]. rewrite E0'. cbn [bind].
  replace (skipn (Z.to_nat (zlen a + zlen sep)) t) with b
    by (rewrite Et, app_assoc, skipn_zlen by (zl; lia); reflexivity).
  assert (oks b) as Ob by (rewrite Et, !oks_app in O; tauto).
  destruct (clear_append dbg tp cp sp b (zlen b) Rp Ob) as (r & Er & Rr); [lia|lia|].
  destruct (str_clear sp) as [sp1| | |]; try discriminate. cbn [bind] in *. rewrite Er. cbn [bind].
  rewrite (w64_small (zlen t - zlen b - zlen sep)) by zlia. rewrite (w64_small (zlen b + zlen sep)) by zlia.
  rewrite Et in R. rewrite <- (app_nil_r (sep ++ b)) in R.
  destruct (remove_ok dbg a (sep ++ b) [] cap s (zlen t - zlen b - zlen sep) (zlen b + zlen sep) R) as (s' & Es & Rs & _); [lia|zl; lia|left; zl; lia|].
  rewrite Es. cbn [bind]. rewrite app_nil_r in Rs. exists r, s', (Z.max cp (zlen b)). split; [reflexivity|]. split; [|exact Rs].
  rewrite to_nat_zlen, firstn_all in Rr. exact Rr.
Qed.

Lemma pop_last_none dbg sr t cap s sep f : srep t cap s -> (length t < f)%nat ->
  zlen sep = 0 \/ cut sep t = None \/ (0 < zlen sep /\ exists a, last_cut (length t) sep t = Some (a, [])) ->
  str_pop_get_last dbg f sr s sep = Ok (sr, s).
Proof.
  intros R Hf H. unfold str_pop_get_last. destruct ((sl s =? 0) || is_nil sep) eqn:E; [reflexivity|].
  apply orb_false_iff in E as [E1 E2]. rewrite (z_ok _ _ _ R). cbn [bind].
  destruct H as [H|[H|(Hs & a & H)]].
  - apply zlen_0 in H. subst. discriminate.
  - rewrite strstr_cut, H. reflexivity.
  - destruct (last_ok_scan _ _ _ _ _ _ _ R Hs Hf H) as (i & Ei & El). rewrite Ei, El. cbn [bind].
    apply last_cut_some in H. subst t. zl. replace (zlen a + (zlen sep + 0) - zlen a - zlen sep) with 0 by lia. reflexivity.
Qed.

(** * Comparing *)
Lemma equals_ok t1 c1 s1 t2 c2 s2 : srep t1 c1 s1 -> srep t2 c2 s2 ->
  exists b, str_equals s1 s2 = Ok b /\ (b = true <-> t1 = t2).
Proof.
  intros R1 R2. unfold str_equals. rewrite (r_len _ _ _ R1), (r_len _ _ _ R2), (z_ok _ _ _ R1), (z_ok _ _ _ R2).
  destruct (Z.eqb_spec (zlen t1) (zlen t2)) as [E|E]; cbn [bind].
  - eexists. split; [reflexivity|]. unfold strncmp_eq. rewrite to_nat_zlen, firstn_all.
    replace (length t1) with (length t2) by (unfold zlen in E; lia). rewrite firstn_all. apply bytes_eqb_spec.
  - exists false. split; [reflexivity|]. split; [discriminate|]. intros ->. contradiction.
Qed.
Lemma equals_z_ok z1 z2 : str_equals_z z1 z2 = true <-> z1 = z2.
Proof.
  unfold str_equals_z. destruct (Z.eqb_spec (zlen z1) (zlen z2)) as [E|E].
  - unfold strncmp_eq. rewrite to_nat_zlen, firstn_all.
    replace (length z1) with (length z2) by (unfold zlen in E; lia). rewrite firstn_all. apply bytes_eqb_spec.
  - split; [discriminate|]. intros ->. contradiction.
Qed.
Lemma equals_n_ok dbg z1 z2 n : 0 < n <= zlen z1 -> n <= zlen z2 ->
  exists b, str_equals_n dbg z1 z2 n = Ok b /\ (b = true <-> firstn (Z.to_nat n) z1 = firstn (Z.to_nat n) z2).
Proof.
  intros H1 H2. unfold str_equals_n. rewrite dassert_true, !enforce_true by lia. cbn [bind].
  eexists. split; [reflexivity|]. apply bytes_eqb_spec.
Qed.
Lemma starts_ok t cap s sub : srep t cap s ->
  exists b, str_starts_with s sub = Ok b /\ (b = true <-> exists r, t = sub ++ r).
Proof.
  intros R. unfold str_starts_with. rewrite (r_len _ _ _ R), (z_ok _ _ _ R). destruct (Z.ltb_spec (zlen t) (zlen sub)); cbn [bind].
  - exists false. split; [reflexivity|]. split; [discriminate|]. intros [r ->]. zl. zlia.
  - eexists. split; [reflexivity|]. unfold strncmp_eq. rewrite bytes_eqb_spec. rewrite to_nat_zlen, firstn_all. split.
    + intros E. exists (skipn (length sub) t). rewrite <- E at 1. symmetry. apply firstn_skipn.
    + intros [r ->]. apply firstn_exact.
Qed.
Lemma ends_ok t cap s sub : srep t cap s ->
  exists b, str_ends_with s sub = Ok b /\ (b = true <-> exists r, t = r ++ sub).
Proof.
  intros R. unfold str_ends_with. rewrite (r_len _ _ _ R). destruct (Z.ltb_spec (zlen t) (zlen sub)); cbn [bind].
  - exists false. split; [reflexivity|]. split; [discriminate|]. intros [r ->]. zl. zlia.
  - destruct (split_at t (zlen t - zlen sub)) as (p & q & -> & Lp); [zlia|]. zl.
    rewrite (cstr_mid _ _ _ _ _ R) by lia. cbn [bind]. eexists. split; [reflexivity|].
    unfold strncmp_eq. rewrite bytes_eqb_spec. rewrite to_nat_zlen, firstn_all.
    replace (length sub) with (length q) by (unfold zlen in *; lia). rewrite firstn_all. split.
    + intros ->. now exists p.
    + intros [r E]. apply app_len_inj in E as [_ ->]; [reflexivity|]. apply (f_equal (@zlen _)) in E. zl. lia.
Qed.

(** * Revalidating the length *)
Lemma strnlen_full (t : list Z) q : oks t -> strnlen (map Some t ++ q) (length t) = Ok (zlen t).
Proof.
  intros O. induction O as [|c t Hc Ht IH]; cbn [map app strnlen length]; [destruct q; reflexivity|].
  unfold okc in Hc. replace (c =? 0) with false by lia. rewrite IH. cbn [bind]. zl. f_equal. lia.
Qed.

(** The buffer of an owned string, whatever its recorded length. *)
Lemma revalidate t s : pre (map Some t) (sb s) -> oks t -> zlen t <= sc s -> (zlen t < sc s -> pre (zblk t) (sb s)) ->
  sc s + 1 <= zlen (sb s) -> sc s + 1 <= alloc_max -> sv s = false ->
  exists s', str_validate_len s = Ok (s', zlen t) /\ srep t (sc s) s'.
Proof.
  intros P O LE Z RM F V. unfold str_validate_len.
  assert (strnlen (sb s) (Z.to_nat (sc s)) = Ok (zlen t)) as ->.
  { destruct (Z.eq_dec (zlen t) (sc s)) as [E|E].
    - destruct P as [q ->]. rewrite <- E, to_nat_zlen. now apply strnlen_full.
    - destruct Z as [q ->]; [lia|]. unfold zblk. rewrite <- app_assoc. apply strnlen_ok; [assumption|unfold zlen in *; lia]. }
  cbn [bind].
  destruct (sput_ok s (zlen t) 0 V) as (b' & E & Lb & Pb & _); [zlia|]. rewrite E. cbn [bind]. unfold set_len. cbn [sb sl sc sv ss].
  eexists. split; [reflexivity|].
  rewrite (pre_firstn_eq (map Some t)) in Pb by (assumption || (zl; reflexivity)).
  constructor; cbn [sb sl sc sv]; try assumption; try reflexivity. lia.
Qed.

(** * Case *)
Lemma upper_upper t : map upper (map upper t) = map upper t.
Proof. rewrite map_map. apply map_ext. intros c. unfold upper. destruct ((97 <=? c) && (c <=? 122)) eqn:E; [|now rewrite E].
  replace ((97 <=? c - 32) && (c - 32 <=? 122)) with false by lia. reflexivity. Qed.
Lemma lower_lower t : map lower (map lower t) = map lower t.
Proof. rewrite map_map. apply map_ext. intros c. unfold lower. destruct ((65 <=? c) && (c <=? 90)) eqn:E; [|now rewrite E].
  replace ((65 <=? c + 32) && (c + 32 <=? 90)) with false by lia. reflexivity. Qed.
Lemma lower_upper t : map lower (map upper t) = map lower t.
Proof. rewrite map_map. apply map_ext. intros c. unfold lower, upper. destruct ((97 <=? c) && (c <=? 122)) eqn:E; [|reflexivity].
  replace ((65 <=? c - 32) && (c - 32 <=? 90)) with true by lia. replace ((65 <=? c) && (c <=? 90)) with false by lia. lia. Qed.

(** * Removing the last occurrence: what the code does *)
Lemma remove_last_actual dbg t cap s z a b f : srep t cap s -> 0 < zlen z -> (length t < f)%nat ->
  last_cut (length t) z t = Some (a, b) -> 0 < zlen a ->
  exists s', str_remove_last dbg f s z = Ok (s', true) /\
    srep (firstn (Z.to_nat (zlen t - zlen a)) t ++ skipn (Z.to_nat (zlen t - zlen a + zlen z)) t) cap s'.
Proof.
  intros R Hz Hf Hc Ha. unfold str_remove_last. rewrite (z_ok _ _ _ R). cbn [bind].
  destruct (last_ok_scan _ _ _ _ _ _ _ R Hz Hf Hc) as (i & Ei & El). rewrite Ei, El. cbn [bind].
  pose proof (r_len _ _ _ R) as L. pose proof (r_le _ _ _ R). pose proof (r_fit _ _ _ R). rewrite L.
  pose proof (last_cut_some _ _ _ _ _ Hc) as Et. assert (zlen t = zlen a + zlen z + zlen b) as Lt by (rewrite Et; zl; lia).
  rewrite (w64_small (zlen t - zlen a)) by zlia.
  destruct (step_ok dbg t cap s (SRemove (zlen t - zlen a) (zlen z)) (firstn (Z.to_nat (zlen t - zlen a)) t ++ skipn (Z.to_nat (zlen t - zlen a + zlen z)) t) cap None R) as (s' & E & R').
  - cbn [tstep].
    replace ((0 <? zlen z) && (zlen z <? two64) && (0 <=? zlen t - zlen a) && (zlen t - zlen a <? zlen t)) with true by zlia. reflexivity.
  - cbn [sstep] in E. unfold ok1 in E. destruct (str_remove dbg s _ _) as [x| | |]; try discriminate. cbn [bind] in *.
    injection E as ->. eauto.
Qed.

(** * Iterating with the slider *)
Lemma slide_front_ok t cap s : srep t cap s -> forall rest d, t = d ++ rest ->
  slide_all (S (length rest)) (set_slider s (zlen d)) = Ok (set_slider s 0, rest).
Proof.
  intros R rest. induction rest as [|x rest IH]; intros d E; cbn [length slide_all].
  - unfold str_slide_front, set_slider. cbn [sl ss]. rewrite (r_len _ _ _ R), E, app_nil_r.
    rewrite Z.ltb_irrefl. reflexivity.
  - unfold str_slide_front at 1. unfold set_slider at 1 2 3 4. cbn [sl ss sb]. rewrite (r_len _ _ _ R).
    pose proof (r_le _ _ _ R). pose proof (r_fit _ _ _ R).
    assert (zlen t = zlen d + 1 + zlen rest) as Lt by (rewrite E; zl; lia).
    replace (zlen d <? zlen t) with true by zlia.
    unfold set_slider. cbn [sl sc sv ss sb bind].
    rewrite !(w64_small (zlen d + 1)) by zlia. rewrite (w64_small (zlen d + 1 - 1)) by zlia.
    replace (zlen d + 1 - 1) with (zlen d) by lia.
    assert (bbyte (sb s) (zlen d) = Ok x) as ->. { apply (byte_mid d x rest cap). now rewrite <- E. }
    cbn [bind snd fst]. specialize (IH (d ++ [x])). unfold set_slider in IH. zl.
    replace (zlen d + (1 + 0)) with (zlen d + 1) in IH by lia. cbn [slide_all] in IH. rewrite IH by now rewrite <- app_assoc.
    reflexivity.
Qed.

Lemma make_ok dbg i t cap : tinit i = Some (t, cap) -> exists s, smake dbg i = Ok s /\ srep t cap s.
Proof.
  destruct i; cbn [tinit smake]; intros H.
  - destruct (_ && _) eqn:E in H; [|discriminate]. unfold sfits in *. bools. injection H as <- <-. now apply create_ok.
  - destruct (_ && _) eqn:E in H; [|discriminate]. unfold sfits in *. bools. injection H as <- <-. now apply create_capacity_ok.
  - destruct (_ && _) eqn:E in H; [|discriminate]. unfold sfits in *. bools. injection H as <- <-.
    destruct (create_len_ok dbg n) as (s & E1 & R & _); try assumption. eauto.
  - destruct (_ && _) eqn:E in H; [|discriminate]. unfold sfits in *. bools. injection H as <- <-.
    apply take_ownership_ok; try assumption. exists rest. unfold zblk. now rewrite <- app_assoc.
  - destruct (_ && _) eqn:E in H; [|discriminate]. unfold sfits in *. bools. injection H as <- <-.
    destruct (create_ok dbg z) as (s & E1 & R); try assumption. rewrite E1. cbn [bind]. now apply (dup_ok dbg z (zlen z)).
Qed.

Lemma strings_run dbg i ops t0 cap0 t cap outs :
  tinit i = Some (t0, cap0) -> trun (t0, cap0) ops = Some (t, cap, outs) ->
  exists s0 s, smake dbg i = Ok s0 /\ srun dbg s0 ops = Ok (s, outs) /\ srep t cap s.
Proof.
  intros Hi Hr. destruct (make_ok dbg i t0 cap0 Hi) as (s0 & E0 & R0).
  destruct (run_ok dbg ops _ _ _ _ _ _ R0 Hr) as (s & E & R). eauto.
Qed.

Lemma strings_invariant dbg i ops t0 cap0 t cap outs :
  tinit i = Some (t0, cap0) -> trun (t0, cap0) ops = Some (t, cap, outs) ->
  exists s0 s z, smake dbg i = Ok s0 /\ srun dbg s0 ops = Ok (s, outs) /\
    str_z s = Ok z /\ zlen z = str_len s /\ str_len s <= str_capacity s /\ str_capacity s + 1 <= zlen (sb s).
Proof.
  intros Hi Hr. destruct (strings_run dbg _ _ _ _ _ _ _ Hi Hr) as (s0 & s & E0 & E & R). exists s0, s, t.
  split; [exact E0|]. split; [exact E|]. split; [exact (z_ok _ _ _ R)|]. destruct R. unfold str_len, str_capacity. lia.
Qed.

(** * Statements used in PropsStr.v *)
Lemma find_leftmost t cap s sub : srep t cap s -> zlen sub <= zlen t ->
  exists r, str_find s sub = Ok r /\ str_index_find s sub = Ok (match r with Some i => i | None => -1 end) /\
    match r with
    | Some i => exists a b, t = a ++ sub ++ b /\ zlen a = i /\ forall a' b', t = a' ++ sub ++ b' -> i <= zlen a'
    | None => forall a b, t <> a ++ sub ++ b
    end.
Proof.
  intros R H. eexists. split; [apply (find_ok _ _ _ _ R H)|]. rewrite (index_find_ok _ _ _ _ R H).
  destruct (cut sub t) as [[a b]|] eqn:E; (split; [reflexivity|]).
  - exists a, b. split; [now apply cut_some|]. split; [reflexivity|]. apply (cut_leftmost _ _ _ _ E).
  - now apply cut_none.
Qed.

Lemma remove_first_leftmost t cap s z : srep t cap s ->
  exists s' found, str_remove_first s z = Ok (s', found) /\
    if found : bool then exists a b, t = a ++ z ++ b /\ (forall a' b', t = a' ++ z ++ b' -> zlen a <= zlen a') /\ srep (a ++ b) cap s'
    else s' = s /\ forall a b, t <> a ++ z ++ b.
Proof.
  intros R. destruct (remove_first_ok t cap s z R) as (s' & E & R' & _). exists s'. eexists. split; [exact E|].
  destruct (cut z t) as [[a b]|] eqn:C.
  - exists a, b. split; [now apply cut_some|]. split; [apply (cut_leftmost _ _ _ _ C)|exact R'].
  - split; [|now apply cut_none]. unfold str_remove_first in E. rewrite (z_ok _ _ _ R) in E. cbn [bind] in E.
    rewrite strstr_cut, C in E. now injection E.
Qed.

Lemma remove_all_clean t cap s z : srep t cap s -> 0 < zlen z ->
  exists s' t', str_remove_all (lf s) s z = Ok s' /\ srep t' cap s' /\ (forall a b, t' <> a ++ z ++ b) /\
    ((forall a b, t <> a ++ z ++ b) -> t' = t) /\ t' = delete_all (length t) z t.
Proof.
  intros R Hz. pose proof (fuel_len _ _ _ R). destruct (remove_all_ok z cap Hz (lf s) (length t) t s R) as (s' & E & R'); [unfold lf; lia|lia|].
  exists s', (delete_all (length t) z t). split; [exact E|]. split; [exact R'|]. split; [apply cut_none; apply delete_all_none; lia|].
  split; [|reflexivity]. intros Hn. apply cut_none in Hn. destruct (length t); cbn [delete_all]; [reflexivity|now rewrite Hn].
Qed.

Lemma remove_all_empty_diverges t cap s : srep t cap s -> forall fuel, str_remove_all fuel s [] = NoFuel.
Proof.
  intros R fuel. revert s R. induction fuel as [|f IH]; intros s R; cbn [str_remove_all]; [reflexivity|].
  destruct (remove_first_ok t cap s [] R) as (s' & E & R' & _).
  assert (cut [] t = Some ([], t)) as C by (destruct t; reflexivity). rewrite C in *.
  rewrite E. cbn [bind fst snd]. apply IH. exact R'.
Qed.

Lemma replace_first_leftmost dbg t cap s sub rsub : srep t cap s -> 0 < zlen sub <= zlen t -> oks rsub -> 0 < zlen rsub ->
  Z.max cap (zlen t + zlen rsub) + 1 <= alloc_max ->
  exists s', str_replace_first dbg s sub rsub = Ok s' /\
    ((exists a b capr, t = a ++ sub ++ b /\ (forall a' b', t = a' ++ sub ++ b' -> zlen a <= zlen a') /\ srep (a ++ rsub ++ b) capr s')
     \/ ((forall a b, t <> a ++ sub ++ b) /\ s' = s)).
Proof.
  intros R Hs O Hr Hf. unfold str_replace_first.
  replace (is_nil sub || is_nil rsub) with false by (destruct sub; [zl; lia|]; destruct rsub; [zl; lia|]; reflexivity).
  rewrite (find_ok _ _ _ _ R) by lia. cbn [bind]. destruct (cut sub t) as [[a b]|] eqn:C.
  - pose proof (cut_leftmost _ _ _ _ C) as M. apply cut_some in C. subst t. zl.
    destruct (replace_at_ok dbg a sub rsub b cap s R) as (s' & E & R'); try assumption; try lia; [zl; zlia|].
    exists s'. split; [exact E|]. left. do 3 eexists. split; [reflexivity|]. split; [exact M|exact R'].
  - exists s. split; [reflexivity|]. right. split; [now apply cut_none|reflexivity].
Qed.

Lemma replace_last_rightmost dbg t cap s sub rsub : srep t cap s -> 0 < zlen sub -> oks rsub -> 0 < zlen rsub ->
  Z.max cap (zlen t + zlen rsub) + 1 <= alloc_max -> no_overlap sub -> (exists a b, t = a ++ sub ++ b) ->
  exists s' a b capr, str_replace_last dbg (lf s) s sub rsub = Ok s' /\ t = a ++ sub ++ b /\
    (forall a' b', t = a' ++ sub ++ b' -> zlen a' <= zlen a) /\ srep (a ++ rsub ++ b) capr s'.
Proof.
  intros R Hs O Hr Hf N (a0 & b0 & E0). pose proof (fuel_len _ _ _ R).
  destruct (last_cut (length t) sub t) as [[a b]|] eqn:C.
  - pose proof (last_cut_some _ _ _ _ _ C) as Et. assert (zlen t = zlen a + zlen sub + zlen b) as Lt by (rewrite Et; zl; lia).
    destruct (replace_last_ok dbg t cap s sub rsub (lf s) a b R) as (s' & E & R'); try assumption; [unfold lf; lia|zl; zlia|].
    exists s', a, b. eexists. split; [exact E|]. split; [exact Et|]. split; [|exact R'].
    apply (last_cut_rightmost (length t) sub t a b); try assumption; lia.
  - apply last_cut_none in C; [|assumption|lia]. apply cut_none with (a := a0) (b := b0) in C. contradiction.
Qed.

Lemma pop_last_rightmost dbg sr t cap s sep a b : srep t cap s -> 0 < zlen sep -> no_overlap sep ->
  t = a ++ sep ++ b -> (forall a' b', t = a' ++ sep ++ b' -> zlen a' <= zlen a) -> target_ok sr (zlen b) ->
  exists r s', str_pop_get_last dbg (lf s) sr s sep = Ok (r, s') /\
    if zlen b =? 0 then r = sr /\ s' = s
    else exists r' capr, r = Some r' /\ srep b capr r' /\ srep a cap s'.
Proof.
  intros R Hs N Et Hm Ht. pose proof (fuel_len _ _ _ R).
  assert (last_cut (length t) sep t = Some (a, b)) as C.
  { destruct (last_cut (length t) sep t) as [[x y]|] eqn:C.
    - pose proof (last_cut_some _ _ _ _ _ C) as E1. pose proof (Hm _ _ E1).
      pose proof (last_cut_rightmost (length t) sep t x y Hs (le_n _) N C a b Et).
      rewrite Et in E1. destruct (app_len_inj _ _ _ _ E1) as [-> E2]; [lia|]. apply app_inv_head in E2. now subst.
    - apply last_cut_none in C; [|assumption|lia]. apply cut_none with (a := a) (b := b) in C. contradiction. }
  destruct (Z.eqb_spec (zlen b) 0) as [E|E].
  - apply zlen_0 in E. subst b. exists sr, s. split; [|tauto]. apply (pop_last_none dbg sr t cap); [assumption|unfold lf; lia|]. right. right. eauto.
  - destruct (pop_last_ok dbg sr t cap s sep a b (lf s) R Hs C) as (r & s' & capr & E1 & R1 & R2); [zlia|unfold lf; lia|assumption|].
    exists (Some r), s'. split; [exact E1|]. exists r, capr. tauto.
Qed.

Lemma last_shift (l : list text) x y : last (y :: l) x = last l y.
Proof. revert x y. induction l as [|z l IH]; intros x y; [reflexivity|]. change (last (z :: l) x = last (z :: l) y). now rewrite !IH. Qed.

Lemma join_split_roundtrip dbg sep x y l : oks sep -> 0 < zlen sep -> okpieces (x :: y :: l) ->
  zlen (join_with sep (x :: y :: l)) + 1 <= alloc_max ->
  Forall (clear_of sep) (removelast (x :: y :: l)) -> cut sep (last l y) = None ->
  exists s ps, str_join dbg None sep (x :: y :: l) = Ok s /\ str_z s = Ok (join_with sep (x :: y :: l)) /\
    str_split dbg (lf s) s sep = Ok (Some ps) /\ Forall2 (fun p q => str_z q = Ok p) (x :: y :: l) ps.
Proof.
  intros Os Hs Hl Hf Hc Hlast. destruct (join_new_ok dbg sep x (y :: l) Os Hs Hl Hf) as (s & E & R).
  set (ps := x :: y :: l) in *. set (t := join_with sep ps) in *. pose proof (fuel_len _ _ _ R).
  assert (pieces (length t) sep t = ps) as Hp.
  { unfold t, ps. apply pieces_join; [assumption|reflexivity|assumption|].
    now rewrite last_shift. }
  assert (zlen sep <= zlen t) as Hsz by (unfold t, ps; rewrite join_cons by discriminate; zl; zlia).
  assert (forall p, In p ps -> p <> []) as Hne.
  { unfold okpieces in Hl. rewrite Forall_forall in Hl. intros p Hp' ->. destruct (Hl [] Hp') as [_ X]. unfold zlen in X. cbn [length] in X. lia. }
  destruct (split_some_ok dbg t (Z.max 16 (zlen t)) s sep (lf s) R) as (q & Eq & Fq); [lia|unfold lf; lia| | |].
  - intros C. apply (pieces_one (length t)) in C; [|assumption|lia]. rewrite Hp in C. unfold ps in C. zl. pose proof (zlen_nonneg l). lia.
  - intros k E2. unfold split_on in E2. rewrite Hp in E2. apply (Hne []); [|reflexivity]. rewrite E2. apply in_or_app. right. now left.
  - exists s, q. split; [exact E|]. split; [exact (z_ok _ _ _ R)|]. split; [exact Eq|].
    unfold split_on in Fq. rewrite Hp in Fq.
    replace (filter nonempty ps) with ps in Fq.
    + clear - Fq. induction Fq as [|p s' ps q Rp F IH]; constructor; [exact (z_ok _ _ _ Rp)|assumption].
    + symmetry. clear - Hne. induction ps as [|p ps IH]; [reflexivity|]. cbn [filter]. unfold nonempty at 1.
      replace (zlen p =? 0) with false. { cbn [negb]. f_equal. apply IH. intros r Hr. apply Hne. now right. }
      symmetry. apply Z.eqb_neq. intros E. apply zlen_0 in E. apply (Hne p); [now left|assumption].
Qed.

Lemma join_split_char dbg c x y l : okc c -> okpieces (x :: y :: l) -> Forall (fun p => ~ In c p) (x :: y :: l) ->
  zlen (join_with [c] (x :: y :: l)) + 1 <= alloc_max ->
  exists s ps, str_join dbg None [c] (x :: y :: l) = Ok s /\ str_z s = Ok (join_with [c] (x :: y :: l)) /\
    str_split dbg (lf s) s [c] = Ok (Some ps) /\ Forall2 (fun p q => str_z q = Ok p) (x :: y :: l) ps.
Proof.
  intros Oc Hl Hn Hf. apply join_split_roundtrip; try assumption.
  - now constructor.
  - unfold zlen. cbn [length]. lia.
  - apply Forall_forall. intros p Hp. apply clear_of_char. rewrite Forall_forall in Hn. apply Hn.
    assert (forall (q : list text), In p (removelast q) -> In p q) as X.
    { induction q as [|u q IH]; [tauto|]. cbn [removelast]. destruct q; [intros []|]. intros [->|H]; [now left|right; now apply IH]. }
    now apply X.
  - apply cut_char_none. rewrite Forall_forall in Hn. apply Hn. right.
    clear. revert y. induction l as [|z l IH]; intros y; [now left|]. right. rewrite last_shift. apply IH.
Qed.

(** A string the caller shortened by writing a NUL at position [j]. *)
Lemma shortened_validates t cap s j : srep t cap s -> 0 <= j <= zlen t ->
  exists s1 s2, sput s j 0 = Ok s1 /\ str_validate_len s1 = Ok (s2, j) /\ srep (firstn (Z.to_nat j) t) cap s2.
Proof.
  intros R Hj. pose proof (pre_text _ _ _ R) as PT. destruct R as [P O L C LE RM F V].
  destruct (sput_ok s j 0 V) as (b' & E & Lb & Pb & _); [zlia|].
  eexists. destruct (revalidate (firstn (Z.to_nat j) t) (mk_str b' (sl s) (sc s) false (ss s))) as (s2 & E2 & R2); cbn [sb sl sc sv] in *.
  - assert (pre (map Some (firstn (Z.to_nat j) t) ++ [Some 0]) b') as X; [|now apply pre_app in X].
    destruct PT as [q Eq]. rewrite <- (firstn_skipn (Z.to_nat j) t) in Eq. rewrite map_app, <- app_assoc in Eq. rewrite Eq in Pb.
    rewrite firstn_zlen in Pb by (zl; lia). exact Pb.
  - now apply oks_firstn.
  - zl. lia.
  - intros _. destruct PT as [q Eq]. rewrite <- (firstn_skipn (Z.to_nat j) t) in Eq. rewrite map_app, <- app_assoc in Eq. rewrite Eq in Pb.
    rewrite firstn_zlen in Pb by (zl; lia). exact Pb.
  - lia.
  - lia.
  - reflexivity.
  - exists s2. split; [exact E|]. split; [|rewrite C in R2; exact R2]. rewrite E2. do 2 f_equal. zl. lia.
Qed.

(** The caller filled the storage (up to the capacity) with another text. *)
Lemma rewritten_validates t s : sv s = false -> zlen t <= sc s -> sc s + 1 <= zlen (sb s) -> sc s + 1 <= alloc_max -> oks t ->
  pre (zblk t) (sb s) -> exists s2, str_validate_len s = Ok (s2, zlen t) /\ srep t (sc s) s2.
Proof.
  intros V LE RM F O P. apply revalidate; try assumption; [|now intros _]. unfold zblk in P. now apply pre_app in P.
Qed.

(** Views: the growing and shrinking functions terminate; everything else that writes is
    undefined. *)
Lemma view_guarded dbg z n : 0 < n ->
  str_reserve dbg (str_create_static z) n = Abort /\ str_resize dbg (str_create_static z) n = Abort /\
  str_shrink dbg (str_create_static z) = Abort.
Proof.
  intros H. unfold str_reserve, str_resize, str_shrink. rewrite dassert_true by lia. cbn. tauto.
Qed.

Lemma scan_pieces sub : 0 < zlen sub -> forall k t, (length t <= k)%nat -> scan sub t (pieces k sub t).
Proof.
  intros Hs k. induction k as [|k IH]; intros t H; cbn [pieces].
  - constructor. apply cut_none. destruct t; [now apply cut_nil|cbn [length] in H; lia].
  - destruct (cut sub t) as [[a b]|] eqn:C; [|constructor; now apply cut_none].
    pose proof (cut_shorter _ _ _ _ Hs C). pose proof (cut_leftmost _ _ _ _ C) as M. apply cut_some in C. subst t.
    constructor; [exact M|]. apply IH. lia.
Qed.
Lemma scan_unique sub t ps : 0 < zlen sub -> scan sub t ps -> ps = split_on sub t.
Proof.
  intros Hs S. unfold split_on. induction S as [t N|a b ps M S IH].
  - apply cut_none in N. destruct (length t); cbn [pieces]; [reflexivity|now rewrite N].
  - pose proof (cut_intro _ _ _ M) as C. pose proof (cut_shorter _ _ _ _ Hs C).
    destruct (length (a ++ sub ++ b)) as [|k] eqn:E; [lia|]. cbn [pieces]. rewrite C. f_equal. rewrite IH.
    apply pieces_fuel; [assumption|lia|lia].
Qed.
Lemma count_scan t cap s z : srep t cap s -> 0 < zlen z <= zlen t ->
  exists ps, scan z t ps /\ str_can_find (lf s) s z = Ok (zlen ps - 1).
Proof.
  intros R H. exists (split_on z t). split; [apply scan_pieces; [lia|constructor]|].
  apply (can_find_ok t cap); try assumption. pose proof (fuel_len _ _ _ R). unfold lf. lia.
Qed.
Lemma replace_scan dbg t cap s sub rsub ps : srep t cap s -> 0 < zlen sub -> 0 < zlen rsub -> oks rsub -> scan sub t ps ->
  Z.max cap (zlen (join_with rsub ps)) + 1 <= alloc_max ->
  t = join_with sub ps /\ exists s' cap', str_replace dbg (lf s) s sub rsub = Ok s' /\ srep (join_with rsub ps) cap' s'.
Proof.
  intros R H1 H2 O S F. apply scan_unique in S; [|assumption]. subst ps. split; [symmetry; apply join_pieces|].
  pose proof (fuel_len _ _ _ R). destruct (replace_ok dbg t cap s sub rsub (lf s) R) as (s' & E & R'); try assumption; [unfold lf; lia|].
  eauto.
Qed.
Lemma replace_empty dbg f s sub rsub : sub = [] \/ rsub = [] -> str_replace dbg f s sub rsub = Ok s.
Proof. unfold str_replace. intros [->| ->]; [reflexivity|]. now destruct sub. Qed.
Lemma split_scan dbg t cap s sep ps : srep t cap s -> 0 < zlen sep <= zlen t -> scan sep t ps ->
  (zlen ps = 1 -> str_split dbg (lf s) s sep = Ok None) /\
  (1 < zlen ps -> (forall l, ps <> l ++ [[]; []]) ->
   exists l, str_split dbg (lf s) s sep = Ok (Some l) /\ Forall2 (fun p x => srep p (zlen p) x) (filter nonempty ps) l).
Proof.
  intros R H S. apply scan_unique in S; [|lia]. subst ps. pose proof (fuel_len _ _ _ R).
  pose proof (pieces_one (length t) sep t ltac:(lia) ltac:(constructor)) as P. fold (split_on sep t) in P. split.
  - intros E. apply (split_none_ok dbg t cap); try assumption; [unfold lf; lia|tauto].
  - intros E N. apply (split_some_ok dbg t cap); try assumption; [unfold lf; lia|]. intros C. apply P in C. lia.
Qed.
Lemma strip_meaning f t : forallb f t = false ->
  exists p q, t = p ++ strip_text f t ++ q /\ forallb f p = true /\ forallb f q = true /\
    (exists c m, strip_text f t = c :: m /\ f c = false) /\ (exists m d, strip_text f t = m ++ [d] /\ f d = false).
Proof.
  intros H. destruct (strip_split f t H) as (p & c & m & d & q & E1 & E2 & E3 & E4 & E5 & (m' & E6) & E7).
  exists p, q. rewrite E2. repeat split; try assumption; eauto.
Qed.
Lemma strip_all_ok t cap s : srep t cap s ->
  (forallb white t = false -> exists s', str_strip (lf s) s = Ok s' /\ srep (strip_text white t) cap s') /\
  (forallb (fun c => white c || punct c) t = false ->
     exists s', str_strip_punct (lf s) s = Ok s' /\ srep (strip_text (fun c => white c || punct c) t) cap s') /\
  (forall c, forallb (in_set c) t = false -> 0 < zlen c ->
     exists s', str_strip_c (lf s) s c = Ok s' /\ srep (strip_text (in_set c) t) cap s').
Proof.
  intros R. repeat split.
  - intros H. destruct (step_ok true t cap s SStrip (strip_text white t) cap None R) as (s' & E & R'); [cbn [tstep]; now rewrite H|].
    cbn [sstep] in E. destruct (str_strip (lf s) s); try discriminate. injection E as ->. eauto.
  - intros H. destruct (step_ok true t cap s SStripPunct (strip_text (fun c => white c || punct c) t) cap None R) as (s' & E & R'); [cbn [tstep]; now rewrite H|].
    cbn [sstep] in E. destruct (str_strip_punct (lf s) s); try discriminate. injection E as ->. eauto.
  - intros c H Hc. destruct (step_ok true t cap s (SStripC c) (strip_text (in_set c) t) cap None R) as (s' & E & R').
    { cbn [tstep]. rewrite H. replace (0 <? zlen c) with true by lia. reflexivity. }
    cbn [sstep] in E. destruct (str_strip_c (lf s) s c); try discriminate. injection E as ->. eauto.
Qed.
