(** Proofs about formats; used by PropsFmt.v. *)
From Verif Require Import Base BaseFacts NumModel FmtModel.
From Coq Require Import Lia.

Definition want (items : list item) : list aty := flat_map wants items.

Lemma parse_out sp f : parse_at Out sp f = parse f.
Proof. unfold parse. destruct f as [|c f]; [reflexivity|]. cbn [parse_at]. destruct (c =? 37); [reflexivity|]. f_equal. revert sp. induction f as [|d f IH]; intros sp; [reflexivity|]. cbn [parse_at]. destruct (d =? 37); [reflexivity|]. now rewrite (IH sp). Qed.

Lemma parse_app_at f1 f2 : forall p sp i1, parse_at p sp f1 = Some i1 -> parse_at p sp (f1 ++ f2) = option_map (app i1) (parse f2).
Proof.
  induction f1 as [|c f1 IH]; intros p sp i1 E.
  - destruct p; try discriminate. injection E as <-. cbn [app]. rewrite parse_out. destruct (parse f2); reflexivity.
  - cbn [app parse_at] in *.
    assert (forall q s, match inside q s c with None => None | Some (inl (p, sp)) => parse_at p sp f1 | Some (inr i) => option_map (cons i) (parse_at Out spec0 f1) end = Some i1 ->
      match inside q s c with None => None | Some (inl (p, sp)) => parse_at p sp (f1 ++ f2) | Some (inr i) => option_map (cons i) (parse_at Out spec0 (f1 ++ f2)) end = option_map (app i1) (parse f2)) as K.
    { intros q s H. destruct (inside q s c) as [[(p', sp')|i]|]; [now apply IH| |discriminate].
      destruct (parse_at Out spec0 f1) as [l|] eqn:El; [|discriminate]. injection H as <-. rewrite (IH _ _ _ El). destruct (parse f2); reflexivity. }
    destruct p; try (now apply K). clear K. destruct (c =? 37); [now apply IH|].
    destruct (parse_at Out sp f1) as [l|] eqn:El; [|discriminate]. injection E as <-. rewrite (IH _ _ _ El). destruct (parse f2); reflexivity.
Qed.
Lemma parse_app f1 f2 i1 : parse f1 = Some i1 -> parse (f1 ++ f2) = option_map (app i1) (parse f2).
Proof. apply parse_app_at. Qed.

Lemma all_app a tys1 tys2 : all_of a (tys1 ++ tys2) = all_of a tys1 && all_of (skipn (length tys1) a) tys2.
Proof.
  revert a. induction tys1 as [|t tys1 IH]; intros a; [destruct a; reflexivity|]. destruct a as [|x a]; [reflexivity|]. cbn [app all_of length skipn]. rewrite IH. now rewrite andb_assoc.
Qed.
Lemma all_more a b tys : (length tys <= length a)%nat -> all_of (a ++ b) tys = all_of a tys.
Proof. revert a. induction tys as [|t tys IH]; intros a L; [destruct a, b; reflexivity|]. destruct a as [|x a]; cbn in L; [lia|]. cbn [app all_of]. f_equal. apply IH. lia. Qed.
Lemma all_len a tys : all_of a tys = true -> (length tys <= length a)%nat.
Proof. revert a. induction tys as [|t tys IH]; intros a H; [cbn; lia|]. destruct a as [|x a]; [discriminate|]. cbn in *. apply andb_prop in H as (_ & H). apply IH in H. lia. Qed.

Lemma eval_defined items : forall args, (exists t, eval items args = Ok t) /\ all_of args (want items) = true \/ eval items args = UB /\ all_of args (want items) = false.
Proof.
  induction items as [|i items IH]; intros args; [left; split; [eexists; reflexivity|destruct args; reflexivity]|].
  unfold want. cbn [flat_map]. fold (want items). rewrite all_app. destruct i as [c|sp k]; cbn [eval].
  - cbn [wants length skipn]. replace (all_of args []) with true by (destruct args; reflexivity). cbn [andb].
    destruct (IH args) as [((t & E) & A)|(E & A)]; rewrite E, A; [left|right]; split; try reflexivity; eexists; reflexivity.
  - destruct (all_of args (wants (Dir sp k))); [|right; split; reflexivity]. cbn [andb].
    destruct (IH (skipn (length (wants (Dir sp k))) args)) as [((t & E) & A)|(E & A)]; rewrite E, A; [left|right]; split; try reflexivity; eexists; reflexivity.
Qed.

Lemma eval_app i1 : forall i2 a1 a2, length a1 = length (want i1) ->
  eval (i1 ++ i2) (a1 ++ a2) = (let* t1 := eval i1 a1 in let* t2 := eval i2 a2 in Ok (t1 ++ t2)).
Proof.
  induction i1 as [|i i1 IH]; intros i2 a1 a2 L.
  - destruct a1; [|discriminate]. cbn [app eval bind]. destruct (eval i2 a2); reflexivity.
  - unfold want in L. cbn [flat_map] in L. fold (want i1) in L. rewrite app_length in L. destruct i as [c|sp k]; cbn [app eval].
    + rewrite IH by (cbn in L; exact L). destruct (eval i1 a1); cbn [bind]; try reflexivity. destruct (eval i2 a2); reflexivity.
    + rewrite all_more by lia. destruct (all_of a1 (wants (Dir sp k))); [|reflexivity].
      rewrite skipn_app, firstn_app. replace (length (wants (Dir sp k)) - length a1)%nat with 0%nat by lia. cbn [skipn firstn]. rewrite app_nil_r.
      rewrite IH by (rewrite skipn_length; lia). destruct (eval i1 (skipn (length (wants (Dir sp k))) a1)); cbn [bind]; try reflexivity.
      destruct (eval i2 a2); cbn [bind]; try reflexivity. now rewrite app_assoc.
Qed.

(** Digits. *)
Lemma digits_dec k1 : forall k2 n acc, 0 <= n < 10 ^ Z.of_nat k1 -> n < 10 ^ Z.of_nat k2 -> (0 < k1)%nat -> (0 < k2)%nat -> digits_of k1 10 false n acc = dec_loop k2 n acc.
Proof.
  induction k1 as [|k1 IH]; intros k2 n acc H1 H2 P1 P2; [lia|]. destruct k2 as [|k2]; [lia|]. cbn [digits_of dec_loop].
  pose proof (Z.mod_pos_bound n 10). replace (n mod 10 <? 10) with true by lia.
  destruct (Z.eq_dec (n / 10) 0) as [E|E].
  - replace (n / 10 =? 0) with true by lia. reflexivity.
  - pose proof (Z.div_pos n 10). replace (n / 10 =? 0) with false by lia.
    rewrite Nat2Z.inj_succ, Z.pow_succ_r in H1, H2 by lia.
    apply IH; [split; [lia|apply Z.div_lt_upper_bound; lia]|apply Z.div_lt_upper_bound; lia| |];
    destruct k1, k2; try lia; exfalso; apply E, Z.div_small; cbn in *; lia.
Qed.
Lemma digits_fmt n : 0 <= n < two64 -> digits_of 64 10 false n [] = fmt_int n.
Proof. intros H. unfold fmt_int. replace (n <? 0) with false by lia. apply digits_dec; try lia. - split; [lia|]. apply Z.lt_trans with two64; [lia|reflexivity]. - apply Z.lt_trans with two64; [lia|reflexivity]. Qed.
