(** Proofs: the order and the spelling of options do not matter. *)
From Verif Require Import Base BaseFacts StrModel StrModel2 StrSpec StrProofs NumModel NumProofs ArgModel ArgSpec ArgProofs.

(** The last text assigned to option [i]. *)
Fixpoint last_of (i : nat) (l : list (nat * text)) : option text :=
  match l with
  | [] => None
  | (j, t) :: l' => match last_of i l' with Some t' => Some t' | None => if Nat.eqb j i then Some t else None end
  end.

(** Two variables nobody can tell apart: equal, or strings with equal texts. *)
Definition same_value (v w : value) : Prop :=
  v = w \/ exists s1 s2 t c1 c2, v = VStr (Some s1) /\ w = VStr (Some s2) /\ srep t c1 s1 /\ srep t c2 s2.

Lemma last_none i l : last_of i l = None -> forall t, ~ In (i, t) l.
Proof.
  induction l as [|[j t] l IH]; intros H t' X; [exact X|]. cbn [last_of] in H. destruct (last_of i l); [discriminate|].
  destruct X as [X|X]; [|now apply (IH eq_refl t')]. injection X as -> ->. rewrite Nat.eqb_refl in H. discriminate.
Qed.
Lemma last_some i l t : last_of i l = Some t -> exists l1 l2, l = l1 ++ (i, t) :: l2 /\ forall t', ~ In (i, t') l2.
Proof.
  induction l as [|[j u] l IH]; intros H; [discriminate|]. cbn [last_of] in H. destruct (last_of i l) as [t'|] eqn:E.
  - destruct (IH H) as (l1 & l2 & -> & N). exists ((j, u) :: l1), l2. split; [reflexivity|exact N].
  - destruct (Nat.eqb_spec j i) as [->|]; [|discriminate]. injection H as ->. exists [], l. split; [reflexivity|]. now apply last_none.
Qed.
Lemma given_index opts args l rest : given opts args l rest -> forall i t, In (i, t) l -> exists o, nth_error opts i = Some o.
Proof.
  induction 1 as [|n i v args l rest N _ _ _ IH|n i v args l rest N _ _ _ _ IH|n i args l rest N _ _ _ _ IH]; intros j t H; [elim H|..];
    (destruct H as [E|H]; [injection E as <- <-; destruct N as [(o & Ho & _) _]; now exists o|now apply (IH j t)]).
Qed.

Lemma holds_same ty v w t : holds ty v t -> holds ty w t -> same_value v w.
Proof.
  intros Hv Hw. destruct ty; cbn [holds] in *; try contradiction; try (left; congruence).
  - destruct Hv as (n & -> & A & _), Hw as (m & -> & B & _). left. congruence.
  - destruct Hv as (n & -> & A & _), Hw as (m & -> & B & _). left. congruence.
  - destruct Hv as (b & -> & A), Hw as (c & -> & B). left. f_equal. destruct b, c; try reflexivity; [symmetry; apply B, A|apply A, B]; reflexivity.
  - destruct Hv as (s1 & c1 & -> & A), Hw as (s2 & c2 & -> & B). right. now exists s1, s2, t, c1, c2.
Qed.

Lemma order_free dbg opts vals args1 args2 l1 l2 :
  good_table opts -> ~ asks_help args1 -> ~ asks_help args2 -> given opts args1 l1 [] -> given opts args2 l2 [] ->
  (forall i, last_of i l1 = last_of i l2) ->
  (forall i o t, nth_error opts i = Some o -> In (i, t) (l1 ++ l2) -> exists v, nth_error vals i = Some v /\ ready (o_type o) v) ->
  assignable opts l1 -> assignable opts l2 -> Forall oks (args1 ++ args2) -> total args1 + 17 <= alloc_max -> total args2 + 17 <= alloc_max ->
  exists v1 v2, argopt_parse dbg opts vals args1 = Ok (0, v1) /\ argopt_parse dbg opts vals args2 = Ok (0, v2) /\ Forall2 same_value v1 v2.
Proof.
  intros G H1 H2 G1 G2 L R A1 A2 O T1 T2. apply Forall_app in O as [O1 O2].
  destruct (parse_success dbg opts vals args1 l1 G H1 G1) as (v1 & P1 & Len1 & S1 & K1); try assumption.
  { intros i o t Ho Hi. apply (R i o t Ho). apply in_or_app. now left. }
  destruct (parse_success dbg opts vals args2 l2 G H2 G2) as (v2 & P2 & Len2 & S2 & K2); try assumption.
  { intros i o t Ho Hi. apply (R i o t Ho). apply in_or_app. now right. }
  exists v1, v2. split; [exact P1|]. split; [exact P2|].
  assert (forall i a b, nth_error v1 i = Some a -> nth_error v2 i = Some b -> same_value a b) as K.
  { intros i a b Ha Hb. destruct (last_of i l1) as [t|] eqn:E.
    - pose proof E as E'. rewrite L in E'. apply last_some in E as (p & q & E & N). apply last_some in E' as (p' & q' & E' & N').
      destruct (given_index opts args1 l1 [] G1 i t) as [o Ho]; [rewrite E; apply in_or_app; right; now left|].
      destruct (S1 i o p t q Ho E N) as (x & X1 & X2). destruct (S2 i o p' t q' Ho E' N') as (y & Y1 & Y2).
      assert (x = a) by congruence. assert (y = b) by congruence. subst. now apply (holds_same (o_type o) a b t).
    - pose proof E as E'. rewrite L in E'. rewrite (K1 i (last_none i l1 E)) in Ha. rewrite (K2 i (last_none i l2 E')) in Hb. left. congruence. }
  clear - Len1 Len2 K. assert (length v1 = length v2) as Len by congruence. clear Len1 Len2. revert v2 Len K.
  induction v1 as [|a v1 IH]; intros [|b v2] Len K; try discriminate; constructor.
  - exact (K 0%nat a b eq_refl eq_refl).
  - apply IH; [now injection Len|]. intros i x y Hx Hy. exact (K (S i) x y Hx Hy).
Qed.
