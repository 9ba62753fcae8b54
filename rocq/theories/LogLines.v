(** Proofs: the records of log.c and debug.c as lines of a file. *)
From Verif Require Import Base BaseFacts StrModel StrSpec NumModel NumProofs LogModel LogSpec LogProofs.

(** What has been written to the sink [s]. *)
Definition sink_dec : forall a b : sink, {a = b} + {a <> b}.
Proof. decide equality. apply list_eq_dec. apply Z.eq_dec. Defined.
Definition contents (s : sink) (out : list (sink * text)) : text :=
  concat (map snd (filter (fun o => if sink_dec (fst o) s then true else false) out)).

(** A call whose texts contain no line feed; vt_debug_printf writes no line feed of its own, so
    its text has to end with the only one. *)
Definition noln (t : text) : Prop := ~ In 10 t.
Definition one_line (c : call) : Prop :=
  match c with
  | CLog tm _ _ _ zexpr pl msg _ => noln tm /\ (forall e, zexpr = Some e -> noln e) /\ noln (pl_file pl) /\ 0 <= pl_line pl < two64 /\ noln msg
  | CAssert tm _ zexpr subject _ pl msg =>
      noln tm /\ noln zexpr /\ noln subject /\ noln (pl_file pl) /\ noln (pl_func pl) /\ 0 <= pl_line pl < two64 /\ noln msg
  | CPrintf tm subject msg => noln tm /\ noln subject /\ exists m, msg = m ++ [10] /\ noln m
  | _ => True
  end.

Lemma noln_app a b : noln a -> noln b -> noln (a ++ b).
Proof. unfold noln. intros Ha Hb H. apply in_app_or in H. tauto. Qed.
Lemma noln_int n : 0 <= n < two64 -> noln (fmt_int n).
Proof.
  intros H X. destruct (fmt_ok n H) as (D & _). rewrite Forall_forall in D. specialize (D _ X). unfold digit in D. lia.
Qed.
Ltac noln1 := repeat first [assumption | apply noln_int; assumption | apply noln_app | (intros X; cbn in X; lia)].

Lemma noln_level l : noln (level_name l).
Proof. unfold level_name. repeat (match goal with |- context [if ?b then _ else _] => destruct b end); intros X; cbn in X; lia. Qed.

Lemma said_line h c : one_line c -> Forall (fun o => exists m, snd o = m ++ [10] /\ noln m) (said h c).
Proof.
  intros H. destruct c as [| |tm f l ex ze pl msg er| | |tm ex ze su q pl msg|tm su msg]; cbn [said]; try constructor.
  - destruct ex; constructor; [|constructor]. cbn [snd]. destruct H as (H1 & H2 & H3 & H4 & H5). unfold log_text.
    destruct ze as [e|].
    + exists (tm ++ [32] ++ level_name l ++ [32] ++ ([91] ++ e ++ [93; 32]) ++ pl_file pl ++ [58] ++ fmt_int (pl_line pl) ++ [58; 32] ++ msg).
      specialize (H2 e eq_refl). split; [now rewrite <- !app_assoc|]. pose proof (noln_level l). noln1.
    + exists (tm ++ [32] ++ level_name l ++ [32] ++ pl_file pl ++ [58] ++ fmt_int (pl_line pl) ++ [58; 32] ++ msg).
      split; [now rewrite <- !app_assoc|]. pose proof (noln_level l). noln1.
  - destruct ex; [constructor|]. unfold debug_out. destruct (debug_on h); constructor; [|constructor]. cbn [snd].
    destruct H as (H1 & H2 & H3 & H4 & H5 & H6 & H7). unfold check_text.
    exists (tm ++ [32] ++ su ++ [32; 91] ++ ze ++ [93; 32] ++ pl_file pl ++ [58] ++ pl_func pl ++ [58] ++ fmt_int (pl_line pl) ++ [58; 32] ++ msg).
    split; [now rewrite <- !app_assoc|]. noln1.
  - unfold debug_out. destruct (debug_on h); constructor; [|constructor]. cbn [snd]. destruct H as (H1 & H2 & m & -> & H3).
    exists (tm ++ [32] ++ su ++ [32] ++ m). split; [now rewrite <- !app_assoc|]. noln1.
Qed.

Lemma transcript_lines cs : forall h, Forall one_line cs -> Forall (fun o => exists m, snd o = m ++ [10] /\ noln m) (fst (transcript h cs)).
Proof.
  induction cs as [|c cs IH]; intros h F; [constructor|]. inversion F as [|? ? Hc Fc]; subst. cbn [transcript].
  destruct (ends c); [now apply said_line|]. specialize (IH (c :: h) Fc). destruct (transcript (c :: h) cs) as [o e].
  cbn [fst] in *. apply Forall_app. split; [now apply said_line|exact IH].
Qed.

Lemma lines_of (s : sink) (out : list (sink * text)) : Forall (fun o => exists m, snd o = m ++ [10] /\ noln m) out ->
  exists ls, contents s out = concat (map (fun l => l ++ [10]) ls) /\ Forall noln ls /\
    map (fun l => l ++ [10]) ls = map snd (filter (fun o => if sink_dec (fst o) s then true else false) out).
Proof.
  unfold contents. induction 1 as [|[d t] out (m & Hm & Nm) F (ls & E1 & E2 & E3)]; [exists []; repeat split; constructor|].
  cbn [fst snd filter] in *. subst t. destruct (sink_dec d s).
  - exists (m :: ls). cbn [map concat snd]. rewrite E3. repeat split; now constructor.
  - exists ls. now rewrite E3.
Qed.

Lemma run_lines dbg can_open cs s : Forall (fine can_open) cs -> Forall one_line cs ->
  exists p e ls, LogModel.run dbg can_open init cs = Ok (p, e) /\ contents s (p_out p) = concat (map (fun l => l ++ [10]) ls) /\ Forall noln ls /\
    map (fun l => l ++ [10]) ls = map snd (filter (fun o => if sink_dec (fst o) s then true else false) (p_out p)).
Proof.
  intros H1 H2. destruct (run_ok dbg can_open cs H1) as (p & R & O).
  destruct (lines_of s (p_out p)) as (ls & L); [rewrite O; now apply transcript_lines|]. now exists p, (snd (transcript [] cs)), ls.
Qed.

(** * Reading a record back *)
Lemma cut (c : Z) a1 b1 a2 b2 : ~ In c a1 -> ~ In c a2 -> a1 ++ c :: b1 = a2 ++ c :: b2 -> a1 = a2 /\ b1 = b2.
Proof.
  revert a2. induction a1 as [|x a1 IH]; intros [|y a2] H1 H2 E; cbn [app] in E.
  - injection E as E. tauto.
  - injection E as E0 E. subst y. elim H2. now left.
  - injection E as E0 E. subst x. elim H1. now left.
  - injection E as E0 E. subst y. destruct (IH a2) as [-> ->]; [intros X; apply H1; now right|intros X; apply H2; now right|exact E|tauto].
Qed.
Lemma app_same {A} (a1 b1 a2 b2 : list A) : length a1 = length a2 -> a1 ++ b1 = a2 ++ b2 -> a1 = a2 /\ b1 = b2.
Proof.
  revert a2. induction a1 as [|x a1 IH]; intros [|y a2] L E; cbn [length app] in *; try discriminate; [tauto|].
  injection E as -> E. injection L as L. destruct (IH a2 L E) as [-> ->]. tauto.
Qed.

Lemma fmt_inj a b : 0 <= a < two64 -> 0 <= b < two64 -> fmt_int a = fmt_int b -> a = b.
Proof. intros Ha Hb E. destruct (fmt_ok a Ha) as (_ & _ & Va & _). destruct (fmt_ok b Hb) as (_ & _ & Vb & _). congruence. Qed.

Lemma level_inj l1 l2 r1 r2 : 0 <= l1 < 6 -> 0 <= l2 < 6 -> level_name l1 ++ [32] ++ r1 = level_name l2 ++ [32] ++ r2 -> l1 = l2 /\ r1 = r2.
Proof.
  intros H1 H2 E.
  assert (l1 = 0 \/ l1 = 1 \/ l1 = 2 \/ l1 = 3 \/ l1 = 4 \/ l1 = 5) as K1 by lia.
  assert (l2 = 0 \/ l2 = 1 \/ l2 = 2 \/ l2 = 3 \/ l2 = 4 \/ l2 = 5) as K2 by lia.
  destruct K1 as [->|[->|[->|[->|[->| ->]]]]]; destruct K2 as [->|[->|[->|[->|[->| ->]]]]]; cbn in E; try discriminate E; injection E as ->; tauto.
Qed.

(** A record that can be read back: the expression contains no ']', the file name no ':' and
    does not start with '['. *)
Definition readable (zexpr : option text) (pl : place) : Prop :=
  (forall e, zexpr = Some e -> ~ In 93 e) /\ ~ In 58 (pl_file pl) /\ (forall r, pl_file pl <> 91 :: r) /\ 0 <= pl_line pl < two64.

Lemma place_inj f1 n1 m1 f2 n2 m2 : ~ In 58 f1 -> ~ In 58 f2 -> 0 <= n1 < two64 -> 0 <= n2 < two64 ->
  f1 ++ [58] ++ fmt_int n1 ++ [58; 32] ++ m1 ++ [10] = f2 ++ [58] ++ fmt_int n2 ++ [58; 32] ++ m2 ++ [10] -> f1 = f2 /\ n1 = n2 /\ m1 = m2.
Proof.
  intros F1 F2 N1 N2 E. cbn [app] in E. apply cut in E as [-> E]; try assumption.
  assert (forall n, 0 <= n < two64 -> ~ In 58 (fmt_int n)) as D.
  { intros n Hn X. destruct (fmt_ok n Hn) as (D & _). rewrite Forall_forall in D. specialize (D _ X). unfold digit in D. lia. }
  apply cut in E as [E1 E2]; [|now apply D..]. apply fmt_inj in E1; try assumption. injection E2 as E2. apply app_inj_tail in E2. tauto.
Qed.

Lemma log_text_inj tm1 l1 e1 pl1 m1 tm2 l2 e2 pl2 m2 : length tm1 = length tm2 -> 0 <= l1 < 6 -> 0 <= l2 < 6 -> readable e1 pl1 -> readable e2 pl2 ->
  log_text tm1 l1 e1 pl1 m1 = log_text tm2 l2 e2 pl2 m2 ->
  tm1 = tm2 /\ l1 = l2 /\ e1 = e2 /\ pl_file pl1 = pl_file pl2 /\ pl_line pl1 = pl_line pl2 /\ m1 = m2.
Proof.
  intros T L1 L2 (E1 & F1 & B1 & N1) (E2 & F2 & B2 & N2) E. unfold log_text in E. apply app_same in E as [-> E]; [|exact T].
  cbn [app] in E. injection E as E. apply level_inj in E as [-> E]; try assumption.
  destruct e1 as [e1|], e2 as [e2|].
  - cbn [app] in E. injection E as E. rewrite <- !app_assoc in E. cbn [app] in E. apply cut in E as [-> E]; [|now apply E1|now apply E2].
    injection E as E. apply place_inj in E as (-> & -> & ->); tauto.
  - exfalso. cbn [app] in E. destruct (pl_file pl2) as [|c r] eqn:P; cbn [app] in E; [discriminate E|]. injection E as <- _. now apply (B2 r).
  - exfalso. cbn [app] in E. destruct (pl_file pl1) as [|c r] eqn:P; cbn [app] in E; [discriminate E|]. injection E as -> _. now apply (B1 r).
  - cbn [app] in E. apply place_inj in E as (-> & -> & ->); tauto.
Qed.

Lemma run_inj dbg co f tm1 l1 e1 pl1 m1 x1 tm2 l2 e2 pl2 m2 x2 p1 p2 r1 r2 :
  fine_name co f -> length tm1 = length tm2 -> 0 <= l1 < 6 -> 0 <= l2 < 6 -> readable e1 pl1 -> readable e2 pl2 ->
  LogModel.run dbg co init [CLog tm1 f l1 false e1 pl1 m1 x1] = Ok (p1, r1) ->
  LogModel.run dbg co init [CLog tm2 f l2 false e2 pl2 m2 x2] = Ok (p2, r2) ->
  p_out p1 = p_out p2 ->
  tm1 = tm2 /\ l1 = l2 /\ e1 = e2 /\ pl_file pl1 = pl_file pl2 /\ pl_line pl1 = pl_line pl2 /\ m1 = m2.
Proof.
  intros Hf T L1 L2 R1 R2 A B O.
  destruct (run_ok dbg co [CLog tm1 f l1 false e1 pl1 m1 x1]) as (q1 & A1 & O1); [constructor; [split; assumption|constructor]|].
  destruct (run_ok dbg co [CLog tm2 f l2 false e2 pl2 m2 x2]) as (q2 & A2 & O2); [constructor; [split; assumption|constructor]|].
  assert (p1 = q1) by congruence. assert (p2 = q2) by congruence. subst q1 q2. rewrite O1, O2 in O.
  apply (f_equal (fun o => snd (hd (Stderr, []) o))) in O. cbn [transcript said ends] in O.
  apply (log_text_inj tm1 l1 e1 pl1 m1 tm2 l2 e2 pl2 m2); try assumption.
  destruct ((l1 =? 4) || (l1 =? 5)), ((l2 =? 4) || (l2 =? 5)); exact O.
Qed.
