(** C178: formatted text.  [want] (the types of the arguments a format asks for): FmtProofs.v. *)
From Coq Require Import String Ascii Lia.
From Verif Require Import Base BaseFacts StrModel StrModel2 StrSpec StrProofs NumModel NumProofs LogModel PrintModel FmtModel FmtProofs.
Local Open Scope list_scope.

Definition T (s : string) : list Z := map (fun a => Z.of_N (N_of_ascii a)) (list_ascii_of_string s).

(** ** C178 Formatted text is what the format says *)
(** Defined exactly if the format is well formed and the arguments are there with the types asked for
    (more arguments do no harm); then whatever the values. *)
Theorem C178_defined : forall f args,
  (exists t, format f args = Ok t) /\ (exists items, parse f = Some items /\ all_of args (want items) = true) \/
  format f args = UB /\ (parse f = None \/ exists items, parse f = Some items /\ all_of args (want items) = false).
Proof.
  intros f args. unfold format. destruct (parse f) as [items|]; [|right; split; [reflexivity|now left]].
  destruct (eval_defined items args) as [(E & A)|(E & A)]; [left|right]; (split; [exact E|]); [|right]; exists items; now split.
Qed.
Print Assumptions C178_defined.
(** A format is read from left to right: the text of two formats one after the other. *)
Theorem C178_append : forall f1 f2 a1 a2 items, parse f1 = Some items -> List.length a1 = List.length (want items) ->
  format (f1 ++ f2) (a1 ++ a2) = (let* t1 := format f1 a1 in let* t2 := format f2 a2 in Ok (t1 ++ t2)).
Proof.
  intros f1 f2 a1 a2 i1 E L. unfold format. rewrite (parse_app _ _ _ E), E. destruct (parse f2) as [i2|]; cbn [option_map]; [now apply eval_app|].
  destruct (eval_defined i1 a1) as [((t & ->) & _)|(-> & _)]; reflexivity.
Qed.
Print Assumptions C178_append.

(** Text without % stands for itself, and only such text does: a text of the user passed as the format
    (vt_str_appendf(s, text), vt_file_writef(name, text), VT_LOG_INFO(text)) is written as it is iff
    there is no % in it. *)
Lemma parse_plain f : ~ In 37 f -> parse f = Some (map Chr f).
Proof. induction f as [|c f IH]; intros H; [reflexivity|]. unfold parse. cbn [parse_at]. replace (c =? 37) with false by (symmetry; apply Z.eqb_neq; intros ->; apply H; now left). rewrite parse_out, IH by (intros X; apply H; now right). reflexivity. Qed.
Lemma eval_plain f args : eval (map Chr f) args = Ok f.
Proof. induction f as [|c f IH]; [reflexivity|]. cbn [map eval]. now rewrite IH. Qed.
Lemma parse_short f : forall p sp items, parse_at p sp f = Some items ->
  (want items = [] -> (List.length items <= List.length f)%nat /\ (p = Out -> In 37 f -> (List.length items < List.length f)%nat)).
Proof.
  induction f as [|c f IH]; intros p sp items E W.
  - destruct p; try discriminate. injection E as <-. cbn. split; [lia|]. intros _ [].
  - assert (forall q, match inside q sp c with None => None | Some (inl (p, sp)) => parse_at p sp f | Some (inr i) => option_map (cons i) (parse_at Out spec0 f) end = Some items ->
       (List.length items <= List.length (c :: f))%nat) as K.
    { intros q H. destruct (inside q sp c) as [[(p', sp')|i]|]; [|destruct (parse_at Out spec0 f) as [l|] eqn:El; [|discriminate]|discriminate].
      - specialize (IH _ _ _ H W). cbn [List.length]. lia.
      - injection H as <-. unfold want in W. cbn [flat_map] in W. apply app_eq_nil in W as (_ & W). specialize (IH _ _ _ El W). cbn [List.length]. lia. }
    cbn [parse_at] in E. destruct p; try (split; [specialize (K _ E); lia|discriminate]). clear K. destruct (c =? 37) eqn:Ec.
    + specialize (IH _ _ _ E W). cbn [List.length]. split; lia.
    + destruct (parse_at Out sp f) as [l|] eqn:El; [|discriminate]. injection E as <-. unfold want in W. cbn [flat_map wants app] in W.
      specialize (IH _ _ _ El W) as (I1 & I2). cbn [List.length]. split; [lia|]. intros _ [->|H]; [discriminate|]. specialize (I2 eq_refl H). lia.
Qed.
Lemma eval_chars items : forall t, eval items [] = Ok t -> List.length t = List.length items /\ want items = [].
Proof.
  induction items as [|[c|sp k] items IH]; intros t E; cbn [eval] in E.
  - injection E as <-. now split.
  - destruct (eval items []) as [t'| | |] eqn:E'; cbn [bind] in E; try discriminate. injection E as <-. destruct (IH _ eq_refl) as (L & W). split; [cbn; lia|exact W].
  - exfalso. destruct (all_of [] (wants (Dir sp k))) eqn:A; [|discriminate]. cbn [wants] in A. destruct (sp_width sp), (sp_prec sp); cbn in A; discriminate.
Qed.
Theorem C178_own_text : forall z, format z [] = Ok z <-> ~ In 37 z.
Proof.
  intros z. split; intros H.
  - intros I. unfold format in H. destruct (parse z) as [items|] eqn:E; [|discriminate].
    destruct (eval_chars _ _ H) as (L & W). destruct (parse_short z Out spec0 items E W) as (_ & K). specialize (K eq_refl I). lia.
  - unfold format. rewrite (parse_plain z H). apply eval_plain.
Qed.
Print Assumptions C178_own_text.
(** "%s" writes any text as it is (vt_file_write and its relatives, fileio.c:150-196). *)
Theorem C178_text : forall z args, format (T "%s") (AS z :: args) = Ok z.
Proof. intros z args. unfold format. change (parse (T "%s")) with (Some [Dir spec0 CStr]). destruct args; cbn; unfold dir_text, pad; cbn; now rewrite app_nil_r. Qed.
Print Assumptions C178_text.

(** Integers are written in decimal. *)
Definition in32 (n : Z) : Prop := - 2 ^ 31 <= n < 2 ^ 31.
Lemma int_plain sp n : sp_zero sp = false -> sp_plus sp = false -> sp_space sp = false -> sp_minus sp = false -> Z.abs n < two64 ->
  int_text sp 0 false None true (n <? 0) 10 false (Z.abs n) = fmt_int n.
Proof.
  intros H1 H2 H3 H4 B. unfold int_text. rewrite H1, H2, H3. cbn [andb negb]. rewrite digits_fmt by lia. unfold pad. cbn [Z.to_nat Nat.sub repeat app].
  destruct (n <? 0) eqn:E; cbn [app].
  - unfold fmt_int. replace (Z.abs n <? 0) with false by lia. rewrite E. replace (Z.abs n) with (- n) by lia. reflexivity.
  - replace (Z.abs n) with n by lia. reflexivity.
Qed.
Theorem C178_numbers :
  (forall n args, in32 n -> format (T "%d") (A32 n :: args) = Ok (fmt_int n) /\ format (T "%i") (A32 n :: args) = Ok (fmt_int n)) /\
  (forall n args, 0 <= n < 2 ^ 32 -> format (T "%u") (A32 n :: args) = Ok (fmt_int n)) /\
  (forall n args, - 2 ^ 63 <= n < 2 ^ 63 -> format (T "%ld") (A64 n :: args) = Ok (fmt_int n)) /\
  (forall n args, 0 <= n < 2 ^ 64 -> format (T "%zu") (A64 n :: args) = Ok (fmt_int n) /\ format (T "%lu") (A64 n :: args) = Ok (fmt_int n)).
Proof.
  assert (forall n, 0 <= n < two64 -> int_text spec0 0 false None false false 10 false n = fmt_int n) as U.
  { intros n H. unfold int_text. cbn [spec0 sp_zero sp_plus sp_space andb negb]. rewrite digits_fmt by exact H. reflexivity. }
  assert (forall n, 0 <= n < two64 -> int_text (set_size spec0 64) 0 false None false false 10 false n = fmt_int n) as U6.
  { intros n H. unfold int_text. cbn [set_size spec0 sp_zero sp_plus sp_space andb negb]. rewrite digits_fmt by exact H. reflexivity. }
  unfold in32, two64 in *. repeat apply conj.
  - intros n args H. unfold format. change (parse (T "%d")) with (Some [Dir spec0 CDec]). change (parse (T "%i")) with (Some [Dir spec0 CDec]).
    cbn [eval wants spec0 sp_width sp_prec sp_size Z.eqb app all_of of_type].
    replace ((- 2 ^ 31 <=? n) && (n <? 2 ^ 31)) with true by lia. replace (all_of args []) with true by (destruct args; reflexivity). cbn [andb bind List.length firstn].
    unfold dir_text. cbn [set_size spec0 sp_width sp_prec sp_minus sp_size fst snd hd as_z small Z.eqb Pos.eqb orb Z.ltb Z.compare Z.abs].
    fold spec0. rewrite app_nil_r, int_plain; try reflexivity; [tauto|]. unfold two64. lia.
  - intros n args H. unfold format. change (parse (T "%u")) with (Some [Dir spec0 CUns]).
    cbn [eval wants spec0 sp_width sp_prec sp_size Z.eqb app all_of of_type].
    replace ((0 <=? n) && (n <? 2 ^ 32)) with true by lia. replace (all_of args []) with true by (destruct args; reflexivity). cbn [andb bind List.length firstn].
    unfold dir_text. cbn [set_size spec0 sp_width sp_prec sp_minus sp_size fst snd hd as_z small Z.eqb Pos.eqb orb Z.ltb Z.compare Z.abs].
    fold spec0. rewrite app_nil_r, U; [reflexivity|]. lia.
  - intros n args H. unfold format. change (parse (T "%ld")) with (Some [Dir (set_size spec0 64) CDec]).
    cbn [eval wants set_size spec0 sp_width sp_prec sp_size Z.eqb Pos.eqb app all_of of_type].
    replace ((- 2 ^ 63 <=? n) && (n <? 2 ^ 63)) with true by lia. replace (all_of args []) with true by (destruct args; reflexivity). cbn [andb bind List.length firstn].
    unfold dir_text. cbn [set_size spec0 sp_width sp_prec sp_minus sp_size fst snd hd as_z small Z.eqb Pos.eqb orb Z.ltb Z.compare Z.abs].
    rewrite app_nil_r. f_equal. apply int_plain; try reflexivity. unfold two64. lia.
  - intros n args H. unfold format. change (parse (T "%zu")) with (Some [Dir (set_size spec0 64) CUns]). change (parse (T "%lu")) with (Some [Dir (set_size spec0 64) CUns]).
    cbn [eval wants set_size spec0 sp_width sp_prec sp_size Z.eqb Pos.eqb app all_of of_type].
    replace ((0 <=? n) && (n <? 2 ^ 64)) with true by lia. replace (all_of args []) with true by (destruct args; reflexivity). cbn [andb bind List.length firstn].
    unfold dir_text. cbn [set_size spec0 sp_width sp_prec sp_minus sp_size fst snd hd as_z small Z.eqb Pos.eqb orb Z.ltb Z.compare Z.abs].
    rewrite app_nil_r. fold spec0. change (mk_spec false false false false NNone NNone 64) with (set_size spec0 64). rewrite U6 by lia. split; reflexivity.
Qed.
Print Assumptions C178_numbers.
(** A width fills up with spaces in front, or behind if negative; nothing is cut off. *)
Theorem C178_width : forall w z args, in32 w -> format (T "%*s") (A32 w :: AS z :: args) = Ok (pad_s w z).
Proof.
  intros w z args H. unfold in32 in H. unfold format. change (parse (T "%*s")) with (Some [Dir (set_width spec0 NStar) CStr]).
  cbn [eval wants set_width spec0 sp_width sp_prec sp_size Z.eqb Pos.eqb app all_of of_type].
  replace ((- 2 ^ 31 <=? w) && (w <? 2 ^ 31)) with true by lia. replace (all_of args []) with true by (destruct args; reflexivity). cbn [andb bind List.length firstn].
  unfold dir_text. cbn [set_width spec0 sp_width sp_prec sp_minus sp_size fst snd hd tl as_z as_t orb]. rewrite app_nil_r.
  unfold pad, pad_s. destruct (w <? 0) eqn:E; repeat f_equal; lia.
Qed.
Print Assumptions C178_width.

Lemma pad0 z : pad false 32 0 z = z.
Proof. reflexivity. Qed.
(** The texts of the other models are the formats of the source: log.c:56-58, debug.c:32, 64,
    argopt.c:112, conv.c:40. *)
Ltac steps H := repeat progress (cbn [eval wants sp_width sp_prec sp_size Z.eqb Pos.eqb app all_of of_type andb bind List.length firstn skipn]; rewrite ?H).
Ltac form := unfold format; match goal with |- context [parse ?f] => let p := eval vm_compute in (parse f) in change (parse f) with p end;
  cbn [eval wants sp_width sp_prec sp_size Z.eqb Pos.eqb app all_of of_type].
Theorem C178_log : forall tm level pl, 0 <= pl_line pl < 2 ^ 64 ->
  (forall msg, (let* t := format (T "%s %5s %s:%zu: ") [AS tm; AS (nth (Z.to_nat level) level_strings []); AS (pl_file pl); A64 (pl_line pl)] in Ok (t ++ msg ++ [10])) =
     Ok (log_record tm level None pl msg)) /\
  (forall e msg, (let* t := format (T "%s %5s [%s] %s:%zu: ") [AS tm; AS (nth (Z.to_nat level) level_strings []); AS e; AS (pl_file pl); A64 (pl_line pl)] in Ok (t ++ msg ++ [10])) =
     Ok (log_record tm level (Some e) pl msg)).
Proof.
  intros tm level pl H. set (lv := nth (Z.to_nat level) level_strings []).
  assert (forall z, pad5 z = pad_s 5 z) as P5 by reflexivity.
  assert (int_text (set_size spec0 64) 0 false None false false 10 false (pl_line pl) = fmt_int (pl_line pl)) as U.
  { unfold int_text. cbn [set_size spec0 sp_zero sp_plus sp_space andb negb]. rewrite digits_fmt by (unfold two64; lia). reflexivity. }
  split.
  - intros msg. form. assert ((0 <=? pl_line pl) && (pl_line pl <? 2 ^ 64) = true) as Hc by lia. steps Hc.
    unfold dir_text. cbn [sp_width sp_prec sp_minus sp_size fst snd hd tl as_z as_t orb small Z.eqb Pos.eqb Z.abs Z.ltb Z.compare].
    change (mk_spec false false false false NNone NNone 64) with (set_size spec0 64). rewrite U. unfold log_record. fold lv. rewrite !pad0. change (pad false 32 5 lv) with (pad5 lv).
    f_equal. repeat (rewrite <- app_assoc; cbn [app]). reflexivity.
  - intros e msg. form. assert ((0 <=? pl_line pl) && (pl_line pl <? 2 ^ 64) = true) as Hc by lia. steps Hc.
    unfold dir_text. cbn [sp_width sp_prec sp_minus sp_size fst snd hd tl as_z as_t orb small Z.eqb Pos.eqb Z.abs Z.ltb Z.compare].
    change (mk_spec false false false false NNone NNone 64) with (set_size spec0 64). rewrite U. unfold log_record. fold lv. rewrite !pad0. change (pad false 32 5 lv) with (pad5 lv).
    f_equal. repeat (rewrite <- app_assoc; cbn [app]). reflexivity.
Qed.
Print Assumptions C178_log.
Theorem C178_debug : forall tm subject e pl msg, 0 <= pl_line pl < 2 ^ 64 ->
  (let* t := format (T "%s %s [%s] %s:%s:%zu: ") [AS tm; AS subject; AS e; AS (pl_file pl); AS (pl_func pl); A64 (pl_line pl)] in Ok (t ++ msg ++ [10])) =
    Ok (debug_record tm subject e pl msg).
Proof.
  intros tm subject e pl msg H.
  assert (int_text (set_size spec0 64) 0 false None false false 10 false (pl_line pl) = fmt_int (pl_line pl)) as U.
  { unfold int_text. cbn [set_size spec0 sp_zero sp_plus sp_space andb negb]. rewrite digits_fmt by (unfold two64; lia). reflexivity. }
  form. assert ((0 <=? pl_line pl) && (pl_line pl <? 2 ^ 64) = true) as Hc by lia. steps Hc.
  unfold dir_text. cbn [sp_width sp_prec sp_minus sp_size fst snd hd tl as_z as_t orb small Z.eqb Pos.eqb Z.abs Z.ltb Z.compare].
  change (mk_spec false false false false NNone NNone 64) with (set_size spec0 64). rewrite U. unfold debug_record. rewrite !pad0.
  f_equal. repeat (rewrite <- app_assoc; cbn [app]). reflexivity.
Qed.
Print Assumptions C178_debug.
Theorem C178_help : forall os ol short long desc, in32 os -> in32 ol ->
  format (T "%*s %*s %s" ++ [10]) [A32 os; AS short; A32 ol; AS long; AS desc] = Ok (help_line os ol short long desc).
Proof.
  intros os ol short long desc H1 H2. unfold in32 in *.
  form. assert ((- 2 ^ 31 <=? os) && (os <? 2 ^ 31) = true) as Hc by lia. assert ((- 2 ^ 31 <=? ol) && (ol <? 2 ^ 31) = true) as Hd by lia. steps Hc. steps Hd. steps Hc.
  unfold dir_text. cbn [sp_width sp_prec sp_minus sp_size fst snd hd tl as_z as_t orb small Z.eqb Pos.eqb Z.abs].
  unfold help_line. f_equal.
  assert (forall w z, pad (w <? 0) 32 (Z.abs w) z = pad_s w z) as P. { intros w z. unfold pad, pad_s. destruct (w <? 0) eqn:E; repeat f_equal; lia. }
  rewrite !P. cbn [app]. now rewrite ?pad0.
Qed.
Print Assumptions C178_help.

(** vt_str_appendf appends the text of the format (str.c:324-340, 1428-1462). *)
Theorem C178_appendf : forall dbg t cap s f args z, srep t cap s -> format f args = Ok z -> oks z -> Z.max cap (zlen t + zlen z) + 1 <= alloc_max ->
  exists s', (let* z := format f args in str_appendf dbg s z) = Ok s' /\ srep (t ++ z) (Z.max cap (zlen t + zlen z)) s'.
Proof. intros dbg t cap s f args z R E O F. rewrite E. cbn [bind]. exact (appendf_ok dbg t cap s z R O F). Qed.
Print Assumptions C178_appendf.

Example C178_example :
  format (T "%s: %d of %zu (%5.1s|%-4s|%05d|%+d|%x|%%|%c)") [AS (T "id"); A32 (-7); A64 10; AS (T "xyz"); AS (T "ab"); A32 (-42); A32 3; A32 255; A32 65] =
    Ok (T "id: -7 of 10 (    x|ab  |-0042|+3|ff|%|A)") /\
  format (T "%d") [A64 5] = UB /\ format (T "%s and %s") [AS (T "a")] = UB /\ format (T "100%") [] = UB /\ format (T "%5") [] = UB /\
  format (T "%.*s|%-*d|%hhd") [A32 2; AS (T "abc"); A32 4; A32 7; A32 300] = Ok (T "ab|7   |44").
Proof. repeat split; vm_compute; reflexivity. Qed.
