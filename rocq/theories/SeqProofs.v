(** Command lines as sequences of assignments; used by PropsSeq.v. *)
From Verif Require Import Base BaseFacts StrModel StrModel2 StrSpec StrProofs StrProofs2 StrProofs3 NumModel NumProofs ArgModel ArgSpec ArgProofs.
From Coq Require Import Lia.

(** The assignments [l] one after the other. *)
Fixpoint assign_all (dbg : bool) (opts : list opt) (vals : list value) (l : list (nat * text)) : res (list value) :=
  match l with
  | [] => Ok vals
  | (i, t) :: l => let* vals := assign_nth dbg opts vals i t in assign_all dbg opts vals l
  end.

Lemma assign_all_app dbg opts l1 : forall vals l2, assign_all dbg opts vals (l1 ++ l2) = let* vals := assign_all dbg opts vals l1 in assign_all dbg opts vals l2.
Proof. induction l1 as [|(i, t) l1 IH]; intros vals l2; [reflexivity|]. cbn [app assign_all]. destruct (assign_nth dbg opts vals i t); cbn [bind]; auto. Qed.

Lemma loop_seq dbg opts args l rest : (forall o, In o opts -> good_opt o) -> given opts args l rest ->
  forall vals sarg ssplit c1 c2, Forall oks args ->
  srep [] c1 sarg -> srep [] c2 ssplit -> Z.max c1 (total args) + 1 <= alloc_max -> c2 + total args + 1 <= alloc_max ->
  exists sarg' ssplit' c1' c2',
    parse_loop dbg opts vals sarg ssplit args = (let* vals' := assign_all dbg opts vals l in parse_loop dbg opts vals' sarg' ssplit' rest) /\
    Forall oks rest /\ srep [] c1' sarg' /\ srep [] c2' ssplit' /\ Z.max c1' (total rest) + 1 <= alloc_max /\ c2' + total rest + 1 <= alloc_max.
Proof.
  intros G D. induction D as [args|n i v args l rest Nm Nn Ne D IH|n i v args l rest Nm Nn Ne Nv D IH|n i args l rest Nm Nn Ne Na D IH];
    intros vals sarg ssplit c1 c2 O R1 R2 F1 F2.
  - exists sarg, ssplit, c1, c2. split; [reflexivity|]. tauto.
  - inversion O as [|? ? Oa Or]; subst. rewrite total_cons in F1, F2. pose proof (total_nonneg args).
    assert (zlen (n ++ [61] ++ v) = zlen n + 1 + zlen v) as Hl by (zl; lia). pose proof (zlen_nonneg v). pose proof (zlen_nonneg n).
    destruct (key_split dbg n v sarg ssplit c1 c2 Oa Nn Ne R1 R2) as (s1 & s2 & p2 & E1 & E2 & Rp & Rs); [lia|lia|].
    cbn [parse_loop]. rewrite E1. cbn [bind]. rewrite E2. cbn [bind]. unfold str_len. rewrite (r_len _ _ _ Rp).
    pose proof (nonempty_len n Nn). replace (zlen n =? 0) with false by lia. cbn [negb].
    rewrite (z_ok _ _ _ Rp). cbn [bind]. rewrite (find_named opts n G i 0 Nm). cbn [Nat.add].
    rewrite (z_ok _ _ _ Rs). cbn [bind].
    destruct (clear_ok _ _ _ Rs) as (s3 & E3 & R3). destruct (clear_ok _ _ _ Rp) as (p3 & E4 & R4).
    rewrite E3, E4. cbn [bind assign_all].
    destruct (assign_nth dbg opts vals i v) as [vals1| | |];
      (destruct (IH match assign_nth dbg opts vals i v with Ok w => w | _ => vals end s3 p3 _ _ Or R3 R4) as (a' & b' & d1 & d2 & EE & Rest); [lia|lia|]).
    2-4: exists a', b', d1, d2; split; [reflexivity|exact Rest].
    destruct (IH vals1 s3 p3 _ _ Or R3 R4) as (a2 & b2 & d3 & d4 & EE2 & Rest2); [lia|lia|].
    exists a2, b2, d3, d4. split; [exact EE2|exact Rest2].
  - inversion O as [|? ? Oa Or]; subst. inversion Or as [|? ? Ov Or']; subst. rewrite !total_cons in F1, F2. pose proof (total_nonneg args).
    pose proof (zlen_nonneg v). pose proof (zlen_nonneg n).
    destruct (key_plain dbg n sarg ssplit c1 c2 Oa Nn R1 R2) as (s1 & E1 & Rs & E2); [lia|now left|].
    cbn [parse_loop]. rewrite E1. cbn [bind]. rewrite E2. cbn [bind]. unfold str_len. rewrite (r_len _ _ _ R2). change (negb (zlen [] =? 0)) with false. cbv iota.
    rewrite (z_ok _ _ _ Rs). cbn [bind]. rewrite (find_named opts n G i 0 Nm). cbn [Nat.add].
    assert (negb (first_byte v =? 45) = true) as Hv.
    { apply negb_true_iff, Z.eqb_neq. intros HH. apply first_is in HH as (r & ->); [|lia]. now apply (Nv r). }
    rewrite Hv. cbv iota.
    destruct (clear_ok _ _ _ Rs) as (s3 & E3 & R3). destruct (clear_ok _ _ _ R2) as (p3 & E4 & R4).
    rewrite E3, E4. cbn [bind assign_all].
    destruct (assign_nth dbg opts vals i v) as [vals1| | |];
      (destruct (IH vals s3 p3 _ _ Or' R3 R4) as (a' & b' & d1 & d2 & EE & Rest); [lia|lia|]).
    2-4: exists a', b', d1, d2; split; [reflexivity|exact Rest].
    destruct (IH vals1 s3 p3 _ _ Or' R3 R4) as (a2 & b2 & d3 & d4 & EE2 & Rest2); [lia|lia|].
    exists a2, b2, d3, d4. split; [exact EE2|exact Rest2].
  - inversion O as [|? ? Oa Or]; subst. rewrite total_cons in F1, F2. pose proof (total_nonneg args). pose proof (zlen_nonneg n).
    destruct (key_plain dbg n sarg ssplit c1 c2 Oa Nn R1 R2) as (s1 & E1 & Rs & E2); [lia|now left|].
    cbn [parse_loop]. rewrite E1. cbn [bind]. rewrite E2. cbn [bind]. unfold str_len. rewrite (r_len _ _ _ R2). change (negb (zlen [] =? 0)) with false. cbv iota.
    rewrite (z_ok _ _ _ Rs). cbn [bind]. rewrite (find_named opts n G i 0 Nm). cbn [Nat.add].
    destruct (clear_ok _ _ _ Rs) as (s3 & E3 & R3). destruct (clear_ok _ _ _ R2) as (p3 & E4 & R4).
    rewrite E3, E4. cbn [assign_all].
    assert (match args with v :: _ => if match args with v :: _ => negb (first_byte v =? 45) | [] => false end then v else [49] | [] => [49] end = [49] /\
            match args with v :: _ => negb (first_byte v =? 45) | [] => false end = false) as (X1 & X2).
    { destruct args as [|v args']; [split; reflexivity|]. destruct (Na v args' eq_refl) as (r & ->). split; reflexivity. }
    rewrite X1, X2. cbn [bind].
    assert (forall A (x : A), match args with [] => x | _ :: _ => x end = x) as X3 by (intros; destruct args; reflexivity).
    destruct (assign_nth dbg opts vals i [49]) as [vals1| | |];
      (destruct (IH vals s3 p3 _ _ Or R3 R4) as (a' & b' & d1 & d2 & EE & Rest); [lia|lia|]).
    2-4: exists a', b', d1, d2; split; [reflexivity|exact Rest].
    destruct (IH vals1 s3 p3 _ _ Or R3 R4) as (a2 & b2 & d3 & d4 & EE2 & Rest2); [lia|lia|].
    exists a2, b2, d3, d4. split; [|exact Rest2]. cbn [bind]. rewrite <- EE2. destruct args; reflexivity.
Qed.

(** The loop at an argument that names no option. *)
Lemma loop_bad dbg opts vals sarg ssplit c1 c2 bad rest : (forall o, In o opts -> good_opt o) -> bad <> [] -> unknown opts bad -> Forall oks (bad :: rest) ->
  srep [] c1 sarg -> srep [] c2 ssplit -> Z.max c1 (total (bad :: rest)) + 1 <= alloc_max -> c2 + total (bad :: rest) + 1 <= alloc_max ->
  parse_loop dbg opts vals sarg ssplit (bad :: rest) = Ok (-1, vals).
Proof.
  intros G Hb [U1 U2] OO Ra Rb Fa Fb. inversion OO as [|? ? Ob Or]; subst. rewrite total_cons in Fa, Fb. pose proof (total_nonneg rest).
  cbn [parse_loop].
  assert ((~ In 61 bad \/ exists v, bad = 61 :: v) \/ exists n v, bad = n ++ [61] ++ v /\ n <> [] /\ ~ In 61 n) as [C|(n & v & -> & Nn & Ne)].
  { destruct (in_dec Z.eq_dec 61 bad) as [I|I]; [|tauto]. destruct (first_eq bad I) as (n & v & -> & Hn). destruct n as [|c n].
    - left. right. now exists v.
    - right. exists (c :: n), v. split; [reflexivity|]. split; [discriminate|exact Hn]. }
  - destruct (key_plain dbg bad sarg ssplit c1 c2 Ob Hb Ra Rb) as (t1 & E1 & Rs & E2); [lia|exact C|].
    rewrite E1. cbn [bind]. rewrite E2. cbn [bind]. unfold str_len. rewrite (r_len _ _ _ Rb). change (negb (zlen [] =? 0)) with false. cbv iota.
    rewrite (z_ok _ _ _ Rs). cbn [bind]. rewrite (find_bad opts bad G (U2 C)). reflexivity.
  - assert (zlen (n ++ [61] ++ v) = zlen n + 1 + zlen v) as Hl by (zl; lia). pose proof (zlen_nonneg v). pose proof (nonempty_len n Nn).
    destruct (key_split dbg n v sarg ssplit c1 c2 Ob Nn Ne Ra Rb) as (t1 & t2 & p2 & E1 & E2 & Rp & Rs); [lia|lia|].
    rewrite E1. cbn [bind]. rewrite E2. cbn [bind]. unfold str_len. rewrite (r_len _ _ _ Rp). replace (zlen n =? 0) with false by lia. cbn [negb].
    rewrite (z_ok _ _ _ Rp). cbn [bind]. rewrite (find_bad opts n G (U1 n v eq_refl Nn Ne)). reflexivity.
Qed.

Lemma parse_seq dbg opts vals args l : good_table opts -> ~ asks_help args -> given opts args l [] -> Forall oks args -> total args + 17 <= alloc_max ->
  argopt_parse dbg opts vals args = (let* vals' := assign_all dbg opts vals l in Ok (0, vals')).
Proof.
  intros GT H D O F. destruct (parse_start dbg opts vals args GT H) as (s1 & s2 & R1 & R2 & E). pose proof (total_nonneg args).
  destruct (loop_seq dbg opts args l [] (proj2 GT) D vals s1 s2 16 16 O R1 R2) as (a' & b' & d1 & d2 & EE & _); [lia|lia|].
  rewrite E, EE. reflexivity.
Qed.
Lemma parse_seq_bad dbg opts vals args l bad rest : good_table opts -> ~ asks_help args -> given opts args l (bad :: rest) -> bad <> [] -> unknown opts bad ->
  Forall oks args -> total args + 17 <= alloc_max ->
  argopt_parse dbg opts vals args = (let* vals' := assign_all dbg opts vals l in Ok (-1, vals')).
Proof.
  intros GT H D Hb U O F. destruct (parse_start dbg opts vals args GT H) as (s1 & s2 & R1 & R2 & E). pose proof (total_nonneg args).
  destruct (loop_seq dbg opts args l _ (proj2 GT) D vals s1 s2 16 16 O R1 R2) as (a' & b' & d1 & d2 & EE & OO & Ra & Rb & Fa & Fb); [lia|lia|].
  rewrite E, EE. destruct (assign_all dbg opts vals l) as [vals'| | |]; cbn [bind]; try reflexivity.
  exact (loop_bad dbg opts vals' a' b' d1 d2 bad rest (proj2 GT) Hb U OO Ra Rb Fa Fb).
Qed.

(** Two command lines one after the other. *)
Lemma given_app opts args1 l1 args2 l2 rest : given opts args1 l1 [] -> (forall v r, args2 = v :: r -> exists q, v = 45 :: q) ->
  given opts args2 l2 rest -> given opts (args1 ++ args2) (l1 ++ l2) rest.
Proof.
  intros D1 Hs D2. remember [] as e eqn:Ee in D1. induction D1 as [args|n i v args l r Nm Nn Ne D IH|n i v args l r Nm Nn Ne Nv D IH|n i args l r Nm Nn Ne Na D IH]; subst.
  - exact D2.
  - cbn [app]. change ((n ++ 61 :: v) :: args ++ args2) with ((n ++ [61] ++ v) :: (args ++ args2)). apply g_eq; auto.
  - cbn [app]. apply g_val; auto.
  - cbn [app]. apply g_flag; auto. intros v args' E. destruct args as [|x args]; cbn [app] in E; [now apply (Hs v args')|].
    injection E as -> _. now apply (Na v args).
Qed.
Lemma total_app a b : total (a ++ b) = total a + total b.
Proof. induction a as [|x a IH]; [reflexivity|]. cbn [app]. rewrite !total_cons, IH. lia. Qed.
Lemma parse_app dbg opts vals args1 l1 args2 l2 : good_table opts -> ~ asks_help args1 -> ~ asks_help args2 -> ~ asks_help (args1 ++ args2) ->
  given opts args1 l1 [] -> given opts args2 l2 [] -> (forall v r, args2 = v :: r -> exists q, v = 45 :: q) ->
  Forall oks (args1 ++ args2) -> total (args1 ++ args2) + 17 <= alloc_max ->
  argopt_parse dbg opts vals (args1 ++ args2) = (let* r := argopt_parse dbg opts vals args1 in argopt_parse dbg opts (snd r) args2).
Proof.
  intros GT H1 H2 H3 D1 D2 Hs O F. pose proof (total_nonneg args1). pose proof (total_nonneg args2). rewrite total_app in F.
  pose proof O as O'. apply Forall_app in O' as (O1 & O2).
  rewrite (parse_seq dbg opts vals (args1 ++ args2) (l1 ++ l2)); [|assumption|assumption|now apply given_app|assumption|rewrite total_app; lia].
  rewrite (parse_seq dbg opts vals args1 l1) by (auto; lia). rewrite assign_all_app.
  destruct (assign_all dbg opts vals l1) as [v1| | |]; cbn [bind]; try reflexivity. cbn [snd].
  rewrite (parse_seq dbg opts v1 args2 l2) by (auto; lia). reflexivity.
Qed.
