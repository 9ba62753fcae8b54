(** C175: records of several processes. *)
From Verif Require Import Base BaseFacts StrModel NumModel LogModel ProcModel.
From Coq Require Import Lia Permutation.

(** The parts of a record are the record of LogModel.v. *)
Lemma log_parts_record tm level zexpr pl msg : concat (log_parts tm level zexpr pl msg) = log_record tm level zexpr pl msg.
Proof. unfold log_parts, log_record. cbn [concat]. rewrite <- !app_assoc. destruct zexpr; rewrite <- ?app_assoc; reflexivity. Qed.
Lemma assert_parts_record tm subject zexpr pl msg : concat (assert_parts tm subject zexpr pl msg) = debug_record tm subject zexpr pl msg.
Proof. unfold assert_parts, debug_record. cbn [concat]. rewrite <- !app_assoc. reflexivity. Qed.

Lemma file_one B parts ws : concat parts <> [] -> zlen (concat parts) <= B -> file_writes B parts ws -> ws = [concat parts].
Proof.
  intros N L (E & F & K). specialize (K L). destruct ws as [|w [|w' ws]]; [cbn in E; congruence| |cbn in K; lia].
  cbn [concat] in E. rewrite app_nil_r in E. now rewrite E.
Qed.

(** ** C175 Records of several processes stay whole *)
(** Full statement: whatever the order in which the system performs the writes of several processes
    that log to the same file or terminal, what is there afterwards is a sequence of whole records,
    those of each process in their order.  False for a terminal (three writes for a record) ... *)
Theorem C175_terminal_refuted : forall tm level pl1 pl2 m1 m2, m1 <> [] -> m2 <> [] ->
  exists h1 h2, log_record tm level None pl1 m1 = h1 ++ m1 ++ [10] /\ log_record tm level None pl2 m2 = h2 ++ m2 ++ [10] /\
  term_contents [[log_parts tm level None pl1 m1]; [log_parts tm level None pl2 m2]] (h1 ++ h2 ++ m2 ++ m1 ++ [10; 10]).
Proof.
  intros tm level pl1 pl2 m1 m2 N1 N2. exists (nth 0 (log_parts tm level None pl1 m1) []), (nth 0 (log_parts tm level None pl2 m2) []).
  split; [rewrite <- log_parts_record; unfold log_parts; cbn [concat nth]; rewrite app_nil_r; reflexivity|].
  split; [rewrite <- log_parts_record; unfold log_parts; cbn [concat nth]; rewrite app_nil_r; reflexivity|].
  assert (forall m pl, m <> [] -> err_writes (log_parts tm level None pl m) = log_parts tm level None pl m) as K.
  { intros m pl N. unfold err_writes, log_parts. cbn [filter]. replace (nonempty m) with true by (destruct m; [congruence|reflexivity]).
    match goal with |- context [nonempty (?a ++ ?b)] => replace (nonempty (a ++ b)) with true by (destruct a; reflexivity) end. reflexivity. }
  unfold term_contents. cbn [map flat_map]. rewrite !app_nil_r, !K by assumption.
  unfold log_parts. cbn [nth]. set (h1 := tm ++ _). set (h2 := tm ++ _).
  exists [h1; h2; m2; m1; [10]; [10]]. split; [|cbn [concat app]; rewrite ?app_nil_r; reflexivity].
  apply (merge_next [] h1 [m1; [10]] [[h2; m2; [10]]]). apply (merge_next [[m1; [10]]] h2 [m2; [10]] []).
  apply (merge_next [[m1; [10]]] m2 [[10]] []). apply (merge_next [] m1 [[10]] [[[10]]]).
  apply (merge_next [] [10] [] [[[10]]]). apply (merge_next [[]] [10] [] []). apply merge_done. repeat constructor.
Qed.
Print Assumptions C175_terminal_refuted.
(** ... and for records that do not fit in the buffer of a file: such a record may have another one in
    its middle, at any place. *)
Theorem C175_long_refuted : forall B r1 r2 a b, B < zlen (concat r1) -> concat r1 = a ++ b -> a <> [] -> b <> [] -> concat r2 <> [] ->
  file_contents B [[r1]; [r2]] (a ++ concat r2 ++ b).
Proof.
  intros B r1 r2 a b L E Na Nb N2. exists [[a; b]; [concat r2]], [a; concat r2; b]. split; [|split].
  - constructor; [|constructor; [|constructor]].
    + exists [[a; b]]. split; [|reflexivity]. constructor; [|constructor]. split; [cbn [concat]; now rewrite app_nil_r|].
      split; [now repeat constructor|]. intros H. lia.
    + exists [[concat r2]]. split; [|reflexivity]. constructor; [|constructor]. split; [cbn [concat]; now rewrite app_nil_r|].
      split; [now repeat constructor|]. intros _. cbn. lia.
  - apply (merge_next [] a [b] [[concat r2]]). apply (merge_next [[b]] (concat r2) [] []). apply (merge_next [] b [] [[]]).
    apply merge_done. repeat constructor.
  - cbn [concat]. now rewrite app_nil_r.
Qed.
Print Assumptions C175_long_refuted.

(** What holds: in a file, if every record fits in the buffer, the contents are whole records; those
    of each process are in order ([merge]). *)
Theorem C175_file_partial : forall B procs c,
  Forall (Forall (fun r => concat r <> [] /\ zlen (concat r) <= B)) procs -> file_contents B procs c ->
  exists recs, merge (map (map (@concat Z)) procs) recs /\ c = concat recs.
Proof.
  intros B procs c F (wss & w & D & M & ->). exists w. split; [|reflexivity].
  enough (map (map (@concat Z)) procs = wss) as -> by exact M.
  clear M. revert wss D F. induction procs as [|recs procs IH]; intros wss D F; inversion D as [|x y l l' (dss & D1 & E1) D2]; subst; [reflexivity|].
  inversion F as [|x y F1 F2]; subst. cbn [map]. f_equal; [|now apply IH].
  clear - F1 D1. revert dss D1. induction recs as [|r recs IH]; intros dss D1; inversion D1 as [|a b l l' Da Db]; subst; [reflexivity|].
  inversion F1 as [|a c (N & L) F2]; subst. cbn [map concat]. rewrite (file_one B r b N L Da). cbn [app]. f_equal. now apply IH.
Qed.
Print Assumptions C175_file_partial.
(** In particular every record is there exactly as often as it was written. *)
Lemma merge_perm {A} (ps : list (list A)) w : merge ps w -> Permutation (concat ps) w.
Proof.
  induction 1 as [ps H|l x p r w H IH].
  - assert (concat ps = []) as ->; [|constructor]. induction H as [|p ps -> H IH]; [reflexivity|exact IH].
  - rewrite concat_app in *. cbn [concat] in *. cbn [app]. rewrite <- Permutation_middle. now constructor.
Qed.
Theorem C175_complete : forall B procs c,
  Forall (Forall (fun r => concat r <> [] /\ zlen (concat r) <= B)) procs -> file_contents B procs c ->
  exists recs, Permutation recs (map (@concat Z) (concat procs)) /\ c = concat recs.
Proof.
  intros B procs c F H. destruct (C175_file_partial B procs c F H) as (recs & M & ->). exists recs. split; [|reflexivity].
  apply merge_perm in M. rewrite <- M, concat_map. reflexivity.
Qed.
Print Assumptions C175_complete.
(** One process alone writes whole records everywhere. *)
Theorem C175_alone : forall recs c, term_contents [recs] c -> c = concat (map (@concat Z) recs).
Proof.
  intros recs c (w & M & ->).
  assert (forall (p w : list (list Z)), merge [p] w -> w = p) as K.
  { induction p as [|x p IH]; intros w' M'.
    - inversion M' as [ps H|l y q r w'' H E]; subst; [reflexivity|]. destruct l as [|? [|? ?]]; cbn in *; try discriminate.
    - inversion M' as [ps H|l y q r w'' H E]; subst; [now inversion H|].
      destruct l as [|a l]; [|destruct l; discriminate]. cbn in *. injection E as -> -> ->. f_equal. now apply IH. }
  cbn [map] in M. apply K in M. subst w. induction recs as [|r recs IH]; [reflexivity|]. cbn [flat_map map concat].
  rewrite concat_app, IH. f_equal. induction r as [|t r IHr]; [reflexivity|]. unfold err_writes in *. cbn [filter concat].
  destruct t; cbn [nonempty]; [exact IHr|]. cbn [concat]. now rewrite IHr.
Qed.
Print Assumptions C175_alone.
Example C175_example :
  file_contents 4096 [[log_parts [49] 0 None (mk_place [102] [] 7) [97]]; [log_parts [50] 1 None (mk_place [103] [] 8) [98]; log_parts [51] 1 None (mk_place [103] [] 9) [99]]]
    ([50; 32; 32; 87; 65; 82; 78; 32; 103; 58; 56; 58; 32; 98; 10] ++ [49; 32; 32; 73; 78; 70; 79; 32; 102; 58; 55; 58; 32; 97; 10] ++ [51; 32; 32; 87; 65; 82; 78; 32; 103; 58; 57; 58; 32; 99; 10]).
Proof.
  set (r1 := log_parts [49] _ _ _ _). set (r2 := log_parts [50] _ _ _ _). set (r3 := log_parts [51] _ _ _ _).
  exists [[concat r1]; [concat r2; concat r3]], [concat r2; concat r1; concat r3]. split; [|split].
  - constructor; [exists [[concat r1]]|constructor; [exists [[concat r2]; [concat r3]]|constructor]]; (split; [|reflexivity]);
    repeat constructor; try (vm_compute; discriminate); intros; cbn; lia.
  - apply (merge_next [[concat r1]] (concat r2) [concat r3] []). apply (merge_next [] (concat r1) [] [[concat r3]]).
    apply (merge_next [[]] (concat r3) [] []). apply merge_done. repeat constructor.
  - vm_compute. reflexivity.
Qed.
