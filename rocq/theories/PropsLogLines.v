(** Properties of the text written by log.c and debug.c.  [fine], [fine_name]: LogSpec.v;
    [contents s out] is what the sink [s] has received, [noln t]: no line feed in [t],
    [one_line c]: none in the texts given to the call [c], [readable]: LogLines.v. *)
From Verif Require Import Base BaseFacts StrModel StrSpec NumModel LogModel LogSpec PropsSys.
From Verif Require Import LogLines.
From Coq Require Import String.
Local Open Scope list_scope.

(** ** C139 One record is one line *)
(** Full statement: what a file receives are as many lines as there are records.  False: a line
    feed in a message is copied, so that a message can forge a record. *)
Theorem C139_lines_refuted :
  exists p q, LogModel.run true relative init [log1 0 "a"; log1 3 "b"] = Ok (p, Returns) /\
    LogModel.run true relative init [CLog (T "now") None 0 false None pl0 (T "a" ++ [10] ++ T "now ERROR main.c:12: b") []] = Ok (q, Returns) /\
    List.length (p_out p) = 2%nat /\ List.length (p_out q) = 1%nat /\ contents Stderr (p_out p) = contents Stderr (p_out q).
Proof. do 2 eexists. repeat split; vm_compute; reflexivity. Qed.
Print Assumptions C139_lines_refuted.

(** Missing: texts with line feeds. *)
Theorem C139_lines_partial :
  forall dbg can_open cs s, Forall (fine can_open) cs -> Forall one_line cs ->
  exists p e ls, LogModel.run dbg can_open init cs = Ok (p, e) /\
    contents s (p_out p) = List.concat (map (fun l => l ++ [10]) ls) /\ Forall noln ls /\
    map (fun l => l ++ [10]) ls = map snd (filter (fun o => if sink_dec (fst o) s then true else false) (p_out p)).
Proof. exact run_lines. Qed.
Print Assumptions C139_lines_partial.

Example C139_example :
  let cs := [CRedirect 1 (Some (T "w")); log1 0 "a"; log1 1 "b"; check1 false "c"; CPrintf (T "now") (T "DEBUG") (T "d" ++ [10]); log1 1 "e"] in
  Forall (fine relative) cs /\ Forall one_line cs /\
  exists p, LogModel.run true relative init cs = Ok (p, Returns) /\
    contents Stderr (p_out p) = T "now  INFO main.c:12: a" ++ [10] ++ T "now CHECK FAILURE [x] main.c:main:12: c" ++ [10] ++ T "now DEBUG d" ++ [10] /\
    contents (File (T "w")) (p_out p) = T "now  WARN main.c:12: b" ++ [10] ++ T "now  WARN main.c:12: e" ++ [10].
Proof.
  cbv zeta. split; [|split].
  - unfold log1, check1.
    repeat match goal with |- Forall _ (_ :: _) => apply Forall_cons | |- Forall _ [] => apply Forall_nil end; cbn [fine];
    repeat match goal with |- 0 <= _ < 6 /\ _ => split; [lia|] end; try exact I; intros z E; try discriminate E; injection E as <-.
    split; [repeat constructor; lia|]. split; [vm_compute; discriminate|]. right. reflexivity.
  - repeat constructor; try discriminate; try (exists (T "d"); split; [reflexivity|]); try (intros X; cbn in X; lia).
  - eexists. repeat split; vm_compute; reflexivity.
Qed.

(** ** C140 A record can be read back *)
(** Full statement: different records have different texts.  False: a ']' in the expression
    (as in a[i] > 0) can be mistaken for its end. *)
Theorem C140_read_back_refuted :
  exists p q, LogModel.run true relative init [CLog (T "now") None 5 false (Some (T "a")) (mk_place (T "m.c") (T "f") 1) (T "b] m.c:1: c") []] = Ok (p, Exits) /\
    LogModel.run true relative init [CLog (T "now") None 5 false (Some (T "a] m.c:1: b")) (mk_place (T "m.c") (T "f") 1) (T "c") []] = Ok (q, Exits) /\
    p_out p = p_out q.
Proof. do 2 eexists. repeat split; vm_compute; reflexivity. Qed.
Print Assumptions C140_read_back_refuted.

(** Missing: expressions with ']', file names with ':' or starting with '['. *)
Theorem C140_read_back_partial :
  forall dbg can_open f tm1 l1 e1 pl1 m1 x1 tm2 l2 e2 pl2 m2 x2 p1 p2 r1 r2,
  fine_name can_open f -> List.length tm1 = List.length tm2 -> 0 <= l1 < 6 -> 0 <= l2 < 6 -> readable e1 pl1 -> readable e2 pl2 ->
  LogModel.run dbg can_open init [CLog tm1 f l1 false e1 pl1 m1 x1] = Ok (p1, r1) ->
  LogModel.run dbg can_open init [CLog tm2 f l2 false e2 pl2 m2 x2] = Ok (p2, r2) ->
  p_out p1 = p_out p2 ->
  tm1 = tm2 /\ l1 = l2 /\ e1 = e2 /\ pl_file pl1 = pl_file pl2 /\ pl_line pl1 = pl_line pl2 /\ m1 = m2.
Proof. exact run_inj. Qed.
Print Assumptions C140_read_back_partial.

Example C140_example :
  readable (Some (T "x > 0")) pl0 /\ fine_name relative None /\
  exists p, LogModel.run false relative init [CLog (T "now") None 3 false (Some (T "x > 0")) pl0 (T "y [z] : 1") []] = Ok (p, Returns) /\
    p_out p = [(Stderr, T "now ERROR [x > 0] main.c:12: y [z] : 1" ++ [10])].
Proof.
  split; [|split].
  - repeat split; try discriminate; try (intros e [= <-]); intros X; cbn in X; lia.
  - intros z H. discriminate H.
  - eexists. split; vm_compute; reflexivity.
Qed.
