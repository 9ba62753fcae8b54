(** C176: a command line is the sequence of its assignments.  [given], [unknown], [good_table]:
    ArgSpec.v; [assign_all]: SeqProofs.v. *)
From Verif Require Import Base BaseFacts StrModel StrModel2 StrSpec NumModel NumProofs ArgModel ArgSpec ArgProofs PropsArg SeqProofs.
From Coq Require Import Lia String.
Local Open Scope list_scope.

(** ** C176 A command line is the sequence of its assignments *)
(** Whatever the values are before and whatever an assignment does (also if it ends the program or is
    undefined, C70): parsing is the assignments in the order of the arguments, each option changing its
    own variable only; at the first argument that names no option parsing stops with an error. *)
Theorem C176_sequence :
  forall dbg opts vals args l, good_table opts -> ~ asks_help args -> given opts args l [] -> Forall oks args -> total args + 17 <= alloc_max ->
  argopt_parse dbg opts vals args = (let* vals' := assign_all dbg opts vals l in Ok (0, vals')).
Proof. exact parse_seq. Qed.
Print Assumptions C176_sequence.
Theorem C176_stops :
  forall dbg opts vals args l bad rest, good_table opts -> ~ asks_help args -> given opts args l (bad :: rest) -> bad <> [] -> unknown opts bad ->
  Forall oks args -> total args + 17 <= alloc_max ->
  argopt_parse dbg opts vals args = (let* vals' := assign_all dbg opts vals l in Ok (-1, vals')).
Proof. exact parse_seq_bad. Qed.
Print Assumptions C176_stops.
(** A command line may be given in two parts, to two calls. *)
Theorem C176_two_parts :
  forall dbg opts vals args1 l1 args2 l2, good_table opts -> ~ asks_help args1 -> ~ asks_help args2 -> ~ asks_help (args1 ++ args2) ->
  given opts args1 l1 [] -> given opts args2 l2 [] -> (forall v r, args2 = v :: r -> exists q, v = 45 :: q) ->
  Forall oks (args1 ++ args2) -> total (args1 ++ args2) + 17 <= alloc_max ->
  argopt_parse dbg opts vals (args1 ++ args2) = (let* r := argopt_parse dbg opts vals args1 in argopt_parse dbg opts (snd r) args2).
Proof. exact parse_app. Qed.
Print Assumptions C176_two_parts.

(** The program of README.md:17-58 (variables link = NULL, save = "~/Desktop", verbose = false, quality
    = 720), called as in README.md:65, with any link and any directory. *)
Definition readme_opts : list opt := [mk "--link" "-l" TCstr; mk "--save" "-s" TCstr; mk "--verbose" "-v" TBool; mk "--quality" "-q" (TInt 32)].
Definition readme_vals : list value := [VCstr None; VCstr (Some (zblk (T "~/Desktop"))); VBool false; VNum 720].
Definition readme_args (link save : text) : list text := [T "--link"; link; T "-s"; save; T "--verbose"].
Definition plain (t : text) : Prop := oks t /\ t <> [] /\ forall r, t <> 45 :: r.

Lemma readme_given link save : plain link -> plain save ->
  good_table readme_opts /\ given readme_opts (readme_args link save) [(0%nat, link); (1%nat, save); (2%nat, [49])] [].
Proof.
  intros (O1 & N1 & S1) (O2 & N2 & S2). split.
  - split; [discriminate|]. intros o H. apply valid_good. cbn [readme_opts In] in H. repeat (destruct H as [<-|H]; [reflexivity|]). contradiction.
  - assert (named readme_opts (T "--link") 0) as M0 by (split; [eexists; split; [reflexivity|now left]|intros; lia]).
    assert (named readme_opts (T "-s") 1) as M1.
    { split; [eexists; split; [reflexivity|now right]|]. intros [|j] o Hj E; [|lia]. injection E as <-. intros [H|H]; discriminate. }
    assert (named readme_opts (T "--verbose") 2) as M2.
    { split; [eexists; split; [reflexivity|now left]|]. intros [|[|j]] o Hj E; [| |lia]; injection E as <-; intros [H|H]; discriminate. }
    unfold readme_args. apply g_val; [exact M0|discriminate|cbn; intuition discriminate|exact S1|].
    apply g_val; [exact M1|discriminate|cbn; intuition discriminate|exact S2|].
    apply g_flag; [exact M2|discriminate|cbn; intuition discriminate|intros v r E; discriminate|]. constructor.
Qed.
Lemma oksT : oks (T "--link") /\ oks (T "-s") /\ oks (T "--verbose") /\ oks (T "~/Desktop").
Proof. repeat split; repeat (constructor; [vm_compute; intuition congruence|]); constructor. Qed.

Theorem C176_readme_refuted :
  forall dbg link save, plain link -> plain save -> zlen link + zlen save + 34 <= alloc_max ->
  let r := argopt_parse dbg readme_opts readme_vals (readme_args link save) in
  (9 < zlen save -> r = UB) /\
  (forall tail, zlen save <= 9 -> T "~/Desktop" = firstn (List.length save) (T "~/Desktop") ++ tail ->
     r = Ok (0, [VCstr (Some (zblk link)); VCstr (Some (zblk (save ++ tail))); VBool true; VNum 720])).
Proof.
  intros dbg link save P1 P2 F r. destruct (readme_given link save P1 P2) as (GT & D). pose proof oksT as (K1 & K2 & K3 & K4).
  destruct P1 as (O1 & N1 & S1), P2 as (O2 & N2 & S2). pose proof (zlen_nonneg link). pose proof (zlen_nonneg save).
  assert (r = let* vals' := assign_all dbg readme_opts readme_vals [(0%nat, link); (1%nat, save); (2%nat, [49])] in Ok (0, vals')) as E.
  { apply parse_seq; [exact GT|intros (a & E & _); discriminate|exact D|repeat constructor; assumption|].
    unfold readme_args. rewrite !total_cons. change (zlen (T "--link")) with 6. change (zlen (T "-s")) with 2. change (zlen (T "--verbose")) with 9. change (total []) with 0. lia. }
  cbn [assign_all] in E. unfold assign_nth in E. cbn [nth_error readme_opts readme_vals mk o_type] in E.
  rewrite cstr_null in E by (assumption || lia). unfold readme_vals in E. cbn [bind set_nth nth_error] in E. change (zblk (T "~/Desktop")) with (map Some (T "~/Desktop") ++ Some 0 :: []) in E.
  split.
  - intros H1. rewrite (cstr_longer dbg (T "~/Desktop") save []) in E; [exact E|exact K4|vm_compute; reflexivity|exact H1|lia].
  - intros tl H1 Et. rewrite Et in E. rewrite cstr_shorter in E.
    + cbn [bind set_nth nth_error] in E. rewrite E. reflexivity.
    + rewrite Et in K4. now apply Forall_app in K4.
    + rewrite Et in K4. now apply Forall_app in K4.
    + unfold zlen in *. rewrite firstn_length. change (List.length (T "~/Desktop")) with 9%nat. lia.
Qed.
Print Assumptions C176_readme_refuted.

Example C176_example :
  given opts0 [T "-o"; T "ab"; T "-o"; T "xyz"] [(3%nat, T "ab"); (3%nat, T "xyz")] [] /\
  assign_all true opts0 vals0 [(3%nat, T "ab"); (3%nat, T "xyz")] = UB /\ argopt_parse true opts0 vals0 [T "-o"; T "ab"; T "-o"; T "xyz"] = UB /\
  argopt_parse true readme_opts readme_vals (readme_args (T "www.abs.com/video") (T "~/Desktop/media")) = UB /\
  show (argopt_parse true readme_opts readme_vals (readme_args (T "www.abs.com/video") (T "~/dl"))) = Ok (0, [T "www.abs.com/video"; T "~/dlsktop"; [1]; [720]]).
Proof.
  assert (named opts0 (T "-o") 3) as M.
  { split; [eexists; split; [reflexivity|now right]|]. intros [|[|[|j]]] o Hj E; [| | |lia]; injection E as <-; intros [H|H]; discriminate. }
  split; [|split; [|split; [|split]]]; try (vm_compute; reflexivity).
  apply g_val; [exact M|discriminate|cbn; intuition discriminate|discriminate|]. apply g_val; [exact M|discriminate|cbn; intuition discriminate|discriminate|]. constructor.
Qed.
