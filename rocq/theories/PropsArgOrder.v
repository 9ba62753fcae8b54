(** Properties of argopt.c: order and spelling of options.  [given], [ready], [assignable]:
    ArgSpec.v; [last_of i l]: the last text assigned to option i, [same_value]: equal values or
    strings with equal texts (ArgOrder.v). *)
From Verif Require Import Base BaseFacts StrModel StrModel2 StrSpec NumModel NumProofs ArgModel ArgSpec PropsArg.
From Verif Require Import ArgOrder.
From Coq Require Import String.
Local Open Scope list_scope.

(** ** C142 Order and spelling of options do not matter *)
(** Full statement: command lines with the same last text for every option have the same
    effect.  False: "-n -5" is refused while "--num=-5" is accepted; of a char* option given
    twice the first text shows through. *)
Theorem C142_order_refuted :
  show (argopt_parse true opts0 vals0 [T "--num=-5"]) = Ok (0, [[0]; []; [0]; []]) /\
  show (argopt_parse true opts0 vals0 [T "-n"; T "-5"]) = Ok (-1, [[1]; []; [0]; []]) /\
  show (argopt_parse true opts0 vals0 [T "-o"; T "ab"]) = Ok (0, [[7]; []; [0]; T "ab"]) /\
  show (argopt_parse true opts0 vals0 [T "-o"; T "xyz"; T "-o"; T "ab"]) = Ok (0, [[7]; []; [0]; T "abz"]).
Proof. repeat split; vm_compute; reflexivity. Qed.
Print Assumptions C142_order_refuted.

(** Missing: as for C68_parse_partial. *)
Theorem C142_order_partial :
  forall dbg opts vals args1 args2 l1 l2,
  good_table opts -> ~ asks_help args1 -> ~ asks_help args2 -> given opts args1 l1 [] -> given opts args2 l2 [] ->
  (forall i, last_of i l1 = last_of i l2) ->
  (forall i o t, nth_error opts i = Some o -> In (i, t) (l1 ++ l2) -> exists v, nth_error vals i = Some v /\ ready (o_type o) v) ->
  assignable opts l1 -> assignable opts l2 -> Forall oks (args1 ++ args2) -> total args1 + 17 <= alloc_max -> total args2 + 17 <= alloc_max ->
  exists v1 v2, argopt_parse dbg opts vals args1 = Ok (0, v1) /\ argopt_parse dbg opts vals args2 = Ok (0, v2) /\ Forall2 same_value v1 v2.
Proof. exact order_free. Qed.
Print Assumptions C142_order_partial.

Example C142_example :
  show (argopt_parse true opts0 vals0 [T "--num=5"; T "-s"; T "bob"; T "-v"; T "-n"; T "6"]) = Ok (0, [[6]; T "bob"; [1]; []]) /\
  show (argopt_parse true opts0 vals0 [T "--verbose=true"; T "--num"; T "6"; T "--name=bob"]) = Ok (0, [[6]; T "bob"; [1]; []]) /\
  (forall i, last_of i [(0%nat, T "5"); (1%nat, T "bob"); (0%nat, T "6")] = last_of i [(0%nat, T "6"); (1%nat, T "bob")]).
Proof. split; [vm_compute; reflexivity|]. split; [vm_compute; reflexivity|]. intros [|[|i]]; reflexivity. Qed.
