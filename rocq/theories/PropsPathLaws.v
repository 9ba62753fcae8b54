(** Properties of vt_path_build together with vt_path_basename and vt_path_pop.  Statements only. *)
From Verif Require Import Base BaseFacts StrModel StrModel2 StrSpec FsModel PathModel FsSpec PathProofs PropsPath.
From Verif Require Import PathLaws.
From Coq Require Import String.
Local Open Scope list_scope.

(** ** C146 Built paths come apart again *)
(** Full statement: for at least two pieces, none empty, vt_path_basename gives the last piece,
    vt_path_pop leaves the path of the others, and building from these two gives an equal
    path.  False if the last piece has a separator. *)
Theorem C146_apart_refuted :
  exists s, path_build true None [T "usr"; T "lib/x"] = Ok s /\ str_z s = Ok (T "usr/lib/x") /\
    (exists st, path_basename true None (T "usr/lib/x") = Ok (Some st) /\ str_z st = Ok (T "x")) /\
    (exists blk, path_pop (sb s) = Ok blk /\ cstr blk = Ok (T "usr/lib")).
Proof. eexists. split; [vm_compute; reflexivity|]. split; [vm_compute; reflexivity|]. split; eexists; split; vm_compute; reflexivity. Qed.
Print Assumptions C146_apart_refuted.
Theorem C146_apart_partial :
  forall dbg x l b, Forall (fun p => oks p /\ 0 < zlen p) (x :: l ++ [b]) -> ~ In 47 b -> zlen (join_with [47] (x :: l ++ [b])) + 1 <= alloc_max ->
  exists s st capb blk s', path_build dbg None (x :: l ++ [b]) = Ok s /\ str_z s = Ok (join_with [47] (x :: l ++ [b])) /\
    path_basename dbg None (join_with [47] (x :: l ++ [b])) = Ok (Some st) /\ srep b capb st /\
    path_pop (sb s) = Ok blk /\ cstr blk = Ok (join_with [47] (x :: l)) /\
    path_build dbg None [join_with [47] (x :: l); b] = Ok s' /\ str_equals s s' = Ok true.
Proof. exact build_apart. Qed.
Print Assumptions C146_apart_partial.
Example C146_example :
  exists s st blk, path_build false None [T "usr"; T "lib"; T "x.so"] = Ok s /\ str_z s = Ok (T "usr/lib/x.so") /\
    path_basename false None (T "usr/lib/x.so") = Ok (Some st) /\ str_z st = Ok (T "x.so") /\ path_pop (sb s) = Ok blk /\ cstr blk = Ok (T "usr/lib").
Proof. do 3 eexists. do 5 (split; [vm_compute; reflexivity|]). vm_compute; reflexivity. Qed.
