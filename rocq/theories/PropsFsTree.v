(** Properties of sequences of calls of path.c and fileio.c.  Statements only.  [wf], [lookup]:
    FsSpec.v, FsModel.v; [fop], [fstep], [frun], [ftexts] and the four kinds of effect: FsTree.v. *)
From Verif Require Import Base BaseFacts StrModel StrSpec FsModel PathModel FsSpec FsProofs FsMain FsMain2 RenameModel RenameProofs PropsPath.
From Verif Require Import FsTree.
From Coq Require Import String.
Local Open Scope list_scope.

(** ** C145 Any sequence of calls leaves a proper tree *)
(** Whatever the path texts (also with ".", "..", doubled or trailing slashes, or empty): after
    every call every entry is again in an existing directory and has a possible name, and the
    call did no more than its kind allows. *)
Theorem C145_tree :
  forall dbg lk fuel cwd fs os fs', wf fs -> Forall ftexts os -> frun dbg lk fuel cwd fs os = Ok fs' ->
    wf fs' /\
    (forall d n, lookup fs' (d ++ [n]) <> None -> lookup fs' d = Some EDir /\ n <> [] /\ n <> dot /\ n <> dotdot /\ ~ In 47 n /\ ~ In 0 n).
Proof.
  intros dbg lk fuel cwd fs os fs' W F E. pose proof (run_tree dbg lk fuel cwd os fs fs' W F E) as W'. split; [exact W'|].
  intros d n L. destruct (wf_parent fs' d n W' L) as [L' On]. split; [exact L'|]. destruct On as (A & B & C & O & S). repeat (split; [assumption|]).
  intros Z. unfold oks in O. rewrite Forall_forall in O. specialize (O 0 Z). unfold okc in O. lia.
Qed.
Print Assumptions C145_tree.
Theorem C145_effect :
  forall dbg lk fuel cwd fs o fs' b, wf fs -> ftexts o -> fstep dbg lk fuel cwd fs o = Ok (fs', b) ->
    match o with
    | OMkdir _ | OMkdirParents _ => forall x, lookup fs' x = lookup fs x \/ (lookup fs x = None /\ lookup fs' x = Some EDir)
    | OWrite _ _ _ _ => exists p, (forall x, x <> p -> lookup fs' x = lookup fs x) /\
        (lookup fs' p = lookup fs p \/ (lookup fs p <> Some EDir /\ exists c, lookup fs' p = Some (EFile c)))
    | ORemove _ | ORmdir _ | ORmdirRecurse _ => forall x, lookup fs' x = lookup fs x \/ lookup fs' x = None
    | ORename _ _ => (forall x, lookup fs' x = lookup fs x) \/
        exists p q, (forall r, lookup fs' (q ++ r) = lookup fs (p ++ r)) /\ (forall r, lookup fs' (p ++ r) = None) /\
          (forall x, (forall r, x <> p ++ r) -> (forall r, x <> q ++ r) -> lookup fs' x = lookup fs x) /\
          (lookup fs q = None \/ (lookup fs p = Some EDir /\ lookup fs q = Some EDir /\ forall n, lookup fs (q ++ [n]) = None) \/
           exists c c', lookup fs p = Some (EFile c) /\ lookup fs q = Some (EFile c'))
    end.
Proof.
  intros dbg lk fuel cwd fs o fs' b W F E. pose proof (proj2 (step_tree dbg lk fuel cwd fs o fs' b W F E)) as X.
  destruct o; cbn [effect] in X; try exact X.
  - destruct X as (p & X & Y). exists p. tauto.
  - destruct X as [X|(p & q & _ & _ & X)]; [now left|right]. exists p, q. exact X.
Qed.
Print Assumptions C145_effect.
(** A working sequence with unusual paths; the renaming over a directory that is not empty,
    the writing into a directory and the removal of ".." fail and change nothing. *)
Example C145_example :
  frun true (fun _ => false) 9 [T "d"] fs0
    [OMkdirParents (T "./a//b/"); OWrite (T "../d/a/x") false true (T "hi"); ORename (T "../f") (T "a/b/g"); ORename (T "a/x") (T "a");
     OWrite (T "a") false false (T "no"); ORmdirRecurse (T "sub"); ORemove (T "..")] =
  frun true (fun _ => false) 9 [T "d"] fs0
    [OMkdir (T "a"); OMkdir (T "a/b"); OWrite (T "a/x") false true (T "hi"); ORename (T "../f") (T "a/b/g"); ORmdirRecurse (T "sub")] /\
  (exists fs', frun true (fun _ => false) 9 [T "d"] fs0
    [OMkdirParents (T "./a//b/"); OWrite (T "../d/a/x") false true (T "hi"); ORename (T "../f") (T "a/b/g"); ORmdirRecurse (T "sub")] = Ok fs' /\
    lookup fs' [T "d"; T "a"; T "x"] = Some (EFile (T "hi" ++ [10])) /\ lookup fs' [T "d"; T "a"; T "b"; T "g"] = Some (EFile (T "old")) /\
    lookup fs' [T "f"] = None /\ lookup fs' [T "d"; T "sub"] = None).
Proof. split; [vm_compute; reflexivity|]. eexists. do 4 (split; [vm_compute; reflexivity|]). vm_compute; reflexivity. Qed.
