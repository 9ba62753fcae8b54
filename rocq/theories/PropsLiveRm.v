(** C230, C231: removing a directory while other processes work on the file system.  [live_rmdir_recurse], [env]: LiveRm.v. *)
From Verif Require Import Base BaseFacts StrModel StrModel2 StrSpec FsModel PathModel FsSpec FsProofs FsMain FsMain2 PropsPath LiveRm.
From Coq Require Import String.
Local Open Scope list_scope.

(** ** C230 Removing a directory while others work stays inside it *)
(** Without other processes the model is that of C65. *)
Theorem C230_alone :
  forall lk fuel cwd z n fs w' b, live_rmdir_recurse lk fuel (fun _ f => f) cwd z (n, fs) = Ok (w', b) -> path_rmdir_recurse lk fuel fs cwd z = Ok (snd w', b).
Proof. exact live_rm_alone. Qed.
Print Assumptions C230_alone.
(** Whatever the others do between the calls, a place outside the directory that they leave alone is left alone by the function too. *)
Theorem C230_outside :
  forall lk fuel env cwd z fs t t' fs' b q,
  wf fs -> (forall t fs, wf fs -> wf (env t fs)) -> plain z -> z <> [] -> below (target cwd z) q = None -> (forall t fs, wf fs -> lookup (env t fs) q = lookup fs q) ->
  live_rmdir_recurse lk fuel env cwd z (t, fs) = Ok ((t', fs'), b) -> wf fs' /\ lookup fs' q = lookup fs q.
Proof. exact live_outside. Qed.
Print Assumptions C230_outside.

(** ** C231 Removing a directory while others remove *)
(** Someone who removes the directory d/b before the [k]-th system call, and does nothing else. *)
Definition removes_b (k : nat) (t : nat) (fs : fsys) : fsys :=
  if Nat.eqb t k then match fs_rmdir free fs [] (T "d/b") with Some f => f | None => fs end else fs.
Lemma removes_b_plain : plain (T "d/b").
Proof. split; [|split; vm_compute; intuition discriminate]. apply Forall_forall. intros c Hc. vm_compute in Hc. unfold okc. repeat destruct Hc as [<-|Hc]; lia || contradiction. Qed.
Lemma d_plain : plain (T "d").
Proof. split; [|split; vm_compute; intuition discriminate]. apply Forall_forall. intros c Hc. vm_compute in Hc. unfold okc. repeat destruct Hc as [<-|Hc]; lia || contradiction. Qed.
Lemma removes_b_ok k : env_ok (removes_b k).
Proof.
  intros t fs Wf. unfold removes_b. destruct (Nat.eqb t k); [|exact Wf]. destruct (fs_rmdir free fs [] (T "d/b")) as [f|] eqn:E; [|exact Wf].
  now destruct (dels_rmdir free _ _ _ _ Wf removes_b_plain E).
Qed.
Definition fs_abc : fsys := [([T "d"], EDir); ([T "d"; T "a"], EFile (T "x")); ([T "d"; T "b"], EDir); ([T "d"; T "c"], EFile (T "y")); ([T "f"], EFile (T "old"))].
Example fs_abc_wf : wf fs_abc.
Proof.
  constructor.
  - cbn. repeat constructor; cbn; intuition discriminate.
  - intros p e H. cbn [fs_abc In] in H. repeat destruct H as [H|H]; try contradiction; injection H as <- <-.
    + exists [], (T "d"). split; [reflexivity|]. split; [names_ok|reflexivity].
    + exists [T "d"], (T "a"). split; [reflexivity|]. split; [names_ok|reflexivity].
    + exists [T "d"], (T "b"). split; [reflexivity|]. split; [names_ok|reflexivity].
    + exists [T "d"], (T "c"). split; [reflexivity|]. split; [names_ok|reflexivity].
    + exists [], (T "f"). split; [reflexivity|]. split; [names_ok|reflexivity].
Qed.
(** C230, example: someone removes d/b in the middle; f is untouched. *)
Example C230_outside_example : exists t' fs' b, live_rmdir_recurse free 9 (removes_b 5) [] (T "d") (0%nat, fs_abc) = Ok ((t', fs'), b) /\
  lookup fs' [T "f"] = Some (EFile (T "old")).
Proof.
  do 3 eexists. split; [vm_compute; reflexivity|].
  refine (proj2 (C230_outside free 9 (removes_b 5) [] (T "d") fs_abc 0%nat _ _ _ [T "f"] fs_abc_wf (removes_b_ok 5) d_plain _ eq_refl _ _)).
  - discriminate.
  - intros t fs Wf. unfold removes_b. destruct (Nat.eqb t 5); [|reflexivity]. destruct (fs_rmdir free fs [] (T "d/b")) as [f|] eqn:E; [|reflexivity].
    apply (dels_rmdir free _ _ _ _ Wf removes_b_plain E). discriminate.
  - vm_compute. reflexivity.
Qed.
Lemma removes_b_removes k : env_removes (removes_b k).
Proof.
  intros t fs q Wf. unfold removes_b. destruct (Nat.eqb t k); [|now right]. destruct (fs_rmdir free fs [] (T "d/b")) as [f|] eqn:E; [|now right].
  destruct (dels_rmdir free _ _ _ _ Wf removes_b_plain E) as (_ & A & B). destruct (path_dec q [T "d"; T "b"]) as [->|N]; [now left|]. right. now apply B.
Qed.
(** Full statement: while the others only remove, [true] is returned only if the directory is gone.  False: a subdirectory that vanishes between being seen
    and being listed ends the listing of its parent, the rest of the parent is not removed, and the failure of the last rmdir is not reported. *)
Theorem C231_true_refuted :
  exists env fs w', wf fs /\ (forall t f, wf f -> wf (env t f)) /\ (forall t f q, wf f -> lookup (env t f) q = None \/ lookup (env t f) q = lookup f q) /\
  live_rmdir_recurse free 9 env [] (T "d") (0%nat, fs) = Ok (w', true) /\
  lookup (snd w') [T "d"] = Some EDir /\ lookup (snd w') [T "d"; T "c"] = Some (EFile (T "y")).
Proof.
  exists (removes_b 5), fs_abc. eexists. split; [exact fs_abc_wf|]. split; [exact (removes_b_ok 5)|]. split; [exact (removes_b_removes 5)|].
  repeat (split; [vm_compute; reflexivity|]). vm_compute. reflexivity.
Qed.
Print Assumptions C231_true_refuted.
(** True if the others begin only after the listing, that is after the first [n] system calls. *)
Theorem C231_true_partial :
  forall lk fuel env cwd z fs r n fs1 w', wf fs -> (forall t f, wf f -> wf (env t f)) ->
  (forall t f q, wf f -> lookup (env t f) q = None \/ lookup (env t f) q = lookup f q) ->
  plain z -> names z <> [] -> lk (target cwd z) = false -> (depth fs < fuel)%nat ->
  live_list fuel env cwd false [] z (1%nat, fs) = Ok (r, (n, fs1)) -> (forall t f, (t < n)%nat -> env t f = f) ->
  live_rmdir_recurse lk fuel env cwd z (0%nat, fs) = Ok (w', true) -> lookup (snd w') (target cwd z) = None.
Proof. exact live_gone. Qed.
Print Assumptions C231_true_partial.
(** The listing of d is made of the calls 1 to 7: is d there, open it, what is a, what is b, is b there, open it, what is c.  Someone who removes d/b after
    it has been seen to be there for the removal makes the function return [false]; someone who removes it before call 8 does no harm. *)
Example C231_true_example :
  (exists l fs1, live_list 9 (removes_b 18) [] false [] (T "d") (1%nat, fs_abc) = Ok (Some l, (8%nat, fs1))) /\
  (exists w', live_rmdir_recurse free 9 (removes_b 18) [] (T "d") (0%nat, fs_abc) = Ok (w', true) /\ lookup (snd w') [T "d"] = None) /\
  (exists w', live_rmdir_recurse free 9 (removes_b 12) [] (T "d") (0%nat, fs_abc) = Ok (w', false) /\ lookup (snd w') [T "d"] = Some EDir).
Proof.
  split; [do 2 eexists; vm_compute; reflexivity|]. split; (eexists; split; [vm_compute; reflexivity|vm_compute; reflexivity]).
Qed.
