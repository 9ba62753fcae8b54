(** C234: removing and listing a directory while other processes work elsewhere.  [live_rmdir_recurse], [live_list], [env]: LiveRm.v; [part]: LiveElse.v. *)
From Verif Require Import Base BaseFacts StrModel StrModel2 StrSpec FsModel PathModel FsSpec FsProofs FsMain FsMain2 PropsPath LiveRm PropsLiveRm LiveElse.
From Coq Require Import String.
Local Open Scope list_scope.

(** ** C234 Others working elsewhere do not disturb *)
(** While the others leave the directory and what is below it alone, the call returns what it would return without them, and what it leaves of the
    directory is the same. *)
Theorem C234_remove :
  forall cwd z env lk fuel t fs w' b, plain z -> names z <> [] -> wf fs -> lookup fs (target cwd z) = Some EDir -> (depth fs < fuel)%nat ->
  (forall t f, wf f -> wf (env t f)) -> (forall t f, wf f -> part (target cwd z) (env t f) = part (target cwd z) f) ->
  live_rmdir_recurse lk fuel env cwd z (t, fs) = Ok (w', b) ->
  exists fs', path_rmdir_recurse lk fuel fs cwd z = Ok (fs', b) /\ forall q, lookup (snd w') (target cwd z ++ q) = lookup fs' (target cwd z ++ q).
Proof.
  intros cwd z env lk fuel t fs w' b P N W D Hf EO EE H. destruct (remove_else cwd z env lk P N EO EE fuel t fs w' b W D Hf H) as (fs' & E & A).
  exists fs'. split; [exact E|]. intros q. now apply sim_lookup.
Qed.
Print Assumptions C234_remove.
(** So the directory with everything in it is removed, if the system refuses none of the removals. *)
Theorem C234_removed :
  forall cwd z env lk fuel t fs, plain z -> names z <> [] -> wf fs -> lookup fs (target cwd z) = Some EDir -> (depth fs < fuel)%nat ->
  (forall q, lk (target cwd z ++ q) = false) ->
  (forall t f, wf f -> wf (env t f)) -> (forall t f, wf f -> part (target cwd z) (env t f) = part (target cwd z) f) ->
  exists w', live_rmdir_recurse lk fuel env cwd z (t, fs) = Ok (w', true) /\ forall q, lookup (snd w') (target cwd z ++ q) = None.
Proof.
  intros cwd z env lk fuel t fs P N W D Hf Lk EO EE. destruct (remove_ends cwd z env lk P N EO EE fuel t fs W D Hf) as (w' & b & H).
  destruct (C234_remove cwd z env lk fuel t fs w' b P N W D Hf EO EE H) as (fs' & E & A).
  destruct (proj1 C65_rmdir_recurse_partial lk fs cwd z fuel W P N D Hf (fun r _ => Lk r)) as (fs2 & E2 & _ & G & _).
  rewrite E2 in E. injection E as <- <-. exists w'. split; [exact H|]. intros q. now rewrite A.
Qed.
Print Assumptions C234_removed.
(** The same of vt_path_dir_list_recurse. *)
Theorem C234_list :
  forall cwd z env ign fuel t fs, plain z -> names z <> [] -> wf fs -> lookup fs (target cwd z) = Some EDir -> (depth fs < fuel)%nat ->
  (forall t f, wf f -> wf (env t f)) -> (forall t f, wf f -> part (target cwd z) (env t f) = part (target cwd z) f) ->
  exists l w', live_list fuel env cwd ign [] z (t, fs) = Ok (Some l, w') /\ dir_list_recurse fuel fs cwd ign [] z = Ok (Some l) /\
    forall q, lookup (snd w') (target cwd z ++ q) = lookup fs (target cwd z ++ q).
Proof.
  intros cwd z env ign fuel t fs P N W D Hf EO EE. assert (z <> []) as Hz by (intros ->; now apply N).
  destruct (dir_list_recurse_full fs cwd ign fuel z (target cwd z) [] W (resolve_dir fs cwd z W P Hz D) D Hf) as (qs & Eq & _).
  assert (HS : sim cwd z (snd (t, fs)) fs) by (split; [exact W|]; split; [exact W|]; split; [reflexivity|exact D]).
  destruct (list_ends cwd z env P N EO EE fs ign fuel [] z (t, fs) _ (under_self z) HS Eq) as [w' E].
  destruct (list_else cwd z env P N EO EE fs ign fuel _ _ _ _ _ (under_self z) HS E) as [(_ & _ & A & _) _].
  do 2 eexists. split; [exact E|]. split; [exact Eq|]. intros q. now apply sim_lookup.
Qed.
Print Assumptions C234_list.

(** Someone who removes the file f before the sixth system call. *)
Definition removes_f (t : nat) (fs : fsys) : fsys := if Nat.eqb t 5 then match fs_remove free fs [] (T "f") with Some f => f | None => fs end else fs.
Lemma f_plain : plain (T "f").
Proof. split; [|split; vm_compute; intuition discriminate]. apply Forall_forall. intros c Hc. vm_compute in Hc. unfold okc. repeat destruct Hc as [<-|Hc]; lia || contradiction. Qed.
Lemma removes_f_ok t fs : wf fs -> wf (removes_f t fs).
Proof.
  intros Wf. unfold removes_f. destruct (Nat.eqb t 5); [|exact Wf]. destruct (fs_remove free fs [] (T "f")) as [f|] eqn:E; [|exact Wf].
  now destruct (dels_remove free _ _ _ _ Wf f_plain E).
Qed.
Lemma removes_f_else t fs : wf fs -> part [T "d"] (removes_f t fs) = part [T "d"] fs.
Proof.
  intros Wf. unfold removes_f. destruct (Nat.eqb t 5); [|reflexivity]. destruct (fs_remove free fs [] (T "f")) as [f|] eqn:E; [|reflexivity].
  assert (f = remove_key fs [T "f"]) as ->.
  { unfold fs_remove, fs_rmdir in E. destruct (resolve fs [] (T "f")) as [q|] eqn:R; [|discriminate]. destruct (resolve_inv _ _ _ _ f_plain R) as [_ ->].
    change (target [] (T "f")) with [T "f"] in E. destruct (lookup fs [T "f"]) as [[|]|]; try discriminate; [|now injection E].
    destruct (children fs [T "f"]); [|discriminate]. now injection E. }
  unfold part, remove_key. clear. induction fs as [|[q e] fs IH]; [reflexivity|]. cbn [filter fst]. destruct (path_dec q [T "f"]) as [->|N]; cbn [filter fst]; [|now rewrite IH].
  rewrite IH. reflexivity.
Qed.
Example C234_example :
  (exists w', live_rmdir_recurse free 9 removes_f [] (T "d") (0%nat, fs_abc) = Ok (w', true) /\ forall q, lookup (snd w') ([T "d"] ++ q) = None) /\
  live_rmdir_recurse free 9 removes_f [] (T "d") (0%nat, fs_abc) = Ok ((19%nat, []), true) /\
  live_list 9 removes_f [] false [] (T "d") (1%nat, fs_abc) = Ok (Some [T "d/a"; T "d/b"; T "d/c"], (8%nat, removes_f 5 fs_abc)).
Proof.
  split; [|split; vm_compute; reflexivity].
  exact (C234_removed [] (T "d") removes_f free 9 0%nat fs_abc d_plain ltac:(discriminate) fs_abc_wf eq_refl ltac:(vm_compute; lia) (fun _ => eq_refl) removes_f_ok removes_f_else).
Qed.
