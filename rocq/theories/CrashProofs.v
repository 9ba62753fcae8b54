From Coq Require Import Lia.
From Verif Require Import Base BaseFacts StrModel StrModel2 StrSpec StrProofs StrMain FsModel PathModel FsSpec PathProofs FsProofs FsMain FsMain2 RenameModel RenameProofs ExactFs FsTree PermProofs CrashModel.
Local Open Scope list_scope.
Local Open Scope Z_scope.

Lemma last_app_ne {A} (l r : list A) d e : r <> [] -> last (l ++ r) d = last r e.
Proof.
  intros N. induction l as [|x l IH]; cbn [app].
  - induction r as [|y r IH]; [contradiction|]. destruct r as [|w r]; [reflexivity|]. cbn [last] in *. apply IH. discriminate.
  - cbn [last]. destruct (l ++ r) eqn:E; [apply app_eq_nil in E as [_ ->]; contradiction|]. exact IH.
Qed.

(** * Writing *)
Lemma write_none fs cwd z append d1 d2 : fs_write fs cwd z append d1 = None -> fs_write fs cwd z append d2 = None.
Proof.
  unfold fs_write. destruct (resolve fs cwd z) as [p|].
  - destruct (lookup fs p) as [[|c]|]; congruence.
  - destruct (last (comps z) []); [reflexivity|]. destruct (new_entry fs cwd z); congruence.
Qed.
Definition data_of (ln : bool) (txt : list Z) : list Z := txt ++ (if ln then [10] else []).
Lemma in_write fs cwd z append ln txt f : In f (write_states fs cwd z append ln txt) ->
  f = fs \/ exists k, fs_write fs cwd z append (firstn k (data_of ln txt)) = Some f.
Proof.
  unfold write_states. intros [H|H]; [left; now symmetry|right]. apply in_flat_map in H as (k & _ & H). exists k. unfold data_of.
  destruct (fs_write fs cwd z append _) as [g|]; [|destruct H]. destruct H as [->|[]]. reflexivity.
Qed.
Lemma write_in fs cwd z append ln txt k f : fs_write fs cwd z append (firstn k (data_of ln txt)) = Some f -> In f (write_states fs cwd z append ln txt).
Proof.
  intros H. right. apply in_flat_map. exists (Nat.min k (List.length (data_of ln txt))). split; [apply in_seq; unfold data_of in *; lia|].
  replace (firstn (Nat.min k (List.length (data_of ln txt))) (txt ++ (if ln then [10] else []))) with (firstn k (data_of ln txt)); [rewrite H; now left|].
  unfold data_of. destruct (Nat.le_ge_cases k (List.length (txt ++ (if ln then [10] else [])))) as [X|X].
  - now rewrite Nat.min_l.
  - rewrite Nat.min_r by exact X. rewrite !firstn_all2 by lia. reflexivity.
Qed.
Lemma write_last fs cwd z append ln txt : last (write_states fs cwd z append ln txt) fs = fst (file_writefc fs cwd z append ln txt).
Proof.
  unfold write_states, file_writefc. set (d := txt ++ (if ln then [10] else [])). destruct (fs_write fs cwd z append d) as [f|] eqn:E; cbn [fst].
  - change (fs :: ?x) with ([fs] ++ x). rewrite seq_S, flat_map_app. cbn [flat_map]. rewrite (firstn_all2 d) by lia. rewrite E. cbn [app].
    change (fs :: ?x) with ([fs] ++ x). rewrite app_assoc. now rewrite last_last.
  - assert (forall l, flat_map (fun k => match fs_write fs cwd z append (firstn k d) with Some g => [g] | None => [] end) l = []) as ->; [|reflexivity].
    induction l as [|k l IH]; [reflexivity|]. cbn [flat_map]. now rewrite (write_none _ _ _ _ _ (firstn k d) E), IH.
Qed.

(** * Nested directories *)
Lemma mkdir_states_last dbg cwd dirs : forall sfull fs,
  match mkdir_states dbg cwd dirs sfull fs with
  | Ok l => mkdir_loop dbg cwd dirs sfull fs = Ok (last l fs) /\ l <> [] /\ forall f, In f l -> exists d1 d2, dirs = d1 ++ d2 /\ mkdir_loop dbg cwd d1 sfull fs = Ok f
  | Abort => mkdir_loop dbg cwd dirs sfull fs = Abort | UB => mkdir_loop dbg cwd dirs sfull fs = UB | NoFuel => mkdir_loop dbg cwd dirs sfull fs = NoFuel
  end.
Proof.
  induction dirs as [|d dirs IH]; intros sfull fs; cbn [mkdir_states mkdir_loop].
  - split; [reflexivity|]. split; [discriminate|]. intros f [<-|[]]. now exists [], [].
  - destruct (str_z d) as [zd| | |] eqn:E1; cbn [bind]; try reflexivity. destruct (str_append dbg sfull zd) as [s1| | |] eqn:E2; cbn [bind]; try reflexivity.
    destruct (str_append dbg s1 sep) as [s2| | |] eqn:E3; cbn [bind]; try reflexivity. destruct (str_z s2) as [zf| | |] eqn:E4; cbn [bind]; try reflexivity.
    specialize (IH s2 (fst (path_mkdir fs cwd zf))). destruct (mkdir_states dbg cwd dirs s2 _) as [l| | |]; cbn [bind]; try exact IH.
    destruct IH as (A & B & C). split; [rewrite A; f_equal; symmetry; change (fs :: l) with ([fs] ++ l); now apply last_app_ne|]. split; [discriminate|].
    intros f [<-|H]; [now exists [], (d :: dirs)|]. destruct (C f H) as (d1 & d2 & -> & X). exists (d :: d1), d2. split; [reflexivity|].
    cbn [mkdir_loop]. rewrite E1. cbn [bind]. rewrite E2. cbn [bind]. rewrite E3. cbn [bind]. rewrite E4. exact X.
Qed.
Lemma parents_states_last dbg fs cwd z l : parents_states dbg fs cwd z = Ok l -> l <> [] /\ exists b, path_mkdir_parents dbg fs cwd z = Ok (last l fs, b).
Proof.
  unfold parents_states, path_mkdir_parents. destruct (path_exists fs cwd z); [intros [= <-]; split; [discriminate|now exists true]|].
  destruct (str_create dbg z) as [s| | |]; cbn [bind]; try discriminate. destruct (str_create_capacity dbg _) as [sf| | |]; cbn [bind]; try discriminate.
  destruct (match z with c :: _ => if c =? 47 then str_append dbg sf sep else Ok sf | [] => Ok sf end) as [s3| | |]; cbn [bind]; try discriminate.
  destruct (str_split dbg _ s sep) as [[dirs|]| | |]; cbn [bind]; try discriminate; [|intros [= <-]; split; [discriminate|now exists false]].
  intros E. pose proof (mkdir_states_last dbg cwd dirs s3 fs) as H. rewrite E in H. destruct H as (A & B & _). split; [exact B|]. rewrite A. cbn [bind]. now exists true.
Qed.
Lemma parents_states_ok dbg fs cwd z r : path_mkdir_parents dbg fs cwd z = Ok r -> exists l, parents_states dbg fs cwd z = Ok l.
Proof.
  unfold parents_states, path_mkdir_parents. destruct (path_exists fs cwd z); [now exists [fs]|].
  destruct (str_create dbg z) as [s| | |]; cbn [bind]; try discriminate. destruct (str_create_capacity dbg _) as [sf| | |]; cbn [bind]; try discriminate.
  destruct (match z with c :: _ => if c =? 47 then str_append dbg sf sep else Ok sf | [] => Ok sf end) as [s3| | |]; cbn [bind]; try discriminate.
  destruct (str_split dbg _ s sep) as [[dirs|]| | |]; cbn [bind]; try discriminate; [|now exists [fs]].
  pose proof (mkdir_states_last dbg cwd dirs s3 fs) as H. destruct (mkdir_states dbg cwd dirs s3 fs) as [l| | |]; [now exists l|rewrite H; discriminate..].
Qed.

(** * Removal *)
Lemma remove_states_last lk cwd l : forall fs, last (remove_states lk fs cwd l) fs = fst (remove_loop lk fs cwd l) /\ remove_states lk fs cwd l <> [] /\
  forall f, In f (remove_states lk fs cwd l) -> exists l1 l2 b, l = l1 ++ l2 /\ remove_loop lk fs cwd l1 = (f, b).
Proof.
  induction l as [|z l IH]; intros fs; cbn [remove_states remove_loop].
  - split; [reflexivity|]. split; [discriminate|]. intros f [<-|[]]. now exists [], [], true.
  - destruct (if path_is_dir fs cwd z then path_rmdir lk fs cwd z else path_remove lk fs cwd z) as [fs1 st] eqn:E. destruct (IH fs1) as (A & B & C). destruct st.
    + split; [change (fs :: ?x) with ([fs] ++ x); rewrite (last_app_ne _ _ _ fs1) by exact B; exact A|]. split; [discriminate|].
      intros f [<-|H]; [now exists [], (z :: l), true|]. destruct (C f H) as (l1 & l2 & b & -> & X). exists (z :: l1), l2, b. split; [reflexivity|].
      cbn [remove_loop]. rewrite E. exact X.
    + split; [reflexivity|]. split; [discriminate|]. intros f [<-|[<-|[]]]; [now exists [], (z :: l), true|]. exists [z], l, false. split; [reflexivity|].
      cbn [remove_loop]. now rewrite E.
Qed.
Lemma recurse_states_last lk fuel fs cwd z l : recurse_states lk fuel fs cwd z = Ok l -> l <> [] /\ exists b, path_rmdir_recurse lk fuel fs cwd z = Ok (last l fs, b).
Proof.
  unfold recurse_states, path_rmdir_recurse. destruct (negb (path_exists fs cwd z)); [intros [= <-]; split; [discriminate|now exists false]|].
  destruct (dir_list_recurse fuel fs cwd false [] z) as [[[|x k]|]| | |]; cbn [bind]; try discriminate.
  - intros [= <-]. split; [discriminate|]. destruct (path_rmdir lk fs cwd z) as [f b]. now exists b.
  - destruct (remove_states_last lk cwd (x :: k) fs) as (A & B & _). destruct (remove_loop lk fs cwd (x :: k)) as [f b] eqn:E. intros X0. cbn [fst] in A.
    assert (l = remove_states lk fs cwd (x :: k) ++ (if b then [fst (path_rmdir lk f cwd z)] else [])) as -> by congruence. clear X0.
    split; [intros X; apply app_eq_nil in X as [X _]; now apply B|]. destruct b.
    + exists true. now rewrite last_last.
    + exists false. rewrite app_nil_r. now rewrite A.
  - intros [= <-]. split; [discriminate|]. destruct (path_rmdir lk fs cwd z) as [f b]. now exists b.
Qed.
Lemma recurse_states_ok lk fuel fs cwd z r : path_rmdir_recurse lk fuel fs cwd z = Ok r -> exists l, recurse_states lk fuel fs cwd z = Ok l.
Proof.
  unfold recurse_states, path_rmdir_recurse. destruct (negb (path_exists fs cwd z)); [eauto|].
  destruct (dir_list_recurse fuel fs cwd false [] z) as [[[|x k]|]| | |]; cbn [bind]; try discriminate; eauto.
  destruct (remove_loop lk fs cwd (x :: k)) as [f b]. eauto.
Qed.

(** * Any call *)
Lemma call_states_last dbg lk fuel cwd fs o l : call_states dbg lk fuel cwd fs o = Ok l -> l <> [] /\ exists b, fstep dbg lk fuel cwd fs o = Ok (last l fs, b).
Proof.
  destruct o; cbn [call_states fstep].
  1: intros [= <-]; split; [discriminate|]; destruct (path_mkdir fs cwd z) as [f b]; now exists b.
  1: apply parents_states_last.
  1: intros [= <-]; split; [discriminate|]; rewrite write_last; destruct (file_writefc fs cwd z append ln txt) as [f b]; now exists b.
  1: intros [= <-]; split; [discriminate|]; destruct (path_remove lk fs cwd z) as [f b]; now exists b.
  1: intros [= <-]; split; [discriminate|]; destruct (path_rmdir lk fs cwd z) as [f b]; now exists b.
  1: apply recurse_states_last.
  intros [= <-]; split; [discriminate|]; destruct (path_rename lk fs cwd z1 z2) as [f b]; now exists b.
Qed.
Lemma call_states_ok dbg lk fuel cwd fs o r : fstep dbg lk fuel cwd fs o = Ok r -> exists l, call_states dbg lk fuel cwd fs o = Ok l.
Proof. destruct o; cbn [call_states fstep]; eauto using parents_states_ok, recurse_states_ok. Qed.
Lemma states_last dbg lk fuel cwd os : forall fs l, states dbg lk fuel cwd fs os = Ok l -> l <> [] /\ frun dbg lk fuel cwd fs os = Ok (last l fs).
Proof.
  induction os as [|o os IH]; intros fs l; cbn [states frun]; [intros [= <-]; now split|].
  destruct (call_states dbg lk fuel cwd fs o) as [k| | |] eqn:E; cbn [bind]; try discriminate. destruct (call_states_last _ _ _ _ _ _ _ E) as (N & b & ->). cbn [bind fst].
  destruct (states dbg lk fuel cwd (last k fs) os) as [r| | |] eqn:E2; cbn [bind]; try discriminate. intros [= <-]. destruct (IH _ _ E2) as [N2 ->].
  split; [intros X; now apply app_eq_nil in X|]. f_equal. symmetry. now apply last_app_ne.
Qed.
Lemma states_ok dbg lk fuel cwd os : forall fs f, frun dbg lk fuel cwd fs os = Ok f -> exists l, states dbg lk fuel cwd fs os = Ok l.
Proof.
  induction os as [|o os IH]; intros fs f; cbn [states frun]; [eauto|].
  intros H. apply bind_ok in H as ([f1 b] & E & H). destruct (call_states_ok _ _ _ _ _ _ _ E) as (k & Ek). rewrite Ek. cbn [bind].
  destruct (call_states_last _ _ _ _ _ _ _ Ek) as (_ & b' & E'). rewrite E in E'. injection E' as -> _. cbn [fst] in H. destruct (IH _ _ H) as (r & ->). cbn [bind]. eauto.
Qed.
(** Each state during a call is again one a call of that kind may leave. *)
Lemma call_tree dbg lk fuel cwd fs o l f : wf fs -> ftexts o -> call_states dbg lk fuel cwd fs o = Ok l -> In f l -> wf f /\ effect o fs f.
Proof.
  intros W F E I.
  assert (forall fs' b, fstep dbg lk fuel cwd fs o = Ok (fs', b) -> wf fs' /\ effect o fs fs') as St by (intros fs' b; now apply step_tree).
  assert (changes_file fs fs) as Rw by (exists []; split; [now left|reflexivity]).
  destruct o as [z|z|z append ln txt|z|z|z|z1 z2]; cbn [call_states fstep ftexts effect] in *.
  - injection E as <-. destruct I as [<-|[<-|[]]]; [split; [exact W|apply adds_refl]|now apply mkdir_tree].
  - revert E. unfold parents_states. destruct (path_exists fs cwd z); [intros [= <-]; destruct I as [<-|[]]; split; [exact W|apply adds_refl]|].
    destruct (str_create dbg z) as [s| | |] eqn:E1; cbn [bind]; try discriminate. destruct (str_create_capacity dbg _) as [sf| | |] eqn:E2; cbn [bind]; try discriminate.
    destruct (match z with c :: _ => if c =? 47 then str_append dbg sf sep else Ok sf | [] => Ok sf end) as [s3| | |] eqn:E3; cbn [bind]; try discriminate.
    destruct (str_split dbg _ s sep) as [[dirs|]| | |] eqn:E4; cbn [bind]; try discriminate; [|intros [= <-]; destruct I as [<-|[]]; split; [exact W|apply adds_refl]].
    intros E. pose proof (mkdir_states_last dbg cwd dirs s3 fs) as H. rewrite E in H. destruct H as (_ & _ & C). destruct (C f I) as (d1 & d2 & Ed & X).
    pose proof (okb_create dbg z s F E1) as Os. pose proof (okb_capacity dbg _ _ E2) as Osf.
    assert (okb (sb s3)) as O3. { destruct z as [|c z]; [injection E3 as <-; exact Osf|]. destruct (c =? 47); [|injection E3 as <-; exact Osf]. eapply okb_append; [exact Osf| |exact E3]. apply sep_ok. }
    assert (Forall (fun x => okb (sb x)) dirs) as Od.
    { unfold str_split in E4. apply bind_ok in E4 as (n & _ & X4). destruct (n =? 0); [discriminate|]. apply bind_ok in X4 as (l0 & X6 & X4). injection X4 as <-.
      exact (okb_split_loop _ _ _ _ _ _ _ Os (Forall_nil _) X6). }
    rewrite Ed in Od. apply Forall_app in Od as [Od _]. exact (mkdir_loop_tree dbg cwd d1 s3 fs f W O3 Od X).
  - injection E as <-. apply in_write in I as [->|[k X]]; [now split|].
    pose proof (write_tree fs cwd z append false (firstn k (data_of ln txt)) W F) as H. unfold file_writefc in H. rewrite app_nil_r, X in H. exact H.
  - injection E as <-. destruct I as [<-|[<-|[]]]; [split; [exact W|apply takes_refl]|now apply remove_tree].
  - injection E as <-. destruct I as [<-|[<-|[]]]; [split; [exact W|apply takes_refl]|now apply rmdir_tree].
  - revert E. unfold recurse_states. destruct (negb (path_exists fs cwd z)); [intros [= <-]; destruct I as [<-|[]]; split; [exact W|apply takes_refl]|].
    destruct (dir_list_recurse fuel fs cwd false [] z) as [[[|x k]|]| | |]; cbn [bind]; try discriminate.
    + intros [= <-]. destruct I as [<-|[<-|[]]]; [split; [exact W|apply takes_refl]|now apply rmdir_tree].
    + destruct (remove_loop lk fs cwd (x :: k)) as [f1 b] eqn:E1. intros X0.
      assert (l = remove_states lk fs cwd (x :: k) ++ (if b then [fst (path_rmdir lk f1 cwd z)] else [])) as -> by congruence. clear X0. apply in_app_iff in I as [I|I].
      * apply remove_states_last in I as (l1 & l2 & b1 & _ & X). replace f with (fst (remove_loop lk fs cwd l1)) by now rewrite X. now apply remove_loop_tree.
      * destruct b; [|destruct I]. destruct I as [<-|[]]. destruct (remove_loop_tree lk cwd (x :: k) fs W) as [W1 T1]. rewrite E1 in W1, T1. cbn [fst] in *.
        destruct (rmdir_tree lk f1 cwd z W1) as [W2 T2]. split; [exact W2|]. eapply takes_trans; eassumption.
    + intros [= <-]. destruct I as [<-|[<-|[]]]; [split; [exact W|apply takes_refl]|now apply rmdir_tree].
  - injection E as <-. destruct F as [F1 F2]. destruct I as [<-|[<-|[]]]; [|now apply rename_tree]. split; [exact W|]. left. reflexivity.
Qed.
Lemma killed_tree dbg lk fuel cwd os : forall fs f, wf fs -> Forall ftexts os -> killed dbg lk fuel cwd fs os f -> wf f.
Proof.
  induction os as [|o os IH]; intros fs f W F (l & E & I); cbn [states] in E; [injection E as <-; destruct I as [<-|[]]; exact W|]. inversion F as [|? ? F1 F2]; subst.
  apply bind_ok in E as (k & Ek & E). apply bind_ok in E as (r & Er & E). injection E as <-. apply in_app_iff in I as [I|I].
  - eapply call_tree; eassumption.
  - apply (IH (last k fs) f); [|assumption|now exists r]. destruct (call_states_last _ _ _ _ _ _ _ Ek) as (N & b & X). eapply step_tree; eassumption.
Qed.
Lemma killed_one dbg lk fuel cwd fs o f : killed dbg lk fuel cwd fs [o] f <-> exists l, call_states dbg lk fuel cwd fs o = Ok l /\ In f l.
Proof.
  unfold killed. cbn [states]. split.
  - intros (l & E & I). apply bind_ok in E as (k & Ek & E). cbn [bind] in E. injection E as <-. exists k. split; [exact Ek|]. apply in_app_iff in I as [I|[<-|[]]]; [exact I|].
    destruct (call_states_last _ _ _ _ _ _ _ Ek) as (N & _). destruct (exists_last N) as (k' & x & ->). rewrite last_last. apply in_app_iff. right. now left.
  - intros (l & E & I). rewrite E. cbn [bind]. eexists. split; [reflexivity|]. apply in_app_iff. now left.
Qed.
(** A sequence is interrupted in one of its calls. *)
Lemma killed_split dbg lk fuel cwd os : forall fs f, os <> [] -> killed dbg lk fuel cwd fs os f ->
  exists os1 o os2 fs1, os = os1 ++ o :: os2 /\ frun dbg lk fuel cwd fs os1 = Ok fs1 /\ killed dbg lk fuel cwd fs1 [o] f.
Proof.
  induction os as [|o os IH]; intros fs f N (l & E & I); [contradiction|]. cbn [states] in E. apply bind_ok in E as (k & Ek & E). apply bind_ok in E as (r & Er & E). injection E as <-.
  apply in_app_iff in I as [I|I]; [exists [], o, os, fs; repeat split; apply killed_one; eauto|].
  destruct (call_states_last _ _ _ _ _ _ _ Ek) as (Nk & b & X). destruct os as [|o2 os].
  - cbn [states] in Er. injection Er as <-. destruct I as [<-|[]]. exists [], o, [], fs. repeat split. apply killed_one. exists k. split; [exact Ek|].
    destruct (exists_last Nk) as (k' & x & ->). rewrite last_last. apply in_app_iff. right. now left.
  - destruct (IH (last k fs) f ltac:(discriminate)) as (os1 & o' & os2 & fs1 & -> & R & K); [now exists r|]. exists (o :: os1), o', os2, fs1. split; [reflexivity|]. split; [|exact K].
    cbn [frun]. rewrite X. exact R.
Qed.

(** * Doing it again *)
Lemma killed_write dbg lk fuel cwd fs z ns n append ln txt f : wf fs -> plain z -> (forall a, z <> a ++ [47]) -> names z = ns ++ [n] ->
  lookup fs (start cwd z ++ ns) = Some EDir -> lookup fs (target cwd z) <> Some EDir ->
  (killed dbg lk fuel cwd fs [OWrite z append ln txt] f -> wf f /\
   (f = fs \/ exists k, lookup f (target cwd z) = Some (EFile (written (lookup fs (target cwd z)) append false (firstn k (data_of ln txt))))) /\
   (forall q, q <> target cwd z -> lookup f q = lookup fs q)) /\
  (forall k, exists f, killed dbg lk fuel cwd fs [OWrite z append ln txt] f /\
     lookup f (target cwd z) = Some (EFile (written (lookup fs (target cwd z)) append false (firstn k (data_of ln txt))))).
Proof.
  intros W P Hs E L K.
  assert (forall k, exists f, fs_write fs cwd z append (firstn k (data_of ln txt)) = Some f /\ wf f /\
     forall q, lookup f q = if path_dec q (target cwd z) then Some (EFile (written (lookup fs (target cwd z)) append false (firstn k (data_of ln txt)))) else lookup fs q) as H.
  { intros k. destruct (write_ok fs cwd z ns n append false (firstn k (data_of ln txt)) W P Hs E L K) as (g & Hw & Wg & Q & _).
    unfold file_writefc in Hw. rewrite app_nil_r in Hw. destruct (fs_write fs cwd z append _) as [g'|]; [|discriminate]. injection Hw as ->. exists g. split; [reflexivity|]. split; [exact Wg|exact Q]. }
  split.
  - intros X. apply killed_one in X as (l & El & I). cbn [call_states] in El. injection El as <-. apply in_write in I as [->|[k X]].
    + split; [exact W|]. split; [now left|reflexivity].
    + destruct (H k) as (g & Hg & Wg & Q). rewrite X in Hg. injection Hg as <-. split; [exact Wg|]. split.
      * right. exists k. rewrite Q. now destruct path_dec.
      * intros q Hq. rewrite Q. now destruct path_dec.
  - intros k. destruct (H k) as (g & Hg & _ & Q). exists g. split.
    + apply killed_one. eexists. split; [reflexivity|]. eapply write_in. exact Hg.
    + rewrite Q. now destruct path_dec.
Qed.

Lemma parents_states_loop dbg fs cwd z : oks z -> In 47 z -> names z <> [] -> (forall a, z <> a ++ [47; 47]) -> zlen z + 2 <= alloc_max -> path_exists fs cwd z = false ->
  exists sf cap ds, parents_states dbg fs cwd z = mkdir_states dbg cwd ds sf fs /\
    srep (pfx (is_abs z) ++ slashed []) cap sf /\ Forall2 (fun p x => exists c, srep p c x) (names z) ds.
Proof.
  intros O Hin Hne Hdd Hf Ex. assert (z <> []) as Hz by (intros ->; contradiction).
  assert (0 < zlen z) as Hz0 by (destruct z; [contradiction|zl; zlia]).
  unfold parents_states. rewrite Ex. destruct (create_ok dbg z O Hz0) as (s & E1 & R1); [lia|]. rewrite E1. cbn [bind].
  unfold str_len. rewrite (r_len _ _ _ R1). rewrite w64_small by zlia.
  destruct (create_capacity_ok dbg (zlen z + 1)) as (sf & E2 & R2); [lia|lia|]. rewrite E2. cbn [bind].
  assert (exists sf' cap', (match z with c :: _ => if c =? 47 then str_append dbg sf sep else Ok sf | [] => Ok sf end) = Ok sf' /\ srep (pfx (is_abs z) ++ slashed []) cap' sf') as (sf' & cap' & E3 & R3).
  { destruct z as [|c z]; [contradiction|]. cbn [is_abs]. destruct (c =? 47); cbn [pfx slashed flat_map app].
    - destruct (append_ok dbg [] _ sf sep R2 sep_ok) as (s' & E' & R'); [rewrite sep_len; lia|rewrite sep_len; zl; zlia|]. eauto.
    - eauto. }
  rewrite E3. cbn [bind].
  destruct (split_scan dbg z _ s sep (comps z) R1) as [_ Sp]; [rewrite sep_len; lia|apply comps_scan|]. unfold lf in Sp.
  assert (1 < zlen (comps z)) as Hl.
  { apply in_split in Hin as (a & b & Ez). rewrite Ez, comps_app, zlen_app. destruct (comps_cons a) as (? & ? & ->), (comps_cons b) as (? & ? & ->). zl. zlia. }
  destruct Sp as (ds & E4 & D); [exact Hl| |].
  { intros l E. apply comps_double in E as [->|[a E]]; [now apply Hne|exact (Hdd a E)]. }
  rewrite E4. cbn [bind]. exists sf', cap', ds. split; [reflexivity|]. split; [exact R3|]. fold (names z) in D. clear -D. induction D; constructor; eauto.
Qed.

Lemma killed_parents dbg lk fuel cwd fs z f : let st := start cwd z in
  wf fs -> oks z -> In 47 z -> names z <> [] -> (forall a, z <> a ++ [47; 47]) -> zlen z + 2 <= alloc_max -> lookup fs cwd = Some EDir ->
  (forall a b, names z = a ++ b -> lookup fs (dest st a) = None \/ lookup fs (dest st a) = Some EDir) ->
  killed dbg lk fuel cwd fs [OMkdirParents z] f ->
  exists f1 f2, path_mkdir_parents dbg fs cwd z = Ok (f1, true) /\ path_mkdir_parents dbg f cwd z = Ok (f2, true) /\ wf f /\
    (forall q, lookup f2 q = lookup f1 q) /\ (forall q, lookup f q = lookup fs q \/ lookup f q = lookup f1 q).
Proof.
  intros st W O Hin Hne Hdd Hf Hc K X. apply killed_one in X as (l & E & I). cbn [call_states] in E.
  destruct (call_tree dbg lk fuel cwd fs (OMkdirParents z) l f W O E I) as [Wf A]. cbn [effect] in A.
  destruct (mkdir_parents_dots dbg fs cwd z W O Hin Hne Hdd Hf Hc K) as (f1 & E1 & W1 & A1 & B1). fold st in A1, B1.
  assert (lookup f cwd = Some EDir) as Hc'. { destruct (A cwd) as [H|[H _]]; congruence. }
  assert (forall a b, names z = a ++ b -> lookup f (dest st a) = None \/ lookup f (dest st a) = Some EDir) as K'.
  { intros a b Eq. destruct (A (dest st a)) as [H|[_ H]]; [rewrite H; exact (K a b Eq)|now right]. }
  destruct (mkdir_parents_dots dbg f cwd z Wf O Hin Hne Hdd Hf Hc' K') as (f2 & E2 & W2 & A2 & B2). fold st in A2, B2.
  assert (forall q, (forall a b, names z = a ++ b -> q <> dest st a) -> lookup f q = lookup fs q) as Off.
  { destruct (path_exists fs cwd z) eqn:Ex; [unfold parents_states in E; rewrite Ex in E; injection E as <-; destruct I as [<-|[]]; reflexivity|].
    destruct (parents_states_loop dbg fs cwd z O Hin Hne Hdd Hf Ex) as (sf & cap & ds & Ep & R & D). rewrite Ep in E.
    pose proof (mkdir_states_last dbg cwd ds sf fs) as H. rewrite E in H. destruct H as (_ & _ & C). destruct (C f I) as (d1 & d2 & -> & X).
    apply Forall2_app_inv_r in D as (n1 & n2 & D1 & D2 & En).
    pose proof (raw_names z O) as Rn. rewrite En in Rn. apply Forall_app in Rn as [Rn _].
    destruct (mkdir_loop_dots dbg cwd z [] n1 d1 [] sf cap fs W) as (fs' & sf5 & cap5 & E5 & _ & _ & _ & B5).
    - exact Rn.
    - exact D1.
    - exact R.
    - cbn [app]. pose proof (pfx_len z) as Hl. rewrite En in Hl. unfold slashed in *. rewrite flat_map_app in Hl. rewrite !zlen_app in *. pose proof (zlen_nonneg (flat_map (fun n => n ++ sep) n2)). 
      match goal with |- context [flat_map ?g n1] => pose proof (zlen_nonneg (flat_map g n2)) end. lia.
    - intros a b Eq. symmetry in Eq. apply app_eq_nil in Eq as [-> _]. cbn [dest fold_left]. unfold start. destruct z as [|c z]; [exact Hc|]. destruct (c =? 47); [reflexivity|exact Hc].
    - intros a b Eq. cbn [app]. apply (K a (b ++ n2)). now rewrite En, Eq, app_assoc.
    - rewrite app_nil_r, X in E5. cbn [mkdir_loop] in E5. injection E5 as ->. intros q Hq. apply B5. cbn [app]. intros a b Eq. apply (Hq a (b ++ n2)). now rewrite En, Eq, app_assoc. }
  exists f1, f2. split; [exact E1|]. split; [exact E2|]. split; [exact Wf|].
  assert (forall q, (exists a b, names z = a ++ b /\ q = dest st a) \/ (forall a b, names z = a ++ b -> q <> dest st a)) as Dec.
  { intros q. destruct (in_dec path_dec q (map (fun k => dest st (firstn k (names z))) (seq 0 (S (List.length (names z)))))) as [J|J].
    - left. apply in_map_iff in J as (k & <- & _). exists (firstn k (names z)), (skipn k (names z)). split; [symmetry; apply firstn_skipn|reflexivity].
    - right. intros a b Eq ->. apply J. apply in_map_iff. exists (List.length a). split; [rewrite Eq, firstn_app, Nat.sub_diag, firstn_all; cbn [firstn]; now rewrite app_nil_r|].
      apply in_seq. rewrite Eq, app_length. lia. }
  split; intros q; destruct (Dec q) as [(a & b & Eq & ->)|N].
  - now rewrite (A2 a b Eq), (A1 a b Eq).
  - now rewrite (B2 q N), (B1 q N), (Off q N).
  - rewrite (A1 a b Eq). destruct (A (dest st a)) as [H|[_ H]]; [now left|now right].
  - left. now apply Off.
Qed.

Lemma depth_less fs f : wf f -> wf fs -> (forall x, lookup f x <> None -> lookup fs x <> None) -> (depth f <= depth fs)%nat.
Proof.
  intros Wf W H. unfold depth at 1. apply list_max_le. apply Forall_forall. intros n I. apply in_map_iff in I as ([q e] & <- & I). cbn [fst].
  destruct q as [|a q]; [cbn [List.length]; lia|]. apply depth_le; [exact W|]. apply H. apply (lookup_in f (a :: q) e Wf) in I; [congruence|discriminate].
Qed.
Lemma killed_recurse dbg lk fuel cwd fs z f : let p := target cwd z in
  wf fs -> plain z -> names z <> [] -> lookup fs p = Some EDir -> (depth fs < fuel)%nat ->
  (forall r, lookup fs (p ++ r) <> None -> lk (p ++ r) = false) ->
  killed dbg lk fuel cwd fs [ORmdirRecurse z] f ->
  wf f /\ (forall x, lookup f x = lookup fs x \/ (exists r, x = p ++ r) /\ lookup f x = None) /\
  exists f1, path_rmdir_recurse lk fuel fs cwd z = Ok (f1, true) /\
    (f = f1 \/ lookup f p = Some EDir /\ exists f2, path_rmdir_recurse lk fuel f cwd z = Ok (f2, true) /\ forall x, lookup f2 x = lookup f1 x).
Proof.
  intros p W P Hn L Hd U K. assert (z <> []) as Hz by (intros ->; now apply Hn).
  apply killed_one in K as (l & E & I). cbn [call_states] in E.
  destruct (rmdir_recurse_ok lk fs cwd z fuel W P Hn L Hd U) as (f1 & E1 & W1 & A1 & B1). fold p in A1, B1.
  pose proof (recurse_states_last _ _ _ _ _ _ E) as (N & b & El). rewrite E1 in El. injection El as El _.
  assert (wf f /\ (f = f1 \/ forall x, lookup f x = lookup fs x \/ (exists q, q <> [] /\ x = p ++ q) /\ lookup f x = None)) as [Wf Hf].
  { pose proof (resolve_dir fs cwd z W P Hz L) as R. fold p in R. revert E. unfold recurse_states.
    assert (path_exists fs cwd z = true) as -> by (unfold path_exists, fs_stat; now rewrite R, L). cbn [negb].
    destruct (dir_list_recurse_ok fs cwd false W fuel z p [] R L) as (qs & E & _ & _ & S); [lia|]. rewrite E. cbn [bind app].
    destruct (map (below_text z) qs) as [|t ts] eqn:M.
    - intros [= <-]. cbn [last] in El. destruct I as [<-|[<-|[]]]; [split; [exact W|]; right; intros x; now left|]. rewrite <- El. split; [exact W1|now left].
    - destruct (remove_loop lk fs cwd (t :: ts)) as [g b1] eqn:E2. intros X0.
      assert (l = remove_states lk fs cwd (t :: ts) ++ (if b1 then [fst (path_rmdir lk g cwd z)] else [])) as -> by congruence. clear X0.
      apply in_app_iff in I as [I|I].
      + apply remove_states_last in I as (l1 & l2 & b2 & Em & X). rewrite <- M in Em.
        assert (exists q1, l1 = map (below_text z) q1 /\ forall q, In q q1 -> In q qs) as (q1 & -> & Sub).
        { apply map_eq_app in Em as (q1 & q2 & -> & <- & _). exists q1. split; [reflexivity|]. intros q J. apply in_app_iff. now left. }
        destruct (remove_part lk cwd z P Hz q1 fs f b2 W) as (Wf & Lf & _); [|exact X|].
        * intros q J. apply Sub, S in J as (_ & J & _). pose proof (wf_names fs _ W J) as F. apply Forall_app in F. tauto.
        * split; [exact Wf|]. right. intros x. destruct (Lf x) as [Y|[(q & J & ->) Y]]; [now left|right]. split; [|exact Y]. exists q. split; [|reflexivity].
          apply Sub, S in J as (J & _). exact J.
      + destruct b1; [|destruct I]. destruct I as [<-|[]]. rewrite last_last in El. rewrite <- El. split; [exact W1|now left]. }
  split; [exact Wf|]. split.
  - destruct Hf as [->|Hf].
    + intros x. destruct (below p x) as [r|] eqn:Eb; [apply below_spec in Eb; subst x; right; split; [now exists r|apply A1]|left].
      apply B1. intros r ->. rewrite (proj2 (below_spec p (p ++ r) r)) in Eb; [discriminate|reflexivity].
    + intros x. destruct (Hf x) as [Y|[(q & _ & ->) Y]]; [now left|right]. split; [now exists q|exact Y].
  - exists f1. split; [exact E1|]. destruct Hf as [->|Hf]; [now left|right].
    assert (lookup f p = Some EDir) as Lp. { destruct (Hf p) as [Y|[(q & Hq & Y) _]]; [congruence|]. apply app_self in Y. contradiction. }
    split; [exact Lp|].
    assert (forall x, lookup f x <> None -> lookup fs x <> None) as Sub by (intros x; destruct (Hf x) as [->|[_ ->]]; [auto|contradiction]).
    destruct (rmdir_recurse_ok lk f cwd z fuel Wf P Hn Lp) as (f2 & E2 & W2 & A2 & B2).
    + pose proof (depth_less fs f Wf W Sub). lia.
    + intros r K. apply U. now apply Sub.
    + fold p in A2, B2. exists f2. split; [exact E2|]. intros x. destruct (below p x) as [r|] eqn:Eb; [apply below_spec in Eb; subst x; now rewrite A2, A1|].
      assert (forall r, x <> p ++ r) as Nx by (intros r ->; rewrite (proj2 (below_spec p (p ++ r) r)) in Eb; [discriminate|reflexivity]).
      rewrite B2, B1 by exact Nx. destruct (Hf x) as [Y|[(q & _ & Y) _]]; [exact Y|now elim (Nx q)].
Qed.

(** * Through a temporary file *)
Lemma killed_replace dbg lk fuel cwd fs zt z ns n ln txt f : wf fs -> plain zt -> plain z -> (forall a, zt <> a ++ [47]) -> names zt = ns ++ [n] ->
  lookup fs (start cwd zt ++ ns) = Some EDir -> lookup fs (target cwd zt) <> Some EDir -> target cwd zt <> target cwd z ->
  killed dbg lk fuel cwd fs [OWrite zt false ln txt; ORename zt z] f ->
  wf f /\ (lookup f (target cwd z) = lookup fs (target cwd z) \/ lookup f (target cwd z) = Some (EFile (data_of ln txt)) /\ lookup f (target cwd zt) = None) /\
  (forall q, q <> target cwd zt -> q <> target cwd z -> lookup f q = lookup fs q).
Proof.
  intros W Pt P Hs E L K Ne X. apply killed_split in X as (os1 & o & os2 & fs1 & Eo & R & Kl); [|discriminate].
  destruct os1 as [|o1 os1].
  - injection Eo as <- <-. cbn [frun] in R. injection R as <-.
    destruct (killed_write dbg lk fuel cwd fs zt ns n false ln txt f W Pt Hs E L K) as [H _]. destruct (H Kl) as (Wf & _ & O). split; [exact Wf|].
    split; [left; apply O; now apply not_eq_sym|]. intros q Hq _. now apply O.
  - destruct os1 as [|o2 os1]; [|destruct os1; discriminate]. injection Eo as <- <- <-. cbn [frun fstep bind] in R.
    destruct (write_ok fs cwd zt ns n false ln txt W Pt Hs E L K) as (g & Hw & Wg & Q & _). rewrite Hw in R. cbn [fst] in R. injection R as <-.
    apply killed_one in Kl as (l & El & I). cbn [call_states] in El. injection El as <-.
    assert (lookup g (target cwd zt) = Some (EFile (data_of ln txt))) as Lt by (rewrite Q; destruct path_dec; [|contradiction]; unfold written; destruct (lookup fs (target cwd zt)) as [[|c]|]; reflexivity).
    assert (forall q, q <> target cwd zt -> lookup g q = lookup fs q) as O by (intros q Hq; rewrite Q; now destruct path_dec).
    assert (f = g -> wf f /\ (lookup f (target cwd z) = lookup fs (target cwd z) \/ lookup f (target cwd z) = Some (EFile (data_of ln txt)) /\ lookup f (target cwd zt) = None) /\
      (forall q, q <> target cwd zt -> q <> target cwd z -> lookup f q = lookup fs q)) as Same.
    { intros ->. split; [exact Wg|]. split; [left; apply O; now apply not_eq_sym|]. intros q Hq _. now apply O. }
    destruct I as [<-|[<-|[]]]; [now apply Same|].
    destruct (path_rename lk g cwd zt z) as [h b] eqn:Er. cbn [fst] in *. destruct (rename_effect lk g cwd zt z h b Wg P Er) as [Hf Ht].
    destruct b; [|apply Same; now apply Hf]. destruct (Ht eq_refl) as (p & Rp & Hp & Lp & Wh & _ & Hm). apply resolve_inv in Rp as [_ ->]; [|exact Pt].
    destruct (Hm Ne) as (M1 & M2 & M3 & M4). split; [exact Wh|]. split.
    + right. split; [specialize (M1 []); rewrite !app_nil_r in M1; now rewrite M1|]. specialize (M2 []). now rewrite app_nil_r in M2.
    + assert (forall a r, lookup g (target cwd zt ++ a :: r) = None) as Leaf.
      { intros a r. destruct (lookup g (target cwd zt ++ a :: r)) eqn:Y; [|reflexivity]. exfalso.
        assert (lookup g (target cwd zt) = Some EDir) as D by (apply (wf_prefix g _ (a :: r) Wg); [congruence|discriminate]). congruence. }
      intros q Hq1 Hq2. assert (lookup g q = lookup fs q) as <- by now apply O. destruct (below (target cwd zt) q) as [r|] eqn:Eb.
      * apply below_spec in Eb. subst q. rewrite M2. destruct r as [|a r]; [rewrite app_nil_r in Hq1; contradiction|]. symmetry. now apply Leaf.
      * destruct (below (target cwd z) q) as [r|] eqn:Ez.
        -- apply below_spec in Ez. subst q. destruct r as [|a r]; [rewrite app_nil_r in Hq2; contradiction|]. rewrite M1, Leaf. symmetry.
           destruct (lookup g (target cwd z ++ a :: r)) eqn:Y; [|reflexivity]. exfalso.
           assert (lookup g (target cwd z) = Some EDir) as D by (apply (wf_prefix g _ (a :: r) Wg); [congruence|discriminate]).
           destruct M4 as [M4|[(M4 & _)|(c & c' & _ & M4)]]; congruence.
        -- apply M3; intros r ->; [rewrite (proj2 (below_spec _ (target cwd zt ++ r) r)) in Eb by reflexivity|rewrite (proj2 (below_spec _ (target cwd z ++ r) r)) in Ez by reflexivity]; discriminate.
Qed.
Lemma parents_first dbg fs cwd z l : parents_states dbg fs cwd z = Ok l -> In fs l.
Proof.
  unfold parents_states. destruct (path_exists fs cwd z); [intros [= <-]; now left|]. intros H. apply bind_ok in H as (s & _ & H). apply bind_ok in H as (s1 & _ & H). apply bind_ok in H as (s2 & _ & H).
  apply bind_ok in H as ([dirs|] & _ & H); [|injection H as <-; now left]. destruct dirs as [|d dirs]; cbn [mkdir_states] in H; [injection H as <-; now left|].
  apply bind_ok in H as (x1 & _ & H). apply bind_ok in H as (x2 & _ & H). apply bind_ok in H as (x3 & _ & H). apply bind_ok in H as (x4 & _ & H). apply bind_ok in H as (x5 & _ & H). injection H as <-. now left.
Qed.
Lemma recurse_first lk fuel fs cwd z l : recurse_states lk fuel fs cwd z = Ok l -> In fs l.
Proof.
  unfold recurse_states. destruct (negb (path_exists fs cwd z)); [intros [= <-]; now left|]. intros H. apply bind_ok in H as ([[|x k]|] & _ & H); try (injection H as <-; now left).
  cbn [remove_states] in H. destruct (remove_loop lk fs cwd (x :: k)) as [g b]. destruct (if path_is_dir fs cwd x then path_rmdir lk fs cwd x else path_remove lk fs cwd x) as [f' st].
  injection H as <-. now left.
Qed.
