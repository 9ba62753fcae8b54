(** Removing a directory with its contents while other processes work on the file system (C230, C231).

    [env t fs]: what the others have made of the file system [fs] when the [t]-th system call of the function is made.  Simplification: what readdir gives
    is the contents of the directory when it was opened. *)
From Verif Require Import Base BaseFacts StrModel StrModel2 StrSpec FsModel PathModel FsSpec FsProofs FsMain FsMain2.

(** The number of system calls made, and the file system. *)
Definition world : Type := nat * fsys.
Definition tick (env : nat -> fsys -> fsys) (w : world) : world := (S (fst w), env (fst w) (snd w)).

(** vt_path_dir_list_recurse, path.c:139-203, with a system call for each vt_path_exists, opendir and vt_path_is_dir. *)
Fixpoint live_list_loop (rec : list (list Z) -> list Z -> world -> res (option (list (list Z)) * world)) (env : nat -> fsys -> fsys) (cwd : path) (ign : bool)
    (z : list Z) (names : list name) (pl : list (list Z)) (w : world) : res (option (list (list Z)) * world) :=
  match names with
  | [] => Ok (Some pl, w)
  | n :: names' =>
      if hidden ign n then live_list_loop rec env cwd ign z names' pl w else
      let st := z ++ sep ++ n in
      let w := tick env w in
      if path_is_dir (snd w) cwd st then
        let* r := rec pl st w in
        match fst r with
        | None => Ok (Some pl, snd r)                       (* break *)
        | Some pl => live_list_loop rec env cwd ign z names' (pl ++ [st]) (snd r)
        end
      else live_list_loop rec env cwd ign z names' (pl ++ [st]) w
  end.
Fixpoint live_list (fuel : nat) (env : nat -> fsys -> fsys) (cwd : path) (ign : bool) (pl : list (list Z)) (z : list Z) (w : world) : res (option (list (list Z)) * world) :=
  match fuel with
  | O => NoFuel
  | S f =>
      let w := tick env w in
      if negb (path_exists (snd w) cwd z) then Ok (None, w) else
      let w := tick env w in
      match fs_readdir (snd w) cwd z with
      | None => Ok (None, w)
      | Some names => live_list_loop (live_list f env cwd ign) env cwd ign z names pl w
      end
  end.

(** vt_path_rmdir, path.c:366-383, and vt_path_remove, 437-448: the check, then the removal. *)
Definition live_rm (del : fsys -> path -> list Z -> option fsys) (env : nat -> fsys -> fsys) (cwd : path) (z : list Z) (w : world) : world * bool :=
  let w := tick env w in
  if negb (path_exists (snd w) cwd z) then (w, false) else
  let w := tick env w in
  match del (snd w) cwd z with Some fs => ((fst w, fs), true) | None => (w, false) end.

(** vt_path_rmdir_recurse, path.c:385-435. *)
Fixpoint live_remove_loop (lk : path -> bool) (env : nat -> fsys -> fsys) (cwd : path) (l : list (list Z)) (w : world) : world * bool :=
  match l with
  | [] => (w, true)
  | z :: l' =>
      let w := tick env w in
      let '(w, status) := if path_is_dir (snd w) cwd z then live_rm (fs_rmdir lk) env cwd z w else live_rm (fs_remove lk) env cwd z w in
      if status then live_remove_loop lk env cwd l' w else (w, false)
  end.
Definition live_rmdir_recurse (lk : path -> bool) (fuel : nat) (env : nat -> fsys -> fsys) (cwd : path) (z : list Z) (w : world) : res (world * bool) :=
  let w := tick env w in
  if negb (path_exists (snd w) cwd z) then Ok (w, false) else
  let* r := live_list fuel env cwd false [] z w in
  let w := snd r in
  match fst r with
  | None | Some [] => Ok (live_rm (fs_rmdir lk) env cwd z w)
  | Some l =>
      let '(w, status) := live_remove_loop lk env cwd l w in
      if status then Ok (fst (live_rm (fs_rmdir lk) env cwd z w), true) else Ok (w, false)
  end.

(** The others leave a proper tree; they leave the place [q] alone; they only remove. *)
Definition env_ok (env : nat -> fsys -> fsys) : Prop := forall t fs, wf fs -> wf (env t fs).
Definition env_keeps (env : nat -> fsys -> fsys) (q : path) : Prop := forall t fs, wf fs -> lookup (env t fs) q = lookup fs q.
Definition env_removes (env : nat -> fsys -> fsys) : Prop := forall t fs q, wf fs -> lookup (env t fs) q = None \/ lookup (env t fs) q = lookup fs q.

(** * Everything listed lies below the directory *)
Definition under (z st : list Z) : Prop := exists ns, Forall okname ns /\ st = below_text z ns.
Lemma under_step z st n : under z st -> okname n -> under z (st ++ sep ++ n).
Proof.
  intros (ns & F & ->) On. exists (ns ++ [n]). split; [apply Forall_app; split; [exact F|constructor; [exact On|constructor]]|].
  unfold below_text, sep. rewrite flat_map_app. cbn [flat_map]. rewrite app_nil_r, <- app_assoc. reflexivity.
Qed.
Definition adds_under (z0 : list Z) (W : world -> Prop) (rec : list (list Z) -> list Z -> world -> res (option (list (list Z)) * world)) : Prop :=
  forall pl z w r w', under z0 z -> Forall (under z0) pl -> W w -> rec pl z w = Ok (r, w') -> W w' /\ match r with Some l => Forall (under z0) l | None => True end.
Lemma loop_under z0 (W : world -> Prop) rec env cwd ign : (forall w, W w -> W (tick env w)) -> adds_under z0 W rec ->
  forall names z pl w r w', Forall (fun n => hidden ign n = false -> okname n) names -> under z0 z -> Forall (under z0) pl -> W w ->
  live_list_loop rec env cwd ign z names pl w = Ok (r, w') -> W w' /\ match r with Some l => Forall (under z0) l | None => True end.
Proof.
  intros Ht Hr. induction names as [|n names IH]; intros z pl w r w' Fn Hz Hp Hw; cbn [live_list_loop].
  - intros [= <- <-]. now split.
  - inversion Fn as [|? ? Hn Fn']; subst. destruct (hidden ign n); [now apply IH|]. specialize (Hn eq_refl).
    pose proof (under_step z0 z n Hz Hn) as Hst. assert (Hp' : forall l, Forall (under z0) l -> Forall (under z0) (l ++ [z ++ sep ++ n])) by (intros l Hl; apply Forall_app; split; [exact Hl|constructor; [exact Hst|constructor]]).
    specialize (Ht w Hw) as Hw1. destruct (path_is_dir _ _ _); [|now apply IH; auto].
    destruct (rec pl (z ++ sep ++ n) (tick env w)) as [[[l|] w2]| | |] eqn:E; cbn [bind fst snd]; try discriminate.
    + destruct (Hr _ _ _ _ _ Hst Hp Hw1 E) as [Hw2 Hl]. now apply IH; auto.
    + destruct (Hr _ _ _ _ _ Hst Hp Hw1 E) as [Hw2 _]. intros [= <- <-]. now split.
Qed.
Lemma readdir_names fs cwd z ns ign : wf fs -> fs_readdir fs cwd z = Some ns -> Forall (fun n => hidden ign n = false -> okname n) ns.
Proof.
  intros Wf H. unfold fs_readdir in H. destruct (resolve fs cwd z) as [p|]; [|discriminate]. destruct (lookup fs p) as [[|]|]; try discriminate. injection H as <-.
  constructor; [now rewrite hidden_dot|]. constructor; [now rewrite hidden_dotdot|]. apply Forall_forall. intros n Hn _. apply children_spec in Hn; [|exact Wf].
  now apply wf_parent in Hn.
Qed.
Lemma list_under z0 (W : world -> Prop) env cwd ign : (forall w, W w -> W (tick env w)) -> (forall w, W w -> wf (snd w)) ->
  forall fuel, adds_under z0 W (live_list fuel env cwd ign).
Proof.
  intros Ht Hw. induction fuel as [|f IH]; intros pl z w r w' Hz Hp HW; cbn [live_list]; [discriminate|].
  pose proof (Ht _ HW) as H1. destruct (path_exists _ _ _); cbn [negb]; [|intros [= <- <-]; now split].
  pose proof (Ht _ H1) as H2. destruct (fs_readdir _ cwd z) as [ns|] eqn:E; [|intros [= <- <-]; now split].
  intros H. eapply loop_under; [exact Ht|exact IH|eapply readdir_names; [|exact E]; now apply Hw|exact Hz|exact Hp|exact H2|exact H].
Qed.

(** * One removal *)
Lemma rmdir_some lk fs cwd z fs' : fs_rmdir lk fs cwd z = Some fs' -> path_rmdir lk fs cwd z = (fs', true).
Proof.
  intros H. unfold path_rmdir. rewrite H. unfold path_exists, fs_stat. unfold fs_rmdir in H. destruct (resolve fs cwd z) as [[|a p]|]; try discriminate.
  destruct (lookup fs (a :: p)); [reflexivity|discriminate].
Qed.
Lemma remove_some lk fs cwd z fs' : fs_remove lk fs cwd z = Some fs' -> path_remove lk fs cwd z = (fs', true).
Proof.
  intros H. unfold path_remove. rewrite H. unfold path_exists, fs_stat. unfold fs_remove in H. destruct (resolve fs cwd z) as [p|]; try discriminate.
  destruct (lookup fs p); [reflexivity|discriminate].
Qed.
(** What one removal of the text [z] does: the place it denotes is gone, the rest as before. *)
Definition dels (del : fsys -> path -> list Z -> option fsys) : Prop :=
  forall fs cwd z fs', wf fs -> plain z -> del fs cwd z = Some fs' -> wf fs' /\ lookup fs' (target cwd z) = None /\ forall q, q <> target cwd z -> lookup fs' q = lookup fs q.
Lemma dels_rmdir lk : dels (fs_rmdir lk).
Proof.
  intros fs cwd z fs' Wf P H. apply rmdir_some in H. destruct (rmdir_effect _ _ _ _ _ _ Wf H) as (A & B & _). destruct (B eq_refl) as (p & R & _ & _ & X & Y).
  destruct (resolve_inv _ _ _ _ P R) as [_ ->]. auto.
Qed.
Lemma dels_remove lk : dels (fs_remove lk).
Proof.
  intros fs cwd z fs' Wf P H. apply remove_some in H. destruct (remove_effect _ _ _ _ _ _ Wf H) as (A & B & _). destruct (B eq_refl) as (p & R & _ & _ & X & Y).
  destruct (resolve_inv _ _ _ _ P R) as [_ ->]. auto.
Qed.

(** An invariant of the file system that the others keep and that does not depend on places below [p]. *)
Definition stable (env : nat -> fsys -> fsys) (p : path) (I : fsys -> Prop) : Prop :=
  (forall t fs, I fs -> I (env t fs)) /\
  (forall fs fs' d, I fs -> wf fs' -> lookup fs' (p ++ d) = None -> (forall q, q <> p ++ d -> lookup fs' q = lookup fs q) -> I fs').
Lemma live_rm_inv del env cwd z0 z w w' b (I : fsys -> Prop) : dels del -> (forall fs, I fs -> wf fs) -> stable env (target cwd z0) I -> plain z0 -> z0 <> [] -> under z0 z ->
  I (snd w) -> live_rm del env cwd z w = (w', b) -> I (snd w') /\ (b = true -> lookup (snd w') (target cwd z) = None).
Proof.
  intros D HW [S1 S2] P0 N0 (ns & F & ->) HI H. unfold live_rm in H.
  destruct (path_exists _ _ _); cbn [negb] in H; [|injection H as <- <-; split; [now apply S1|discriminate]].
  cbn [tick snd fst] in H. destruct (del _ cwd _) as [fs'|] eqn:E; injection H as <- <-; [|split; [cbn [snd]; now apply S1, S1|discriminate]].
  cbn [snd]. assert (HI2 : I (env (S (fst w)) (env (fst w) (snd w)))) by now apply S1, S1.
  destruct (D _ _ _ _ (HW _ HI2) (below_plain _ _ P0 F) E) as (A & B & C).
  assert (target cwd (below_text z0 ns) = target cwd z0 ++ ns) as T.
  { unfold target. rewrite below_names by exact F. unfold below_text. rewrite start_app by exact N0. now rewrite app_assoc. }
  split; [|intros _; exact B]. rewrite T in *. eapply S2; eassumption.
Qed.
Lemma live_loop_inv lk env cwd z0 (I : fsys -> Prop) : (forall fs, I fs -> wf fs) -> stable env (target cwd z0) I -> plain z0 -> z0 <> [] ->
  forall l w w' b, Forall (under z0) l -> I (snd w) -> live_remove_loop lk env cwd l w = (w', b) -> I (snd w').
Proof.
  intros HW HS P0 N0. induction l as [|z l IH]; intros w w' b F HI H; cbn [live_remove_loop] in H; [injection H as <- <-; exact HI|].
  inversion F as [|? ? Fz F']; subst. assert (HI1 : I (snd (tick env w))) by now apply HS.
  destruct (if path_is_dir (snd (tick env w)) cwd z then _ else _) as [w1 st] eqn:E.
  assert (I (snd w1)) as HI2.
  { destruct (path_is_dir _ cwd z); [exact (proj1 (live_rm_inv _ _ _ _ _ _ _ _ _ (dels_rmdir lk) HW HS P0 N0 Fz HI1 E))|exact (proj1 (live_rm_inv _ _ _ _ _ _ _ _ _ (dels_remove lk) HW HS P0 N0 Fz HI1 E))]. }
  destruct st; [now apply (IH w1 w' b)|injection H as <- <-; exact HI2].
Qed.
Lemma under_self z : under z z.
Proof. exists []. split; [constructor|]. unfold below_text. cbn. now rewrite app_nil_r. Qed.

Lemma live_inv lk fuel env cwd z w w' b (I : fsys -> Prop) : (forall fs, I fs -> wf fs) -> stable env (target cwd z) I -> plain z -> z <> [] -> I (snd w) ->
  live_rmdir_recurse lk fuel env cwd z w = Ok (w', b) -> I (snd w').
Proof.
  intros HW HS P N HI H. unfold live_rmdir_recurse in H. assert (HI1 : I (snd (tick env w))) by now apply HS.
  destruct (path_exists _ _ _); cbn [negb] in H; [|injection H as <- <-; exact HI1].
  destruct (live_list fuel env cwd false [] z (tick env w)) as [[r w1]| | |] eqn:E; cbn [bind fst snd] in H; try discriminate.
  destruct (list_under z (fun w => I (snd w)) env cwd false (fun w0 => proj1 HS (fst w0) (snd w0)) (fun w0 => HW (snd w0)) fuel [] z (tick env w) r w1 (under_self z) (Forall_nil _) HI1 E) as [HI2 Hl].
  assert (G : forall w2 w3 b3, I (snd w2) -> live_rm (fs_rmdir lk) env cwd z w2 = (w3, b3) -> I (snd w3))
    by (intros w2 w3 b3 H2 H3; exact (proj1 (live_rm_inv _ _ _ z z _ _ _ I (dels_rmdir lk) HW HS P N (under_self z) H2 H3))).
  destruct r as [[|x l]|].
  - injection H as H. exact (G _ _ _ HI2 H).
  - destruct (live_remove_loop lk env cwd (x :: l) w1) as [w2 st] eqn:L. pose proof (live_loop_inv lk env cwd z I HW HS P N _ _ _ _ Hl HI2 L) as HI3.
    destruct st; [|injection H as <- <-; exact HI3]. destruct (live_rm (fs_rmdir lk) env cwd z w2) as [w3 b3] eqn:R. injection H as <- <-. cbn [fst]. exact (G _ _ _ HI3 R).
  - injection H as H. exact (G _ _ _ HI2 H).
Qed.

(** C230 *)
Lemma live_outside lk fuel env cwd z fs t t' fs' b q : wf fs -> env_ok env -> plain z -> z <> [] -> below (target cwd z) q = None -> env_keeps env q ->
  live_rmdir_recurse lk fuel env cwd z (t, fs) = Ok ((t', fs'), b) -> wf fs' /\ lookup fs' q = lookup fs q.
Proof.
  intros Wf EO P N Hq K H. change fs' with (snd (t', fs')).
  apply (live_inv lk fuel env cwd z (t, fs) (t', fs') b (fun f => wf f /\ lookup f q = lookup fs q)); try assumption.
  - intros f [A _]. exact A.
  - split; [intros t0 f [A B]; split; [now apply EO|rewrite (K t0 f A); exact B]|]. intros f f' d [A B] A' _ C. split; [exact A'|].
    rewrite C; [exact B|]. intros ->. assert (below (target cwd z) (target cwd z ++ d) = Some d) by now apply below_spec. congruence.
  - now split.
Qed.

(** * If the others begin after the listing and only remove *)
Definition quiet (env : nat -> fsys -> fsys) (n : nat) : Prop := forall t fs, (t < n)%nat -> env t fs = fs.
Definition as_alone (n : nat) (fs : fsys) (rec : list (list Z) -> list Z -> world -> res (option (list (list Z)) * world)) (srec : list (list Z) -> list Z -> res (option (list (list Z)))) : Prop :=
  forall pl z w r w', rec pl z w = Ok (r, w') -> (fst w <= fst w')%nat /\ ((fst w' <= n)%nat -> snd w = fs -> snd w' = fs /\ srec pl z = Ok r).
Lemma loop_quiet env n fs rec srec cwd ign : quiet env n -> as_alone n fs rec srec ->
  forall names z pl w r w', live_list_loop rec env cwd ign z names pl w = Ok (r, w') ->
  (fst w <= fst w')%nat /\ ((fst w' <= n)%nat -> snd w = fs -> snd w' = fs /\ list_loop srec fs cwd ign z names pl = Ok r).
Proof.
  intros Q A. induction names as [|m names IH]; intros z pl w r w' H; cbn [live_list_loop list_loop] in *.
  - injection H as <- <-. split; [lia|]. intros _ ->. now split.
  - destruct (hidden ign m); [now apply IH|].
    assert (T : (S (fst w) <= n)%nat -> snd w = fs -> snd (tick env w) = fs) by (intros L E; cbn [tick snd]; rewrite E; apply Q; lia).
    destruct (path_is_dir (snd (tick env w)) cwd (z ++ sep ++ m)) eqn:D.
    + destruct (rec pl (z ++ sep ++ m) (tick env w)) as [[[l|] w2]| | |] eqn:E; cbn [bind fst snd] in H; try discriminate.
      * destruct (A _ _ _ _ _ E) as [L1 G1]. destruct (IH _ _ _ _ _ H) as [L2 G2]. cbn [tick fst] in L1. split; [lia|]. intros Ln Ew.
        specialize (T ltac:(lia) Ew). destruct (G1 ltac:(lia) T) as [E2 S2]. destruct (G2 Ln E2) as [E3 S3]. split; [exact E3|].
        rewrite T in D. rewrite D, S2. exact S3.
      * destruct (A _ _ _ _ _ E) as [L1 G1]. cbn [tick fst] in L1. injection H as <- <-. split; [lia|]. intros Ln Ew. specialize (T ltac:(lia) Ew).
        destruct (G1 ltac:(lia) T) as [E2 S2]. split; [exact E2|]. rewrite T in D. rewrite D, S2. reflexivity.
    + destruct (IH _ _ _ _ _ H) as [L2 G2]. cbn [tick fst] in L2. split; [lia|]. intros Ln Ew. specialize (T ltac:(lia) Ew). destruct (G2 Ln T) as [E3 S3].
      split; [exact E3|]. rewrite T in D. rewrite D. exact S3.
Qed.
Lemma list_quiet env n fs cwd ign : quiet env n -> forall fuel, as_alone n fs (live_list fuel env cwd ign) (dir_list_recurse fuel fs cwd ign).
Proof.
  intros Q. induction fuel as [|f IH]; intros pl z w r w' H; cbn [live_list dir_list_recurse] in *; [discriminate|].
  assert (T : (S (fst w) <= n)%nat -> snd w = fs -> snd (tick env w) = fs) by (intros L E; cbn [tick snd]; rewrite E; apply Q; lia).
  destruct (path_exists (snd (tick env w)) cwd z) eqn:X; cbn [negb] in H.
  - assert (T2 : (S (S (fst w)) <= n)%nat -> snd w = fs -> snd (tick env (tick env w)) = fs).
    { intros L E. specialize (T ltac:(lia) E). unfold tick at 1. cbn [snd]. rewrite T. apply Q. cbn [tick fst]. lia. }
    destruct (fs_readdir (snd (tick env (tick env w))) cwd z) as [ns|] eqn:E.
    + destruct (loop_quiet env n fs _ _ cwd ign Q IH _ _ _ _ _ _ H) as [L G]. cbn [tick fst] in L. split; [lia|]. intros Ln Ew.
      specialize (T ltac:(lia) Ew). specialize (T2 ltac:(lia) Ew). destruct (G Ln T2) as [E3 S3]. split; [exact E3|]. rewrite T in X. rewrite T2 in E. rewrite X, E. exact S3.
    + injection H as <- <-. cbn [tick fst]. split; [lia|]. intros Ln Ew. specialize (T ltac:(lia) Ew). specialize (T2 ltac:(lia) Ew). split; [exact T2|].
      rewrite T in X. rewrite T2 in E. rewrite X, E. reflexivity.
  - injection H as <- <-. cbn [tick fst]. split; [lia|]. intros Ln Ew. specialize (T ltac:(lia) Ew). split; [exact T|]. rewrite T in X. rewrite X. reflexivity.
Qed.

(** Only removed so far, and [x] is gone. *)
Definition only_less (fs0 f : fsys) : Prop := wf f /\ forall q, lookup f q = None \/ lookup f q = lookup fs0 q.
Lemma less_stable env p fs0 : env_ok env -> env_removes env -> stable env p (only_less fs0).
Proof.
  intros EO ER. split.
  - intros t f [A B]. split; [now apply EO|]. intros q. destruct (ER t f q A) as [E|E]; [now left|]. rewrite E. apply B.
  - intros f f' d [A B] A' G C. split; [exact A'|]. intros q. destruct (path_dec q (p ++ d)) as [->|Hne]; [now left|]. rewrite C by exact Hne. apply B.
Qed.
Lemma gone_stable env p fs0 x : env_ok env -> env_removes env -> stable env p (fun f => only_less fs0 f /\ lookup f x = None).
Proof.
  intros EO ER. destruct (less_stable env p fs0 EO ER) as [S1 S2]. split.
  - intros t f [A B]. split; [now apply S1|]. destruct (ER t f x (proj1 A)) as [E|E]; [exact E|congruence].
  - intros f f' d [A B] A' G C. split; [now apply (S2 f f' d)|]. destruct (path_dec x (p ++ d)) as [->|Hne]; [exact G|]. now rewrite C by exact Hne.
Qed.
Lemma loop_gone lk env cwd z0 fs0 : env_ok env -> env_removes env -> plain z0 -> z0 <> [] ->
  forall l w w', Forall (under z0) l -> only_less fs0 (snd w) -> live_remove_loop lk env cwd l w = (w', true) ->
  only_less fs0 (snd w') /\ forall st, In st l -> lookup (snd w') (target cwd st) = None.
Proof.
  intros EO ER P0 N0. assert (HW : forall f, only_less fs0 f -> wf f) by (intros f [A _]; exact A). pose proof (less_stable env (target cwd z0) fs0 EO ER) as HS.
  induction l as [|z l IH]; intros w w' F HI H; cbn [live_remove_loop] in H; [injection H as <-; split; [exact HI|intros ? []]|].
  inversion F as [|? ? Fz F']; subst. assert (HI1 : only_less fs0 (snd (tick env w))) by now apply HS.
  destruct (if path_is_dir (snd (tick env w)) cwd z then _ else _) as [w1 st] eqn:E.
  assert (only_less fs0 (snd w1) /\ (st = true -> lookup (snd w1) (target cwd z) = None)) as [HI2 G].
  { destruct (path_is_dir _ cwd z); [exact (live_rm_inv _ _ _ _ _ _ _ _ _ (dels_rmdir lk) HW HS P0 N0 Fz HI1 E)|exact (live_rm_inv _ _ _ _ _ _ _ _ _ (dels_remove lk) HW HS P0 N0 Fz HI1 E)]. }
  destruct st; [|discriminate]. destruct (IH w1 w' F' HI2 H) as [HI3 G3]. split; [exact HI3|]. intros st [<-|Hst]; [|now apply G3].
  refine (proj2 (live_loop_inv lk env cwd z0 (fun f => only_less fs0 f /\ lookup f (target cwd z) = None) _ (gone_stable env _ fs0 _ EO ER) P0 N0 l w1 w' true F' _ H)).
  - intros f [A _]. now apply HW.
  - split; [exact HI2|now apply G].
Qed.

(** Removing the emptied directory itself. *)
Lemma last_gone lk env cwd z fs0 w w' b : env_ok env -> env_removes env -> plain z -> names z <> [] -> lk (target cwd z) = false ->
  lookup fs0 (target cwd z) = Some EDir -> only_less fs0 (snd w) -> (forall n, lookup (snd w) (target cwd z ++ [n]) = None) ->
  live_rm (fs_rmdir lk) env cwd z w = (w', b) -> lookup (snd w') (target cwd z) = None.
Proof.
  intros EO ER P Nz Lk L0 HI Hc H. assert (Hz : z <> []) by (intros ->; apply Nz; reflexivity). set (p := target cwd z) in *.
  assert (Hp : p <> []) by (unfold p, target; intros E; apply app_eq_nil in E as [_ E]; contradiction).
  destruct (less_stable env p fs0 EO ER) as [S1 _].
  assert (K : forall t f n, wf f -> lookup f (p ++ [n]) = None -> lookup (env t f) (p ++ [n]) = None) by (intros t f n Wf E; destruct (ER t f (p ++ [n]) Wf) as [E'|E']; congruence).
  unfold live_rm in H. destruct (path_exists (snd (tick env w)) cwd z) eqn:X; cbn [negb] in H.
  - cbn [tick fst snd] in H. set (f1 := env (fst w) (snd w)) in *. set (f2 := env (S (fst w)) f1) in *.
    assert (HI2 : only_less fs0 f2) by (now apply S1, S1). assert (Hc2 : forall n, lookup f2 (p ++ [n]) = None) by (intros n; apply K; [apply EO, HI|]; apply K; [apply HI|apply Hc]).
    destruct (fs_rmdir lk f2 cwd z) as [f3|] eqn:E; injection H as <- <-; cbn [snd].
    + now destruct (dels_rmdir lk _ _ _ _ (proj1 HI2) P E) as (_ & G & _).
    + destruct (proj2 HI2 p) as [G|G]; [exact G|exfalso]. rewrite L0 in G. pose proof (resolve_dir f2 cwd z (proj1 HI2) P Hz G) as R.
      pose proof (rmdir_ok lk f2 cwd z p P Nz R Hp G (no_children f2 p (proj1 HI2) Hc2)) as Y. rewrite Lk in Y. unfold path_rmdir in Y. rewrite E in Y. destruct (path_exists f2 cwd z); discriminate.
  - injection H as <- <-. assert (HI1 : only_less fs0 (snd (tick env w))) by now apply S1. destruct (proj2 HI1 p) as [G|G]; [exact G|exfalso]. rewrite L0 in G.
    unfold path_exists, fs_stat in X. rewrite (resolve_dir _ cwd z (proj1 HI1) P Hz G) in X. fold p in X. rewrite G in X. discriminate.
Qed.

Lemma live_gone lk fuel env cwd z fs r n fs1 w' : wf fs -> env_ok env -> env_removes env -> plain z -> names z <> [] -> lk (target cwd z) = false -> (depth fs < fuel)%nat ->
  live_list fuel env cwd false [] z (1%nat, fs) = Ok (r, (n, fs1)) -> quiet env n ->
  live_rmdir_recurse lk fuel env cwd z (0%nat, fs) = Ok (w', true) -> lookup (snd w') (target cwd z) = None.
Proof.
  intros Wf EO ER P Nz Lk Hf EL Q H. assert (Hz : z <> []) by (intros ->; apply Nz; reflexivity). set (p := target cwd z) in *.
  destruct (list_quiet env n fs cwd false Q fuel _ _ _ _ _ EL) as [Ln GL]. cbn [fst snd] in Ln, GL. destruct (GL (le_n _) eq_refl) as [-> ES].
  unfold live_rmdir_recurse in H. assert (tick env (0%nat, fs) = (1%nat, fs)) as T by (unfold tick; cbn [fst snd]; rewrite Q by lia; reflexivity). rewrite T in H. cbn [snd] in H.
  destruct (path_exists fs cwd z); cbn [negb] in H; [|discriminate]. rewrite EL in H. cbn [bind fst snd] in H.
  assert (HI : only_less fs fs) by (split; [exact Wf|now right]). assert (HW : forall f, only_less fs f -> wf f) by (intros f [A _]; exact A).
  pose proof (less_stable env p fs EO ER) as HS.
  assert (G : forall w2 w3, only_less fs (snd w2) -> live_rm (fs_rmdir lk) env cwd z w2 = (w3, true) -> lookup (snd w3) p = None)
    by (intros w2 w3 H2 H3; exact (proj2 (live_rm_inv _ _ _ z z _ _ _ (only_less fs) (dels_rmdir lk) HW HS P Hz (under_self z) H2 H3) eq_refl)).
  destruct r as [[|x l]|].
  - injection H as H. exact (G (n, fs) w' HI H).
  - destruct (live_remove_loop lk env cwd (x :: l) (n, fs)) as [w2 st] eqn:L. destruct st; [|discriminate].
    destruct (live_rm (fs_rmdir lk) env cwd z w2) as [w3 b3] eqn:R. injection H as <-. cbn [fst].
    assert (exists p', resolve fs cwd z = Some p' /\ lookup fs p' = Some EDir) as (p' & Rp & Lp).
    { destruct fuel as [|f]; [discriminate|]. cbn [dir_list_recurse] in ES. destruct (path_exists fs cwd z); [|discriminate]. cbn [negb] in ES. unfold fs_readdir in ES.
      destruct (resolve fs cwd z) as [p'|]; [|discriminate]. exists p'. split; [reflexivity|]. now destruct (lookup fs p') as [[|]|]. }
    destruct (resolve_inv _ _ _ _ P Rp) as [_ Ep]. fold p in Ep. subst p'.
    destruct (dir_list_recurse_full fs cwd false fuel z p [] Wf Rp Lp Hf) as (qs & Eq & (_ & _ & Hin) & Hres). rewrite Eq in ES. injection ES as ES.
    assert (FU : Forall (under z) (x :: l)).
    { rewrite <- ES. apply Forall_forall. intros s Hs. apply in_map_iff in Hs as (q & <- & Hq). exists q. split; [|reflexivity]. apply Hin in Hq as (_ & Hq & _).
      apply (wf_names fs (p ++ q) Wf) in Hq. now apply Forall_app in Hq. }
    destruct (loop_gone lk env cwd z fs EO ER P Hz (x :: l) (n, fs) w2 FU HI L) as [HI2 Hgone].
    apply (last_gone lk env cwd z fs w2 w3 b3); try assumption. intros m. fold p. destruct (proj2 HI2 (p ++ [m])) as [E|E]; [exact E|].
    destruct (lookup fs (p ++ [m])) eqn:Lm; [|congruence].
    assert (Hq : In [m] qs) by (apply Hin; split; [discriminate|]; split; [congruence|]; constructor; [discriminate|constructor]).
    assert (target cwd (below_text z [m]) = p ++ [m]) as <-.
    { destruct (wf_parent fs p m Wf ltac:(congruence)) as [_ Om]. unfold p, target. rewrite below_names by (constructor; [exact Om|constructor]). unfold below_text. rewrite start_app by exact Hz. now rewrite app_assoc. }
    apply Hgone. rewrite <- ES. now apply in_map.
  - injection H as H. exact (G (n, fs) w' HI H).
Qed.

(** * Without other processes *)
Lemma rm_alone del cwd z n fs : exists m, live_rm del (fun _ f => f) cwd z (n, fs) =
  (if negb (path_exists fs cwd z) then ((m, fs), false) else match del fs cwd z with Some fs' => ((m, fs'), true) | None => ((m, fs), false) end).
Proof. unfold live_rm. cbn [tick fst snd]. destruct (path_exists fs cwd z); cbn [negb]; [destruct (del fs cwd z)|]; eexists; reflexivity. Qed.
Lemma loop_alone lk cwd : forall l n fs, exists m, live_remove_loop lk (fun _ f => f) cwd l (n, fs) = ((m, fst (remove_loop lk fs cwd l)), snd (remove_loop lk fs cwd l)).
Proof.
  induction l as [|z l IH]; intros n fs; cbn [live_remove_loop remove_loop]; [now exists n|]. unfold tick. cbn [fst snd].
  destruct (path_is_dir fs cwd z).
  - destruct (rm_alone (fs_rmdir lk) cwd z (S n) fs) as [m E]. rewrite E. unfold path_rmdir. destruct (path_exists fs cwd z); cbn [negb]; [|now exists m].
    destruct (fs_rmdir lk fs cwd z); [apply IH|now exists m].
  - destruct (rm_alone (fs_remove lk) cwd z (S n) fs) as [m E]. rewrite E. unfold path_remove. destruct (path_exists fs cwd z); cbn [negb]; [|now exists m].
    destruct (fs_remove lk fs cwd z); [apply IH|now exists m].
Qed.
Lemma live_rm_alone lk fuel cwd z n fs w' b : live_rmdir_recurse lk fuel (fun _ f => f) cwd z (n, fs) = Ok (w', b) -> path_rmdir_recurse lk fuel fs cwd z = Ok (snd w', b).
Proof.
  unfold live_rmdir_recurse, path_rmdir_recurse. unfold tick at 1 2 3. cbn [fst snd]. destruct (path_exists fs cwd z) eqn:X; cbn [negb]; [|now intros [= <- <-]].
  destruct (live_list fuel _ cwd false [] z (S n, fs)) as [[r w1]| | |] eqn:E; cbn [bind]; try discriminate. cbn [fst snd].
  destruct (list_quiet (fun _ f => f) (fst w1) fs cwd false ltac:(now intros ? ?) fuel _ _ _ _ _ E) as [_ G]. destruct (G (le_n _) eq_refl) as [E1 ->]. cbn [bind].
  destruct w1 as [n1 f1]. cbn [snd] in E1. subst f1.
  assert (K : forall f k, exists m, live_rm (fs_rmdir lk) (fun _ f => f) cwd z (k, f) = ((m, fst (path_rmdir lk f cwd z)), snd (path_rmdir lk f cwd z))).
  { intros f k. destruct (rm_alone (fs_rmdir lk) cwd z k f) as [m ->]. exists m. unfold path_rmdir. destruct (path_exists f cwd z); cbn [negb]; [|reflexivity]. now destruct (fs_rmdir lk f cwd z). }
  destruct r as [[|x l]|].
  - destruct (K fs n1) as [m ->]. intros [= <- <-]. cbn [snd]. now destruct (path_rmdir lk fs cwd z).
  - destruct (loop_alone lk cwd (x :: l) n1 fs) as [m ->]. destruct (remove_loop lk fs cwd (x :: l)) as [f2 st]. cbn [fst snd]. destruct st.
    + destruct (K f2 m) as [m2 ->]. now intros [= <- <-].
    + now intros [= <- <-].
  - destruct (K fs n1) as [m ->]. intros [= <- <-]. cbn [snd]. now destruct (path_rmdir lk fs cwd z).
Qed.
