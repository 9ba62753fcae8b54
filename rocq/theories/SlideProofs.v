(** Loops over a list or a vector (slide until NULL) that change it on the way: programs made of
    the calls of PlistModel.v or VecModel.v, vt_plist_slide_front / vt_vec_slide_front and
    vt_plist_slide_reset / vt_vec_slide_reset. *)
From Verif Require Import Base BaseFacts PlistModel PlistSpec PlistProofs VecModel VecSpec VecProofs VecProofs2.
From Coq Require Import Lia.

(** What is expected: a sequence and a cursor.  [A]: elements; [O]: calls; [R]: their answers; [B]:
    what sliding answers, [null] at the end. *)
Inductive act (O : Type) := Do (o : O) | Next | Restart.
Arguments Do {O} _. Arguments Next {O}. Arguments Restart {O}.
Inductive ans (R B : Type) := Did (r : R) | Item (b : B) | Restarted.
Arguments Did {R B} _. Arguments Item {R B} _. Arguments Restarted {R B}.

Section Cursor.
Context {A O R B : Type} (step : list A * Z -> O -> option ((list A * Z) * R)) (show : A -> B) (null : B).

Definition cstep (st : list A * Z * nat) (a : act O) : option (list A * Z * nat * ans R B) :=
  let '(xs, cap, k) := st in
  match a with
  | Do o => match step (xs, cap) o with Some ((xs', cap'), r) => Some (xs', cap', k, Did r) | None => None end
  | Next => match nth_error xs k with
            | Some x => Some (xs, cap, S k, Item (show x))
            | None => Some (xs, cap, 0%nat, Item null)
            end
  | Restart => Some (xs, cap, 0%nat, Restarted)
  end.
Fixpoint crun (st : list A * Z * nat) (l : list (act O)) : option (list A * Z * nat * list (ans R B)) :=
  match l with
  | [] => Some (st, [])
  | a :: l => match cstep st a with
              | Some (st, o) => match crun st l with Some (st, os) => Some (st, o :: os) | None => None end
              | None => None
              end
  end.

(** The changes leave what was visited alone, and the end is not reached. *)
Fixpoint ahead (xs : list A) (cap : Z) (k : nat) (l : list (act O)) : Prop :=
  match l with
  | [] => True
  | Do o :: l => match step (xs, cap) o with
                 | Some ((xs', cap'), _) => firstn k xs' = firstn k xs /\ (k <= length xs')%nat /\ ahead xs' cap' k l
                 | None => False
                 end
  | Next :: l => (k < length xs)%nat /\ ahead xs cap (S k) l
  | Restart :: _ => False
  end.
Fixpoint items (l : list (ans R B)) : list B :=
  match l with [] => [] | Item b :: l => b :: items l | _ :: l => items l end.

Lemma firstn_S_nth (xs : list A) k x : nth_error xs k = Some x -> firstn (S k) xs = firstn k xs ++ [x].
Proof.
  revert k. induction xs as [|y xs IH]; intros [|k]; cbn; try discriminate.
  - intros [= ->]. reflexivity.
  - intros H. f_equal. now apply IH.
Qed.

Lemma ahead_run : forall l xs cap k, (k <= length xs)%nat -> ahead xs cap k l ->
  exists xs' cap' k' os, crun (xs, cap, k) l = Some (xs', cap', k', os) /\ (k' <= length xs')%nat /\
    map show (firstn k xs) ++ items os = map show (firstn k' xs').
Proof.
  induction l as [|a l IH]; intros xs cap k Hk H.
  - exists xs, cap, k, []. split; [reflexivity|]. split; [exact Hk|]. now rewrite app_nil_r.
  - destruct a as [o| |]; cbn [ahead] in H; [| |contradiction]; cbn [crun cstep].
    + destruct (step (xs, cap) o) as [[[xs1 cap1] r]|]; [|contradiction]. destruct H as (E & L & H).
      destruct (IH xs1 cap1 k L H) as (xs' & cap' & k' & os & -> & L' & I). exists xs', cap', k', (Did r :: os).
      split; [reflexivity|]. split; [exact L'|]. cbn [items]. now rewrite <- E.
    + destruct H as [L H]. destruct (nth_error xs k) as [x|] eqn:E; [|apply nth_error_None in E; lia].
      destruct (IH xs cap (S k) L H) as (xs' & cap' & k' & os & -> & L' & I). exists xs', cap', k', (Item (show x) :: os).
      split; [reflexivity|]. split; [exact L'|]. cbn [items]. rewrite <- I, (firstn_S_nth xs k x E), map_app, <- app_assoc. reflexivity.
Qed.

Lemma crun_app l1 : forall l2 st, crun st (l1 ++ l2) =
  match crun st l1 with
  | Some (st, os) => match crun st l2 with Some (st, os') => Some (st, os ++ os') | None => None end
  | None => None
  end.
Proof.
  induction l1 as [|a l1 IH]; intros l2 st; cbn [app crun]; [destruct (crun st l2) as [[? ?]|]; reflexivity|].
  destruct (cstep st a) as [[st1 o]|]; [|reflexivity]. rewrite IH. destruct (crun st1 l1) as [[st2 os]|]; [|reflexivity].
  destruct (crun st2 l2) as [[? ?]|]; reflexivity.
Qed.
End Cursor.

(** ** Pointer lists *)
Definition lact := act plop.
(** vt_plist_slide_front, vt_plist_slide_reset, plist.c:296-311, 330-336; 0 = NULL. *)
Definition lmstep (dbg : bool) (p : plist) (a : lact) : res (plist * ans (option Z) Z) :=
  match a with
  | Do o => let* r := plstep dbg p o in Ok (fst r, Did (snd r))
  | Next => let* r := plist_slide_front p in Ok (fst r, Item (snd r))
  | Restart => Ok (plist_slide_reset p, Restarted)
  end.
Fixpoint lmrun (dbg : bool) (p : plist) (l : list lact) : res (plist * list (ans (option Z) Z)) :=
  match l with
  | [] => Ok (p, [])
  | a :: l => let* r := lmstep dbg p a in let* q := lmrun dbg (fst r) l in Ok (fst q, snd r :: snd q)
  end.
Definition lcrun := crun lstep (fun x : Z => x) 0.

Lemma lnext_rep xs cap p k : prep xs cap p -> p_slider p = Z.of_nat k ->
  exists q, plist_slide_front p = Ok (q, match nth_error xs k with Some x => x | None => 0 end) /\ prep xs cap q /\
    p_slider q = Z.of_nat (match nth_error xs k with Some _ => S k | None => O end).
Proof.
  intros H S. unfold plist_slide_front. rewrite S, (pr_len _ _ _ H).
  destruct (nth_error xs k) as [x|] eqn:E.
  - assert (k < length xs)%nat as L by (apply nth_error_Some; congruence).
    replace (Z.of_nat k <? zlen xs) with true by (unfold zlen; lia).
    assert (Z.of_nat k + 1 < two64) as B.
    { pose proof (pr_max _ _ _ H). pose proof (pr_le _ _ _ H). unfold zlen, alloc_max, two64 in *. lia. }
    rewrite (w64_small (Z.of_nat k + 1)) by lia. rewrite (w64_small (_ - 1)) by lia.
    destruct (slot_get_rep xs cap p (Z.of_nat k + 1 - 1) H) as (y & E1 & E2); [unfold zlen; lia|].
    rewrite E2. cbn [bind]. replace (Z.to_nat (Z.of_nat k + 1 - 1)) with k in E1 by lia. assert (y = x) as -> by congruence.
    eexists. split; [reflexivity|]. split; [|cbn [p_slider]; lia].
    destruct H as [Hb Hl Hc Hs Hm Hle Hp]. constructor; cbn [p_blk p_len p_cap]; first [assumption|reflexivity].
  - assert (length xs <= k)%nat as L by (now apply nth_error_None).
    replace (Z.of_nat k <? zlen xs) with false by (unfold zlen; lia). eexists. split; [reflexivity|]. split; [|reflexivity].
    destruct H as [Hb Hl Hc Hs Hm Hle Hp]. constructor; cbn [plist_slide_reset p_blk p_len p_cap]; first [assumption|reflexivity].
Qed.

Lemma lmrun_rep dbg : forall l xs cap k p xs' cap' k' os, prep xs cap p -> p_slider p = Z.of_nat k ->
  lcrun (xs, cap, k) l = Some (xs', cap', k', os) ->
  exists q, lmrun dbg p l = Ok (q, os) /\ prep xs' cap' q /\ p_slider q = Z.of_nat k'.
Proof.
  unfold lcrun. induction l as [|a l IH]; intros xs cap k p xs' cap' k' os H S; cbn [crun lmrun].
  - intros [= <- <- <- <-]. now exists p.
  - destruct (cstep lstep _ 0 (xs, cap, k) a) as [[[[x1 c1] k1] o1]|] eqn:E; [|discriminate].
    destruct (crun lstep _ 0 (x1, c1, k1) l) as [[[[x2 c2] k2] o2]|] eqn:F; [|discriminate]. intros [= <- <- <- <-].
    assert (exists q, lmstep dbg p a = Ok (q, o1) /\ prep x1 c1 q /\ p_slider q = Z.of_nat k1) as (q & Eq & Hq & Sq).
    { destruct a as [o| |]; cbn [cstep] in E; cbn [lmstep].
      - destruct (lstep (xs, cap) o) as [[[x c] r]|] eqn:G; [|discriminate]. injection E as <- <- <- <-.
        destruct (plstep_rep dbg xs cap p o x c r H G) as (q & -> & Hq & Sq). cbn [bind fst snd]. exists q. split; [reflexivity|]. split; [exact Hq|congruence].
      - destruct (lnext_rep xs cap p k H S) as (q & -> & Hq & Sq). cbn [bind fst snd]. exists q.
        destruct (nth_error xs k); injection E as <- <- <- <-; split; try reflexivity; now split.
      - injection E as <- <- <- <-. eexists. split; [reflexivity|]. split; [|reflexivity].
        destruct H as [Hb Hl Hc Hs Hm Hle Hp]. constructor; cbn [plist_slide_reset p_blk p_len p_cap]; first [assumption|reflexivity]. }
    rewrite Eq. cbn [bind fst snd]. destruct (IH _ _ _ _ _ _ _ _ Hq Sq F) as (r & -> & Hr & Sr). cbn [bind fst snd].
    exists r. split; [reflexivity|]. now split.
Qed.

(** ** Vectors *)
Definition vact := act vop.
(** vt_vec_slide_front, vt_vec_slide_reset, vec.c (common.c:107-122, 141-147), and reading the element. *)
Definition vmnext (v : arr) : res (arr * option (list cell)) :=
  match slide_front v with
  | (v', Some off) => let* c := bread (a_blk v) off (a_es v) in Ok (v', Some c)
  | (v', None) => Ok (v', None)
  end.
Definition vmstep (dbg : bool) (v : arr) (a : vact) : res (arr * ans vout (option (list cell))) :=
  match a with
  | Do o => let* r := vstep dbg v o in Ok (fst r, Did (snd r))
  | Next => let* r := vmnext v in Ok (fst r, Item (snd r))
  | Restart => Ok (slide_reset v, Restarted)
  end.
Fixpoint vmrun (dbg : bool) (v : arr) (l : list vact) : res (arr * list (ans vout (option (list cell)))) :=
  match l with
  | [] => Ok (v, [])
  | a :: l => let* r := vmstep dbg v a in let* q := vmrun dbg (fst r) l in Ok (fst q, snd r :: snd q)
  end.
Definition shown (x : elem) : option (list cell) := Some (map Some x).
Definition vcrun (es : Z) := crun (sstep es) shown None.

Lemma slider_rep es xs cap v s : vrep es xs cap v -> vrep es xs cap (set_slider v s).
Proof. intros [Hb Hu Hl Hc He Hp Hs Hm Hle Hcp]. constructor; cbn [set_slider a_blk a_len a_cap a_es]; assumption. Qed.

Lemma vnext_rep es xs cap v k : vrep es xs cap v -> a_slider v = Z.of_nat k ->
  exists q, vmnext v = Ok (q, match nth_error xs k with Some x => shown x | None => None end) /\ vrep es xs cap q /\
    a_slider q = Z.of_nat (match nth_error xs k with Some _ => S k | None => O end).
Proof.
  intros H S. pose proof (vrep_slide_ok _ _ _ _ H) as (L0 & E0 & M0 & M1). unfold vmnext, slide_front. rewrite S.
  assert (a_len v = zlen xs) as Len by (now destruct H). assert (a_es v = es) as Es by (now destruct H).
  destruct (nth_error xs k) as [x|] eqn:E.
  - assert (k < length xs)%nat as L by (apply nth_error_Some; congruence).
    replace (Z.of_nat k <? a_len v) with true by (rewrite Len; unfold zlen; lia).
    assert (Z.of_nat k < a_len v) as Lk by (rewrite Len; unfold zlen; lia).
    rewrite (w64_small (Z.of_nat k + 1)) by lia. rewrite (w64_small (_ - 1)) by lia.
    replace (Z.of_nat k + 1 - 1) with (Z.of_nat k) by lia. rewrite (w64_small (Z.of_nat k * a_es v)) by nia. rewrite Es.
    destruct (nth_error_split xs k E) as (a & b & Ex & La).
    pose proof (offsets_read es xs cap v H (x :: b) a Ex) as F. cbn [length offsets] in F. inversion F as [|o y os ys Hr Fr]; subst.
    unfold zlen in Hr. rewrite Hr. cbn [bind]. eexists. split; [reflexivity|]. split; [now apply slider_rep|]. cbn [set_slider a_slider]. lia.
  - assert (length xs <= k)%nat as L by (now apply nth_error_None).
    replace (Z.of_nat k <? a_len v) with false by (rewrite Len; unfold zlen; lia). eexists. split; [reflexivity|].
    split; [now apply slider_rep|reflexivity].
Qed.

Lemma vmrun_rep dbg es : forall l xs cap k v xs' cap' k' os, vrep es xs cap v -> a_slider v = Z.of_nat k ->
  vcrun es (xs, cap, k) l = Some (xs', cap', k', os) ->
  exists q, vmrun dbg v l = Ok (q, os) /\ vrep es xs' cap' q /\ a_slider q = Z.of_nat k'.
Proof.
  unfold vcrun. induction l as [|a l IH]; intros xs cap k v xs' cap' k' os H S; cbn [crun vmrun].
  - intros [= <- <- <- <-]. now exists v.
  - destruct (cstep (sstep es) shown None (xs, cap, k) a) as [[[[x1 c1] k1] o1]|] eqn:E; [|discriminate].
    destruct (crun (sstep es) shown None (x1, c1, k1) l) as [[[[x2 c2] k2] o2]|] eqn:F; [|discriminate]. intros [= <- <- <- <-].
    assert (exists q, vmstep dbg v a = Ok (q, o1) /\ vrep es x1 c1 q /\ a_slider q = Z.of_nat k1) as (q & Eq & Hq & Sq).
    { destruct a as [o| |]; cbn [cstep] in E; cbn [vmstep].
      - destruct (sstep es (xs, cap) o) as [[[x c] r]|] eqn:G; [|discriminate]. injection E as <- <- <- <-.
        destruct (vstep_rep dbg es xs cap v o x c r H G) as (q & -> & Hq & Sq). cbn [bind fst snd]. exists q. split; [reflexivity|]. split; [exact Hq|congruence].
      - destruct (vnext_rep es xs cap v k H S) as (q & -> & Hq & Sq). cbn [bind fst snd]. exists q.
        destruct (nth_error xs k); injection E as <- <- <- <-; split; try reflexivity; now split.
      - injection E as <- <- <- <-. eexists. split; [reflexivity|]. split; [now apply slider_rep|reflexivity]. }
    rewrite Eq. cbn [bind fst snd]. destruct (IH _ _ _ _ _ _ _ _ Hq Sq F) as (r & -> & Hr & Sr). cbn [bind fst snd].
    exists r. split; [reflexivity|]. now split.
Qed.

(** Until NULL, with changes ahead of the cursor only. *)
Lemma until_null {A C R B} (step : list A * Z -> C -> option ((list A * Z) * R)) (show : A -> B) null l xs cap st os :
  (forall st o xs' cap' r, Forall (fun x => show x <> null) (fst st) -> step st o = Some ((xs', cap'), r) -> Forall (fun x => show x <> null) xs') ->
  Forall (fun x => show x <> null) xs -> ahead step xs cap 0 l ->
  crun step show null (xs, cap, 0%nat) (l ++ [Next]) = Some (st, os ++ [Item null]) ->
  exists xs' cap', st = (xs', cap', 0%nat) /\ items os = map show xs'.
Proof.
  intros P N H E. destruct (ahead_run step show null l xs cap 0 ltac:(lia) H) as (xs' & cap' & k' & os' & R' & L & I).
  assert (forall l xs cap k xs' cap' k' os, Forall (fun x => show x <> null) xs -> crun step show null (xs, cap, k) l = Some (xs', cap', k', os) -> Forall (fun x => show x <> null) xs') as K.
  { clear - P. induction l as [|a l IH]; intros xs cap k xs' cap' k' os N; cbn [crun].
    - intros [= <- _ _ _]. exact N.
    - destruct (cstep step show null (xs, cap, k) a) as [[[[x1 c1] k1] o1]|] eqn:E; [|discriminate].
      destruct (crun step show null (x1, c1, k1) l) as [[[[x2 c2] k2] o2]|] eqn:F; [|discriminate]. intros [= <- _ _ _].
      apply (IH x1 c1 k1 x2 c2 k2 o2); [|exact F]. destruct a as [o| |]; cbn [cstep] in E.
      + destruct (step (xs, cap) o) as [[[x c] r]|] eqn:G; [|discriminate]. injection E as <- _ _ _. exact (P _ _ _ _ _ (N : Forall _ (fst (xs, cap))) G).
      + destruct (nth_error xs k); injection E as <- _ _ _; exact N.
      + injection E as <- _ _ _; exact N. }
  pose proof (K _ _ _ _ _ _ _ _ N R') as N'.
  rewrite crun_app, R' in E. cbn [crun cstep] in E. cbn [firstn map app] in I.
  destruct (nth_error xs' k') as [x|] eqn:X.
  - injection E as E1 E2. apply app_inj_tail in E2 as [_ E2]. injection E2 as E2.
    rewrite Forall_forall in N'. apply nth_error_In in X. exfalso. now apply (N' x X).
  - injection E as E1 E2. apply app_inj_tail in E2 as [<- _]. exists xs', cap'. split; [now symmetry|].
    apply nth_error_None in X. rewrite I, firstn_all2 by lia. reflexivity.
Qed.

Lemma Forall_firstn' {A} (P : A -> Prop) n l : Forall P l -> Forall P (firstn n l).
Proof. rewrite !Forall_forall. intros H x Hx. apply H. rewrite <- (firstn_skipn n l). apply in_or_app. now left. Qed.
Lemma Forall_skipn' {A} (P : A -> Prop) n l : Forall P l -> Forall P (skipn n l).
Proof. rewrite !Forall_forall. intros H x Hx. apply H. rewrite <- (firstn_skipn n l). apply in_or_app. now right. Qed.
Lemma Forall_removelast {A} (P : A -> Prop) l : Forall P l -> Forall P (removelast l).
Proof. rewrite removelast_firstn_len. apply Forall_firstn'. Qed.

Lemma del_by_nonnull rs xs i : (i < length xs)%nat -> Forall (fun x => x <> 0) xs -> Forall (fun x => x <> 0) (del_by rs xs i).
Proof.
  intros L H. unfold del_by, del, del_swap. destruct (rs =? 0).
  - apply Forall_app. split; [now apply Forall_firstn'|now apply Forall_skipn'].
  - destruct (S i =? length xs)%nat; [now apply Forall_removelast|].
    apply Forall_app. split; [now apply Forall_firstn'|]. constructor; [|now apply Forall_removelast, Forall_skipn'].
    rewrite Forall_forall in H. apply H. destruct xs as [|x xs]; [cbn in L; lia|].
    pose proof (@app_removelast_last Z (x :: xs) 0 ltac:(discriminate)) as E. rewrite E at 2. apply in_or_app. right. now left.
Qed.

Lemma lstep_nonnull st o xs' cap' r : Forall (fun x => x <> 0) (fst st) -> lstep st o = Some ((xs', cap'), r) -> Forall (fun x => x <> 0) xs'.
Proof.
  destruct st as [xs cap]. cbn [fst]. intros H. unfold lstep.
  destruct o as [x|x|x i|x i|i rs|x rs| | | |n| |n|i|x| |];
  try (destruct (_ && _) eqn:E; [|discriminate]; unfold pfits, between in E; intros [= <- <- <-]).
  - apply Forall_app. split; [exact H|]. constructor; [lia|constructor].
  - constructor; [lia|exact H].
  - unfold ins. apply Forall_app. split; [now apply Forall_firstn'|]. constructor; [lia|now apply Forall_skipn'].
  - unfold upd. apply Forall_app. split; [now apply Forall_firstn'|]. constructor; [lia|now apply Forall_skipn'].
  - apply del_by_nonnull; [unfold zlen in E; lia|exact H].
  - pose proof (first_index_spec xs x) as F. destruct (first_index xs x) as [k|]; [|exact H]. apply del_by_nonnull; [|exact H].
    destruct F as (a & s & -> & La & _). rewrite app_length. cbn [length]. lia.
  - intros [= <- <- <-]. now apply Forall_removelast.
  - intros [= <- <- <-]. now apply Forall_removelast.
  - intros [= <- <- <-]. constructor.
  - exact H.
  - destruct (0 <? zlen xs); [|discriminate]. now intros [= <- <- <-].
  - destruct (between 1 n (zlen xs + 1)); [|discriminate]. intros [= <- <- <-]. now apply Forall_firstn'.
  - destruct (between 0 i (zlen xs)); [|discriminate]. destruct (nth_error xs (Z.to_nat i)); [|discriminate]. now intros [= <- <- <-].
  - destruct (negb (x =? 0)); [|discriminate]. now intros [= <- <- <-].
  - now intros [= <- <- <-].
  - now intros [= <- <- <-].
Qed.
