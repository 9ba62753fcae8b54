(** Proofs about OwnModel.v. *)
From Coq Require Import Permutation.
From Verif Require Import Base BaseFacts StrModel StrModel2 FsModel PathModel OwnModel OwnSpec.

Lemma gains_refl L : wfl L -> gains L L [].
Proof. intros W. split; [exact W|reflexivity]. Qed.
Lemma gains_trans L L1 L2 a b : gains L L1 a -> gains L1 L2 b -> gains L L2 (b ++ a).
Proof. intros [_ P1] [W P2]. split; [exact W|]. rewrite P2, P1, app_assoc. reflexivity. Qed.
Lemma gains_perm L L1 a b : gains L L1 a -> Permutation a b -> gains L L1 b.
Proof. intros [W P] H. split; [exact W|]. rewrite P, H. reflexivity. Qed.

Lemma new_gains L : wfl L -> gains L (snd (l_new L)) [fst (l_new L)].
Proof.
  intros [N F]. cbn. split; [|reflexivity]. split; cbn [live nxt].
  - constructor; [|exact N]. intros H. rewrite Forall_forall in F. specialize (F _ H). lia.
  - constructor; [lia|]. eapply Forall_impl; [|exact F]. intros x. cbn. lia.
Qed.
Lemma remove_perm x l : NoDup l -> In x l -> Permutation l (x :: remove Z.eq_dec x l).
Proof.
  intros N H. apply NoDup_Permutation; [exact N| |].
  - constructor; [apply remove_In|]. induction l as [|y l IH]; [constructor|]. cbn. inversion N as [|? ? N1 N2]; subst.
    destruct (Z.eq_dec x y) as [->|D].
    + now rewrite notin_remove.
    + constructor; [|apply IH; [exact N2|destruct H; congruence]]. intros K. apply in_remove in K. tauto.
  - intros y. cbn. split.
    + intros K. destruct (Z.eq_dec x y) as [->|D]; [now left|]. right. apply in_in_remove; congruence.
    + intros [->|K]; [exact H|]. now apply in_remove in K.
Qed.
Lemma free_gains L L1 a x b : gains L L1 (a ++ x :: b) -> exists L2, l_free L1 x = Ok L2 /\ gains L L2 (a ++ b).
Proof.
  intros [[N F] P]. assert (In x (live L1)) as I.
  { eapply Permutation_in; [apply Permutation_sym; exact P|]. apply in_app_iff. left. apply in_app_iff. right. now left. }
  unfold l_free. destruct (in_dec Z.eq_dec x (live L1)) as [_|K]; [|contradiction].
  eexists. split; [reflexivity|]. pose proof (remove_perm x (live L1) N I) as Q. split.
  - split; cbn [live nxt].
    + eapply Permutation_NoDup in N; [|exact Q]. now inversion N.
    + rewrite Forall_forall in *. intros y Hy. apply in_remove in Hy as [Hy _]. now apply F.
  - cbn [live]. apply (Permutation_cons_inv (a := x)). rewrite <- Q, P. rewrite <- !app_assoc. cbn [app].
    symmetry. apply Permutation_middle.
Qed.
Lemma free_first L L1 x b : gains L L1 (x :: b) -> exists L2, l_free L1 x = Ok L2 /\ gains L L2 b.
Proof. exact (free_gains L L1 [] x b). Qed.
Lemma free_all_gains l : forall L L1 a, gains L L1 (l ++ a) -> exists L2, l_free_all L1 l = Ok L2 /\ gains L L2 a.
Proof.
  induction l as [|x l IH]; intros L L1 a G; cbn [l_free_all]; [eauto|].
  destruct (free_first _ _ _ _ G) as (L2 & -> & G2). cbn [bind]. now apply IH.
Qed.

Lemma push_n_ok n : forall p L, wfl L -> exists ids L', push_n n p L = (mk_slist (sid p) (items p ++ ids) (slider p), L') /\ gains L L' ids /\ length ids = n.
Proof.
  induction n as [|n IH]; intros p L W; cbn [push_n].
  - exists [], L. destruct p. cbn. rewrite app_nil_r. split; [reflexivity|]. split; [now apply gains_refl|reflexivity].
  - unfold sl_push_new. pose proof (new_gains L W) as G. destruct (l_new L) as [x L1]. cbn [fst snd] in G.
    destruct (IH (mk_slist (sid p) (items p ++ [x]) (slider p)) L1 (proj1 G)) as (ids & L' & E & G' & Ln). rewrite E. cbn [sid items slider].
    exists (x :: ids), L'. split; [rewrite <- app_assoc; reflexivity|]. split; [|cbn; lia].
    eapply gains_perm; [eapply gains_trans; [exact G|exact G']|]. rewrite Permutation_app_comm. reflexivity.
Qed.

Lemma create_ok p L : wfl L -> exists q L', sl_create p L = (q, L') /\ gains L L' (own_id p q) /\
  filled p q (match p with Some p => items p | None => [] end) [].
Proof.
  intros W. unfold sl_create, own_id, filled. destruct p as [p|].
  - exists p, L. rewrite app_nil_r. split; [reflexivity|]. split; [now apply gains_refl|auto].
  - pose proof (new_gains L W) as G. destruct (l_new L) as [x L']. cbn [fst snd] in G. exists (mk_slist x [] 0), L'. cbn. auto.
Qed.

Lemma split_ok ps n L : wfl L -> exists q L' ids, own_split ps (Some n) L = (Some q, L') /\ gains L L' (ids ++ own_id ps q) /\
  filled ps q [] ids /\ length ids = n.
Proof.
  intros W. unfold own_split. destruct (create_ok ps L W) as (q & L1 & -> & G & F).
  destruct (push_n_ok n (sl_clear q) L1 (proj1 G)) as (ids & L2 & -> & G2 & Ln). cbn [sl_clear sid items slider app].
  exists (mk_slist (sid q) ids (slider q)), L2, ids. split; [reflexivity|]. split.
  - eapply gains_perm; [eapply gains_trans; [exact G|exact G2]|]. unfold own_id. destruct ps; reflexivity.
  - split; [|exact Ln]. unfold filled in *. cbn [items sid slider]. split; [reflexivity|]. destruct ps; tauto.
Qed.

Lemma dir_list_ok fs cwd p z ign L : wfl L ->
  match path_dir_list fs cwd z ign with
  | None => own_dir_list fs cwd p z ign L = Ok (None, L)
  | Some names => exists q L' ids, own_dir_list fs cwd p z ign L = Ok (Some q, L') /\ gains L L' (ids ++ own_id p q) /\
      filled p q [] ids /\ length ids = length names
  end.
Proof.
  intros W. unfold path_dir_list, own_dir_list. destruct (path_exists fs cwd z); [|reflexivity]. cbn [negb].
  destruct (fs_readdir fs cwd z) as [names|]; [|reflexivity].
  pose proof (new_gains L W) as G0. destruct (l_new L) as [dir L0]. cbn [fst snd] in G0.
  destruct (create_ok p L0 (proj1 G0)) as (q & L1 & -> & G & F).
  set (n := length _). destruct (push_n_ok n (sl_clear q) L1 (proj1 G)) as (ids & L2 & -> & G2 & Ln). cbn [sl_clear sid items slider app].
  pose proof (gains_trans _ _ _ _ _ G0 (gains_trans _ _ _ _ _ G G2)) as G3. rewrite <- app_assoc in G3.
  rewrite app_assoc in G3. destruct (free_gains _ _ _ _ _ G3) as (L3 & -> & G4). cbn [bind]. rewrite app_nil_r in G4.
  exists (mk_slist (sid q) ids (slider q)), L3, ids. split; [reflexivity|]. split; [unfold own_id in *; destruct p; exact G4|].
  split; [|exact Ln]. unfold filled in *. cbn [items sid slider]. split; [reflexivity|]. destruct p; tauto.
Qed.

Lemma recurse_ok fs cwd ign fuel : forall p pl z L, wfl L ->
  length pl = length (match p with Some p => items p | None => [] end) ->
  match dir_list_recurse fuel fs cwd ign pl z with
  | Ok None => own_recurse fuel fs cwd ign p z L = Ok (None, L)
  | Ok (Some texts) => exists q L' ids, own_recurse fuel fs cwd ign p z L = Ok (Some q, L') /\ gains L L' (ids ++ own_id p q) /\
      filled p q (match p with Some p => items p | None => [] end) ids /\ length (items q) = length texts
  | NoFuel => own_recurse fuel fs cwd ign p z L = NoFuel
  | _ => True
  end.
Proof.
  induction fuel as [|f IH]; intros p pl z L W Hl; cbn [dir_list_recurse own_recurse]; [reflexivity|].
  destruct (path_exists fs cwd z); [|reflexivity]. cbn [negb]. destruct (fs_readdir fs cwd z) as [names|]; [|reflexivity].
  pose proof (new_gains L W) as G0. destruct (l_new L) as [dir L0]. cbn [fst snd] in G0.
  destruct (create_ok p L0 (proj1 G0)) as (q & L1 & -> & G & F).
  pose proof (new_gains L1 (proj1 G)) as G1. destruct (l_new L1) as [st L2]. cbn [fst snd] in G1.
  (* the loop *)
  assert (X : forall names pl q L, wfl L -> length pl = length (items q) ->
    match list_loop (dir_list_recurse f fs cwd ign) fs cwd ign z names pl with
    | Ok None => False
    | Ok (Some texts) => exists q' L' ids, own_loop (fun pl => own_recurse f fs cwd ign (Some pl)) fs cwd ign z names q L = Ok (q', L') /\
        gains L L' ids /\ filled (Some q) q' (items q) ids /\ length (items q') = length texts
    | NoFuel => own_loop (fun pl => own_recurse f fs cwd ign (Some pl)) fs cwd ign z names q L = NoFuel
    | _ => True
    end).
  { clear - IH. induction names as [|n names IHn]; intros pl q L W Hl; cbn [list_loop own_loop].
    - exists q, L, []. split; [reflexivity|]. split; [now apply gains_refl|]. unfold filled. rewrite app_nil_r. auto.
    - destruct (hidden ign n); [now apply IHn|].
      assert (PUSH : forall pl q L, wfl L -> length pl = length (items q) ->
        match list_loop (dir_list_recurse f fs cwd ign) fs cwd ign z names (pl ++ [z ++ sep ++ n]) with
        | Ok None => False
        | Ok (Some texts) => exists q' L' ids, (let '(q, L) := sl_push_new q L in own_loop (fun pl => own_recurse f fs cwd ign (Some pl)) fs cwd ign z names q L) = Ok (q', L') /\
            gains L L' ids /\ filled (Some q) q' (items q) ids /\ length (items q') = length texts
        | NoFuel => (let '(q, L) := sl_push_new q L in own_loop (fun pl => own_recurse f fs cwd ign (Some pl)) fs cwd ign z names q L) = NoFuel
        | _ => True
        end).
      { clear - IHn. intros pl q L W Hl. unfold sl_push_new. pose proof (new_gains L W) as G. destruct (l_new L) as [x L1]. cbn [fst snd] in G.
        specialize (IHn (pl ++ [z ++ sep ++ n]) (mk_slist (sid q) (items q ++ [x]) (slider q)) L1 (proj1 G)).
        rewrite !app_length in IHn. cbn [items length] in IHn. rewrite app_length in IHn. cbn [length] in IHn. specialize (IHn ltac:(lia)).
        destruct (list_loop _ _ _ _ _ _ _) as [[texts|]| | |]; try assumption.
        destruct IHn as (q' & L' & ids & -> & G' & [F1 F2] & Ln). exists q', L', (x :: ids). split; [reflexivity|].
        split; [eapply gains_perm; [eapply gains_trans; [exact G|exact G']|]; rewrite Permutation_app_comm; reflexivity|].
        split; [|exact Ln]. cbn [sid slider items] in *. split; [rewrite F1, <- app_assoc; reflexivity|exact F2]. }
      destruct (path_is_dir fs cwd (z ++ sep ++ n)); [|now apply PUSH].
      specialize (IH (Some q) pl (z ++ sep ++ n) L W Hl).
      destruct (dir_list_recurse f fs cwd ign pl (z ++ sep ++ n)) as [[texts|]| | |]; cbn [bind].
      + destruct IH as (q1 & L1 & ids1 & -> & G1 & [F1 F2] & Ln1). cbn [bind fst snd]. cbn [own_id] in G1. rewrite app_nil_r in G1.
        specialize (PUSH texts q1 L1 (proj1 G1) ltac:(lia)). destruct (list_loop _ _ _ _ _ _ _) as [[t2|]| | |]; try assumption.
        destruct PUSH as (q' & L' & ids & -> & G' & [F3 F4] & Ln). exists q', L', (ids1 ++ ids). split; [reflexivity|].
        split; [eapply gains_perm; [eapply gains_trans; [exact G1|exact G']|apply Permutation_app_comm]|]. split; [|exact Ln].
        split; [rewrite F3, F1, <- app_assoc; reflexivity|]. destruct F2, F4. split; congruence.
      + rewrite IH. cbn [bind fst snd]. exists q, L, []. split; [reflexivity|]. split; [now apply gains_refl|]. unfold filled. rewrite app_nil_r. auto.
      + exact I.
      + exact I.
      + rewrite IH. reflexivity. }
  specialize (X names pl q L2 (proj1 G1)).
  assert (Hq : items q = match p with Some p => items p | None => [] end) by (destruct F as [F _]; rewrite F, app_nil_r; reflexivity).
  rewrite Hq in X. specialize (X Hl).
  destruct (list_loop _ _ _ _ _ _ _) as [[texts|]| | |]; try contradiction; try exact I.
  - destruct X as (q' & L3 & ids & -> & G3 & [F1 F2] & Ln). cbn [bind fst snd].
    pose proof (gains_trans _ _ _ _ _ G0 (gains_trans _ _ _ _ _ G (gains_trans _ _ _ _ _ G1 G3))) as G4.
    rewrite <- !app_assoc in G4. cbn [app] in G4.
    destruct (free_gains _ _ _ _ _ G4) as (L4 & -> & G5). cbn [bind]. rewrite app_assoc in G5.
    destruct (free_gains _ _ _ _ _ G5) as (L5 & -> & G6). cbn [bind]. rewrite app_nil_r in G6.
    exists q', L5, ids. split; [reflexivity|].
    assert (own_id p q' = own_id p q) as -> by (unfold own_id; destruct p; [reflexivity|]; destruct F2 as [-> _]; reflexivity).
    split; [exact G6|]. split; [|exact Ln]. unfold filled. split; [rewrite F1; reflexivity|]. destruct F as [_ F]. destruct F2 as [S1 S2]. rewrite S1, S2. exact F.
  - rewrite X. reflexivity.
Qed.

Lemma free_slist_ok q L L1 ids : gains L L1 (ids ++ [sid q]) -> items q = ids -> exists L2, free_slist q L1 = Ok L2 /\ gains L L2 [].
Proof.
  intros G E. unfold free_slist. rewrite E. destruct (free_all_gains _ _ _ _ G) as (L2 & -> & G2). cbn [bind]. now apply free_first.
Qed.
(** What nothing gained means. *)
Lemma gains_nil L L' : gains L L' [] -> Permutation (live L') (live L).
Proof. intros [_ P]. exact P. Qed.

Lemma mkdir_parents_own ex r L : wfl L -> exists L', own_mkdir_parents ex r L = Ok L' /\ gains L L' [].
Proof.
  intros W. unfold own_mkdir_parents. destruct ex; [exists L; split; [reflexivity|now apply gains_refl]|].
  pose proof (new_gains L W) as G0. destruct (l_new L) as [s L0]. cbn [fst snd] in G0.
  pose proof (new_gains L0 (proj1 G0)) as G1. destruct (l_new L0) as [sf L1]. cbn [fst snd] in G1.
  pose proof (gains_trans _ _ _ _ _ G0 G1) as G2. cbn [app] in G2.
  destruct r as [n|].
  - destruct (split_ok None n L1 (proj1 G1)) as (q & L2 & ids & -> & G3 & [F1 F2] & _).
    pose proof (gains_trans _ _ _ _ _ G2 G3) as G4. replace ((ids ++ own_id None q) ++ [sf; s]) with ((ids ++ own_id None q ++ [sf]) ++ s :: []) in G4 by now rewrite <- !app_assoc.
    destruct (free_gains _ _ _ _ _ G4) as (L3 & -> & G5). cbn [bind]. rewrite app_nil_r, app_assoc in G5.
    destruct (free_gains _ _ _ _ _ G5) as (L4 & -> & G6). cbn [bind]. rewrite app_nil_r in G6. exact (free_slist_ok _ _ _ _ G6 F1).
  - cbn [own_split]. destruct (free_gains L L1 [sf] s [] G2) as (L3 & -> & G5). cbn [bind app] in *.
    destruct (free_first _ _ _ _ G5) as (L4 & -> & G6). cbn [bind]. eauto.
Qed.

Lemma rmdir_recurse_own fuel fs cwd z L l : wfl L -> path_exists fs cwd z = false \/ dir_list_recurse fuel fs cwd false [] z = Ok l ->
  exists L', own_rmdir_recurse fuel fs cwd z L = Ok L' /\ gains L L' [].
Proof.
  intros W H. unfold own_rmdir_recurse. destruct (path_exists fs cwd z) eqn:E; cbn [negb]; [|exists L; split; [reflexivity|now apply gains_refl]].
  destruct H as [H|H]; [discriminate|].
  pose proof (recurse_ok fs cwd false fuel None [] z L W eq_refl) as X. rewrite H in X. destruct l as [texts|].
  - destruct X as (q & L' & ids & -> & G & [F1 F2] & _). cbn [bind fst snd]. exact (free_slist_ok _ _ _ _ G F1).
  - rewrite X. cbn [bind fst snd]. exists L. split; [reflexivity|now apply gains_refl].
Qed.

Lemma file_read_own o s c L : wfl L ->
  exists r L', own_file_read o s c L = Ok (r, L') /\ gains L L' (match r with Some x => [x] | None => [] end) /\
    (r <> None <-> o && s && c = true).
Proof.
  intros W. unfold own_file_read. destruct o; cbn [negb andb]; [|exists None, L; split; [reflexivity|]; split; [now apply gains_refl|split; congruence]].
  pose proof (new_gains L W) as G0. destruct (l_new L) as [fp L0]. cbn [fst snd] in G0. destruct s; cbn [negb andb].
  - pose proof (new_gains L0 (proj1 G0)) as G1. destruct (l_new L0) as [st L1]. cbn [fst snd] in G1.
    pose proof (gains_trans _ _ _ _ _ G0 G1) as G2. cbn [app] in G2. destruct c; cbn [bind fst snd].
    + destruct (free_gains L L1 [st] fp [] G2) as (L2 & -> & G3). cbn [bind app] in *. exists (Some st), L2. split; [reflexivity|]. split; [exact G3|]. split; congruence.
    + destruct (free_first _ _ _ _ G2) as (L2 & -> & G3). cbn [bind fst snd]. destruct (free_first _ _ _ _ G3) as (L3 & -> & G4). cbn [bind].
      exists None, L3. split; [reflexivity|]. split; [exact G4|]. split; congruence.
  - destruct (free_first _ _ _ _ G0) as (L2 & -> & G3). cbn [bind]. exists None, L2. split; [reflexivity|]. split; [exact G3|]. split; congruence.
Qed.
Lemma buffer_own o s c L : wfl L -> exists L', own_read_to_buffer o s c L = Ok L' /\ gains L L' [].
Proof.
  intros W. unfold own_read_to_buffer. pose proof (new_gains L W) as G0. destruct (l_new L) as [fp L0]. cbn [fst snd] in G0.
  destruct o, s, c; cbn [negb]; try (exists L; split; [reflexivity|now apply gains_refl]); now apply free_first.
Qed.
Lemma write_own o L : wfl L -> exists L', own_file_write o L = Ok L' /\ gains L L' [].
Proof.
  intros W. unfold own_file_write. pose proof (new_gains L W) as G0. destruct (l_new L) as [fp L0]. cbn [fst snd] in G0.
  destruct o; cbn [negb]; [now apply free_first|exists L; split; [reflexivity|now apply gains_refl]].
Qed.
Lemma insertf_own long L : wfl L -> exists L', own_insertf long L = Ok L' /\ gains L L' [].
Proof.
  intros W. unfold own_insertf. pose proof (new_gains L W) as G0. destruct (l_new L) as [fp L0]. cbn [fst snd] in G0.
  destruct long; [now apply free_first|exists L; split; [reflexivity|now apply gains_refl]].
Qed.

Lemma args_own sv l : forall ss mine L, wfl L -> exists mine' L', own_args l sv (Some ss) mine L = (Some ss, mine ++ mine', L') /\ gains L L' mine'.
Proof.
  induction l as [|[eq mk] l IH]; intros ss mine L W; cbn [own_args].
  - exists [], L. rewrite app_nil_r. split; [reflexivity|now apply gains_refl].
  - assert (own_pop_get (Some ss) eq L = (Some ss, L)) as -> by (destruct eq; reflexivity). destruct mk; [|now apply IH].
    pose proof (new_gains L W) as G0. destruct (l_new L) as [x L0]. cbn [fst snd] in G0.
    destruct (IH ss (mine ++ [x]) L0 (proj1 G0)) as (m & L' & -> & G). exists (x :: m), L'. rewrite <- app_assoc. split; [reflexivity|].
    eapply gains_perm; [eapply gains_trans; [exact G0|exact G]|]. rewrite Permutation_app_comm. reflexivity.
Qed.
Lemma parse_own valid help l L : wfl L -> exists mine L', own_parse valid help l L = Ok (mine, L') /\ gains L L' mine.
Proof.
  intros W. unfold own_parse. destruct valid; cbn [negb]; [|exists [], L; split; [reflexivity|now apply gains_refl]].
  destruct help; [exists [], L; split; [reflexivity|now apply gains_refl]|].
  pose proof (new_gains L W) as G0. destruct (l_new L) as [s L0]. cbn [fst snd] in G0.
  pose proof (new_gains L0 (proj1 G0)) as G1. destruct (l_new L0) as [sf L1]. cbn [fst snd] in G1.
  pose proof (gains_trans _ _ _ _ _ G0 G1) as G2. cbn [app] in G2.
  destruct (args_own (Some s) l sf [] L1 (proj1 G1)) as (m & L2 & -> & G3).
  pose proof (gains_trans _ _ _ _ _ G2 G3) as G4. replace (m ++ [sf; s]) with ((m ++ [sf]) ++ s :: []) in G4 by now rewrite <- !app_assoc.
  destruct (free_gains _ _ _ _ _ G4) as (L3 & -> & G5). cbn [bind]. rewrite app_nil_r in G5.
  destruct (free_gains _ _ _ _ _ G5) as (L4 & -> & G6). cbn [bind app]. rewrite app_nil_r in G6. eauto.
Qed.

Lemma skipn_step {A} n : forall l : list A, skipn (1 + n) l = skipn 1 (skipn n l).
Proof. induction n as [|n IH]; intros [|x l]; try reflexivity. cbn [skipn Nat.add]. apply (IH l). Qed.
(** vt_path_dir_free destroys the strings from the slider on. *)
Lemma free_loop_ok : forall rest p L L1 a fuel, 0 <= slider p -> skipn (Z.to_nat (slider p)) (items p) = rest -> slider p <= zlen (items p) ->
  (length rest < fuel)%nat -> gains L L1 (rest ++ a) -> exists L2, free_loop fuel p L1 = Ok L2 /\ gains L L2 a.
Proof.
  induction rest as [|x rest IH]; intros p L L1 a fuel H0 E Hs Hf G; (destruct fuel as [|f]; [lia|]); cbn [free_loop]; unfold sl_slide_front.
  - assert (zlen (items p) <= slider p).
    { pose proof (f_equal (@length Z) E) as K. rewrite skipn_length in K. cbn in K. unfold zlen. lia. }
    replace (slider p <? zlen (items p)) with false by lia. eauto.
  - assert (slider p < zlen (items p)).
    { pose proof (f_equal (@length Z) E) as K. rewrite skipn_length in K. cbn in K. unfold zlen. lia. }
    replace (slider p <? zlen (items p)) with true by lia.
    assert (nth_error (items p) (Z.to_nat (slider p)) = Some x) as ->.
    { rewrite <- (firstn_skipn (Z.to_nat (slider p)) (items p)), E. rewrite nth_error_app2 by (rewrite firstn_length; lia).
      rewrite firstn_length. unfold zlen in *. replace (Z.to_nat (slider p) - _)%nat with 0%nat by lia. reflexivity. }
    destruct (free_first _ _ _ _ G) as (L2 & -> & G2). cbn [bind]. apply (IH _ L L2 a); cbn [slider items]; try lia.
    + replace (Z.to_nat (slider p + 1)) with (1 + Z.to_nat (slider p))%nat by lia. rewrite (skipn_step (Z.to_nat (slider p))), E. reflexivity.
    + cbn in Hf. lia.
    + exact G2.
Qed.
Lemma dir_free_ok p L L1 a : 0 <= slider p <= zlen (items p) -> gains L L1 (items p ++ sid p :: a) ->
  exists L2, own_dir_free p L1 = Ok L2 /\ gains L L2 (firstn (Z.to_nat (slider p)) (items p) ++ a).
Proof.
  intros Hs G. unfold own_dir_free. set (fr := firstn _ _).
  assert (exists L2, (if zlen (items p) =? 0 then Ok L1 else free_loop (S (length (items p))) p L1) = Ok L2 /\ gains L L2 (fr ++ sid p :: a)) as (L2 & -> & G2).
  { destruct (Z.eqb_spec (zlen (items p)) 0) as [E|E].
    - exists L1. split; [reflexivity|]. unfold fr. destruct (items p); [|unfold zlen in E; cbn in E; lia]. rewrite firstn_nil. exact G.
    - eapply free_loop_ok; try reflexivity; try lia.
      + rewrite skipn_length. lia.
      + eapply gains_perm; [exact G|]. rewrite <- (firstn_skipn (Z.to_nat (slider p)) (items p)) at 1. fold fr.
        rewrite app_assoc. apply Permutation_app_tail. apply Permutation_app_comm. }
  cbn [bind]. exact (free_gains _ _ _ _ _ G2).
Qed.

Lemma split_between_own s z zl zr L : wfl L ->
  let bad := match strstr z zl, strstr z zr with Some l, Some r => negb (l <? r) | _, _ => false end in
  s <> None \/ bad = false ->
  exists r L', own_split_between s z zl zr L = (r, L') /\ gains L L' (match s, r with None, Some x => [x] | _, _ => [] end) /\
    match s, r with Some x, Some y => y = x | _, _ => True end.
Proof.
  intros W bad H. unfold own_split_between. subst bad. destruct (strstr z zl) as [l|].
  2:{ exists None, L. split; [reflexivity|]. destruct s; (split; [now apply gains_refl|exact I]). }
  destruct (strstr z zr) as [r|].
  2:{ exists None, L. split; [reflexivity|]. destruct s; (split; [now apply gains_refl|exact I]). }
  destruct s as [x|].
  - destruct (l <? r); do 2 eexists; (split; [reflexivity|]); (split; [now apply gains_refl|auto]).
  - destruct H as [H|H]; [congruence|]. destruct (l <? r); [|discriminate]. pose proof (new_gains L W) as G0. destruct (l_new L) as [x L0]. cbn [fst snd] in G0.
    do 2 eexists. split; [reflexivity|]. split; [exact G0|exact I].
Qed.

Lemma list_then_free fs cwd z ign L q L1 : wfl L -> own_dir_list fs cwd None z ign L = Ok (Some q, L1) ->
  exists L2, own_dir_free q L1 = Ok L2 /\ gains L L2 [].
Proof.
  intros W E. pose proof (dir_list_ok fs cwd None z ign L W) as H. destruct (path_dir_list fs cwd z ign) as [names|]; [|congruence].
  destruct H as (q' & L' & ids & E' & G & [F1 F2] & _). assert (q' = q /\ L' = L1) as [-> ->] by (split; congruence). cbn [own_id app] in *.
  subst ids. destruct (dir_free_ok q L L1 []) as (L2 & E2 & G2); [unfold zlen; lia|exact G|]. exists L2. split; [exact E2|].
  rewrite F2 in G2. exact G2.
Qed.
Lemma recurse_then_free fuel fs cwd z ign L q L1 texts : wfl L -> dir_list_recurse fuel fs cwd ign [] z = Ok (Some texts) ->
  own_recurse fuel fs cwd ign None z L = Ok (Some q, L1) -> exists L2, own_dir_free q L1 = Ok L2 /\ gains L L2 [].
Proof.
  intros W D E. pose proof (recurse_ok fs cwd ign fuel None [] z L W eq_refl) as H. rewrite D in H.
  destruct H as (q' & L' & ids & E' & G & [F1 F2] & _). assert (q' = q /\ L' = L1) as [-> ->] by (split; congruence). cbn [own_id app] in *.
  subst ids. destruct (dir_free_ok q L L1 []) as (L2 & E2 & G2); [unfold zlen; lia|exact G|]. exists L2. split; [exact E2|].
  rewrite F2 in G2. exact G2.
Qed.
(** A list refilled and freed: what it held before is left. *)
Lemma refill_free B L L1 p q ids a : gains B L (items p ++ sid p :: a) -> slider p = 0 -> gains L L1 ids -> filled (Some p) q [] ids ->
  exists L2, own_dir_free q L1 = Ok L2 /\ gains B L2 (items p ++ a).
Proof.
  intros G S G1 [F1 [F2 F3]]. cbn [app] in F1. destruct (dir_free_ok q B L1 (items p ++ a)) as (L2 & E2 & G2).
  - rewrite F3, S. unfold zlen. lia.
  - eapply gains_perm; [eapply gains_trans; [exact G|exact G1]|]. rewrite F1, F2. apply Permutation_app_head. symmetry. apply Permutation_middle.
  - exists L2. split; [exact E2|]. rewrite F3, S in G2. exact G2.
Qed.
Lemma split_refill B L p n a q L1 : gains B L (items p ++ sid p :: a) -> slider p = 0 -> own_split (Some p) (Some n) L = (Some q, L1) ->
  exists L2, own_dir_free q L1 = Ok L2 /\ gains B L2 (items p ++ a).
Proof.
  intros G S E. destruct (split_ok (Some p) n L (proj1 G)) as (q' & L' & ids & E' & G1 & F & _).
  assert (q' = q /\ L' = L1) as [-> ->] by (split; congruence). cbn [own_id] in G1. rewrite app_nil_r in G1. exact (refill_free B L L1 p q ids a G S G1 F).
Qed.
Lemma dir_list_refill B L p fs cwd z ign a q L1 : gains B L (items p ++ sid p :: a) -> slider p = 0 -> own_dir_list fs cwd (Some p) z ign L = Ok (Some q, L1) ->
  exists L2, own_dir_free q L1 = Ok L2 /\ gains B L2 (items p ++ a).
Proof.
  intros G S E. pose proof (dir_list_ok fs cwd (Some p) z ign L (proj1 G)) as H. destruct (path_dir_list fs cwd z ign) as [names|]; [|congruence].
  destruct H as (q' & L' & ids & E' & G1 & F & _).
  assert (q' = q /\ L' = L1) as [-> ->] by (split; congruence). cbn [own_id] in G1. rewrite app_nil_r in G1. exact (refill_free B L L1 p q ids a G S G1 F).
Qed.
Lemma recurse_refill B L p fs cwd z ign fuel pl texts a q L1 : gains B L (items p ++ sid p :: a) -> slider p = 0 -> length pl = length (items p) ->
  dir_list_recurse fuel fs cwd ign pl z = Ok (Some texts) -> own_recurse fuel fs cwd ign (Some p) z L = Ok (Some q, L1) ->
  exists L2, own_dir_free q L1 = Ok L2 /\ gains B L2 a.
Proof.
  intros G S Hl D E. pose proof (recurse_ok fs cwd ign fuel (Some p) pl z L (proj1 G) Hl) as H. rewrite D in H.
  destruct H as (q' & L' & ids & E' & G1 & [F1 [F2 F3]] & _). assert (q' = q /\ L' = L1) as [-> ->] by (split; congruence). cbn [own_id] in *. rewrite app_nil_r in G1.
  destruct (dir_free_ok q B L1 a) as (L2 & E2 & G2).
  - rewrite F3, S. unfold zlen. lia.
  - eapply gains_perm; [eapply gains_trans; [exact G|exact G1]|]. rewrite F1, F2, app_assoc. apply Permutation_app_tail. apply Permutation_app_comm.
  - exists L2. split; [exact E2|]. rewrite F3, S in G2. exact G2.
Qed.
