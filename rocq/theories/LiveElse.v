(** Removing a directory while others work elsewhere (C234): the same as alone. *)
From Verif Require Import Base BaseFacts StrModel StrModel2 StrSpec FsModel PathModel FsSpec FsProofs FsMain FsMain2 LiveRm.

(** The part of the file system at and below [p]. *)
Definition part (p : path) (fs : fsys) : fsys := filter (fun qe => match below p (fst qe) with Some _ => true | None => false end) fs.
Definition env_elsewhere (env : nat -> fsys -> fsys) (p : path) : Prop := forall t fs, wf fs -> part p (env t fs) = part p fs.

Lemma below_some p ns : below p (p ++ ns) = Some ns.
Proof. now apply below_spec. Qed.
Lemma assoc_part p fs ns : assoc (part p fs) (p ++ ns) = assoc fs (p ++ ns).
Proof.
  induction fs as [|[q e] fs IH]; [reflexivity|]. unfold part. cbn [filter fst]. fold (part p fs). destruct (below p q) eqn:E.
  - cbn [assoc]. destruct (path_dec q (p ++ ns)); [reflexivity|exact IH].
  - rewrite IH. cbn [assoc]. destruct (path_dec q (p ++ ns)) as [->|]; [|reflexivity]. rewrite below_some in E. discriminate.
Qed.
Lemma lookup_part p fs ns : p <> [] -> lookup (part p fs) (p ++ ns) = lookup fs (p ++ ns).
Proof. intros N. unfold lookup. destruct (p ++ ns) eqn:E; [reflexivity|]. rewrite <- E. apply assoc_part. Qed.
Lemma children_part p fs ns : children (part p fs) (p ++ ns) = children fs (p ++ ns).
Proof.
  unfold children. induction fs as [|[q e] fs IH]; [reflexivity|]. unfold part. cbn [filter fst]. fold (part p fs). destruct (below p q) eqn:E; cbn [flat_map fst]; [now rewrite IH|].
  rewrite IH. destruct (below (p ++ ns) q) as [r|] eqn:B; [|reflexivity]. apply below_spec in B. subst q. rewrite <- app_assoc, below_some in E. discriminate.
Qed.
Lemma part_remove p fs x : part p (remove_key fs x) = remove_key (part p fs) x.
Proof.
  unfold part, remove_key. induction fs as [|[q e] fs IH]; [reflexivity|]. cbn [filter fst].
  destruct (path_dec q x) eqn:E1; destruct (below p q) eqn:E2; cbn [filter fst]; rewrite ?E1, ?E2; cbn [filter fst]; rewrite ?IH; reflexivity.
Qed.

Section Sim.
Variables (cwd : path) (z0 : list Z) (env : nat -> fsys -> fsys) (lk : path -> bool).
Hypothesis P : plain z0.
Hypothesis Nz : names z0 <> [].
Let p := target cwd z0.
Hypothesis EO : env_ok env.
Hypothesis EE : env_elsewhere env p.

Definition sim (f g : fsys) : Prop := wf f /\ wf g /\ part p f = part p g /\ lookup g p = Some EDir.
Lemma p_ne : p <> [].
Proof. unfold p, target. intros E. apply app_eq_nil in E as [_ E]. contradiction. Qed.
Lemma z_ne : z0 <> [].
Proof. intros E. apply Nz. now rewrite E. Qed.
Lemma sim_lookup f g ns : part p f = part p g -> lookup f (p ++ ns) = lookup g (p ++ ns).
Proof. intros E. rewrite <- (lookup_part p f), <- (lookup_part p g) by exact p_ne. now rewrite E. Qed.
Lemma sim_children f g ns : part p f = part p g -> children f (p ++ ns) = children g (p ++ ns).
Proof. intros E. rewrite <- (children_part p f), <- (children_part p g). now rewrite E. Qed.
Lemma sim_tick w g : sim (snd w) g -> sim (snd (tick env w)) g.
Proof. intros (A & B & C & D). cbn [tick snd]. split; [now apply EO|]. split; [exact B|]. split; [rewrite EE by exact A; exact C|exact D]. Qed.
Lemma target_under ns : Forall okname ns -> target cwd (below_text z0 ns) = p ++ ns.
Proof. intros F. unfold p, target. rewrite below_names by exact F. unfold below_text. rewrite start_app by exact z_ne. now rewrite app_assoc. Qed.
(** What a text below the directory denotes. *)
Lemma res_one f ns : wf f -> lookup f p = Some EDir -> Forall okname ns ->
  resolve f cwd (below_text z0 ns) = match lookup f (p ++ ns) with Some _ => Some (p ++ ns) | None => None end.
Proof.
  intros W D F. destruct ns as [|n ns].
  - rewrite app_nil_r. rewrite D. unfold below_text. cbn [flat_map]. rewrite app_nil_r. apply resolve_dir; [exact W|exact P|exact z_ne|exact D].
  - destruct (lookup f (p ++ n :: ns)) eqn:L.
    + apply resolve_below; try assumption; [exact z_ne|reflexivity|congruence|discriminate].
    + apply resolve_missing; [exact W|now apply below_plain| |now rewrite target_under]. rewrite below_names by exact F. intros X. apply app_eq_nil in X as [X _]. contradiction.
Qed.
Lemma sim_dir f g : sim f g -> lookup f p = Some EDir.
Proof. intros (_ & _ & C & D). rewrite <- (app_nil_r p) at 1. rewrite (sim_lookup f g [] C), app_nil_r. exact D. Qed.
Lemma sim_res f g st : sim f g -> under z0 st -> resolve f cwd st = resolve g cwd st /\ (forall x, resolve g cwd st = Some x -> lookup f x = lookup g x /\ children f x = children g x).
Proof.
  intros HS (ns & F & ->). pose proof (sim_dir f g HS) as D. destruct HS as (A & B & C & E). rewrite (res_one f), (res_one g), (sim_lookup f g ns C) by assumption.
  split; [reflexivity|]. intros x. destruct (lookup g (p ++ ns)) eqn:L; [|discriminate]. intros [= <-]. split; [now rewrite (sim_lookup f g ns C)|now apply sim_children].
Qed.
Lemma sim_stat f g st : sim f g -> under z0 st -> fs_stat f cwd st = fs_stat g cwd st.
Proof. intros HS U. destruct (sim_res f g st HS U) as [R K]. unfold fs_stat. rewrite R. destruct (resolve g cwd st) as [x|]; [|reflexivity]. exact (proj1 (K x eq_refl)). Qed.
Lemma sim_exists f g st : sim f g -> under z0 st -> path_exists f cwd st = path_exists g cwd st.
Proof. intros HS U. unfold path_exists. now rewrite (sim_stat f g st HS U). Qed.
Lemma sim_is_dir f g st : sim f g -> under z0 st -> path_is_dir f cwd st = path_is_dir g cwd st.
Proof. intros HS U. unfold path_is_dir. now rewrite ?(sim_exists f g st HS U), ?(sim_stat f g st HS U). Qed.
Lemma sim_readdir f g st : sim f g -> under z0 st -> fs_readdir f cwd st = fs_readdir g cwd st.
Proof.
  intros HS U. destruct (sim_res f g st HS U) as [R K]. unfold fs_readdir. rewrite R. destruct (resolve g cwd st) as [x|]; [|reflexivity]. destruct (K x eq_refl) as [-> ->]. reflexivity.
Qed.
Definition del_sim (del : fsys -> path -> list Z -> option fsys) : Prop :=
  forall f g st, sim f g -> under z0 st -> match del f cwd st, del g cwd st with Some f', Some g' => part p f' = part p g' | None, None => True | _, _ => False end.
Lemma sim_rmdir : del_sim (fs_rmdir lk).
Proof.
  intros f g st HS U. destruct (sim_res f g st HS U) as [R K]. unfold fs_rmdir. rewrite R. destruct (resolve g cwd st) as [[|a x]|]; [exact I| |exact I].
  destruct (K (a :: x) eq_refl) as [-> ->]. destruct (lookup g (a :: x)) as [[|]|]; try exact I. destruct (children g (a :: x)); [|exact I].
  destruct (rev_comps st); [exact I|]. destruct (name_dec _ _); [exact I|]. destruct (lk _); [exact I|]. rewrite !part_remove. destruct HS as (_ & _ & -> & _). reflexivity.
Qed.
Lemma sim_remove : del_sim (fs_remove lk).
Proof.
  intros f g st HS U. pose proof (sim_rmdir f g st HS U) as RM. destruct (sim_res f g st HS U) as [R K]. unfold fs_remove. rewrite R. destruct (resolve g cwd st) as [x|]; [|exact I].
  destruct (K x eq_refl) as [-> _]. destruct (lookup g x) as [[|c]|]; [| |exact I].
  all: first [exact RM|destruct (lk x); [exact I|]; rewrite !part_remove; destruct HS as (_ & _ & -> & _); reflexivity].
Qed.

(** * The listing *)
Definition same_rec (g : fsys) (rec : list (list Z) -> list Z -> world -> res (option (list (list Z)) * world)) (srec : list (list Z) -> list Z -> res (option (list (list Z)))) : Prop :=
  forall pl st w r w', under z0 st -> sim (snd w) g -> rec pl st w = Ok (r, w') -> sim (snd w') g /\ srec pl st = Ok r.
Lemma loop_else g rec srec ign : same_rec g rec srec -> forall ns st pl w r w', Forall (fun n => hidden ign n = false -> okname n) ns -> under z0 st -> sim (snd w) g ->
  live_list_loop rec env cwd ign st ns pl w = Ok (r, w') -> sim (snd w') g /\ list_loop srec g cwd ign st ns pl = Ok r.
Proof.
  intros A. induction ns as [|n ns IH]; intros st pl w r w' Fn U HS H; cbn [live_list_loop list_loop] in *.
  - injection H as <- <-. now split.
  - inversion Fn as [|? ? On Fn']; subst. destruct (hidden ign n); [now apply (IH st pl w)|]. specialize (On eq_refl). pose proof (under_step z0 st n U On) as U'. pose proof (sim_tick w g HS) as HS1.
    rewrite (sim_is_dir _ g _ HS1 U') in H. destruct (path_is_dir g cwd (st ++ sep ++ n)).
    + destruct (rec pl (st ++ sep ++ n) (tick env w)) as [[[l|] w2]| | |] eqn:E; cbn [bind fst snd] in H; try discriminate.
      * destruct (A _ _ _ _ _ U' HS1 E) as [HS2 ->]. cbn [bind]. now apply (IH st _ w2).
      * destruct (A _ _ _ _ _ U' HS1 E) as [HS2 ->]. cbn [bind]. injection H as <- <-. now split.
    + now apply (IH st _ (tick env w)).
Qed.
Lemma list_else g ign : forall fuel, same_rec g (live_list fuel env cwd ign) (dir_list_recurse fuel g cwd ign).
Proof.
  induction fuel as [|f IH]; intros pl st w r w' U HS H; cbn [live_list dir_list_recurse] in *; [discriminate|].
  pose proof (sim_tick w g HS) as HS1. rewrite (sim_exists _ g _ HS1 U) in H. destruct (path_exists g cwd st); cbn [negb] in *; [|injection H as <- <-; now split].
  pose proof (sim_tick _ g HS1) as HS2. destruct (fs_readdir (snd (tick env (tick env w))) cwd st) as [ns|] eqn:E.
  - rewrite <- (sim_readdir _ g _ HS2 U), E. apply (loop_else g _ _ ign IH ns st pl (tick env (tick env w)) r w'); [|exact U|exact HS2|exact H].
    exact (readdir_names _ cwd st ns ign (proj1 HS2) E).
  - rewrite <- (sim_readdir _ g _ HS2 U), E. injection H as <- <-. now split.
Qed.

(** The call ends. *)
Definition ends_rec (g : fsys) (rec : list (list Z) -> list Z -> world -> res (option (list (list Z)) * world)) (srec : list (list Z) -> list Z -> res (option (list (list Z)))) : Prop :=
  forall pl st w r, under z0 st -> sim (snd w) g -> srec pl st = Ok r -> exists w', rec pl st w = Ok (r, w').
Lemma loop_ends g rec srec ign : same_rec g rec srec -> ends_rec g rec srec -> forall ns st pl w r, Forall (fun n => hidden ign n = false -> okname n) ns -> under z0 st -> sim (snd w) g ->
  list_loop srec g cwd ign st ns pl = Ok r -> exists w', live_list_loop rec env cwd ign st ns pl w = Ok (r, w').
Proof.
  intros A B. induction ns as [|n ns IH]; intros st pl w r Fn U HS H; cbn [live_list_loop list_loop] in *.
  - injection H as <-. now exists w.
  - inversion Fn as [|? ? On Fn']; subst. destruct (hidden ign n); [now apply IH|]. specialize (On eq_refl). pose proof (under_step z0 st n U On) as U'. pose proof (sim_tick w g HS) as HS1.
    rewrite (sim_is_dir _ g _ HS1 U'). destruct (path_is_dir g cwd (st ++ sep ++ n)); [|now apply IH].
    destruct (srec pl (st ++ sep ++ n)) as [[l|]| | |] eqn:E; cbn [bind] in H; try discriminate; destruct (B _ _ _ _ U' HS1 E) as [w2 E2]; rewrite E2; cbn [bind fst snd].
    + apply IH; [exact Fn'|exact U|exact (proj1 (A _ _ _ _ _ U' HS1 E2))|exact H].
    + injection H as <-. now exists w2.
Qed.
Lemma list_ends g ign : forall fuel, ends_rec g (live_list fuel env cwd ign) (dir_list_recurse fuel g cwd ign).
Proof.
  induction fuel as [|f IH]; intros pl st w r U HS H; cbn [live_list dir_list_recurse] in *; [discriminate|].
  pose proof (sim_tick w g HS) as HS1. rewrite (sim_exists _ g _ HS1 U). destruct (path_exists g cwd st); cbn [negb] in *; [|injection H as <-; now eexists].
  pose proof (sim_tick _ g HS1) as HS2. rewrite (sim_readdir _ g _ HS2 U). destruct (fs_readdir g cwd st) as [ns|] eqn:E; [|injection H as <-; now eexists].
  apply (loop_ends g _ _ ign (list_else g ign f) IH); try assumption. exact (readdir_names _ cwd st ns ign (proj1 (proj2 HS2)) E).
Qed.

(** * The removal *)
Definition stat_rm (del : fsys -> path -> list Z -> option fsys) (g : fsys) (st : list Z) : fsys * bool :=
  if negb (path_exists g cwd st) then (g, false) else match del g cwd st with Some g' => (g', true) | None => (g, false) end.
Lemma rm_else del st w w' b g : dels del -> del_sim del -> under z0 st -> sim (snd w) g -> live_rm del env cwd st w = (w', b) ->
  exists g', stat_rm del g st = (g', b) /\ wf (snd w') /\ wf g' /\ part p (snd w') = part p g' /\ (b = false -> g' = g) /\ (forall q, q <> target cwd st -> lookup g' q = lookup g q).
Proof.
  intros D DS U HS H. unfold live_rm in H. unfold stat_rm. pose proof (sim_tick w g HS) as HS1. rewrite (sim_exists _ g _ HS1 U) in H. pose proof (sim_tick _ g HS1) as HS2.
  destruct (path_exists g cwd st); cbn [negb] in *.
  - cbn [tick fst snd] in H. cbn [tick fst snd] in HS2. specialize (DS _ _ _ HS2 U). assert (plain st) as Pst by (destruct U as (ns & F & ->); now apply below_plain).
    destruct (del (env (S (fst w)) (env (fst w) (snd w))) cwd st) as [f'|] eqn:E1; destruct (del g cwd st) as [g'|] eqn:E2; try contradiction; injection H as <- <-; cbn [snd].
    + destruct (D _ _ _ _ (proj1 HS2) Pst E1) as (A1 & _ & _). destruct (D _ _ _ _ (proj1 (proj2 HS2)) Pst E2) as (A2 & _ & A3). exists g'. split; [reflexivity|]. split; [exact A1|]. split; [exact A2|]. split; [exact DS|]. split; [discriminate|exact A3].
    + exists g. destruct HS2 as (B1 & B2 & B3 & _). split; [reflexivity|]. split; [exact B1|]. split; [exact B2|]. split; [exact B3|]. split; [reflexivity|intros ? _; reflexivity].
  - injection H as <- <-. exists g. destruct HS1 as (B1 & B2 & B3 & _). split; [reflexivity|]. split; [exact B1|]. split; [exact B2|]. split; [exact B3|]. split; [reflexivity|intros ? _; reflexivity].
Qed.
Lemma loop_rm_else : forall l w w' b g, Forall (fun st => under z0 st /\ target cwd st <> p) l -> sim (snd w) g -> live_remove_loop lk env cwd l w = (w', b) ->
  exists g', remove_loop lk g cwd l = (g', b) /\ sim (snd w') g'.
Proof.
  induction l as [|st l IH]; intros w w' b g F HS H; cbn [live_remove_loop remove_loop] in *; [injection H as <- <-; now exists g|].
  inversion F as [|? ? [U Np] F']; subst. pose proof (sim_tick w g HS) as HS1. rewrite (sim_is_dir _ g _ HS1 U) in H.
  destruct (if path_is_dir g cwd st then _ else _) as [w1 s1] eqn:E in H.
  assert (exists g', (if path_is_dir g cwd st then path_rmdir lk g cwd st else path_remove lk g cwd st) = (g', s1) /\ sim (snd w1) g') as (g' & -> & HS').
  { assert (forall g', wf (snd w1) /\ wf g' /\ part p (snd w1) = part p g' /\ (s1 = false -> g' = g) /\ (forall q, q <> target cwd st -> lookup g' q = lookup g q) -> sim (snd w1) g') as K.
    { intros g' (A1 & A2 & A3 & _ & A5). split; [exact A1|]. split; [exact A2|]. split; [exact A3|]. rewrite A5 by congruence. apply HS. }
    destruct (path_is_dir g cwd st).
    - destruct (rm_else _ _ _ _ _ _ (dels_rmdir lk) sim_rmdir U HS1 E) as (g' & E' & A). exists g'. split; [exact E'|now apply K].
    - destruct (rm_else _ _ _ _ _ _ (dels_remove lk) sim_remove U HS1 E) as (g' & E' & A). exists g'. split; [exact E'|now apply K]. }
  destruct s1; [now apply (IH w1)|]. injection H as <- <-. now exists g'.
Qed.
Lemma remove_else fuel t fs w' b : wf fs -> lookup fs p = Some EDir -> (depth fs < fuel)%nat -> live_rmdir_recurse lk fuel env cwd z0 (t, fs) = Ok (w', b) ->
  exists fs', path_rmdir_recurse lk fuel fs cwd z0 = Ok (fs', b) /\ part p (snd w') = part p fs'.
Proof.
  intros W D Hf H. unfold live_rmdir_recurse in H. unfold path_rmdir_recurse. assert (HS : sim (snd (t, fs)) fs) by (split; [exact W|]; split; [exact W|]; split; [reflexivity|exact D]).
  pose proof (sim_tick _ fs HS) as HS1. pose proof (under_self z0) as U. rewrite (sim_exists _ fs _ HS1 U) in H. destruct (path_exists fs cwd z0); cbn [negb] in *.
  2: { injection H as <- <-. exists fs. split; [reflexivity|]. apply HS1. }
  destruct (live_list fuel env cwd false [] z0 (tick env (t, fs))) as [[r w1]| | |] eqn:E; cbn [bind fst snd] in H; try discriminate.
  destruct (list_else fs false fuel _ _ _ _ _ U HS1 E) as [HS2 EL]. rewrite EL. cbn [bind].
  assert (LAST : forall w2 w3 g b3, sim (snd w2) g -> live_rm (fs_rmdir lk) env cwd z0 w2 = (w3, b3) -> exists g', path_rmdir lk g cwd z0 = (g', b3) /\ part p (snd w3) = part p g').
  { intros w2 w3 g b3 H2 H3. destruct (rm_else _ _ _ _ _ _ (dels_rmdir lk) sim_rmdir U H2 H3) as (g' & E' & _ & _ & A & _). now exists g'. }
  destruct r as [[|x l]|].
  - injection H as H. destruct (LAST _ _ _ _ HS2 H) as (g' & -> & A). now exists g'.
  - pose proof (resolve_dir fs cwd z0 W P z_ne D) as R. fold p in R.
    destruct (dir_list_recurse_full fs cwd false fuel z0 p [] W R D Hf) as (qs & Eq & (_ & _ & Hin) & _). rewrite Eq in EL. injection EL as EL. cbn [app] in EL.
    assert (F : Forall (fun st => under z0 st /\ target cwd st <> p) (x :: l)).
    { rewrite <- EL. apply Forall_forall. intros s Hs. apply in_map_iff in Hs as (q & <- & Hq). apply Hin in Hq as (Hq0 & Hq & _).
      apply (wf_names fs (p ++ q) W) in Hq. apply Forall_app in Hq as [_ Fq]. split; [now exists q|]. rewrite target_under by exact Fq. intros X. apply Hq0.
      rewrite <- (app_nil_r p) in X at 2. now apply app_inv_head in X. }
    destruct (live_remove_loop lk env cwd (x :: l) w1) as [w2 st] eqn:L. destruct (loop_rm_else _ _ _ _ _ F HS2 L) as (g' & -> & HS3). destruct st.
    + destruct (live_rm (fs_rmdir lk) env cwd z0 w2) as [w3 b3] eqn:R3. injection H as <- <-. cbn [fst]. destruct (LAST _ _ _ _ HS3 R3) as (g3 & -> & A). now exists g3.
    + injection H as <- <-. exists g'. split; [reflexivity|apply HS3].
  - injection H as H. destruct (LAST _ _ _ _ HS2 H) as (g' & -> & A). now exists g'.
Qed.
Lemma remove_ends fuel t fs : wf fs -> lookup fs p = Some EDir -> (depth fs < fuel)%nat -> exists w' b, live_rmdir_recurse lk fuel env cwd z0 (t, fs) = Ok (w', b).
Proof.
  intros W D Hf. unfold live_rmdir_recurse. assert (HS : sim (snd (t, fs)) fs) by (split; [exact W|]; split; [exact W|]; split; [reflexivity|exact D]).
  pose proof (sim_tick _ fs HS) as HS1. destruct (path_exists (snd (tick env (t, fs))) cwd z0); cbn [negb]; [|now do 2 eexists].
  pose proof (resolve_dir fs cwd z0 W P z_ne D) as R. fold p in R.
  destruct (dir_list_recurse_full fs cwd false fuel z0 p [] W R D Hf) as (qs & Eq & _).
  destruct (list_ends fs false fuel _ _ _ _ (under_self z0) HS1 Eq) as [w1 ->]. cbn [bind fst snd].
  destruct ([] ++ map (below_text z0) qs) as [|x l]; [destruct (live_rm (fs_rmdir lk) env cwd z0 w1) as [w2 b2]; now exists w2, b2|].
  destruct (live_remove_loop lk env cwd (x :: l) w1) as [w2 []]; now do 2 eexists.
Qed.
End Sim.
