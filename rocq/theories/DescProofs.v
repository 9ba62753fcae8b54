(** Proofs about DescModel.v. *)
From Coq Require Import String Ascii.
From Verif Require Import Base BaseFacts StrModel StrModel2 StrSpec StrProofs FsModel PathModel FsSpec PathProofs FsProofs FsMain FsMain2 PermModel PermProofs DescModel.
Local Open Scope list_scope.

Lemma list_loop_ext r1 r2 fs cwd ign z : forall ns pl,
  (forall pl n, In n ns -> hidden ign n = false -> path_is_dir fs cwd (z ++ sep ++ n) = true -> r1 pl (z ++ sep ++ n) = r2 pl (z ++ sep ++ n)) ->
  list_loop r1 fs cwd ign z ns pl = list_loop r2 fs cwd ign z ns pl.
Proof.
  induction ns as [|n ns IH]; intros pl H; cbn [list_loop]; [reflexivity|].
  assert (H' : forall pl n, In n ns -> hidden ign n = false -> path_is_dir fs cwd (z ++ sep ++ n) = true -> r1 pl (z ++ sep ++ n) = r2 pl (z ++ sep ++ n)) by (intros; apply H; [right| |]; assumption).
  destruct (hidden ign n) eqn:Hh; [now apply IH|]. destruct (path_is_dir fs cwd (z ++ sep ++ n)) eqn:D; [|now apply IH].
  rewrite (H pl n (or_introl eq_refl) Hh D). destruct (r2 pl (z ++ sep ++ n)) as [[pl'|]| | |]; cbn [bind]; try reflexivity. now apply IH.
Qed.

Lemma sub_len {A} (l m : list A) : sub l m -> List.length l = List.length m -> l = m.
Proof.
  assert (G : forall l m : list A, sub l m -> (List.length l <= List.length m)%nat) by (induction 1; cbn [List.length]; lia).
  induction 1 as [|x l m H IH|x l m H IH]; cbn [List.length]; intros E; [reflexivity|f_equal; apply IH; lia|apply G in H; lia].
Qed.
(** Deep directories are like directories that may not be read. *)
Definition deep (p : path) (d : nat) (q : path) : bool := (List.length p + d <=? List.length q)%nat.
Lemma desc_perm fs cwd ign : wf fs -> forall d p0 z p pl fuel, resolve fs cwd z = Some p -> lookup fs p = Some EDir -> (d < fuel)%nat ->
  (List.length p0 <= List.length p)%nat ->
  desc_list_recurse d fs cwd ign pl z = perm_list_recurse (deep p0 (List.length p - List.length p0 + d)) fuel fs cwd ign pl z.
Proof.
  intros W. induction d as [|d IH]; intros p0 z p pl fuel R L Hf Hp; (destruct fuel as [|f]; [lia|]); cbn [desc_list_recurse perm_list_recurse].
  - unfold perm_readdir, path_exists, fs_stat. rewrite R, L. cbn [negb]. unfold deep. rewrite (proj2 (Nat.leb_le _ _)) by lia. reflexivity.
  - destruct (readdir_dir fs cwd W z p R L) as (ns & E & Ex & Hns). rewrite Ex, E. cbn [negb]. unfold perm_readdir. rewrite R, E.
    unfold deep at 1. rewrite (proj2 (Nat.leb_gt _ _)) by lia. apply list_loop_ext. intros pl' n Hn Hh Hd.
    destruct (child_text fs cwd ign W z p n R L (Hns n Hn) Hh) as [K R'].
    assert (L' : lookup fs (p ++ [n]) = Some EDir).
    { unfold path_is_dir, fs_stat in Hd. rewrite R' in Hd. destruct (lookup fs (p ++ [n])) as [[|]|]; [reflexivity|discriminate|discriminate]. }
    rewrite (IH p0 _ _ pl' f R' L') by (rewrite ?app_length; cbn [List.length]; lia).
    f_equal. f_equal. rewrite app_length. cbn [List.length]. lia.
Qed.
Lemma desc_perm0 fs cwd ign d z p pl fuel : wf fs -> resolve fs cwd z = Some p -> lookup fs p = Some EDir -> (d < fuel)%nat ->
  desc_list_recurse d fs cwd ign pl z = perm_list_recurse (deep p d) fuel fs cwd ign pl z.
Proof. intros W R L Hf. rewrite (desc_perm fs cwd ign W d p z p pl fuel R L Hf) by lia. now rewrite Nat.sub_diag. Qed.
Lemma deep_app p d a : deep p d (p ++ a) = (d <=? List.length a)%nat.
Proof. unfold deep. rewrite app_length. destruct (d <=? List.length a)%nat eqn:E; [apply Nat.leb_le in E; apply Nat.leb_le; lia|apply Nat.leb_gt in E; apply Nat.leb_gt; lia]. Qed.
Lemma deep_self p d : (0 < d)%nat -> deep p d p = false.
Proof. intros. unfold deep. apply Nat.leb_gt. lia. Qed.

Lemma desc_full fs cwd ign : wf fs -> forall d z p pl fuel, resolve fs cwd z = Some p -> lookup fs p = Some EDir -> (depth fs < fuel + List.length p)%nat ->
  (forall q, Forall (shown ign) q -> lookup fs (p ++ q) = Some EDir -> (List.length q < d)%nat) ->
  desc_list_recurse d fs cwd ign pl z = dir_list_recurse fuel fs cwd ign pl z.
Proof.
  intros W. induction d as [|d IH]; intros z p pl fuel R L Hf Hq.
  { specialize (Hq [] (Forall_nil _)). rewrite app_nil_r in Hq. apply Hq in L. lia. }
  destruct fuel as [|f]; [pose proof (depth_le fs p W ltac:(congruence)); lia|]. cbn [desc_list_recurse dir_list_recurse].
  destruct (readdir_dir fs cwd W z p R L) as (ns & E & Ex & Hns). rewrite Ex, E. cbn [negb]. apply list_loop_ext. intros pl' n Hn Hh Hd.
  destruct (child_text fs cwd ign W z p n R L (Hns n Hn) Hh) as [K R'].
  assert (L' : lookup fs (p ++ [n]) = Some EDir).
  { unfold path_is_dir, fs_stat in Hd. rewrite R' in Hd. destruct (lookup fs (p ++ [n])) as [[|]|]; [reflexivity|discriminate|discriminate]. }
  apply (IH _ _ pl' f R' L'); [rewrite app_length; cbn [List.length]; lia|]. intros q Fq Lq. rewrite <- app_assoc in Lq.
  apply (Hq ([n] ++ q)) in Lq; [cbn [app List.length] in Lq; lia|]. constructor; [|exact Fq]. apply hidden_name; [|exact Hh]. now destruct (wf_parent _ _ _ W K).
Qed.
Lemma fuel_free fs cwd ign z p pl f f' : wf fs -> resolve fs cwd z = Some p -> lookup fs p = Some EDir -> (depth fs < f)%nat -> (depth fs < f')%nat ->
  dir_list_recurse f fs cwd ign pl z = dir_list_recurse f' fs cwd ign pl z.
Proof.
  intros W R L H H'. rewrite <- (desc_full fs cwd ign W (S (depth fs)) z p pl f), <- (desc_full fs cwd ign W (S (depth fs)) z p pl f'); try assumption; try lia; [reflexivity| |];
    intros q _ Lq; pose proof (depth_le fs (p ++ q) W ltac:(congruence)) as D; rewrite app_length in D; lia.
Qed.

Lemma desc_list_main fs cwd ign z d p fuel : wf fs -> resolve fs cwd z = Some p -> lookup fs p = Some EDir -> (depth fs < fuel)%nat -> (0 < d)%nat ->
  exists ks qs, desc_list_recurse d fs cwd ign [] z = Ok (Some (map (below_text z) ks)) /\
    dir_list_recurse fuel fs cwd ign [] z = Ok (Some (map (below_text z) qs)) /\ listing fs p ign qs /\ sub ks qs /\
    (forall q a b, In q ks -> q = a ++ b -> a <> [] -> lookup fs (p ++ a) = Some EDir -> (List.length a < d)%nat) /\
    (forall q, In q qs -> ~ In q ks -> exists a n b m, q = a ++ n :: b /\ lookup fs (p ++ a ++ [m]) = Some EDir /\ (d <= List.length (a ++ [m]))%nat) /\
    (ks = qs <-> forall q, In q qs -> lookup fs (p ++ q) = Some EDir -> (List.length q < d)%nat).
Proof.
  intros W R L Hd Hp. set (F := (fuel + S d)%nat).
  assert (E0 : dir_list_recurse F fs cwd ign [] z = dir_list_recurse fuel fs cwd ign [] z).
  { apply (fuel_free fs cwd ign z p); try assumption. unfold F. lia. }
  pose proof (perm_list_ok (deep p d) fs cwd ign W F z p R L) as X. rewrite (deep_self p d Hp) in X.
  destruct X as (ks & qs & E1 & E2 & Hl & G1 & G2 & G3 & G4); [unfold F; lia|].
  exists ks, qs. rewrite (desc_perm0 fs cwd ign d z p [] F W R L) by (unfold F; lia). split; [exact E1|]. split; [now rewrite <- E0|]. split; [exact Hl|]. split; [exact G1|].
  assert (A : forall q a b, In q ks -> q = a ++ b -> a <> [] -> lookup fs (p ++ a) = Some EDir -> (List.length a < d)%nat).
  { intros q a b Hq Eq Ha La. specialize (G3 q a b Hq Eq Ha La). rewrite deep_app in G3. apply Nat.leb_gt in G3. lia. }
  assert (B : forall q, In q qs -> ~ In q ks -> exists a n b m, q = a ++ n :: b /\ lookup fs (p ++ a ++ [m]) = Some EDir /\ (d <= List.length (a ++ [m]))%nat).
  { intros q Hq Nq. destruct (G2 q Hq Nq) as (a & n & b & m & Eq & La & D). exists a, n, b, m. rewrite deep_app in D. apply Nat.leb_le in D. auto. }
  split; [exact A|]. split; [exact B|]. split.
  - intros <- q Hq Lq. apply (A q q []); [exact Hq|now rewrite app_nil_r| |exact Lq]. apply G4 in Hq. now destruct Hq.
  - intros H. rewrite <- (desc_perm0 fs cwd ign d z p [] F W R L) in E1 by (unfold F; lia). rewrite (desc_full fs cwd ign W d z p [] F R L) in E1; [|unfold F; lia|].
    + rewrite E2 in E1. injection E1 as E1. apply (f_equal (@List.length _)) in E1. rewrite !map_length in E1. apply sub_len; [exact G1|now symmetry].
    + intros q Fq Lq. destruct q as [|n q]; [cbn [List.length]; lia|]. apply H; [|exact Lq]. apply Hl. split; [discriminate|]. split; [congruence|exact Fq].
Qed.

Lemma desc_rmdir_perm lk fs cwd z d p fuel : wf fs -> resolve fs cwd z = Some p -> lookup fs p = Some EDir -> (d < fuel)%nat ->
  desc_rmdir_recurse lk d fs cwd z = perm_rmdir_recurse (deep p d) lk fuel fs cwd z.
Proof. intros W R L Hf. unfold desc_rmdir_recurse, perm_rmdir_recurse. now rewrite (desc_perm0 fs cwd false d z p [] fuel W R L Hf). Qed.
Lemma desc_rmdir_main lk fs cwd z d : let p := target cwd z in
  wf fs -> plain z -> names z <> [] -> lookup fs p = Some EDir ->
  exists fs' b, desc_rmdir_recurse lk d fs cwd z = Ok (fs', b) /\ wf fs' /\
    (forall x, lookup fs' x = lookup fs x \/ (exists r, x = p ++ r) /\ lookup fs' x = None) /\
    (forall r s, r <> [] -> lookup fs (p ++ r) = Some EDir -> (d <= List.length r)%nat -> lookup fs' (p ++ r ++ s) = lookup fs (p ++ r ++ s)) /\
    (b = true -> lk p = false -> d <> 1%nat -> forall r, lookup fs' (p ++ r) = None).
Proof.
  intros p W P Hn L. assert (R : resolve fs cwd z = Some p) by (apply resolve_dir; [assumption..| |assumption]; intros ->; now apply Hn).
  destruct (perm_rmdir_main (deep p d) lk fs cwd z (S d + S (depth fs)) W P Hn L) as (fs' & b & E & W' & A & B & C & D); [lia|].
  exists fs', b. split; [rewrite <- E; apply (desc_rmdir_perm lk fs cwd z d p); try assumption; lia|]. split; [exact W'|]. split; [exact A|]. split.
  - intros r s Hr Lr Hd. apply B; [exact Hr|exact Lr|]. unfold p. fold p. rewrite deep_app. now apply Nat.leb_le.
  - intros Hb Hk Hd. destruct d as [|[|d]]; [|lia|].
    + intros r. assert (N : lookup fs' p = None) by (apply D; [exact Hb|exact Hk|unfold deep; apply Nat.leb_le; fold p; rewrite Nat.add_0_r; apply le_n]).
      destruct (lookup fs' (p ++ r)) eqn:Er; [|reflexivity]. destruct r as [|x r]; [rewrite app_nil_r in Er; fold p in N; congruence|].
      assert (X : lookup fs' p = Some EDir) by (apply (wf_prefix fs' p (x :: r)); [exact W'|congruence|discriminate]). fold p in N. congruence.
    + apply C; [exact Hb|exact Hk|]. intros n _. fold p. rewrite deep_app. reflexivity.
Qed.
