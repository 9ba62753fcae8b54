From Coq Require Import Lia.
From Verif Require Import Base BaseFacts StrModel StrModel2 StrSpec StrProofs StrProofs2 StrProofs3 StrMain FsModel PathModel FsSpec PathProofs FsProofs FsMain FsMain2 ExactFs RenameModel WinModel RaceModel RaceProofs WinFsModel.
Local Open Scope list_scope.
Local Open Scope Z_scope.

(** More than the name of a volume: a separator may be put behind it. *)
Definition steady (z : list Z) : bool :=
  match z with
  | [] => false
  | [c] => negb (is_sep c)
  | c :: d :: r =>
      if is_sep c && is_sep d then
        match upto r with
        | (_, _ :: r1) => match upto r1 with (_, _ :: _) => true | _ => false end
        | _ => false
        end
      else if (d =? 58) && negb (is_sep c) then match r with [] => false | _ => true end
      else true
  end.

Lemma fwd_app a b : fwd (a ++ b) = fwd a ++ fwd b. Proof. apply map_app. Qed.
Lemma fwd_id n : ~ In 92 n -> fwd n = n.
Proof. induction n as [|c n IH]; intros H; [reflexivity|]. cbn. replace (c =? 92) with false by (symmetry; apply Z.eqb_neq; intros ->; apply H; now left). f_equal. apply IH. intros X. apply H. now right. Qed.
Lemma upto_app r : forall a e b t, upto r = (a, e :: b) -> upto (r ++ t) = (a, e :: b ++ t).
Proof.
  induction r as [|c r IH]; intros a e b t H; [discriminate|]. cbn [app upto] in *. destruct (is_sep c).
  - injection H as <- <- <-. reflexivity.
  - destruct (upto r) as [x y]. injection H as <- ->. now rewrite (IH x e b t eq_refl).
Qed.

Lemma parse_app cur z v x n : wparse cur z = Some (v, x) -> steady z = true -> ~ In 92 n ->
  wparse cur (z ++ 92 :: n) = Some (v, x ++ 47 :: n) /\ steady (z ++ 92 :: n) = true.
Proof.
  intros P S N. assert (fwd (92 :: n) = 47 :: n) as Fn by (cbn; f_equal; now apply fwd_id).
  destruct z as [|c [|d r]]; [discriminate| |].
  - cbn in S. cbn [app wparse steady]. apply Bool.negb_true_iff in S. rewrite S. cbn [andb]. replace (92 =? 58) with false by lia. cbn [andb].
    cbn in P. injection P as <- <-. split; [|reflexivity]. f_equal. f_equal. change (c :: 92 :: n) with ([c] ++ 92 :: n). now rewrite fwd_app, Fn.
  - cbn [app wparse steady] in *. destruct (is_sep c && is_sep d) eqn:E1.
    + destruct (upto r) as [sv [|e1 r1]] eqn:U1; [discriminate|]. destruct (upto r1) as [sh [|e2 r2]] eqn:U2; [discriminate|].
      rewrite (upto_app _ _ _ _ (92 :: n) U1). destruct sv as [|s sv]; [discriminate|].
      rewrite (upto_app _ _ _ _ (92 :: n) U2). destruct sh as [|t sh]; [discriminate|]. injection P as <- <-. split; [|reflexivity].
      do 2 f_equal. change (e2 :: r2 ++ 92 :: n) with ((e2 :: r2) ++ 92 :: n). now rewrite fwd_app, Fn.
    + destruct ((d =? 58) && negb (is_sep c)).
      * destruct r as [|e r]; [discriminate|]. injection P as <- <-. split; [|reflexivity]. cbn [app]. do 2 f_equal.
        change (e :: r ++ 92 :: n) with ((e :: r) ++ 92 :: n). rewrite !fwd_app, Fn. destruct (is_sep e); [reflexivity|]. destruct (name_dec cur [c; d]); reflexivity.
      * injection P as <- <-. split; [|reflexivity]. do 2 f_equal. change (c :: d :: r ++ 92 :: n) with ((c :: d :: r) ++ 92 :: n). now rewrite fwd_app, Fn.
Qed.

Definition is_put (M' M : machine) (v : list Z) (fs : fsys) : Prop := forall u, M' u = if name_dec u v then Some fs else M u.
Lemma is_put_at M' M v fs : is_put M' M v fs -> M' v = Some fs.
Proof. intros H. rewrite H. destruct (name_dec v v); [reflexivity|contradiction]. Qed.
Lemma is_put_put M1 M v f g : is_put M1 M v f -> is_put (put M1 v g) M v g.
Proof. intros H u. unfold put. rewrite H. destruct (name_dec u v); reflexivity. Qed.
Lemma is_put_self M v f : M v = Some f -> is_put M M v f.
Proof. intros H u. destruct (name_dec u v) as [->|]; auto. Qed.

Definition winname (n : name) : Prop := n <> [] /\ ~ In 92 n /\ ~ In 47 n.
Definition winfs (fs : fsys) : Prop := forall q e n, In (q, e) fs -> In n q -> winname n.
Lemma winfs_remove fs p : winfs fs -> winfs (remove_key fs p).
Proof. intros H q e n Hq. apply (H q e n). unfold remove_key in Hq. apply filter_In in Hq. tauto. Qed.
Lemma below_in p : forall q n, below p q = Some [n] -> In n q.
Proof. induction p as [|a p IH]; intros q n H; cbn in H; [injection H as ->; now left|]. destruct q as [|b q]; [discriminate|]. destruct (name_dec a b); [right; now apply IH|discriminate]. Qed.
Lemma winfs_children fs p : winfs fs -> Forall winname (children fs p).
Proof.
  intros H. apply Forall_forall. intros n Hn. unfold children in Hn. apply in_flat_map in Hn as ([q e] & Hq & Hn). cbn [fst] in Hn.
  destruct (below p q) as [[|m [|]]|] eqn:E; try contradiction. destruct Hn as [->|[]]. apply (H q e n Hq). now apply below_in in E.
Qed.
Lemma winfs_readdir fs cwd x l : winfs fs -> fs_readdir fs cwd x = Some l -> Forall winname l.
Proof.
  intros H E. unfold fs_readdir in E. destruct (resolve fs cwd x) as [p|]; [|discriminate]. destruct (lookup fs p) as [[|]|]; try discriminate. injection E as <-.
  assert (forall n, n = dot \/ n = dotdot -> winname n) as K.
  { intros n [->| ->]; (split; [discriminate|]); split; intros X; cbn in X; lia. }
  constructor; [auto|]. constructor; [auto|]. now apply winfs_children.
Qed.
Lemma last_app_ne {A} (a b : list A) d : b <> [] -> last (a ++ b) d = last b d.
Proof.
  intros H. induction a as [|x a IH]; [reflexivity|]. cbn [app last]. destruct (a ++ b) eqn:E; [destruct a; [cbn in E; congruence|discriminate]|exact IH].
Qed.
Lemma last_in {A} (l : list A) d : l <> [] -> In (last l d) l.
Proof. induction l as [|x l IH]; intros H; [contradiction|]. destruct l as [|y l]; [now left|]. right. apply IH. discriminate. Qed.
Lemma no_slash_end x n : winname n -> ends_in_slash (x ++ 47 :: n) = false.
Proof.
  intros (N & _ & H). unfold ends_in_slash. change (47 :: n) with ([47] ++ n). rewrite app_assoc, last_app_ne by exact N. apply Z.eqb_neq. intros E. apply H. rewrite <- E. now apply last_in.
Qed.

Section Remove.
  Variables (ts : bool) (cw : list Z * path) (v : list Z) (lk : list Z -> path -> bool).
  Let cwd := dir_on cw v.
  Definition rel (w p : list Z) : Prop := wparse (fst cw) w = Some (v, p) /\ (ts = true \/ ends_in_slash p = false).
  Lemma stat_sim M fs w p : M v = Some fs -> rel w p -> w_stat ts M cw w = fs_stat fs cwd p.
  Proof. intros HM [P T]. unfold w_stat, on. rewrite P, HM. destruct T as [->| ->]; [reflexivity|]. destruct ts; reflexivity. Qed.
  Lemma exists_sim M fs w p : M v = Some fs -> rel w p -> wpath_exists ts M cw w = path_exists fs cwd p.
  Proof. intros HM R. unfold wpath_exists, path_exists. now rewrite (stat_sim M fs w p HM R). Qed.
  Lemma isdir_sim M fs w p : M v = Some fs -> rel w p -> wpath_is_dir ts M cw w = path_is_dir fs cwd p.
  Proof. intros HM R. unfold wpath_is_dir, path_is_dir. now rewrite (stat_sim M fs w p HM R). Qed.
  Lemma readdir_sim M fs w p : M v = Some fs -> rel w p -> w_readdir M cw w = fs_readdir fs cwd p.
  Proof. intros HM [P _]. unfold w_readdir, on. now rewrite P, HM. Qed.
  Lemma rel_app w p n : rel w p -> steady w = true -> winname n -> rel (w ++ wsep ++ n) (p ++ sep ++ n) /\ steady (w ++ wsep ++ n) = true.
  Proof.
    intros [P T] S H. destruct (parse_app _ _ _ _ n P S (proj1 (proj2 H))) as [P' S']. split; [|exact S']. split; [exact P'|]. right. cbn [sep app]. now apply no_slash_end.
  Qed.

  Definition relo (a b : res (option (list (list Z)))) : Prop :=
    match a, b with
    | Ok (Some l), Ok (Some m) => Forall2 rel l m
    | Ok None, Ok None => True
    | NoFuel, NoFuel => True
    | _, _ => False
    end.
  Lemma Forall2_snoc {A B} (R : A -> B -> Prop) l m x y : Forall2 R l m -> R x y -> Forall2 R (l ++ [x]) (m ++ [y]).
  Proof. intros H K. apply Forall2_app; [exact H|]. constructor; [exact K|constructor]. Qed.
  Lemma list_loop_sim M fs ign recw recp w p : M v = Some fs -> rel w p -> steady w = true ->
    (forall l m w p, Forall2 rel l m -> rel w p -> steady w = true -> relo (recw l w) (recp m p)) ->
    forall ns l m, Forall winname ns -> Forall2 rel l m ->
    relo (wlist_loop recw ts M cw ign w ns l) (list_loop recp fs cwd ign p ns m).
  Proof.
    intros HM R S Hr. induction ns as [|n ns IH]; intros l m F H; cbn [wlist_loop list_loop]; [exact H|]. inversion F as [|? ? Hn Fn]; subst.
    destruct (hidden ign n); [now apply IH|]. destruct (rel_app w p n R S Hn) as [R' S']. rewrite (isdir_sim M fs _ _ HM R').
    destruct (path_is_dir fs cwd (p ++ sep ++ n)); [|apply IH; [exact Fn|now apply Forall2_snoc]].
    specialize (Hr l m _ _ H R' S'). destruct (recw l (w ++ wsep ++ n)) as [[l'|]| | |], (recp m (p ++ sep ++ n)) as [[m'|]| | |]; cbn [relo bind] in *; try contradiction; try exact Logic.I.
    - apply IH; [exact Fn|]. now apply Forall2_snoc.
    - exact H.
  Qed.
  Lemma dir_list_sim M fs ign : M v = Some fs -> winfs fs -> forall fuel l m w p, Forall2 rel l m -> rel w p -> steady w = true ->
    relo (wdir_list_recurse fuel ts M cw ign l w) (dir_list_recurse fuel fs cwd ign m p).
  Proof.
    intros HM HW. induction fuel as [|f IH]; intros l m w p H R S; [exact Logic.I|]. cbn [wdir_list_recurse dir_list_recurse].
    rewrite (exists_sim M fs w p HM R). destruct (path_exists fs cwd p); cbn [negb]; [|exact Logic.I]. rewrite (readdir_sim M fs w p HM R).
    destruct (fs_readdir fs cwd p) as [ns|] eqn:E; [|exact Logic.I]. apply list_loop_sim; auto. exact (winfs_readdir _ _ _ _ HW E).
  Qed.

  Lemma rmdir_sim M0 M fs w p : is_put M M0 v fs -> winfs fs -> rel w p ->
    let '(M', b) := wpath_rmdir lk ts M cw w in let '(fs', b') := path_rmdir (lk v) fs cwd p in b = b' /\ is_put M' M0 v fs' /\ winfs fs'.
  Proof.
    intros HP HW R. pose proof (is_put_at _ _ _ _ HP) as HM. unfold wpath_rmdir, path_rmdir. rewrite (exists_sim M fs w p HM R). destruct (path_exists fs cwd p); cbn [negb]; [|auto].
    destruct R as [P _]. unfold w_RemoveDirectory, change. rewrite P, HM. fold cwd.
    destruct (fs_rmdir (lk v) fs cwd p) as [fs'|] eqn:E; [|auto]. split; [reflexivity|]. split; [now apply is_put_put with fs|].
    unfold fs_rmdir in E. destruct (resolve fs cwd p) as [[|a q]|]; try discriminate. destruct (lookup fs (a :: q)) as [[|]|]; try discriminate.
    destruct (children fs (a :: q)); try discriminate. destruct (rev_comps p) as [|c r]; try discriminate. destruct (name_dec c dot); try discriminate. destruct (lk v (a :: q)); try discriminate. injection E as <-. now apply winfs_remove.
  Qed.
  Lemma remove_sim M0 M fs w p : is_put M M0 v fs -> winfs fs -> rel w p -> path_is_dir fs cwd p = false ->
    let '(M', b) := wpath_remove lk ts M cw w in let '(fs', b') := path_remove (lk v) fs cwd p in b = b' /\ is_put M' M0 v fs' /\ winfs fs'.
  Proof.
    intros HP HW R Nd. pose proof (is_put_at _ _ _ _ HP) as HM. unfold wpath_remove, path_remove. rewrite (exists_sim M fs w p HM R). destruct (path_exists fs cwd p) eqn:Ex; cbn [negb]; [|auto].
    destruct R as [P _]. unfold w_remove, change. rewrite P, HM. fold cwd. unfold path_is_dir in Nd. unfold path_exists in Ex.
    destruct (fs_stat fs cwd p) as [[|c]|] eqn:St; [discriminate| |discriminate].
    destruct (fs_remove (lk v) fs cwd p) as [fs'|] eqn:E; [|auto]. split; [reflexivity|]. split; [now apply is_put_put with fs|].
    unfold fs_remove in E. unfold fs_stat in St. destruct (resolve fs cwd p) as [q|]; try discriminate. rewrite St in E. destruct (lk v q); try discriminate. injection E as <-. now apply winfs_remove.
  Qed.
  Lemma remove_loop_sim M0 : forall l m M fs, is_put M M0 v fs -> winfs fs -> Forall2 rel l m ->
    let '(M', b) := wremove_loop lk ts M cw l in let '(fs', b') := remove_loop (lk v) fs cwd m in b = b' /\ is_put M' M0 v fs' /\ winfs fs'.
  Proof.
    induction l as [|w l IH]; intros m M fs HP HW F; inversion F as [|? p ? m' R F']; subst; cbn [wremove_loop remove_loop]; [auto|].
    rewrite (isdir_sim M fs w p (is_put_at _ _ _ _ HP) R). pose proof (rmdir_sim M0 M fs w p HP HW R) as A. pose proof (remove_sim M0 M fs w p HP HW R) as B.
    destruct (path_is_dir fs cwd p).
    - destruct (wpath_rmdir lk ts M cw w) as [M1 b1], (path_rmdir (lk v) fs cwd p) as [f1 b2]. destruct A as (-> & HP1 & HW1). destruct b2; [now apply IH|auto].
    - specialize (B eq_refl). destruct (wpath_remove lk ts M cw w) as [M1 b1], (path_remove (lk v) fs cwd p) as [f1 b2]. destruct B as (-> & HP1 & HW1). destruct b2; [now apply IH|auto].
  Qed.
  Lemma rmdir_recurse_sim M fs fuel w p : M v = Some fs -> winfs fs -> rel w p -> steady w = true ->
    match wpath_rmdir_recurse lk ts fuel M cw w, path_rmdir_recurse (lk v) fuel fs cwd p with
    | Ok (M', b), Ok (fs', b') => b = b' /\ is_put M' M v fs'
    | NoFuel, NoFuel => True
    | _, _ => False
    end.
  Proof.
    intros HM HW R S. pose proof (is_put_self M v fs HM) as HP. unfold wpath_rmdir_recurse, path_rmdir_recurse. rewrite (exists_sim M fs w p HM R). destruct (path_exists fs cwd p); cbn [negb]; [|auto].
    pose proof (dir_list_sim M fs false HM HW fuel [] [] w p (Forall2_nil _) R S) as L.
    pose proof (rmdir_sim M M fs w p HP HW R) as A.
    destruct (wdir_list_recurse fuel ts M cw false [] w) as [[l|]| | |], (dir_list_recurse fuel fs cwd false [] p) as [[m|]| | |]; cbn [relo bind] in *; try contradiction; try exact Logic.I.
    - pose proof (remove_loop_sim M l m M fs HP HW L) as B. inversion L as [|a b l' m' Rab L' ]; subst.
      + destruct (wpath_rmdir lk ts M cw w), (path_rmdir (lk v) fs cwd p). tauto.
      + destruct (wremove_loop lk ts M cw (a :: l')) as [M1 b1], (remove_loop (lk v) fs cwd (b :: m')) as [f1 b2]. destruct B as (-> & HP1 & HW1). destruct b2; [|auto].
        pose proof (rmdir_sim M M1 f1 w p HP1 HW1 R) as C. destruct (wpath_rmdir lk ts M1 cw w), (path_rmdir (lk v) f1 cwd p). cbn [fst]. tauto.
    - destruct (wpath_rmdir lk ts M cw w), (path_rmdir (lk v) fs cwd p). tauto.
  Qed.
End Remove.

(** * Nested directories *)
Lemma fwd_in z : In 92 z -> In 47 (fwd z).
Proof. intros H. apply in_map_iff. exists 92. now split. Qed.
Lemma comps_scan92 z : ~ In 47 z -> scan wsep z (comps (fwd z)).
Proof.
  induction z as [|c z IH]; intros N; cbn [comps fwd map].
  { apply scan_end. intros a b H. destruct a; discriminate. }
  assert (scan wsep z (comps (fwd z))) as S by (apply IH; intros X; apply N; now right). fold (fwd z).
  destruct (c =? 92) eqn:E.
  - apply Z.eqb_eq in E. subst c. replace (47 =? 47) with true by lia. apply (scan_next wsep [] z); [|exact S]. intros a' b' _. zl. zlia.
  - assert ((c =? 47) = false) as -> by (apply Z.eqb_neq; intros ->; apply N; now left).
    destruct (comps_cons (fwd z)) as (x & l & Ez). rewrite Ez in *. clear IH. inversion S as [t Hc|a b ps Hc Hs]; subst.
    + apply scan_end. intros a b H. destruct a as [|y a]; cbn in H; injection H as -> H; [lia|]. exact (Hc a b H).
    + apply (scan_next wsep (c :: x) b); [|exact Hs]. intros a' b' H. destruct a' as [|y a]; cbn in H; injection H as -> H; [lia|].
      specialize (Hc a b' H). zl. lia.
Qed.
Definition wslashed (ns : list name) : list Z := flat_map (fun n => n ++ [92]) ns.
Definition wpfx (z : list Z) : list Z := match z with c :: _ => if c =? 92 then [92] else [] | [] => [] end.
Lemma wsep_ok : oks wsep. Proof. constructor; [|constructor]. unfold okc. lia. Qed.
Lemma wsep_len : zlen wsep = 1. Proof. reflexivity. Qed.
Definition winraw (n : name) : Prop := n <> [] /\ oks n /\ ~ In 47 n /\ ~ In 92 n.

Lemma wmkdir_loop_fold dbg ts cw z : forall ns2 ds ns1 sfull cap M,
  Forall winraw ns2 -> Forall2 (fun p x => exists c, srep p c x) ns2 ds ->
  srep (wpfx z ++ wslashed ns1) cap sfull -> zlen (wpfx z ++ wslashed (ns1 ++ ns2)) + 1 <= alloc_max ->
  wmkdir_loop dbg ts cw ds sfull M = Ok (fold_left (fun m ns => fst (wpath_mkdir ts m cw (wpfx z ++ wslashed ns))) (prefixes ns1 ns2) M).
Proof.
  induction ns2 as [|n ns2 IH]; intros ds ns1 sfull cap M F D R Hf; inversion D as [|? d ? ds' [cd Rd] D']; subst; cbn [wmkdir_loop prefixes fold_left]; [reflexivity|].
  inversion F as [|? ? On F2]; subst.
  assert (0 < zlen n) as Hn0 by (destruct On as [H1 _]; destruct n; [congruence|]; rewrite zlen_cons; zlia).
  rewrite (z_ok _ _ _ Rd). cbn [bind].
  assert (zlen (wslashed (ns1 ++ n :: ns2)) = zlen (wslashed ns1) + zlen n + 1 + zlen (wslashed ns2)) as Lt.
  { unfold wslashed. rewrite flat_map_app. cbn [flat_map]. rewrite !zlen_app. zl. lia. }
  pose proof Hf as Hf0. rewrite zlen_app, Lt in Hf. pose proof (zlen_nonneg (wslashed ns2)).
  destruct (append_ok dbg _ cap sfull n R) as (s1 & E1 & R1); [apply On|exact Hn0|rewrite zlen_app; destruct R; lia|].
  rewrite E1. cbn [bind].
  destruct (append_ok dbg _ _ s1 wsep R1 wsep_ok) as (s2 & E2 & R2); [rewrite wsep_len; lia|rewrite !zlen_app, ?wsep_len; destruct R; lia|].
  rewrite E2. cbn [bind]. rewrite (z_ok _ _ _ R2). cbn [bind].
  assert (((wpfx z ++ wslashed ns1) ++ n) ++ wsep = wpfx z ++ wslashed (ns1 ++ [n])) as Et.
  { unfold wslashed, wsep. rewrite flat_map_app. cbn [flat_map]. now rewrite app_nil_r, !app_assoc. }
  rewrite Et in *. match type of R2 with srep _ ?c _ => apply (IH ds' (ns1 ++ [n]) s2 c) end; trivial. rewrite <- app_assoc. exact Hf0.
Qed.

(** An entry that exists is not made again. *)
Lemma drop_nil_repeat l : exists k, l = repeat [] k ++ drop_nil l.
Proof.
  induction l as [|x l [k IH]]; [now exists 0%nat|]. destruct x as [|c x]; cbn [drop_nil]; [exists (S k); cbn; now f_equal|now exists 0%nat].
Qed.
Lemma drop_nil_head l c r : drop_nil l = c :: r -> c <> [].
Proof. induction l as [|x l IH]; intros H; [discriminate|]. destruct x as [|d x]; cbn [drop_nil] in H; [now apply IH|]. injection H as <- _. discriminate. Qed.
Lemma walk_app fs a : forall cur b q, walk fs cur (a ++ b) = Some q -> exists m, walk fs cur a = Some m /\ walk fs m b = Some q.
Proof.
  induction a as [|c a IH]; intros cur b q H; [now exists cur|]. cbn [app walk] in *. destruct (lookup fs cur) as [[|]|]; try discriminate.
  destruct (name_dec c []); [now apply IH|]. destruct (name_dec c dot); [now apply IH|]. destruct (name_dec c dotdot); [now apply IH|].
  destruct (lookup fs (cur ++ [c])); [now apply IH|discriminate].
Qed.
Lemma exists_not_new fs cwd z : path_exists fs cwd z = true -> new_entry fs cwd z = None.
Proof.
  unfold path_exists, fs_stat, resolve, new_entry. destruct z as [|c0 z]; [reflexivity|]. destruct (walk fs (start cwd (c0 :: z)) (comps (c0 :: z))) as [q|] eqn:Wk; [|discriminate].
  destruct (lookup fs q) as [e|]; [|discriminate]. intros _.
  destruct (rev_comps (c0 :: z)) as [|c r] eqn:Er; [reflexivity|]. destruct (special c) eqn:Sp; [reflexivity|].
  unfold rev_comps in Er. destruct (drop_nil_repeat (rev (comps (c0 :: z)))) as [k Ek]. rewrite Er in Ek. pose proof (drop_nil_head _ _ _ Er) as Nc.
  assert (comps (c0 :: z) = rev r ++ c :: rev (repeat [] k)) as Ec. { rewrite <- (rev_involutive (comps (c0 :: z))), Ek, rev_app_distr. cbn [rev]. now rewrite <- app_assoc. }
  rewrite Ec in Wk. apply walk_app in Wk as (m & -> & Wk). cbn [walk] in Wk. destruct (lookup fs m) as [[|]|]; try reflexivity.
  unfold special in Sp. destruct (name_dec c []); [contradiction|]. destruct (name_dec c dot); [discriminate|]. destruct (name_dec c dotdot); [discriminate|].
  destruct (lookup fs (m ++ [c])); [reflexivity|discriminate].
Qed.

Section Make.
  Variables (ts : bool) (cw : list Z * path) (v : list Z).
  Let cwd := dir_on cw v.
  Lemma mkdir_sim M0 M fs w p : is_put M M0 v fs -> wparse (fst cw) w = Some (v, p) ->
    is_put (fst (wpath_mkdir ts M cw w)) M0 v (fst (path_mkdir fs cwd p)).
  Proof.
    intros HP P. pose proof (is_put_at _ _ _ _ HP) as HM. unfold wpath_mkdir, path_mkdir.
    assert (wpath_exists ts M cw w = true -> path_exists fs cwd p = true) as X.
    { unfold wpath_exists, w_stat, on. rewrite P, HM. destruct (negb ts && ends_in_slash p && negb (at_root p)); [discriminate|]. auto. }
    destruct (wpath_exists ts M cw w).
    - rewrite X by reflexivity. exact HP.
    - unfold w_CreateDirectory, change. rewrite P, HM. fold cwd. destruct (path_exists fs cwd p) eqn:E.
      + unfold fs_mkdir. rewrite (exists_not_new _ _ _ E). exact HP.
      + destruct (fs_mkdir fs cwd p); [now apply is_put_put with fs|exact HP].
  Qed.
  Lemma fold_sim M0 (g : list name -> list Z) (h : list name -> list Z) : forall l M fs, is_put M M0 v fs ->
    (forall ns, In ns l -> wparse (fst cw) (g ns) = Some (v, h ns)) ->
    is_put (fold_left (fun m ns => fst (wpath_mkdir ts m cw (g ns))) l M) M0 v (fold_left (fun f ns => fst (path_mkdir f cwd (h ns))) l fs).
  Proof.
    induction l as [|ns l IH]; intros M fs HP H; [exact HP|]. cbn [fold_left]. apply IH; [|intros; apply H; now right].
    apply mkdir_sim; [exact HP|]. apply H. now left.
  Qed.
End Make.

Lemma prefixes_in ns2 : forall ns1 l, In l (prefixes ns1 ns2) -> exists n a b, ns2 = n :: a ++ b /\ l = ns1 ++ n :: a.
Proof.
  induction ns2 as [|n ns2 IH]; intros ns1 l H; [contradiction|]. cbn [prefixes] in H. destruct H as [<-|H].
  - exists n, [], ns2. now split.
  - destruct (IH _ _ H) as (m & a & b & -> & ->). exists n, (m :: a), b. split; [reflexivity|]. now rewrite <- app_assoc.
Qed.
Lemma fwd_wslashed ns : Forall winraw ns -> fwd (wslashed ns) = slashed ns.
Proof.
  induction 1 as [|n ns Hn _ IH]; [reflexivity|]. unfold wslashed, slashed in *. cbn [flat_map]. rewrite !fwd_app, IH. rewrite fwd_id by apply Hn. reflexivity.
Qed.
(** No share, no drive without separator behind it. *)
Definition own_form (z : list Z) : Prop :=
  (forall r, z <> 92 :: 92 :: r) /\ (forall c r, z = c :: 58 :: r -> c = 92 \/ exists r', r = 92 :: r').
Lemma fwd_chars z : oks z -> oks (fwd z).
Proof. unfold oks. intros H. unfold fwd. rewrite Forall_map. eapply Forall_impl; [|exact H]. intros c Hc. unfold okc in *. cbn beta. destruct (c =? 92); lia. Qed.
Lemma comps_no92 z : ~ In 92 z -> Forall (fun n => ~ In 92 n) (comps z).
Proof.
  induction z as [|c z IH]; intros N; cbn [comps]; [constructor; [intros []|constructor]|].
  assert (Forall (fun n => ~ In 92 n) (comps z)) as F by (apply IH; intros X; apply N; now right). destruct (c =? 47); [constructor; [intros []|exact F]|].
  destruct (comps_cons z) as (x & l & E). rewrite E in *. inversion F as [|? ? Nx Fl]; subst. constructor; [|exact Fl]. intros [->|X]; [apply N; now left|contradiction].
Qed.
Lemma fwd_no92 z : ~ In 92 (fwd z).
Proof. unfold fwd. rewrite in_map_iff. intros (c & E & _). destruct (c =? 92) eqn:X; lia. Qed.
Lemma winraw_names z : oks z -> Forall winraw (names (fwd z)).
Proof.
  intros O. pose proof (raw_names _ (fwd_chars z O)) as A. pose proof (comps_no92 _ (fwd_no92 z)) as B.
  rewrite Forall_forall in *. intros n Hn. destruct (A n Hn) as (H1 & H2 & H3). repeat split; auto. apply B. unfold names in Hn. apply filter_In in Hn. tauto.
Qed.
Lemma wpfx_len z : zlen (wpfx z ++ wslashed (names (fwd z))) = zlen (pfx (is_abs (fwd z)) ++ slashed (names (fwd z))) \/ In 47 z.
Proof.
  destruct (in_dec Z.eq_dec 47 z) as [|N]; [now right|left]. rewrite !zlen_app. f_equal.
  - destruct z as [|c z]; [reflexivity|]. cbn [wpfx fwd map is_abs pfx]. destruct (c =? 92) eqn:E; [reflexivity|]. replace (c =? 47) with false; [reflexivity|]. symmetry. apply Z.eqb_neq. intros ->. apply N. now left.
  - unfold wslashed, slashed. induction (names (fwd z)) as [|n l IH]; [reflexivity|]. cbn [flat_map]. rewrite !zlen_app, IH. reflexivity.
Qed.

Lemma parse_plain cur z n a b : ~ In 47 z -> own_form z -> (forall c r, z = c :: 58 :: r -> c = 92) -> Forall winraw (n :: a) -> names (fwd z) = n :: a ++ b ->
  wparse cur (wpfx z ++ wslashed (n :: a)) = Some (cur, pfx (is_abs (fwd z)) ++ slashed (n :: a)).
Proof.
  intros N OF ND F En. destruct z as [|c z]; [discriminate|]. pose proof (fwd_wslashed _ F) as Fs. inversion F as [|? ? Hn _]; subst. destruct Hn as (H1 & _ & H3 & H4). destruct n as [|d n]; [contradiction|].
  assert (is_sep d = false) as Sd. { unfold is_sep. apply Bool.orb_false_iff. split; apply Z.eqb_neq; intros ->; [apply H3|apply H4]; now left. }
  cbn [wpfx fwd map is_abs]. destruct (c =? 92) eqn:Ec.
  - replace (47 =? 47) with true by lia. cbn [pfx app]. unfold wslashed at 1. cbn [flat_map app wparse]. rewrite Sd, Bool.andb_false_r. replace (is_sep 92) with true by reflexivity. cbn [negb]. rewrite Bool.andb_false_r.
    do 2 f_equal. fold (wslashed a). change (d :: (n ++ [92]) ++ wslashed a) with (((d :: n) ++ [92]) ++ wslashed a). change (92 :: ((d :: n) ++ [92]) ++ wslashed a) with ([92] ++ wslashed ((d :: n) :: a)). rewrite fwd_app, Fs. reflexivity.
  - assert ((c =? 47) = false) as Ec' by (apply Z.eqb_neq; intros ->; apply N; now left). rewrite Ec'. cbn [pfx app].
    assert (is_sep c = false) as Sc by (unfold is_sep; now rewrite Ec, Ec').
    assert (d = c /\ forall e n', n = e :: n' -> e <> 58) as [-> Ne].
    { unfold names in En. cbn [fwd map] in En. rewrite Ec in En. fold (fwd z) in En. cbn [comps] in En. rewrite Ec' in En. destruct (comps_cons (fwd z)) as (x & l & Ex). rewrite Ex in En. cbn [filter nonempty] in En.
      assert ((d :: n) = (c :: x)) as Ed. { destruct (nonempty (c :: x)) eqn:Y; [injection En as <- <-; congruence|]. discriminate. }
      injection Ed as -> ->. split; [reflexivity|]. intros e n' -> ->. destruct z as [|e z]; [cbn in Ex; discriminate|]. cbn [fwd map comps] in Ex. fold (fwd z) in Ex. destruct (e =? 92) eqn:E9; [replace (47 =? 47) with true in Ex by lia; discriminate|].
      destruct (e =? 47); [discriminate|]. destruct (comps_cons (fwd z)) as (y & l' & Ey). rewrite Ey in Ex. injection Ex as -> _ _. specialize (ND c z eq_refl). lia. }
    assert (exists t, wslashed ((c :: n) :: a) = c :: t /\ (match t with e :: _ => (e =? 58) = false | [] => True end)) as (t & Et & Ht).
    { unfold wslashed. cbn [flat_map]. exists ((n ++ [92]) ++ flat_map (fun n => n ++ [92]) a). split; [reflexivity|]. destruct n as [|e n]; [reflexivity|]. cbn [app]. apply Z.eqb_neq. exact (Ne e n eq_refl). }
    rewrite Et in *. destruct t as [|e t]; cbn [wparse]; [now rewrite Fs|]. rewrite Sc. cbn [andb]. rewrite Ht. cbn [andb]. now rewrite Fs.
Qed.
Lemma parse_drive cur c ns : is_sep c = false -> Forall winraw ns -> wparse cur (wslashed ([c; 58] :: ns)) = Some ([c; 58], 47 :: slashed ns).
Proof.
  intros S F. unfold wslashed. cbn [flat_map app wparse]. rewrite S. cbn [andb negb]. replace (58 =? 58) with true by reflexivity. cbn [andb]. replace (is_sep 92) with true by reflexivity.
  fold (wslashed ns). do 2 f_equal. change (92 :: wslashed ns) with ([92] ++ wslashed ns). rewrite fwd_app, (fwd_wslashed _ F). reflexivity.
Qed.
Lemma prefixes_cons n ns : forall pre, prefixes (n :: pre) ns = map (cons n) (prefixes pre ns).
Proof. induction ns as [|m ns IH]; intros pre; [reflexivity|]. cbn [prefixes map]. f_equal. apply (IH (pre ++ [m])). Qed.
Lemma fold_map {A B C} (f : A -> B -> A) (g : C -> B) l : forall a, fold_left f (map g l) a = fold_left (fun a c => f a (g c)) l a.
Proof. induction l as [|c l IH]; intros a; [reflexivity|]. cbn. apply IH. Qed.
Lemma mkdir_root fs cwd : fst (path_mkdir fs cwd [47]) = fs.
Proof. reflexivity. Qed.

Lemma wmkdir_parents_loop dbg ts M cw z : oks z -> ~ In 47 z -> In 92 z -> names (fwd z) <> [] -> (forall a, z <> a ++ [92; 92]) -> zlen z + 2 <= alloc_max -> wpath_exists ts M cw z = false ->
  wpath_mkdir_parents dbg ts M cw z = Ok (fold_left (fun m ns => fst (wpath_mkdir ts m cw (wpfx z ++ wslashed ns))) (prefixes [] (names (fwd z))) M, true).
Proof.
  intros O N Hin Hne Hdd Hf Ex. assert (z <> []) as Hz by (intros ->; contradiction).
  assert (0 < zlen z) as Hz0 by (destruct z; [contradiction|zl; zlia]).
  unfold wpath_mkdir_parents. rewrite Ex. destruct (create_ok dbg z O Hz0) as (s & E1 & R1); [lia|]. rewrite E1. cbn [bind].
  unfold str_len. rewrite (r_len _ _ _ R1). rewrite w64_small by zlia.
  destruct (create_capacity_ok dbg (zlen z + 1)) as (sf & E2 & R2); [lia|lia|]. rewrite E2. cbn [bind].
  assert (exists sf' cap', (match z with c :: _ => if c =? 92 then str_append dbg sf wsep else Ok sf | [] => Ok sf end) = Ok sf' /\ srep (wpfx z ++ wslashed []) cap' sf') as (sf' & cap' & E3 & R3).
  { destruct z as [|c z]; [contradiction|]. cbn [wpfx]. destruct (c =? 92); cbn [wslashed flat_map app].
    - destruct (append_ok dbg [] _ sf wsep R2 wsep_ok) as (s' & E' & R'); [rewrite wsep_len; lia|rewrite wsep_len; zl; zlia|]. eauto.
    - eauto. }
  rewrite E3. cbn [bind].
  destruct (split_scan dbg z _ s wsep (comps (fwd z)) R1) as [_ Sp]; [rewrite wsep_len; lia|now apply comps_scan92|]. unfold lf in Sp.
  assert (1 < zlen (comps (fwd z))) as Hl.
  { apply fwd_in in Hin. apply in_split in Hin as (a & b & Ez). rewrite Ez, comps_app, zlen_app. destruct (comps_cons a) as (? & ? & ->), (comps_cons b) as (? & ? & ->). zl. zlia. }
  assert (forall a, fwd z <> a ++ [47; 47]) as Hdd'.
  { intros a E. apply map_eq_app in E as (z1 & z2 & Ez & E1' & E2'). destruct z2 as [|c1 [|c2 [|]]]; try discriminate. cbn in E2'. injection E2' as X1 X2.
    subst z. apply (Hdd z1). f_equal. f_equal; [|f_equal].
    - destruct (c1 =? 92) eqn:Y; [lia|]. subst c1. exfalso. apply N. apply in_or_app. right. now left.
    - destruct (c2 =? 92) eqn:Y; [lia|]. subst c2. exfalso. apply N. apply in_or_app. right. right. now left. }
  destruct Sp as (ds & E4 & D); [exact Hl| |].
  { intros l E. apply comps_double in E as [E|[a E]]; [rewrite E in Hne; now apply Hne|exact (Hdd' a E)]. }
  rewrite E4. cbn [bind]. rewrite (wmkdir_loop_fold dbg ts cw z (names (fwd z)) ds [] sf' cap' M); [reflexivity|now apply winraw_names| |exact R3|].
  - fold (names (fwd z)) in D. clear -D. induction D; constructor; eauto.
  - cbn [app]. destruct (wpfx_len z) as [->|]; [|contradiction]. pose proof (pfx_len (fwd z)). replace (zlen (fwd z)) with (zlen z) in * by (unfold fwd, zlen; now rewrite map_length). lia.
Qed.

Lemma fwd_double z : ~ In 47 z -> (forall a, z <> a ++ [92; 92]) -> forall a, fwd z <> a ++ [47; 47].
Proof.
  intros N Hdd a E. apply map_eq_app in E as (z1 & z2 & Ez & E1' & E2'). destruct z2 as [|c1 [|c2 [|]]]; try discriminate. cbn in E2'. injection E2' as X1 X2.
  subst z. apply (Hdd z1). f_equal. f_equal; [|f_equal].
  - destruct (c1 =? 92) eqn:Y; [lia|]. subst c1. exfalso. apply N. apply in_or_app. right. now left.
  - destruct (c2 =? 92) eqn:Y; [lia|]. subst c2. exfalso. apply N. apply in_or_app. right. right. now left.
Qed.

(** The call on Windows does on the volume that the path names what the call on POSIX does there. *)
Theorem wmkdir_parents_sim dbg ts M cw z v x fs : oks z -> ~ In 47 z -> In 92 z -> own_form z -> (forall a, z <> a ++ [92; 92]) -> zlen z + 2 <= alloc_max ->
  wparse (fst cw) z = Some (v, x) -> M v = Some fs -> names x <> [] -> ts = true \/ ends_in_slash x = false ->
  exists M' fs', wpath_mkdir_parents dbg ts M cw z = Ok (M', true) /\ path_mkdir_parents dbg fs (dir_on cw v) x = Ok (fs', true) /\ is_put M' M v fs'.
Proof.
  intros O N Hin OF Hdd Hf P HM Hne T. pose proof (is_put_self M v fs HM) as HP.
  assert (rel ts cw v z x) as R by now split.
  pose proof (exists_sim ts cw v M fs z x HM R) as Ex. destruct (path_exists fs (dir_on cw v) x) eqn:E.
  { exists M, fs. unfold wpath_mkdir_parents, path_mkdir_parents. rewrite Ex, E. auto. }
  assert (zlen (fwd z) = zlen z) as Lz by (unfold fwd, zlen; now rewrite map_length).
  assert ((v = fst cw /\ x = fwd z /\ forall c r, z = c :: 58 :: r -> c = 92) \/ (exists c r, z = c :: 58 :: 92 :: r /\ is_sep c = false /\ v = [c; 58] /\ x = fwd (92 :: r))) as Cs.
  { destruct z as [|c z]; [contradiction|]. assert ((c =? 47) = false) as C4 by (apply Z.eqb_neq; intros ->; apply N; now left).
    destruct z as [|d r]; cbn [wparse] in P; [injection P as <- <-; left; repeat split; congruence|].
    assert ((d =? 47) = false) as D4 by (apply Z.eqb_neq; intros ->; apply N; right; now left).
    destruct (is_sep c && is_sep d) eqn:S2.
    { unfold is_sep in S2. rewrite C4, D4 in S2. cbn [orb] in S2. apply Bool.andb_true_iff in S2 as [X Y]. apply Z.eqb_eq in X, Y. subst. exfalso. exact (proj1 OF r eq_refl). }
    destruct ((d =? 58) && negb (is_sep c)) eqn:S3.
    - apply Bool.andb_true_iff in S3 as [X Y]. apply Z.eqb_eq in X. subst d. apply Bool.negb_true_iff in Y. right. destruct (proj2 OF c r eq_refl) as [->|[r' ->]]; [discriminate|].
      exists c, r'. split; [reflexivity|]. split; [exact Y|]. replace (is_sep 92) with true in P by reflexivity. injection P as <- <-. now split.
    - injection P as <- <-. left. split; [reflexivity|]. split; [reflexivity|]. intros c' r' E'. injection E' as -> -> ->. replace (58 =? 58) with true in S3 by lia. cbn [andb] in S3.
      apply Bool.negb_false_iff in S3. unfold is_sep in S3. rewrite C4 in S3. cbn [orb] in S3. lia. }
  destruct Cs as [(-> & -> & ND)|(c & r & -> & Sc & -> & ->)].
  - rewrite (wmkdir_parents_loop dbg ts M cw z O N Hin Hne Hdd Hf Ex).
    destruct (mkdir_parents_loop dbg fs (dir_on cw (fst cw)) (fwd z) (fwd_chars z O) (fwd_in z Hin) Hne (fwd_double z N Hdd) ltac:(lia) E) as (sf & cap & ds & E' & R' & D). rewrite E'.
    rewrite (mkdir_loop_fold dbg (dir_on cw (fst cw)) (fwd z) (names (fwd z)) ds [] sf cap fs (raw_names _ (fwd_chars z O)) D R') by (cbn [app]; pose proof (pfx_len (fwd z)); lia). cbn [bind].
    do 2 eexists. split; [reflexivity|]. split; [reflexivity|]. apply (fold_sim ts cw (fst cw) M (fun ns => wpfx z ++ wslashed ns) (fun ns => pfx (is_abs (fwd z)) ++ slashed ns)); [exact HP|].
    intros ns Hns. apply prefixes_in in Hns as (n & a & b & En & ->). cbn [app]. apply (parse_plain (fst cw) z n a b N OF ND); [|exact En].
    pose proof (winraw_names z O) as W. rewrite En in W. change (n :: a ++ b) with ((n :: a) ++ b) in W. apply Forall_app in W. tauto.
  - set (z := c :: 58 :: 92 :: r) in *.
    assert (fwd (92 :: r) = 47 :: fwd r) as Ff by reflexivity.
    assert (comps (fwd z) = [c; 58] :: comps (fwd r)) as Cz.
    { unfold z. unfold is_sep in Sc. apply Bool.orb_false_iff in Sc as [Sc1 Sc2]. cbn [fwd map comps]. rewrite Sc2, Sc1. replace (58 =? 92) with false by lia. replace (92 =? 92) with true by lia. replace (58 =? 47) with false by lia. replace (47 =? 47) with true by lia. reflexivity. }
    assert (names (fwd z) = [c; 58] :: names (fwd (92 :: r))) as Nz. { unfold names. rewrite Cz, Ff. cbn [comps]. replace (47 =? 47) with true by lia. reflexivity. }
    assert (oks (92 :: r)) as Or. { unfold oks in *. unfold z in O. inversion O as [|? ? _ O1]; subst. now inversion O1. }
    rewrite (wmkdir_parents_loop dbg ts M cw z O N Hin ltac:(rewrite Nz; discriminate) Hdd Hf Ex).
    assert (zlen (fwd (92 :: r)) + 2 <= alloc_max) as Hf'. { replace (zlen (fwd (92 :: r))) with (zlen (92 :: r)) by (unfold fwd, zlen; now rewrite map_length). unfold z in Hf. rewrite !zlen_cons in *. lia. }
    destruct (mkdir_parents_loop dbg fs (dir_on cw [c; 58]) (fwd (92 :: r)) (fwd_chars _ Or)) as (sf & cap & ds & E' & R' & D); trivial.
    { rewrite Ff. now left. }
    { apply fwd_double. - intros X. apply N. unfold z. right. now right. - intros a Ea. apply (Hdd (c :: 58 :: a)). unfold z. now rewrite Ea. }
    rewrite E'. rewrite (mkdir_loop_fold dbg (dir_on cw [c; 58]) (fwd (92 :: r)) (names (fwd (92 :: r))) ds [] sf cap fs (raw_names _ (fwd_chars _ Or)) D R') by (cbn [app]; pose proof (pfx_len (fwd (92 :: r))); lia). cbn [bind].
    do 2 eexists. split; [reflexivity|]. split; [reflexivity|]. rewrite Nz. cbn [prefixes fold_left app]. rewrite prefixes_cons, fold_map.
    assert (wpfx z = []) as Wz. { unfold z. cbn [wpfx]. unfold is_sep in Sc. apply Bool.orb_false_iff in Sc as [_ ->]. reflexivity. } rewrite Wz. cbn [app].
    apply (fold_sim ts cw [c; 58] M (fun ns => wslashed ([c; 58] :: ns)) (fun ns => pfx (is_abs (fwd (92 :: r))) ++ slashed ns)).
    + rewrite <- (mkdir_root fs (dir_on cw [c; 58])). apply mkdir_sim; [exact HP|]. exact (parse_drive (fst cw) c [] Sc (Forall_nil _)).
    + intros ns Hns. apply prefixes_in in Hns as (n & a & b & En & ->). cbn [app]. rewrite Ff. cbn [is_abs]. replace (47 =? 47) with true by lia. cbn [pfx app]. apply parse_drive; [exact Sc|].
      pose proof (winraw_names (92 :: r) Or) as W. rewrite En in W. change (n :: a ++ b) with ((n :: a) ++ b) in W. apply Forall_app in W. tauto.
Qed.

(** * Renaming *)
Lemma wrename_sim lk ts M cw z1 z2 v fs x y p q : wparse (fst cw) z1 = Some (v, x) -> wparse (fst cw) z2 = Some (v, y) -> M v = Some fs ->
  ts = true \/ ends_in_slash x = false -> resolve fs (dir_on cw v) x = Some p -> entry_place fs (dir_on cw v) y = Some q ->
  (lookup fs q <> None -> p <> q -> wpath_rename lk ts M cw z1 z2 = (M, false)) /\
  (lookup fs q = None \/ p = q ->
   let '(M', b) := wpath_rename lk ts M cw z1 z2 in let '(fs', b') := path_rename (lk v) fs (dir_on cw v) x y in b = b' /\ is_put M' M v fs').
Proof.
  intros P1 P2 HM T Rs Pl. assert (rel ts cw v z1 x) as R by now split. pose proof (is_put_self M v fs HM) as HP.
  unfold wpath_rename, path_rename. rewrite (exists_sim ts cw v M fs z1 x HM R). unfold w_MoveFile. rewrite P1, P2, HM. destruct (name_dec v v) as [_|]; [|contradiction]. rewrite Rs, Pl. unfold change. rewrite P1, HM.
  split.
  - intros L Np. destruct (negb (path_exists fs (dir_on cw v) x)); [reflexivity|]. destruct (path_dec p q); [contradiction|]. destruct (lookup fs q); [reflexivity|contradiction].
  - intros H. destruct (negb (path_exists fs (dir_on cw v) x)); [auto|].
    assert ((if path_dec p q then match fs_rename (lk v) fs (dir_on cw v) x y with Some fs' => Some (put M v fs') | None => None end
             else match lookup fs q with Some _ => None | None => match fs_rename (lk v) fs (dir_on cw v) x y with Some fs' => Some (put M v fs') | None => None end end)
            = match fs_rename (lk v) fs (dir_on cw v) x y with Some fs' => Some (put M v fs') | None => None end) as ->.
    { destruct (path_dec p q); [reflexivity|]. destruct H as [->|]; [reflexivity|contradiction]. }
    destruct (fs_rename (lk v) fs (dir_on cw v) x y); [|auto]. split; [reflexivity|]. now apply is_put_put with fs.
Qed.
(** A failure changes nothing. *)
Lemma wrename_false lk ts M cw z1 z2 M' : wpath_rename lk ts M cw z1 z2 = (M', false) -> M' = M.
Proof. unfold wpath_rename. destruct (negb (wpath_exists ts M cw z1)); [congruence|]. destruct (w_MoveFile lk M cw z1 z2); congruence. Qed.
(** To another volume: files only. *)
Lemma wrename_across lk ts M cw z1 z2 v u fs fu x y M' : wparse (fst cw) z1 = Some (v, x) -> wparse (fst cw) z2 = Some (u, y) -> v <> u -> M v = Some fs -> M u = Some fu ->
  wpath_rename lk ts M cw z1 z2 = (M', true) ->
  exists p q w, resolve fs (dir_on cw v) x = Some p /\ lookup fs p = Some (EFile w) /\ entry_place fu (dir_on cw u) y = Some q /\ lookup fu q = None /\
    M' v = Some (remove_key fs p) /\ M' u = Some (store fu q (EFile w)) /\ forall t, t <> v -> t <> u -> M' t = M t.
Proof.
  intros P1 P2 Nv HM HU. unfold wpath_rename, w_MoveFile. destruct (negb (wpath_exists ts M cw z1)); [congruence|]. rewrite P1, P2, HM, HU. destruct (name_dec v u); [contradiction|].
  destruct (resolve fs (dir_on cw v) x) as [p|] eqn:Rs; [|congruence]. destruct (entry_place fu (dir_on cw u) y) as [q|] eqn:Pl; [|congruence].
  destruct (lookup fs p) as [[|w]|] eqn:L; try congruence. destruct (lookup fu q) eqn:Lq; try congruence. destruct (lk v p || ends_in_slash y); [congruence|].
  intros E. injection E as <-. exists p, q, w. repeat split; auto; unfold put.
  - destruct (name_dec v v); [reflexivity|contradiction].
  - destruct (name_dec u v); [congruence|]. destruct (name_dec u u); [reflexivity|contradiction].
  - intros t H1 H2. destruct (name_dec t v); [contradiction|]. destruct (name_dec t u); [contradiction|reflexivity].
Qed.

Lemma winfs_of fs : wf fs -> (forall q e n, In (q, e) fs -> In n q -> ~ In 92 n) -> winfs fs.
Proof.
  intros W H q e n Hq Hn. pose proof (wf_names fs q W) as F.
  assert (lookup fs q <> None) as L.
  { destruct q as [|a q]; [discriminate|]. cbn [lookup]. clear -Hq. induction fs as [|[k e'] fs IH]; [contradiction|]. cbn [assoc]. destruct (path_dec k (a :: q)); [discriminate|]. destruct Hq as [X|X]; [congruence|now apply IH]. }
  specialize (F L). rewrite Forall_forall in F. destruct (F n Hn) as (H1 & _ & _ & _ & H2). split; [exact H1|]. split; [exact (H q e n Hq Hn)|exact H2].
Qed.
Lemma parse_texts cur z v x : oks z -> ~ In 47 z -> wparse cur z = Some (v, x) -> own_form z -> In 92 z -> (forall a, z <> a ++ [92; 92]) ->
  oks x /\ In 47 x /\ (forall a, x <> a ++ [47; 47]) /\ zlen x <= zlen z.
Proof.
  intros O N P OF I D. assert (forall y, zlen (fwd y) = zlen y) as Lz by (intros y; unfold fwd, zlen; now rewrite map_length).
  assert (oks (fwd z) /\ In 47 (fwd z) /\ (forall a, fwd z <> a ++ [47; 47]) /\ zlen (fwd z) <= zlen z) as A.
  { split; [now apply fwd_chars|]. split; [now apply fwd_in|]. split; [now apply fwd_double|]. rewrite Lz. lia. }
  destruct z as [|c [|d r]]; [contradiction|cbn [wparse] in P; injection P as <- <-; exact A|]. cbn [wparse] in P.
  assert (forall e, In e (c :: d :: r) -> (e =? 47) = false) as N4 by (intros e He; apply Z.eqb_neq; intros ->; now apply N).
  destruct (is_sep c && is_sep d) eqn:S2.
  { unfold is_sep in S2. rewrite !N4 in S2 by (cbn; auto). cbn [orb] in S2. apply Bool.andb_true_iff in S2 as [X Y]. apply Z.eqb_eq in X, Y. subst. exfalso. exact (proj1 OF r eq_refl). }
  destruct ((d =? 58) && negb (is_sep c)) eqn:S3; [|injection P as <- <-; exact A].
  apply Bool.andb_true_iff in S3 as [X Y]. apply Z.eqb_eq in X. subst d. apply Bool.negb_true_iff in Y. destruct (proj2 OF c r eq_refl) as [->|[r' ->]]; [discriminate|].
  replace (is_sep 92) with true in P by reflexivity. injection P as <- <-.
  change (47 :: fwd r') with (fwd (92 :: r')).
  split; [|split; [now left|split]].
  - apply fwd_chars. unfold oks in *. inversion O as [|? ? _ O1]; subst. now inversion O1.
  - apply fwd_double; [intros H; apply N; right; now right|]. intros a Ea. apply (D (c :: 58 :: a)). now rewrite Ea.
  - rewrite Lz, !zlen_cons. lia.
Qed.
