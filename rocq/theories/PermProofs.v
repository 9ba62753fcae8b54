From Coq Require Import Lia.
From Verif Require Import Base BaseFacts StrModel StrModel2 StrSpec StrProofs FsModel PathModel FsSpec PathProofs FsProofs FsMain FsMain2 PermModel.
Local Open Scope list_scope.

(** Part of a list, in order. *)
Inductive sub {A} : list A -> list A -> Prop :=
| sub_nil : sub [] []
| sub_take x l m : sub l m -> sub (x :: l) (x :: m)
| sub_skip x l m : sub l m -> sub l (x :: m).
Lemma sub_refl {A} (l : list A) : sub l l. Proof. induction l; [constructor|now apply sub_take]. Qed.
Lemma sub_app {A} (l m l' m' : list A) : sub l m -> sub l' m' -> sub (l ++ l') (m ++ m').
Proof. induction 1; intros H'; cbn [app]; [exact H'|apply sub_take; auto|apply sub_skip; auto]. Qed.
Lemma sub_ext {A} (l m e : list A) : sub l m -> sub l (m ++ e).
Proof. intros H. rewrite <- (app_nil_r l). apply sub_app; [exact H|]. induction e; constructor; auto. Qed.
Lemma sub_in {A} (l m : list A) x : sub l m -> In x l -> In x m.
Proof. induction 1; intros K; [exact K| |right; auto]. destruct K as [->|K]; [now left|right; auto]. Qed.
Lemma sub_map_inv {A B} (f : A -> B) l m : sub l (map f m) -> exists k, l = map f k /\ sub k m.
Proof.
  revert l. induction m as [|y m IH]; intros l H; cbn [map] in H; inversion H; subst.
  - exists []. split; [reflexivity|constructor].
  - destruct (IH _ H2) as (k & -> & K). exists (y :: k). split; [reflexivity|now constructor].
  - destruct (IH _ H2) as (k & -> & K). exists k. split; [reflexivity|now constructor].
Qed.
Lemma sub_nodup {A} (l m : list A) : sub l m -> NoDup m -> NoDup l.
Proof. induction 1; intros N; [exact N| |inversion N; auto]. inversion N; subst. constructor; [intros X; apply (sub_in _ _ _ H) in X; contradiction|auto]. Qed.
Lemma sub_first l m : sub l m -> contents_first m -> contents_first l.
Proof. induction 1; intros C; [exact C| |destruct C; auto]. destruct C as [C1 C2]. split; [|auto]. intros r Hr X. apply (C1 r Hr). now apply (sub_in _ _ _ H). Qed.

(** The loop only appends. *)
Lemma list_loop_more rec fs cwd ign z : (forall pl t r, rec pl t = Ok (Some r) -> exists e, r = pl ++ e) ->
  forall ns pl r, list_loop rec fs cwd ign z ns pl = Ok (Some r) -> exists e, r = pl ++ e.
Proof.
  intros Hr. induction ns as [|n ns IH]; intros pl r H; cbn [list_loop] in H; [injection H as <-; exists []; now rewrite app_nil_r|].
  destruct (hidden ign n); [now apply IH|]. destruct (path_is_dir fs cwd (z ++ sep ++ n)).
  - destruct (rec pl (z ++ sep ++ n)) as [[pl'|]| | |] eqn:E; cbn [bind] in H; try discriminate; [|injection H as <-; exists []; now rewrite app_nil_r].
    apply Hr in E as [e ->]. apply IH in H as [e' ->]. exists (e ++ (z ++ sep ++ n) :: e'). now rewrite <- !app_assoc.
  - apply IH in H as [e' ->]. exists ((z ++ sep ++ n) :: e'). now rewrite <- !app_assoc.
Qed.
Lemma recurse_more fs cwd ign fuel : forall pl z r, dir_list_recurse fuel fs cwd ign pl z = Ok (Some r) -> exists e, r = pl ++ e.
Proof.
  induction fuel as [|f IH]; intros pl z r H; [discriminate|]. cbn [dir_list_recurse] in H. destruct (negb (path_exists fs cwd z)); [discriminate|].
  destruct (fs_readdir fs cwd z); [|discriminate]. revert H. apply list_loop_more. exact IH.
Qed.

Lemma sub_all {A} (l m : list A) : sub l m -> NoDup m -> incl m l -> l = m.
Proof.
  induction 1 as [|x l m H IH|x l m H IH]; intros N I; [reflexivity| |].
  - inversion N as [|? ? Nx Nm]; subst. f_equal. apply IH; [exact Nm|]. intros y Hy. destruct (I y (or_intror Hy)) as [<-|K]; [contradiction|exact K].
  - inversion N as [|? ? Nx Nm]; subst. exfalso. apply Nx. apply (sub_in _ _ _ H). apply I. now left.
Qed.

(** What is listed below [p], against the whole listing. *)
Definition gap (nr : path -> bool) (fs : fsys) (p : path) (ks qs : list path) : Prop :=
  sub ks qs /\
  (forall q, In q qs -> ~ In q ks -> exists a n b m, q = a ++ n :: b /\ lookup fs (p ++ a ++ [m]) = Some EDir /\ nr (p ++ a ++ [m]) = true) /\
  (forall q a b, In q ks -> q = a ++ b -> a <> [] -> lookup fs (p ++ a) = Some EDir -> nr (p ++ a) = false) /\
  (forall q, In q qs -> q <> [] /\ lookup fs (p ++ q) <> None).
Lemma below_text_map z n ks : map (below_text (z ++ sep ++ n)) ks = map (below_text z) (map (cons n) ks).
Proof. rewrite map_map. apply map_ext. intros q. symmetry. apply below_text_cons. Qed.
Lemma in_dec_path (q : path) ks : {In q ks} + {~ In q ks}. Proof. apply in_dec, path_dec. Qed.
Section One.
  Variables (nr : path -> bool) (fs : fsys) (cwd : path) (ign : bool).
  Hypothesis W : wf fs.
  Definition fits (rp rf : list (list Z) -> list Z -> res (option (list (list Z)))) : Prop :=
    forall z p l m r, resolve fs cwd z = Some p -> lookup fs p = Some EDir -> rf m z = Ok (Some r) ->
      if nr p then rp l z = Ok None else
      exists ks qs, rp l z = Ok (Some (l ++ map (below_text z) ks)) /\ r = m ++ map (below_text z) qs /\ gap nr fs p ks qs.
  Definition adds (rf : list (list Z) -> list Z -> res (option (list (list Z)))) : Prop :=
    forall z p m r, resolve fs cwd z = Some p -> lookup fs p = Some EDir -> rf m z = Ok r -> exists qs, r = Some (m ++ map (below_text z) qs) /\ forall q, In q qs -> q <> [] /\ lookup fs (p ++ q) <> None.
  Lemma child_text z p n : resolve fs cwd z = Some p -> lookup fs p = Some EDir -> n = dot \/ n = dotdot \/ lookup fs (p ++ [n]) <> None -> hidden ign n = false ->
    lookup fs (p ++ [n]) <> None /\ resolve fs cwd (z ++ sep ++ n) = Some (p ++ [n]).
  Proof.
    intros R L Hn Hh. assert (Kn : lookup fs (p ++ [n]) <> None).
    { destruct Hn as [-> |[-> |K]]; [| |exact K]; exfalso; clear - Hh; destruct ign; discriminate. }
    split; [exact Kn|]. destruct (wf_parent _ _ _ W Kn) as [_ On]. now apply resolve_child.
  Qed.
  Lemma loop_adds rf z p : adds rf -> resolve fs cwd z = Some p -> lookup fs p = Some EDir ->
    forall ns m r, (forall n, In n ns -> n = dot \/ n = dotdot \/ lookup fs (p ++ [n]) <> None) -> list_loop rf fs cwd ign z ns m = Ok r ->
    exists qs, r = Some (m ++ map (below_text z) qs) /\ forall q, In q qs -> q <> [] /\ lookup fs (p ++ q) <> None.
  Proof.
    intros A R L. induction ns as [|n ns IH]; intros m r Hns H; cbn [list_loop] in H.
    { injection H as <-. exists []. cbn [map]. rewrite app_nil_r. split; [reflexivity|intros q []]. }
    assert (Hns' : forall x, In x ns -> x = dot \/ x = dotdot \/ lookup fs (p ++ [x]) <> None) by (intros x Hx; apply Hns; now right).
    destruct (hidden ign n) eqn:Hh; [now apply IH|].
    destruct (child_text z p n R L (Hns n (or_introl eq_refl)) Hh) as [Kn Rn].
    assert (T : z ++ sep ++ n = below_text z [n]) by (rewrite below_text_cons; unfold below_text; cbn; now rewrite app_nil_r).
    unfold path_is_dir, fs_stat in H. rewrite Rn in H. destruct (lookup fs (p ++ [n])) as [[|c]|] eqn:Ln; [| |contradiction].
    - destruct (rf m (z ++ sep ++ n)) as [r1| | |] eqn:Er; cbn [bind] in H; try discriminate.
      destruct (A _ _ _ _ Rn Ln Er) as (q1 & -> & Hq1). apply IH in H as (q2 & -> & Hq2); [|exact Hns'].
      exists (map (cons n) q1 ++ [n] :: q2). split; [|intros q Hq; apply in_app_or in Hq as [Hq|[<-|Hq]]; [apply in_map_iff in Hq as (x & <- & Hx); split; [discriminate|]; apply Hq1 in Hx as [_ Hx]; now rewrite <- app_assoc in Hx|split; [discriminate|congruence]|now apply Hq2]].
      rewrite map_app. cbn [map]. rewrite <- below_text_map, <- T, <- !app_assoc. reflexivity.
    - apply IH in H as (q2 & -> & Hq2); [|exact Hns']. exists ([n] :: q2). split; [|intros q [<-|Hq]; [split; [discriminate|congruence]|now apply Hq2]].
      cbn [map]. rewrite <- T, <- !app_assoc. reflexivity.
  Qed.
  Lemma gap_nil p : gap nr fs p [] [].
  Proof. split; [constructor|]. split; [intros q []|]. split; [intros q a b []|intros q []]. Qed.
  Lemma gap_stop p n qs : lookup fs (p ++ [n]) = Some EDir -> nr (p ++ [n]) = true -> (forall q, In q qs -> q <> [] /\ lookup fs (p ++ q) <> None) -> gap nr fs p [] qs.
  Proof.
    intros L N H. split; [clear; induction qs; constructor; assumption|]. split; [|split; [intros q a b []|exact H]].
    intros q Hq _. destruct q as [|x q]; [apply H in Hq as [Hq _]; contradiction|]. now exists [], x, q, n.
  Qed.
  Lemma gap_app p k1 k2 q1 q2 : gap nr fs p k1 q1 -> gap nr fs p k2 q2 -> gap nr fs p (k1 ++ k2) (q1 ++ q2).
  Proof.
    intros (A1 & B1 & C1 & D1) (A2 & B2 & C2 & D2). split; [now apply sub_app|]. split; [|split].
    - intros q Hq Nq. apply in_app_or in Hq as [Hq|Hq]; [apply B1|apply B2]; try exact Hq; intros X; apply Nq, in_or_app; tauto.
    - intros q a b Hq. apply in_app_or in Hq as [Hq|Hq]; [now apply C1|now apply C2].
    - intros q Hq. apply in_app_or in Hq as [Hq|Hq]; [now apply D1|now apply D2].
  Qed.
  Lemma gap_cons p n ks qs : nr (p ++ [n]) = false -> gap nr fs (p ++ [n]) ks qs -> gap nr fs p (map (cons n) ks) (map (cons n) qs).
  Proof.
    intros N (A & B & C & D). split; [|split; [|split]].
    - clear - A. induction A; cbn [map]; constructor; assumption.
    - intros q Hq Nq. apply in_map_iff in Hq as (q' & <- & Hq'). destruct (B q' Hq') as (a & x & b & m & -> & E1 & E2); [intros X; apply Nq; now apply in_map|].
      exists (n :: a), x, b, m. rewrite <- app_assoc in E1, E2. split; [reflexivity|]. split; assumption.
    - intros q a b Hq E Ha L. apply in_map_iff in Hq as (q' & <- & Hq'). destruct a as [|x a]; [contradiction|]. cbn [app] in E. injection E as <- ->.
      destruct a as [|y a]; [exact N|]. change (n :: y :: a) with ([n] ++ y :: a) in *. rewrite app_assoc in *. apply (C _ (y :: a) b Hq' eq_refl); [discriminate|exact L].
    - intros q Hq. apply in_map_iff in Hq as (q' & <- & Hq'). split; [discriminate|]. destruct (D q' Hq') as [_ K]. now rewrite <- app_assoc in K.
  Qed.
  Lemma gap_one p n : lookup fs (p ++ [n]) <> None -> (lookup fs (p ++ [n]) = Some EDir -> nr (p ++ [n]) = false) -> gap nr fs p [[n]] [[n]].
  Proof.
    intros K N. split; [apply sub_refl|]. split; [intros q Hq Nq; contradiction|]. split.
    - intros q a b [<-|[]] E Ha L. destruct a as [|x a]; [contradiction|]. cbn [app] in E. injection E as <- E. symmetry in E. apply app_eq_nil in E as [-> ->]. now apply N.
    - intros q [<-|[]]. split; [discriminate|exact K].
  Qed.
  Lemma loop_gap rp rf z p : fits rp rf -> adds rf -> resolve fs cwd z = Some p -> lookup fs p = Some EDir ->
    forall ns l m r, (forall n, In n ns -> n = dot \/ n = dotdot \/ lookup fs (p ++ [n]) <> None) ->
      list_loop rf fs cwd ign z ns m = Ok (Some r) ->
      exists ks qs, list_loop rp fs cwd ign z ns l = Ok (Some (l ++ map (below_text z) ks)) /\ r = m ++ map (below_text z) qs /\ gap nr fs p ks qs.
  Proof.
    intros F A R L. induction ns as [|n ns IH]; intros l m r Hns H; cbn [list_loop] in H |- *.
    { injection H as <-. exists [], []. cbn [map]. rewrite !app_nil_r. split; [reflexivity|]. split; [reflexivity|apply gap_nil]. }
    assert (Hns' : forall x, In x ns -> x = dot \/ x = dotdot \/ lookup fs (p ++ [x]) <> None) by (intros x Hx; apply Hns; now right).
    destruct (hidden ign n) eqn:Hh; [now apply IH|].
    destruct (child_text z p n R L (Hns n (or_introl eq_refl)) Hh) as [Kn Rn].
    assert (T : z ++ sep ++ n = below_text z [n]) by (rewrite below_text_cons; unfold below_text; cbn; now rewrite app_nil_r).
    unfold path_is_dir, fs_stat in H |- *. rewrite Rn in H |- *. destruct (lookup fs (p ++ [n])) as [[|c]|] eqn:Ln; [| |contradiction].
    - destruct (rf m (z ++ sep ++ n)) as [r1| | |] eqn:Er; cbn [bind] in H; try discriminate.
      destruct (A _ _ _ _ Rn Ln Er) as (q1 & -> & Hq1). pose proof (F _ _ l _ _ Rn Ln Er) as X. destruct (nr (p ++ [n])) eqn:Nn.
      + rewrite X. cbn [bind]. destruct (loop_adds rf z p A R L _ _ _ Hns' H) as (q2 & E2 & Hq2). assert (r = (m ++ map (below_text (z ++ sep ++ n)) q1) ++ [z ++ sep ++ n] ++ map (below_text z) q2) as -> by (rewrite app_assoc; congruence). clear E2.
        exists [], (map (cons n) q1 ++ [n] :: q2). cbn [map]. rewrite app_nil_r. split; [reflexivity|]. split.
        * rewrite map_app. cbn [map]. rewrite <- below_text_map, <- T, <- !app_assoc. reflexivity.
        * apply (gap_stop p n); [exact Ln|exact Nn|]. intros q Hq. apply in_app_or in Hq as [Hq|[<-|Hq]]; [apply in_map_iff in Hq as (x & <- & Hx); split; [discriminate|]; apply Hq1 in Hx as [_ Hx]; now rewrite <- app_assoc in Hx|split; [discriminate|congruence]|now apply Hq2].
      + destruct X as (k1 & q1' & -> & E1 & G1). cbn [bind]. rewrite E1 in H.
        destruct (IH ((l ++ map (below_text (z ++ sep ++ n)) k1) ++ [z ++ sep ++ n]) _ _ Hns' H) as (k2 & q2 & E2 & -> & G2). rewrite E2.
        exists (map (cons n) k1 ++ [[n]] ++ k2), (map (cons n) q1' ++ [[n]] ++ q2). split; [|split].
        * rewrite !map_app. cbn [map]. rewrite <- below_text_map, <- T, <- !app_assoc. reflexivity.
        * rewrite !map_app. cbn [map]. rewrite <- below_text_map, <- T, <- !app_assoc. reflexivity.
        * apply gap_app; [now apply gap_cons|]. apply gap_app; [|exact G2]. apply gap_one; [rewrite Ln; discriminate|now intros _].
    - destruct (IH (l ++ [z ++ sep ++ n]) _ _ Hns' H) as (k2 & q2 & E2 & -> & G2). rewrite E2. exists ([[n]] ++ k2), ([[n]] ++ q2). split; [|split].
      * cbn [map app]. rewrite <- T, <- !app_assoc. reflexivity.
      * cbn [map app]. rewrite <- T, <- !app_assoc. reflexivity.
      * apply gap_app; [|exact G2]. apply gap_one; [rewrite Ln; discriminate|rewrite Ln; discriminate].
  Qed.
  Lemma readdir_dir z p : resolve fs cwd z = Some p -> lookup fs p = Some EDir -> exists ns, fs_readdir fs cwd z = Some ns /\ path_exists fs cwd z = true /\
    forall n, In n ns -> n = dot \/ n = dotdot \/ lookup fs (p ++ [n]) <> None.
  Proof.
    intros R L. unfold fs_readdir, path_exists, fs_stat. rewrite R, L. eexists. split; [reflexivity|]. split; [reflexivity|].
    intros n [<-|[<-|H]]; [now left|right; now left|]. right. right. now apply children_spec.
  Qed.
  Lemma recurse_adds fuel : adds (dir_list_recurse fuel fs cwd ign).
  Proof.
    induction fuel as [|f IH]; intros z p m r R L H; [discriminate|]. cbn [dir_list_recurse] in H. destruct (readdir_dir z p R L) as (ns & E & Ex & Hns). rewrite Ex, E in H. cbn [negb] in H.
    revert H. now apply loop_adds with (p := p).
  Qed.
  Lemma recurse_gap fuel : fits (perm_list_recurse nr fuel fs cwd ign) (dir_list_recurse fuel fs cwd ign).
  Proof.
    induction fuel as [|f IH]; intros z p l m r R L H; [discriminate|]. cbn [dir_list_recurse perm_list_recurse] in H |- *. destruct (readdir_dir z p R L) as (ns & E & Ex & Hns).
    rewrite Ex, E in *. cbn [negb] in *. unfold perm_readdir. rewrite R, E. destruct (nr p); [reflexivity|]. apply loop_gap with (rf := dir_list_recurse f fs cwd ign); try assumption. apply recurse_adds.
  Qed.
  Lemma perm_list_ok fuel z p : resolve fs cwd z = Some p -> lookup fs p = Some EDir -> (depth fs < fuel)%nat ->
    if nr p then perm_list_recurse nr fuel fs cwd ign [] z = Ok None else
    exists ks qs, perm_list_recurse nr fuel fs cwd ign [] z = Ok (Some (map (below_text z) ks)) /\ dir_list_recurse fuel fs cwd ign [] z = Ok (Some (map (below_text z) qs)) /\
      listing fs p ign qs /\ gap nr fs p ks qs.
  Proof.
    intros R L Hd. destruct (dir_list_recurse_ok fs cwd ign W fuel z p [] R L) as (qs & E & N & C & S); [lia|].
    pose proof (recurse_gap fuel z p [] [] _ R L E) as X. destruct (nr p); [exact X|]. destruct X as (ks & qs' & E1 & E2 & G). exists ks, qs'. split; [exact E1|]. split; [rewrite E; cbn [app] in E2 |- *; now rewrite E2|]. split; [|exact G].
    cbn [app] in E2. assert (qs' = qs) as ->; [|split; [exact N|split; [exact C|exact S]]].
    assert (Inj : forall x y, Forall okname x -> Forall okname y -> below_text z x = below_text z y -> x = y).
    { intros x y Fx Fy Exy. apply (f_equal comps) in Exy. rewrite !below_comps in Exy by assumption. now apply app_inv_head in Exy. }
    assert (Fo : forall q, lookup fs (p ++ q) <> None -> Forall okname q) by (intros q K; apply (wf_names fs _ W), Forall_app in K; tauto).
    destruct G as (_ & _ & _ & G). assert (G2 : forall q, In q qs -> lookup fs (p ++ q) <> None) by (intros q Hq; apply S in Hq; tauto).
    clear - Inj Fo E2 G G2. revert qs E2 G2. induction qs' as [|x l IH]; intros [|y m] E2 G2; try discriminate; [reflexivity|]. cbn [map] in E2. injection E2 as E2 E3. f_equal.
    - symmetry. apply Inj; [apply Fo, G2; now left|apply Fo, G; now left|exact E2].
    - apply IH; [intros q Hq; apply G; now right|exact E3|intros q Hq; apply G2; now right].
  Qed.
End One.

(** * Removal *)
Definition less (fs fs' : fsys) (gone : path -> Prop) : Prop := forall x, lookup fs' x = lookup fs x \/ gone x /\ lookup fs' x = None.
Lemma entry_remove lk fs cwd z fs' b : wf fs -> plain z -> (if path_is_dir fs cwd z then path_rmdir lk fs cwd z else path_remove lk fs cwd z) = (fs', b) ->
  wf fs' /\ less fs fs' (fun x => x = target cwd z /\ b = true) /\ (b = true -> lookup fs' (target cwd z) = None).
Proof.
  intros W P H.
  assert (wf fs' /\ (b = true -> exists p, resolve fs cwd z = Some p /\ lookup fs' p = None /\ forall q, q <> p -> lookup fs' q = lookup fs q) /\ (b = false -> fs' = fs)) as (A & B & C).
  { destruct (path_is_dir fs cwd z).
    - destruct (rmdir_effect lk fs cwd z fs' b W H) as (A & B & C). split; [exact A|]. split; [|exact C]. intros Hb. destruct (B Hb) as (p & ? & ? & ? & ? & ?). now exists p.
    - destruct (remove_effect lk fs cwd z fs' b W H) as (A & B & C). split; [exact A|]. split; [|exact C]. intros Hb. destruct (B Hb) as (p & ? & ? & ? & ? & ?). now exists p. }
  split; [exact A|]. destruct b.
  - destruct (B eq_refl) as (p & R & K & O). apply resolve_inv in R as [_ ->]; [|exact P]. split; [|now intros _]. intros x.
    destruct (path_dec x (target cwd z)) as [-> |X]; [right; auto|left; auto].
  - rewrite (C eq_refl). split; [intros x; now left|discriminate].
Qed.
Lemma below_target cwd z q : z <> [] -> Forall okname q -> target cwd (below_text z q) = target cwd z ++ q.
Proof.
  intros Hz F. unfold target. rewrite below_names by exact F. rewrite app_assoc. f_equal. f_equal. unfold below_text. now apply start_app.
Qed.
Lemma remove_part lk cwd z : plain z -> z <> [] -> forall ks fs fs' b, wf fs -> (forall q, In q ks -> Forall okname q) ->
  remove_loop lk fs cwd (map (below_text z) ks) = (fs', b) ->
  wf fs' /\ less fs fs' (fun x => exists q, In q ks /\ x = target cwd z ++ q) /\ (b = true -> forall q, In q ks -> lookup fs' (target cwd z ++ q) = None).
Proof.
  intros P Hz. induction ks as [|q ks IH]; intros fs fs' b W F H; cbn [map remove_loop] in H.
  { injection H as <- <-. split; [exact W|]. split; [intros x; now left|intros _ q []]. }
  destruct (if path_is_dir fs cwd (below_text z q) then path_rmdir lk fs cwd (below_text z q) else path_remove lk fs cwd (below_text z q)) as [fs1 b1] eqn:E.
  assert (Fq : Forall okname q) by (apply F; now left).
  destruct (entry_remove lk fs cwd (below_text z q) fs1 b1 W (below_plain z q P Fq) E) as (W1 & L1 & G1). rewrite (below_target cwd z q Hz Fq) in L1, G1.
  destruct b1.
  - destruct (IH fs1 fs' b W1) as (W2 & L2 & G2); [intros r Hr; apply F; now right|exact H|]. split; [exact W2|]. split.
    + intros x. destruct (L2 x) as [E2|[(r & Hr & ->) E2]]; [|right; split; [exists r; split; [now right|reflexivity]|exact E2]]. rewrite E2.
      destruct (L1 x) as [E1|[[-> _] E1]]; [now left|right]. split; [exists q; split; [now left|reflexivity]|exact E1].
    + intros Hb r [<-|Hr]; [|now apply G2]. destruct (L2 (target cwd z ++ q)) as [E2|[_ E2]]; [rewrite E2; now apply G1|exact E2].
  - injection H as <- <-. split; [exact W1|]. split; [|discriminate]. intros x. destruct (L1 x) as [E1|[[_ X] _]]; [now left|discriminate].
Qed.
Lemma dir_stays fs p q : wf fs -> lookup fs (p ++ q) <> None -> q <> [] -> lookup fs p = Some EDir.
Proof. intros W K Hq. now apply (wf_prefix fs p q). Qed.

Lemma perm_rmdir_main nr lk fs cwd z fuel : let p := target cwd z in
  wf fs -> plain z -> names z <> [] -> lookup fs p = Some EDir -> (depth fs < fuel)%nat ->
  exists fs' b, perm_rmdir_recurse nr lk fuel fs cwd z = Ok (fs', b) /\ wf fs' /\
    (forall x, lookup fs' x = lookup fs x \/ (exists r, x = p ++ r) /\ lookup fs' x = None) /\
    (forall d r, d <> [] -> lookup fs (p ++ d) = Some EDir -> nr (p ++ d) = true -> lookup fs' (p ++ d ++ r) = lookup fs (p ++ d ++ r)) /\
    (b = true -> lk p = false -> (forall n, lookup fs (p ++ [n]) = Some EDir -> nr (p ++ [n]) = false) -> forall r, lookup fs' (p ++ r) = None) /\
    (b = true -> lk p = false -> nr p = true -> lookup fs' p = None).
Proof.
  intros p W P Hn L Hd. assert (z <> []) as Hz by (intros ->; now apply Hn).
  assert (p <> []) as Hp by (unfold p, target; intros E; apply app_eq_nil in E; tauto).
  pose proof (resolve_dir fs cwd z W P Hz L) as R. fold p in R.
  assert (Dz : forall f, wf f -> lookup f p = Some EDir -> path_is_dir f cwd z = true).
  { intros f Wf Lf. unfold path_is_dir, fs_stat. pose proof (resolve_dir f cwd z Wf P Hz Lf) as Rf. fold p in Rf. now rewrite Rf, Lf. }
  assert (Fin : forall f f' b, wf f -> lookup f p = Some EDir -> path_rmdir lk f cwd z = (f', b) ->
     wf f' /\ less f f' (fun x => x = p /\ b = true) /\ (b = true -> lookup f' p = None)).
  { intros f f' b Wf Lf H. apply (entry_remove lk f cwd z f' b Wf P). now rewrite (Dz f Wf Lf). }
  unfold perm_rmdir_recurse. assert (path_exists fs cwd z = true) as -> by (unfold path_exists, fs_stat; now rewrite R, L). cbn [negb].
  assert (Only : forall f' b, path_rmdir lk fs cwd z = (f', b) -> wf f' /\
    (forall x, lookup f' x = lookup fs x \/ (exists r, x = p ++ r) /\ lookup f' x = None) /\
    (forall d r, d <> [] -> lookup fs (p ++ d) = Some EDir -> nr (p ++ d) = true -> lookup f' (p ++ d ++ r) = lookup fs (p ++ d ++ r)) /\
    (b = true -> lk p = false -> (forall n, lookup fs (p ++ [n]) = Some EDir -> nr (p ++ [n]) = false) -> forall r, lookup f' (p ++ r) = None) /\
    (b = true -> lk p = false -> nr p = true -> lookup f' p = None)).
  { intros f' b H. destruct (Fin fs f' b W L H) as (W' & A & B). split; [exact W'|]. split; [|split; [|split; [|intros Hb _ _; now apply B]]].
    - intros x. destruct (A x) as [E|[[-> _] E]]; [now left|right]. split; [exists []; now rewrite app_nil_r|exact E].
    - intros d r Dd _ _. destruct (A (p ++ d ++ r)) as [E|[[E _] _]]; [exact E|]. symmetry in E. apply app_self in E. apply app_eq_nil in E. tauto.
    - intros Hb _ _ r. destruct r as [|a r]; [rewrite app_nil_r; now apply B|]. destruct (lookup f' (p ++ a :: r)) eqn:E; [|reflexivity]. exfalso.
      assert (lookup f' p = Some EDir); [|rewrite (B Hb) in *; discriminate]. apply (dir_stays f' p (a :: r)); [exact W'|congruence|discriminate]. }
  pose proof (perm_list_ok nr fs cwd false W fuel z p R L Hd) as X. destruct (nr p) eqn:Np.
  { rewrite X. cbn [bind]. destruct (path_rmdir lk fs cwd z) as [f' b] eqn:H. exists f', b. split; [reflexivity|]. now apply Only. }
  destruct X as (ks & qs & -> & _ & (N & C & S) & (G1 & G2 & G3 & G4)). cbn [bind].
  destruct ks as [|k0 ks0].
  { cbn [map]. destruct (path_rmdir lk fs cwd z) as [f' b] eqn:H. exists f', b. split; [reflexivity|]. now apply Only. }
  set (ks := k0 :: ks0) in *.
  assert (Fo : forall q, In q ks -> Forall okname q).
  { intros q Hq. apply (sub_in _ _ _ G1) in Hq. apply G4 in Hq as [_ Hq]. apply (wf_names fs _ W), Forall_app in Hq. tauto. }
  unfold ks at 1. cbn [map]. change (below_text z k0 :: map (below_text z) ks0) with (map (below_text z) ks).
  destruct (remove_loop lk fs cwd (map (below_text z) ks)) as [f1 b1] eqn:E1. destruct (remove_part lk cwd z P Hz ks fs f1 b1 W Fo E1) as (W1 & L1 & A1). fold p in L1, A1.
  assert (Kne : forall q, In q ks -> q <> []) by (intros q Hq; apply (sub_in _ _ _ G1) in Hq; apply G4 in Hq; tauto).
  assert (Lp : lookup f1 p = Some EDir).
  { destruct (L1 p) as [E|[(q & Hq & E) _]]; [congruence|]. apply app_self in E. now apply Kne in Hq. }
  assert (Safe : forall d r, d <> [] -> lookup fs (p ++ d) = Some EDir -> nr (p ++ d) = true -> lookup f1 (p ++ d ++ r) = lookup fs (p ++ d ++ r)).
  { intros d r Dd Ld Nd. destruct (L1 (p ++ d ++ r)) as [E|[(q & Hq & E) _]]; [exact E|]. apply app_inv_head in E. rewrite (G3 q d r Hq (eq_sym E) Dd Ld) in Nd. discriminate. }
  destruct b1.
  2:{ exists f1, false. split; [reflexivity|]. split; [exact W1|]. split; [|split; [exact Safe|split; discriminate]].
      intros x. destruct (L1 x) as [E|[(q & _ & ->) E]]; [now left|right]. split; [now exists q|exact E]. }
  destruct (path_rmdir lk f1 cwd z) as [f2 b2] eqn:E2. cbn [fst]. exists f2, true. split; [reflexivity|]. destruct (Fin f1 f2 b2 W1 Lp E2) as (W2 & L2 & A2).
  split; [exact W2|]. split; [|split; [|split]].
  - intros x. destruct (L2 x) as [E|[[-> _] E]]; [|right; split; [exists []; now rewrite app_nil_r|exact E]]. rewrite E.
    destruct (L1 x) as [E'|[(q & _ & ->) E']]; [now left|right]. split; [now exists q|exact E'].
  - intros d r Dd Ld Nd. rewrite <- (Safe d r Dd Ld Nd). destruct (L2 (p ++ d ++ r)) as [E|[[E _] _]]; [exact E|]. symmetry in E. apply app_self in E. apply app_eq_nil in E. tauto.
  - intros _ Lk Ch.
    assert (Hc : children f1 p = []).
    { destruct (children f1 p) as [|n l] eqn:Ec; [reflexivity|]. exfalso.
      assert (lookup f1 (p ++ [n]) <> None) as K by (apply children_spec; [exact W1|rewrite Ec; now left]).
      assert (K0 : lookup fs (p ++ [n]) <> None) by (destruct (L1 (p ++ [n])) as [E|[_ E]]; congruence).
      assert (Iq : In [n] qs) by (apply S; split; [discriminate|split; [exact K0|repeat constructor; intros [=]]]).
      destruct (in_dec_path [n] ks) as [Ik|Nk]; [apply K, (A1 eq_refl _ Ik)|].
      destruct (G2 [n] Iq Nk) as (a & x & b & m & E & Lm & Nm). destruct a as [|y a]; [|destruct a; discriminate]. cbn [app] in Lm, Nm. rewrite (Ch m Lm) in Nm. discriminate. }
    pose proof (resolve_dir f1 cwd z W1 P Hz Lp) as R1. fold p in R1.
    rewrite (rmdir_ok lk f1 cwd z p P Hn R1 Hp Lp Hc), Lk in E2. injection E2 as <- <-. specialize (A2 eq_refl).
    intros r. destruct r as [|a r]; [now rewrite app_nil_r|]. destruct (lookup (remove_key f1 p) (p ++ a :: r)) eqn:E; [|reflexivity]. exfalso.
    assert (lookup (remove_key f1 p) p = Some EDir); [|congruence]. apply (dir_stays _ p (a :: r)); [exact W2|congruence|discriminate].
  - intros _ _ X. discriminate.
Qed.

(** Without unreadable directories nothing changes. *)
Lemma gap_none nr fs p ks qs : NoDup qs -> gap nr fs p ks qs -> (forall r, lookup fs (p ++ r) = Some EDir -> nr (p ++ r) = false) -> ks = qs.
Proof.
  intros N (G1 & G2 & _) H. apply sub_all; [exact G1|exact N|]. intros q Hq. destruct (in_dec_path q ks) as [K|K]; [exact K|].
  destruct (G2 q Hq K) as (a & n & b & m & _ & L & X). rewrite (H _ L) in X. discriminate.
Qed.
Lemma perm_same nr fs cwd ign fuel z p : wf fs -> resolve fs cwd z = Some p -> lookup fs p = Some EDir -> (depth fs < fuel)%nat ->
  (forall r, lookup fs (p ++ r) = Some EDir -> nr (p ++ r) = false) -> perm_list_recurse nr fuel fs cwd ign [] z = dir_list_recurse fuel fs cwd ign [] z.
Proof.
  intros W R L Hd H. pose proof (perm_list_ok nr fs cwd ign W fuel z p R L Hd) as X. pose proof (H []) as Hp. rewrite app_nil_r in Hp. rewrite (Hp L) in X.
  destruct X as (ks & qs & -> & -> & (N & _) & G). now rewrite (gap_none nr fs p ks qs N G H).
Qed.
Lemma perm_not_dir nr fs cwd ign fuel pl z : (0 < fuel)%nat -> path_is_dir fs cwd z = false -> perm_list_recurse nr fuel fs cwd ign pl z = Ok None.
Proof.
  intros Hf H. destruct fuel as [|f]; [lia|]. cbn [perm_list_recurse]. destruct (path_exists fs cwd z); [|reflexivity]. cbn [negb].
  unfold perm_readdir, fs_readdir. unfold path_is_dir, fs_stat in H. destruct (resolve fs cwd z) as [p|]; [|reflexivity]. destruct (lookup fs p) as [[|]|]; [discriminate| |]; now destruct (nr p).
Qed.
