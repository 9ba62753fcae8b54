(** Directory listing and removal; file contents. *)
From Coq Require Import FinFun.
From Verif Require Import Base BaseFacts StrModel StrModel2 StrSpec StrProofs StrProofs2 StrProofs3 StrMain FsModel PathModel FsSpec PathProofs FsProofs FsMain.

(** * Listing *)
Lemma hidden_dot ign : hidden ign dot = true.
Proof. destruct ign; reflexivity. Qed.
Lemma hidden_dotdot ign : hidden ign dotdot = true.
Proof. destruct ign; reflexivity. Qed.
Lemma hidden_name ign n : okname n -> hidden ign n = false <-> shown ign n.
Proof.
  intros (H1 & H2 & H3 & _). unfold hidden, shown.
  assert (str_equals_z n [46] = false) as ->. { destruct (str_equals_z n [46]) eqn:E; [|reflexivity]. now apply equals_z_ok in E. }
  assert (str_equals_z n [46; 46] = false) as ->. { destruct (str_equals_z n [46; 46]) eqn:E; [|reflexivity]. now apply equals_z_ok in E. }
  rewrite !orb_false_r. destruct ign; cbn [andb]; [|split; [discriminate|reflexivity]]. destruct n as [|c n]; [contradiction|].
  split; [intros E _ r [= -> _]; lia|]. intros H. apply Z.eqb_neq. intros ->. exact (H eq_refl n eq_refl).
Qed.

Lemma dir_list_ok fs cwd z p ign : wf fs -> resolve fs cwd z = Some p -> lookup fs p = Some EDir ->
  exists l, path_dir_list fs cwd z ign = Some l /\ NoDup l /\
    forall n, In n l <-> lookup fs (p ++ [n]) <> None /\ shown ign n.
Proof.
  intros W R L. unfold path_dir_list, path_exists, fs_stat, fs_readdir. rewrite R, L. cbn [negb].
  eexists. split; [reflexivity|]. cbn [filter]. rewrite hidden_dot, hidden_dotdot. cbn [negb]. split.
  - apply NoDup_filter, children_nodup, W.
  - intros n. rewrite filter_In, (children_spec fs p n W). rewrite negb_true_iff. split; intros [H K]; split; try exact H;
      apply (hidden_name ign n (proj2 (wf_parent _ _ _ W H))); exact K.
Qed.
Lemma dir_list_none fs cwd z ign : path_is_dir fs cwd z = false -> path_dir_list fs cwd z ign = None.
Proof.
  unfold path_is_dir, path_dir_list, path_exists, fs_stat, fs_readdir. destruct (resolve fs cwd z) as [p|]; [|reflexivity].
  destruct (lookup fs p) as [[|]|]; [discriminate| |]; reflexivity.
Qed.

Lemma cf_app a b : contents_first a -> contents_first b -> (forall q r, In q a -> r <> [] -> ~ In (q ++ r) b) -> contents_first (a ++ b).
Proof.
  induction a as [|q a IH]; cbn [app contents_first]; intros Ha Hb H; [exact Hb|]. destruct Ha as [H1 H2]. split.
  - intros r Hr K. apply in_app_or in K as [K|K]; [exact (H1 r Hr K)|]. exact (H q r (or_introl eq_refl) Hr K).
  - apply IH; try assumption. intros q' r Hq. apply H. now right.
Qed.
Lemma cf_cons n l : contents_first l -> contents_first (map (cons n) l).
Proof.
  induction l as [|q l IH]; cbn [map contents_first]; [trivial|]. intros [H1 H2]. split; [|auto].
  intros r Hr K. apply in_map_iff in K as (q' & [= E] & K). subst q'. exact (H1 r Hr K).
Qed.

Lemma below_text_cons z n q : below_text z (n :: q) = below_text (z ++ sep ++ n) q.
Proof. unfold below_text, sep. cbn [flat_map]. now rewrite <- !app_assoc. Qed.

Lemma NoDup_app_intro {A} (a b : list A) : NoDup a -> NoDup b -> (forall x, In x a -> ~ In x b) -> NoDup (a ++ b).
Proof.
  intros Ha Hb H. induction Ha as [|x a Hx Ha IH]; cbn [app]; [exact Hb|]. constructor.
  - intros K. apply in_app_or in K as [K|K]; [contradiction|]. exact (H x (or_introl eq_refl) K).
  - apply IH. intros y Hy. apply H. now right.
Qed.

Definition listed (fs : fsys) (p : path) (ign : bool) (ns : list name) (qs : list path) : Prop :=
  NoDup qs /\ contents_first qs /\
  forall q, In q qs <-> exists n r, q = n :: r /\ In n ns /\ lookup fs (p ++ q) <> None /\ Forall (shown ign) q.

Lemma listed_add fs p ign n ns block qs : ~ In n ns -> listed fs p ign ns qs ->
  NoDup block -> contents_first block ->
  (forall q, In q block <-> exists r, q = n :: r /\ lookup fs (p ++ q) <> None /\ Forall (shown ign) q) ->
  listed fs p ign (n :: ns) (block ++ qs).
Proof.
  intros Hn (N & C & S) Nb Cb Sb. split; [|split].
  - apply NoDup_app_intro; try assumption. intros q H K. apply Sb in H as (r & -> & _). apply S in K as (m & r' & [= <- <-] & K & _). contradiction.
  - apply cf_app; try assumption. intros q r H _ K. apply Sb in H as (r0 & -> & _). apply S in K as (m & r' & [= <- _] & K & _). contradiction.
  - intros q. rewrite in_app_iff, Sb, S. split.
    + intros [(r & -> & H)|(m & r & -> & H1 & H)]; [exists n, r|exists m, r]; repeat split; try tauto; [now left|now right].
    + intros (m & r & -> & [<-|H1] & H); [left; exists r|right; exists m, r]; tauto.
Qed.

Lemma list_loop_ok rec fs cwd ign z p : wf fs -> resolve fs cwd z = Some p -> lookup fs p = Some EDir ->
  (forall n pl, okname n -> lookup fs (p ++ [n]) = Some EDir ->
     exists qs, rec pl (z ++ sep ++ n) = Ok (Some (pl ++ map (below_text (z ++ sep ++ n)) qs)) /\ listing fs (p ++ [n]) ign qs) ->
  forall ns pl, NoDup ns -> (forall n, In n ns -> n = dot \/ n = dotdot \/ lookup fs (p ++ [n]) <> None) ->
  exists qs, list_loop rec fs cwd ign z ns pl = Ok (Some (pl ++ map (below_text z) qs)) /\ listed fs p ign ns qs.
Proof.
  intros W R L Hrec ns. induction ns as [|n ns IH]; intros pl N H; cbn [list_loop].
  { exists []. cbn [map]. rewrite app_nil_r. split; [reflexivity|]. split; [constructor|]. split; [exact I|]. intros q. split; [contradiction|].
    intros (n & r & _ & [] & _). }
  inversion N as [|? ? Nn Ns]; subst.
  assert (forall m, In m ns -> m = dot \/ m = dotdot \/ lookup fs (p ++ [m]) <> None) as H' by (intros m Hm; apply H; now right).
  assert (forall r, lookup fs (p ++ n :: r) <> None -> okname n /\ lookup fs (p ++ [n]) <> None) as Hon.
  { intros r K. pose proof (wf_names fs _ W K) as F. apply Forall_app in F as [_ F]. inversion F as [|? ? On Fr]; subst. split; [assumption|].
    destruct r as [|m r]; [exact K|]. change (n :: m :: r) with ([n] ++ m :: r) in K. rewrite app_assoc in K.
    rewrite (wf_prefix fs (p ++ [n]) (m :: r) W K) by discriminate. discriminate. }
  destruct (hidden ign n) eqn:Eh.
  { destruct (IH pl Ns H') as (qs & E & HL). exists qs. split; [exact E|].
    change qs with ([] ++ qs). apply listed_add; try assumption; [constructor|exact I|]. intros q. split; [contradiction|].
    intros (r & -> & K & Sh). destruct (Hon r K) as [On _]. inversion Sh as [|? ? Sn _]; subst.
    apply (hidden_name ign n On) in Sn. congruence. }
  assert (lookup fs (p ++ [n]) <> None) as Hex.
  { destruct (H n (or_introl eq_refl)) as [->|[->|K]]; [now rewrite hidden_dot in Eh|now rewrite hidden_dotdot in Eh|exact K]. }
  pose proof (proj2 (wf_parent _ _ _ W Hex)) as On. pose proof (proj1 (hidden_name ign n On) Eh) as Sn.
  assert (path_is_dir fs cwd (z ++ sep ++ n) = match lookup fs (p ++ [n]) with Some EDir => true | _ => false end) as ->.
  { unfold path_is_dir, fs_stat. rewrite (resolve_child fs cwd z n p On R L Hex). reflexivity. }
  assert (z ++ sep ++ n = below_text z [n]) as Et by (unfold below_text, sep; cbn [flat_map]; now rewrite app_nil_r).
  destruct (lookup fs (p ++ [n])) as [[|c]|] eqn:Ed; [| |contradiction].
  - destruct (Hrec n pl On Ed) as (qn & Er & Nq & Cq & Sq). rewrite Er. cbn [bind].
    destruct (IH ((pl ++ map (below_text (z ++ sep ++ n)) qn) ++ [z ++ sep ++ n]) Ns H') as (qs & E & HL).
    exists ((map (cons n) qn ++ [[n]]) ++ qs). rewrite E. split.
    { do 2 f_equal. rewrite !map_app, map_map. cbn [map]. rewrite <- !app_assoc. f_equal. f_equal; [|now rewrite Et].
      apply map_ext. intros q. now rewrite below_text_cons. }
    apply listed_add; try assumption.
    + apply NoDup_app_intro.
      * apply Injective_map_NoDup; [|exact Nq]. intros a b [= ->]. reflexivity.
      * constructor; [intros []|constructor].
      * intros x Hx [<-|[]]. apply in_map_iff in Hx as (q & [= ->] & Hq). apply Sq in Hq as (Hq & _). contradiction.
    + apply cf_app; [now apply cf_cons|cbn; intuition|]. intros q r Hq Hr [K|[]]. apply in_map_iff in Hq as (q' & <- & Hq). cbn in K. injection K as K.
      symmetry in K. apply app_eq_nil in K. tauto.
    + intros q. rewrite in_app_iff, in_map_iff. split.
      * intros [(q' & <- & Hq)|[<-|[]]].
        -- apply Sq in Hq as (Hq1 & Hq2 & Hq3). exists q'. split; [reflexivity|]. rewrite <- app_assoc in Hq2. split; [exact Hq2|]. now constructor.
        -- exists []. split; [reflexivity|]. split; [congruence|]. now repeat constructor.
      * intros (r & -> & K & Sh). inversion Sh as [|? ? _ Sr]; subst. destruct r as [|m r]; [right; now left|]. left. exists (m :: r). split; [reflexivity|].
        apply Sq. split; [discriminate|]. split; [|exact Sr]. rewrite <- app_assoc. exact K.
  - destruct (IH (pl ++ [z ++ sep ++ n]) Ns H') as (qs & E & HL). exists ([[n]] ++ qs). rewrite E. split.
    { do 2 f_equal. rewrite map_app, <- app_assoc. cbn [map]. now rewrite Et. }
    apply listed_add; try assumption; [constructor; [intros []|constructor]|cbn; intuition|].
    intros q. split.
    + intros [<-|[]]. exists []. split; [reflexivity|]. split; [congruence|]. now repeat constructor.
    + intros (r & -> & K & Sh). destruct r as [|m r]; [now left|]. exfalso.
      change (n :: m :: r) with ([n] ++ m :: r) in K. rewrite app_assoc in K. rewrite (wf_prefix fs (p ++ [n]) (m :: r) W K) in Ed; discriminate.
Qed.

Lemma depth_le fs p : wf fs -> lookup fs p <> None -> (length p <= depth fs)%nat.
Proof.
  intros W H. destruct p as [|n p]; [cbn; lia|]. destruct (lookup fs (n :: p)) as [e|] eqn:E; [|contradiction].
  apply lookup_in in E; [|exact W|discriminate]. unfold depth.
  assert (In (length (n :: p)) (map (fun qe => length (fst qe)) fs)) as K. { apply in_map_iff. exists (n :: p, e). split; [reflexivity|exact E]. }
  pose proof (proj1 (list_max_le (map (fun qe => length (fst qe)) fs) (list_max (map (fun qe => length (fst qe)) fs))) (le_n _)) as F.
  rewrite Forall_forall in F. exact (F _ K).
Qed.

Lemma dir_list_recurse_ok fs cwd ign : wf fs -> forall fuel z p pl, resolve fs cwd z = Some p -> lookup fs p = Some EDir ->
  (depth fs < fuel + length p)%nat ->
  exists qs, dir_list_recurse fuel fs cwd ign pl z = Ok (Some (pl ++ map (below_text z) qs)) /\ listing fs p ign qs.
Proof.
  intros W fuel. induction fuel as [|f IH]; intros z p pl R L Hd.
  { pose proof (depth_le fs p W ltac:(congruence)). lia. }
  cbn [dir_list_recurse]. unfold path_exists, fs_stat, fs_readdir. rewrite R, L. cbn [negb].
  destruct (list_loop_ok (dir_list_recurse f fs cwd ign) fs cwd ign z p W R L) with (ns := dot :: dotdot :: children fs p) (pl := pl) as (qs & E & HL).
  - intros n pl' On Ln. apply IH; [apply resolve_child; [assumption..|congruence]|exact Ln|]. rewrite app_length. cbn [length]. lia.
  - assert (forall n, In n (children fs p) -> okname n) as K.
    { intros n Hn. apply children_spec in Hn; [|exact W]. exact (proj2 (wf_parent _ _ _ W Hn)). }
    constructor; [intros [H|H]; [discriminate|destruct (K _ H) as (_ & H1 & _); now apply H1]|].
    constructor; [intros H; destruct (K _ H) as (_ & _ & H1 & _); now apply H1|]. now apply children_nodup.
  - intros n [<-|[<-|H]]; [now left|right; now left|]. right. right. now apply children_spec.
  - exists qs. split; [exact E|]. destruct HL as (N & C & S). split; [exact N|]. split; [exact C|]. intros q. rewrite S. split.
    + intros (n & r & -> & _ & K). split; [discriminate|exact K].
    + intros (Hq & K1 & K2). destruct q as [|n r]; [contradiction|]. exists n, r. split; [reflexivity|]. split; [|tauto].
      right. right. apply children_spec; [exact W|]. destruct r as [|m r]; [exact K1|].
      change (n :: m :: r) with ([n] ++ m :: r) in K1. rewrite app_assoc in K1. rewrite (wf_prefix fs _ _ W K1) by discriminate. discriminate.
Qed.

(** * Removal *)
Lemma below_comps q : Forall okname q -> forall z, comps (below_text z q) = comps z ++ q.
Proof.
  induction 1 as [|n q On _ IH]; intros z; [unfold below_text; cbn; now rewrite !app_nil_r|].
  rewrite below_text_cons, IH. unfold sep. cbn [app]. rewrite comps_app, (comps_name n) by apply On. now rewrite <- app_assoc.
Qed.
Lemma below_plain z q : plain z -> Forall okname q -> plain (below_text z q).
Proof.
  intros (O & H1 & H2) F. rewrite Forall_forall in F. split; [|split].
  - unfold below_text. apply oks_app. split; [exact O|]. apply Forall_flat_map. apply Forall_forall. intros n Hn.
    constructor; [unfold okc; lia|]. apply (F n Hn).
  - rewrite below_comps by now apply Forall_forall. intros H. apply in_app_or in H as [H|H]; [contradiction|]. destruct (F _ H) as (_ & K & _). now apply K.
  - rewrite below_comps by now apply Forall_forall. intros H. apply in_app_or in H as [H|H]; [contradiction|]. destruct (F _ H) as (_ & _ & K & _). now apply K.
Qed.
Lemma below_names z q : Forall okname q -> names (below_text z q) = names z ++ q.
Proof. intros F. unfold names. rewrite below_comps, filter_app, (ok_filter q) by assumption. reflexivity. Qed.
Lemma rev_comps_last z ns n : names z = ns ++ [n] -> exists r, rev_comps z = n :: r.
Proof. intros E. destruct (drop_nil_rev _ _ _ E) as (r & E1 & _). exists r. exact E1. Qed.

(** Removing an entry without children through a path text ending in its name. *)
Lemma rmdir_ok lk fs cwd z p : plain z -> names z <> [] -> resolve fs cwd z = Some p -> p <> [] -> lookup fs p = Some EDir -> children fs p = [] ->
  path_rmdir lk fs cwd z = if lk p then (fs, false) else (remove_key fs p, true).
Proof.
  intros P Hn R Hp L C. unfold path_rmdir, path_exists, fs_stat. rewrite R, L. cbn [negb]. unfold fs_rmdir. rewrite R.
  destruct p as [|a p]; [contradiction|]. rewrite L, C. destruct (exists_last Hn) as (ns & n & E). destruct (rev_comps_last _ _ _ E) as (r & ->).
  pose proof (filter_ok _ (plain_comps _ P)) as G. unfold names in E. rewrite E in G. apply Forall_app in G as [_ G]. inversion G as [|? ? On _]; subst.
  destruct On as (_ & H & _). destruct (name_dec n dot); [contradiction|]. now destruct (lk (a :: p)).
Qed.
Lemma remove_one lk fs cwd z p : plain z -> names z <> [] -> resolve fs cwd z = Some p -> p <> [] -> lookup fs p <> None -> children fs p = [] ->
  (if path_is_dir fs cwd z then path_rmdir lk fs cwd z else path_remove lk fs cwd z) = if lk p then (fs, false) else (remove_key fs p, true).
Proof.
  intros P Hn R Hp L C. unfold path_is_dir, fs_stat. rewrite R. destruct (lookup fs p) as [[|c]|] eqn:E; [| |contradiction].
  - now apply rmdir_ok.
  - unfold path_remove, path_exists, fs_stat. rewrite R, E. cbn [negb]. unfold fs_remove. rewrite R, E. now destruct (lk p).
Qed.

Lemma resolve_below fs cwd z p q : wf fs -> plain z -> z <> [] -> p = target cwd z -> lookup fs (p ++ q) <> None -> q <> [] -> Forall okname q ->
  resolve fs cwd (below_text z q) = Some (p ++ q).
Proof.
  intros W P Hz -> L Hq F. destruct (exists_last Hq) as (q' & n & ->). apply Forall_app in F as [F' Fn]. inversion Fn as [|? ? On _]; subst.
  rewrite resolve_walk by (destruct z; [contradiction|discriminate]). rewrite below_comps by (apply Forall_app; split; assumption).
  assert (start cwd (below_text z (q' ++ [n])) = start cwd z) as -> by (unfold below_text; now apply start_app).
  unfold target in *. rewrite <- !app_assoc in *.
  pose proof (walk_entry fs (comps z ++ q') n (start cwd z) W) as X. rewrite filter_app, (ok_filter q' F'), <- !app_assoc in X. apply X; [|exact On|exact L].
  apply Forall_app. split; [now apply plain_comps|]. eapply Forall_impl; [|exact F']. intros a. now right.
Qed.

(** Entries below [p] that cannot be removed stay; the first one ends the loop. *)
Lemma remove_loop_ok lk cwd z p : plain z -> z <> [] -> p = target cwd z -> forall qs fs, wf fs -> NoDup qs -> contents_first qs ->
  (forall q, In q qs -> q <> []) -> (forall q, q <> [] -> lookup fs (p ++ q) <> None <-> In q qs) ->
  exists fs' b, remove_loop lk fs cwd (map (below_text z) qs) = (fs', b) /\ wf fs' /\
    (if b then (forall q, In q qs -> lk (p ++ q) = false) /\ (forall q, q <> [] -> lookup fs' (p ++ q) = None)
     else exists q, In q qs /\ lk (p ++ q) = true) /\
    (forall q, q <> [] -> lookup fs' (p ++ q) = lookup fs (p ++ q) \/ lk (p ++ q) = false /\ lookup fs' (p ++ q) = None) /\
    (forall x, (forall q, q <> [] -> x <> p ++ q) -> lookup fs' x = lookup fs x).
Proof.
  intros P Hz Ep qs. induction qs as [|q qs IH]; intros fs W N C Hne S; cbn [map remove_loop].
  - exists fs, true. split; [reflexivity|]. split; [exact W|]. split; [|split; [now left|reflexivity]]. split; [intros q []|]. intros q Hq.
    destruct (lookup fs (p ++ q)) eqn:E; [|reflexivity]. exfalso. apply (proj1 (S q Hq)). congruence.
  - inversion N as [|? ? Nq Nqs]; subst. destruct C as [Cq Cqs]. set (p := target cwd z) in *.
    assert (q <> []) as Hq by (apply Hne; now left).
    assert (lookup fs (p ++ q) <> None) as Lq by (apply S; [exact Hq|now left]).
    assert (Forall okname q) as Fq by (pose proof (wf_names fs _ W Lq) as F; apply Forall_app in F; tauto).
    assert (p ++ q <> []) as Hpq by (intros E; apply app_eq_nil in E; tauto).
    assert (children fs (p ++ q) = []) as Ch.
    { destruct (children fs (p ++ q)) as [|n l] eqn:E; [reflexivity|]. exfalso.
      assert (lookup fs ((p ++ q) ++ [n]) <> None) as K by (apply children_spec; [exact W|rewrite E; now left]).
      rewrite <- app_assoc in K. apply S in K; [|destruct q; discriminate]. destruct K as [K|K].
      - apply app_self in K. discriminate.
      - exact (Cq [n] ltac:(discriminate) K). }
    rewrite (remove_one lk fs cwd (below_text z q) (p ++ q)); [|now apply below_plain| |now apply resolve_below|assumption..].
    2:{ rewrite below_names by assumption. intros E. apply app_eq_nil in E. tauto. }
    destruct (lk (p ++ q)) eqn:Lk.
    { exists fs, false. split; [reflexivity|]. split; [exact W|]. split; [exists q; split; [now left|exact Lk]|]. split; [now left|reflexivity]. }
    destruct (IH (remove_key fs (p ++ q))) as (fs' & b & E & W' & A & D & B).
    + now apply wf_remove.
    + exact Nqs.
    + exact Cqs.
    + intros x Hx. apply Hne. now right.
    + intros x Hx. rewrite lookup_remove by (intros K; apply app_eq_nil in K; tauto). destruct (path_dec (p ++ x) (p ++ q)) as [K|K].
      * apply app_inv_head in K. subst x. split; [intros H; contradiction|intros H; contradiction].
      * rewrite (S x Hx). cbn [In]. split; [intros [H|H]; [subst x; contradiction|exact H]|tauto].
    + exists fs', b. split; [exact E|]. split; [exact W'|]. split; [|split].
      * destruct b; [|destruct A as (x & Hx & Kx); exists x; split; [now right|exact Kx]]. destruct A as [A1 A2]. split; [|exact A2].
        intros x [<-|Hx]; [exact Lk|now apply A1].
      * intros x Hx. specialize (D x Hx). rewrite lookup_remove in D by (intros K; apply app_eq_nil in K; tauto).
        destruct (path_dec (p ++ x) (p ++ q)) as [K|K]; [|exact D]. apply app_inv_head in K. subst x. right. split; [exact Lk|]. tauto.
      * intros x Hx. rewrite B by exact Hx.
        destruct x as [|a x]; [reflexivity|]. rewrite lookup_remove by discriminate. destruct (path_dec (a :: x) (p ++ q)) as [K|]; [|reflexivity].
        exfalso. exact (Hx q Hq K).
Qed.

Lemma rmdir_recurse_gen lk fs cwd z fuel : let p := target cwd z in
  wf fs -> plain z -> names z <> [] -> lookup fs p = Some EDir -> (depth fs < fuel)%nat ->
  exists fs' b, path_rmdir_recurse lk fuel fs cwd z = Ok (fs', b) /\ wf fs' /\
    (forall x, (forall r, x <> p ++ r) -> lookup fs' x = lookup fs x) /\
    (forall r, lookup fs' (p ++ r) = lookup fs (p ++ r) \/ lk (p ++ r) = false /\ lookup fs' (p ++ r) = None) /\
    ((forall r, r <> [] -> lookup fs (p ++ r) <> None -> lk (p ++ r) = false) ->
     (forall r, r <> [] -> lookup fs' (p ++ r) = None) /\ (lk p = false -> b = true /\ lookup fs' p = None)) /\
    (forall r, r <> [] -> lookup fs (p ++ r) <> None -> lk (p ++ r) = true -> b = false).
Proof.
  intros p W P Hn L Hd. assert (z <> []) as Hz by (intros ->; now apply Hn).
  assert (p <> []) as Hp by (unfold p, target; intros E; apply app_eq_nil in E; tauto).
  pose proof (resolve_dir fs cwd z W P Hz L) as R. fold p in R.
  unfold path_rmdir_recurse. assert (path_exists fs cwd z = true) as -> by (unfold path_exists, fs_stat; now rewrite R, L). cbn [negb].
  destruct (dir_list_recurse_ok fs cwd false W fuel z p [] R L) as (qs & E & N & C & S); [lia|]. rewrite E. cbn [bind app].
  assert (forall q, q <> [] -> lookup fs (p ++ q) <> None <-> In q qs) as S'.
  { intros q Hq. rewrite S. split; [intros H; split; [exact Hq|split; [exact H|]]|tauto]. apply Forall_forall. intros n _ [=]. }
  destruct (remove_loop_ok lk cwd z p P Hz eq_refl qs fs W N C) as (fs1 & b & E1 & W1 & A1 & D1 & B1); [intros q Hq; apply S in Hq; tauto|exact S'|].
  assert (lookup fs1 p = Some EDir) as L1.
  { rewrite B1; [exact L|]. intros q Hq K. apply app_self in K. contradiction. }
  pose proof (resolve_dir fs1 cwd z W1 P Hz L1) as R1. fold p in R1.
  destruct b.
  2:{ destruct A1 as (q & Hq & Kq).
      exists fs1, false. split; [destruct (map (below_text z) qs) eqn:M; [destruct qs; [destruct Hq|discriminate]|rewrite E1; reflexivity]|].
      split; [exact W1|]. split; [intros x Hx; apply B1; intros r _; apply Hx|]. split.
      { intros r. destruct r as [|a r]; [left; rewrite app_nil_r; congruence|]. apply D1. discriminate. }
      split; [|reflexivity]. intros H. exfalso. apply S in Hq as (Hq & Ex & _). rewrite (H q Hq Ex) in Kq. discriminate. }
  destruct A1 as [U1 A1].
  assert (children fs1 p = []) as Ch.
  { destruct (children fs1 p) as [|n l] eqn:Ec; [reflexivity|]. exfalso.
    assert (lookup fs1 (p ++ [n]) <> None) as K by (apply children_spec; [exact W1|rewrite Ec; now left]). apply K, A1. discriminate. }
  assert (exists fs' b, (match map (below_text z) qs with
           | [] => Ok (path_rmdir lk fs cwd z)
           | l => let '(fs, status) := remove_loop lk fs cwd l in if status then Ok (fst (path_rmdir lk fs cwd z), true) else Ok (fs, false) end) = Ok (fs', b)
         /\ fs' = (if lk p then fs1 else remove_key fs1 p) /\ (lk p = false -> b = true)) as (fs' & b & E2 & E3 & E4).
  { destruct (map (below_text z) qs) as [|t ts].
    - injection E1 as <-. rewrite (rmdir_ok lk fs cwd z p) by assumption. destruct (lk p); do 2 eexists; repeat split; discriminate.
    - rewrite E1. rewrite (rmdir_ok lk fs1 cwd z p) by assumption. destruct (lk p); cbn [fst]; do 2 eexists; repeat split. }
  exists fs', b. split; [rewrite <- E2; destruct (map (below_text z) qs); reflexivity|]. clear E2.
  assert (K : forall r, r <> [] -> lookup fs' (p ++ r) = None).
  { intros r Hr. rewrite E3. destruct (lk p); [now apply A1|]. rewrite lookup_remove by (intros K; apply app_eq_nil in K; tauto).
    destruct (path_dec (p ++ r) p); [reflexivity|]. now apply A1. }
  assert (K0 : if lk p then lookup fs' p = Some EDir else lookup fs' p = None).
  { rewrite E3. destruct (lk p); [exact L1|]. rewrite lookup_remove by exact Hp. destruct (path_dec p p); [reflexivity|contradiction]. }
  split; [rewrite E3; destruct (lk p); [exact W1|now apply wf_remove]|]. split; [|split; [|split]].
  - intros x Hx. rewrite E3. assert (lookup fs1 x = lookup fs x) as X by (apply B1; intros q _; apply Hx). destruct (lk p); [exact X|].
    destruct x as [|a x]; [reflexivity|]. rewrite lookup_remove by discriminate. destruct (path_dec (a :: x) p) as [Y|Y]; [|exact X].
    exfalso. apply (Hx []). now rewrite app_nil_r.
  - intros r. destruct r as [|a r].
    + rewrite app_nil_r. destruct (lk p) eqn:Lk; [left; congruence|now right].
    + destruct (lookup fs (p ++ a :: r)) eqn:X; [|left; apply K; discriminate]. right. split; [|apply K; discriminate].
      apply U1, S'; [discriminate|congruence].
  - intros _. split; [exact K|]. intros Hk. rewrite Hk in K0. auto.
  - intros r Hr Ex Kr. rewrite U1 in Kr; [discriminate|]. now apply S'.
Qed.

Lemma rmdir_recurse_ok lk fs cwd z fuel : let p := target cwd z in
  wf fs -> plain z -> names z <> [] -> lookup fs p = Some EDir -> (depth fs < fuel)%nat ->
  (forall r, lookup fs (p ++ r) <> None -> lk (p ++ r) = false) ->
  exists fs', path_rmdir_recurse lk fuel fs cwd z = Ok (fs', true) /\ wf fs' /\
    (forall r, lookup fs' (p ++ r) = None) /\
    (forall x, (forall r, x <> p ++ r) -> lookup fs' x = lookup fs x).
Proof.
  intros p W P Hn L Hd U. destruct (rmdir_recurse_gen lk fs cwd z fuel W P Hn L Hd) as (fs' & b & E & W' & O & _ & A & _). fold p in O, A.
  destruct A as [A1 A2]; [intros r _; apply U|]. destruct A2 as [-> A2]; [specialize (U []); rewrite app_nil_r in U; apply U; congruence|].
  exists fs'. split; [exact E|]. split; [exact W'|]. split; [|exact O]. intros r. destruct r as [|a r]; [now rewrite app_nil_r|]. now apply A1.
Qed.
Lemma rmdir_recurse_stuck lk fs cwd z fuel r : let p := target cwd z in
  wf fs -> plain z -> names z <> [] -> lookup fs p = Some EDir -> (depth fs < fuel)%nat ->
  r <> [] -> lookup fs (p ++ r) <> None -> lk (p ++ r) = true ->
  exists fs', path_rmdir_recurse lk fuel fs cwd z = Ok (fs', false) /\ wf fs' /\
    lookup fs' (p ++ r) = lookup fs (p ++ r) /\
    (forall x, lookup fs' x = lookup fs x \/ (exists r', r' <> [] /\ x = p ++ r') /\ lookup fs' x = None).
Proof.
  intros p W P Hn L Hd Hr Ex K. destruct (rmdir_recurse_gen lk fs cwd z fuel W P Hn L Hd) as (fs' & b & E & W' & O & A & _ & B). fold p in O, A, B.
  rewrite (B r Hr Ex K) in E. exists fs'. split; [exact E|]. split; [exact W'|].
  assert (X : lookup fs' (p ++ r) = lookup fs (p ++ r)) by (destruct (A r) as [X|[X _]]; [exact X|congruence]). split; [exact X|].
  intros x. destruct (below p x) as [q|] eqn:Eb.
  - apply below_spec in Eb. subst x. destruct (A q) as [Y|[Y1 Y2]]; [now left|]. right. split; [|exact Y2]. exists q. split; [|reflexivity].
    intros ->. rewrite app_nil_r in Y2. assert (lookup fs' p = Some EDir); [|congruence].
    destruct (exists_last Hr) as (r' & n & ->). clear - W' X Ex.
    assert (forall q, lookup fs' (p ++ q) <> None -> q <> [] -> lookup fs' p = Some EDir) as G; [|apply (G (r' ++ [n])); [congruence|destruct r'; discriminate]].
    intros q. induction q as [|m q IH] using rev_ind; [contradiction|]. intros H _. rewrite app_assoc in H. apply wf_parent in H as [H _]; [|exact W'].
    destruct q as [|y q]; [now rewrite app_nil_r in H|]. apply IH; [congruence|discriminate].
  - left. apply O. intros q ->. rewrite (proj2 (below_spec p (p ++ q) q)) in Eb; [discriminate|reflexivity].
Qed.

Lemma rmdir_recurse_not_dir lk fs cwd z fuel : (0 < fuel)%nat -> path_is_dir fs cwd z = false -> path_rmdir_recurse lk fuel fs cwd z = Ok (fs, false).
Proof.
  intros Hf H. unfold path_rmdir_recurse. destruct (path_exists fs cwd z) eqn:Ex; [|reflexivity]. cbn [negb].
  destruct fuel as [|f]; [lia|]. cbn [dir_list_recurse]. rewrite Ex. cbn [negb].
  unfold path_is_dir, fs_stat in H. unfold fs_readdir. unfold path_rmdir. rewrite Ex. cbn [negb]. unfold fs_rmdir.
  destruct (resolve fs cwd z) as [p|] eqn:R.
  - destruct (lookup fs p) as [[|c]|] eqn:L; [discriminate| |]; cbn [bind]; destruct p; try reflexivity; try discriminate.
  - reflexivity.
Qed.

(** * Files *)
Lemma last_comp z : z <> [] -> (forall a, z <> a ++ [47]) -> last (comps z) [] <> [].
Proof.
  intros Hz H E. destruct (comps_cons z) as (x & l & Ez). assert (comps z <> []) as Hc by (rewrite Ez; discriminate).
  destruct (exists_last Hc) as (cs & y & Ey). rewrite Ey, last_last in E. subst y.
  pose proof (comps_join z) as J. rewrite Ey in J. clear Ez Hc Ey x l. revert z Hz H J. induction cs as [|c cs IH]; intros z Hz H J.
  - cbn in J. congruence.
  - cbn [app] in J. rewrite join_cons in J by (destruct cs; discriminate). destruct cs as [|d cs].
    + cbn in J. exact (H c (eq_sym J)).
    + apply (IH (join_with sep ((d :: cs) ++ [[]]))); [| |reflexivity].
      * cbn [app]. rewrite join_cons by (destruct cs; discriminate). destruct d; discriminate.
      * intros a K. apply (H (c ++ sep ++ a)). rewrite <- J, K. now rewrite <- !app_assoc.
Qed.

(** What a write leaves in the file, given what was there. *)
Definition written (old : option entry) (append ln : bool) (txt : text) : text :=
  (match old with Some (EFile c) => if append then c else [] | _ => [] end) ++ txt ++ (if ln then [10] else []).

Lemma write_ok fs cwd z ns n append ln txt : wf fs -> plain z -> (forall a, z <> a ++ [47]) -> names z = ns ++ [n] ->
  lookup fs (start cwd z ++ ns) = Some EDir -> lookup fs (target cwd z) <> Some EDir ->
  exists fs', file_writefc fs cwd z append ln txt = (fs', true) /\ wf fs' /\
    (forall q, lookup fs' q = if path_dec q (target cwd z) then Some (EFile (written (lookup fs (target cwd z)) append ln txt)) else lookup fs q) /\
    fs_stat fs' cwd z = Some (EFile (written (lookup fs (target cwd z)) append ln txt)).
Proof.
  intros W P Hs E L K. assert (z <> []) as Hz by (intros ->; destruct ns; discriminate).
  assert (target cwd z = start cwd z ++ ns ++ [n]) as Et by (unfold target; now rewrite E).
  assert (target cwd z <> []) as Hne by (rewrite Et; destruct (start cwd z), ns; discriminate).
  pose proof (filter_ok _ (plain_comps _ P)) as G. fold (names z) in G. rewrite E in G. apply Forall_app in G as [Gs Gn]. inversion Gn as [|? ? On _]; subst.
  pose proof (last_comp z Hz Hs) as Hl.
  assert (exists cs, comps z = cs ++ [n] /\ filter nonempty cs = ns /\ Forall okcomp cs) as (cs & Ec & Ef & Fc).
  { destruct (comps_cons z) as (x & l & Ez). assert (comps z <> []) as Hc by (rewrite Ez; discriminate).
    destruct (exists_last Hc) as (cs & y & Ey). rewrite Ey, last_last in Hl. unfold names in E. rewrite Ey, filter_app in E. cbn [filter] in E.
    rewrite (proj2 (nonempty_spec y) Hl) in E. apply app_inj_tail in E as [E1 ->]. exists cs. split; [exact Ey|]. split; [exact E1|].
    pose proof (plain_comps _ P) as F. rewrite Ey in F. apply Forall_app in F. tauto. }
  assert (forall fs2, wf fs2 -> lookup fs2 (target cwd z) <> None -> resolve fs2 cwd z = Some (target cwd z)) as Res.
  { intros fs2 W2 L2. rewrite resolve_walk by assumption. rewrite Ec, Et in *. pose proof (walk_entry fs2 cs n (start cwd z) W2 Fc On) as X. rewrite Ef in X. apply X. exact L2. }
  assert (forall c, (lookup fs (target cwd z) = None \/ exists c0, lookup fs (target cwd z) = Some (EFile c0)) -> wf (store fs (target cwd z) (EFile c))) as Ws.
  { intros c Hc. rewrite Et in *. rewrite app_assoc in *. apply wf_store; try assumption.
    - apply wf_names with (fs := fs); [exact W|congruence].
    - intros _. left. destruct Hc as [Hc|[c0 Hc]]; rewrite Hc; discriminate. }
  assert (exists fs', file_writefc fs cwd z append ln txt = (fs', true) /\ fs' = store fs (target cwd z) (EFile (written (lookup fs (target cwd z)) append ln txt)) /\ wf fs') as (fs' & E1 & E2 & W').
  { unfold file_writefc, fs_write. destruct (lookup fs (target cwd z)) as [[|c]|] eqn:El; [contradiction| |].
    - rewrite (Res fs W) by congruence. rewrite El. eexists. split; [reflexivity|]. split; [|apply Ws; eauto].
      unfold written. destruct append; reflexivity.
    - rewrite resolve_missing by (try assumption; rewrite E; destruct ns; discriminate).
      destruct (last (comps z) []) as [|a r]; [contradiction|]. rewrite (new_entry_ok fs cwd z ns n) by (try assumption; now rewrite <- Et).
      rewrite <- Et. eexists. split; [reflexivity|]. split; [reflexivity|apply Ws; eauto]. }
  exists fs'. split; [exact E1|]. split; [exact W'|].
  assert (forall q, lookup fs' q = if path_dec q (target cwd z) then Some (EFile (written (lookup fs (target cwd z)) append ln txt)) else lookup fs q) as Lk.
  { intros q. rewrite E2. now apply lookup_store. }
  split; [exact Lk|]. unfold fs_stat. pose proof (Lk (target cwd z)) as Lt. destruct (path_dec (target cwd z) (target cwd z)); [|contradiction].
  rewrite (Res fs' W') by congruence. exact Lt.
Qed.

Lemma firstn_self {A} (c : list A) : firstn (Z.to_nat (zlen c)) c = c.
Proof. rewrite to_nat_zlen. apply firstn_all. Qed.
Lemma bwrite_fill c (b : blk) : zlen c <= zlen b -> bwrite b 0 (map Some c) = Ok (map Some c ++ skipn (length c) b).
Proof.
  intros H. rewrite <- (firstn_skipn (length c) b) at 1.
  change (firstn (length c) b ++ skipn (length c) b) with ([] ++ firstn (length c) b ++ skipn (length c) b).
  rewrite bwrite_app; [reflexivity|reflexivity|]. rewrite zlen_map, zlen_firstn. unfold zlen in *. lia.
Qed.

Lemma read_ok dbg fs cwd z c : fs_stat fs cwd z = Some (EFile c) -> 0 < zlen c \/ dbg = false -> zlen c + 1 <= alloc_max ->
  exists s, file_read dbg fs cwd z = Ok (Some s) /\ sb s = map Some c ++ [Some 0] /\ sl s = zlen c /\ sc s = zlen c /\ sv s = false.
Proof.
  intros S Hd Hf. unfold file_read, path_get_file_size. rewrite S. cbn [size_of]. pose proof (zlen_nonneg c).
  replace (zlen c <? 0) with false by lia.
  assert (exists s0, str_create_len dbg (zlen c) = Ok s0 /\ sl s0 = zlen c /\ sc s0 = zlen c /\ sv s0 = false /\ sb s0 = repeat (Some 63) (length c) ++ [Some 0]) as (s0 & E0 & L0 & C0 & V0 & B0).
  { unfold str_create_len. rewrite w64_small by zlia. assert (dassert dbg (0 <? zlen c) = Ok tt) as ->.
    { destruct Hd as [Hd| ->]; [apply dassert_true; lia|reflexivity]. }
    cbn [bind]. rewrite c_calloc_ok by (unfold array_size, alloc_max; lia). cbn [bind]. rewrite c_calloc_ok by lia. cbn [bind].
    assert (repeat (Some 0) (Z.to_nat (zlen c + 1)) = repeat (Some 0) (length c) ++ [Some 0]) as Er.
    { rewrite <- to_nat_zlen. rewrite Z2Nat.inj_add, repeat_app by lia. reflexivity. }
    destruct (zlen c =? 0) eqn:E.
    - eexists. split; [reflexivity|]. cbn [sl sc sv sb]. repeat split. rewrite Er. destruct c; [reflexivity|]. rewrite zlen_cons in *. pose proof (zlen_nonneg c). lia.
    - unfold swrite. cbn [sv sb sl sc ss]. rewrite Er.
      replace (repeat (Some 0) (length c) ++ [Some 0]) with ([] ++ repeat (Some 0) (length c) ++ [Some 0]) by reflexivity.
      rewrite bwrite_app; [|reflexivity|rewrite !zlen_repeat; unfold zlen; lia]. cbn [bind app]. eexists. split; [reflexivity|]. cbn [sl sc sv sb]. rewrite to_nat_zlen. repeat split. }
  rewrite E0. cbn [bind]. rewrite L0. cbn [fread_entry]. rewrite firstn_self. unfold swrite. rewrite V0, B0.
  change (repeat (Some 63) (length c) ++ [Some 0]) with ([] ++ repeat (Some 63) (length c) ++ [Some 0]).
  rewrite bwrite_app; [|reflexivity|rewrite zlen_map, zlen_repeat; reflexivity]. cbn [bind app sl]. rewrite L0, Z.eqb_refl.
  eexists. split; [reflexivity|]. cbn [sb sl sc sv]. tauto.
Qed.

Lemma read_buffer_ok dbg fs cwd z b k : 0 < k <= zlen b ->
  match fs_stat fs cwd z with
  | Some (EFile c) => file_read_to_buffer dbg fs cwd z b k =
                      Ok (true, map Some (firstn (Z.to_nat k) c) ++ skipn (length (firstn (Z.to_nat k) c)) b)
  | _ => file_read_to_buffer dbg fs cwd z b k = Ok (false, b)
  end.
Proof.
  intros Hk. unfold file_read_to_buffer, path_get_file_size. rewrite dassert_true by lia. cbn [bind].
  destruct (fs_stat fs cwd z) as [[|c]|]; [| |reflexivity].
  - cbn [size_of fread_entry]. unfold dir_size. cbn [map]. replace (4096 <? 0) with false by lia.
    replace (bwrite b 0 []) with (Ok b). 2:{ symmetry. exact (bwrite_fill [] b (zlen_nonneg b)). } cbn [bind].
    f_equal. f_equal. destruct (k <=? 4096); cbn; zl; lia.
  - cbn [size_of fread_entry]. pose proof (zlen_nonneg c). replace (zlen c <? 0) with false by lia.
    set (n := if k <=? zlen c then k else zlen c).
    assert (firstn (Z.to_nat n) c = firstn (Z.to_nat k) c) as Ef.
    { unfold n. destruct (k <=? zlen c) eqn:E; [reflexivity|]. rewrite firstn_self, firstn_all2; [reflexivity|]. unfold zlen in *. lia. }
    rewrite <- Ef. assert (zlen (firstn (Z.to_nat n) c) = n) as Ln by (rewrite zlen_firstn; unfold n; destruct (k <=? zlen c) eqn:E; lia).
    rewrite bwrite_fill by (rewrite Ln; unfold n; destruct (k <=? zlen c) eqn:E; lia). cbn [bind]. rewrite Ln, Z.eqb_refl. reflexivity.
Qed.

(** * Single removals, for every path text *)
Lemma rmdir_effect lk fs cwd z fs' b : wf fs -> path_rmdir lk fs cwd z = (fs', b) ->
  wf fs' /\
  (b = true -> exists p, resolve fs cwd z = Some p /\ lookup fs p = Some EDir /\ (forall n, lookup fs (p ++ [n]) = None) /\
               lookup fs' p = None /\ forall q, q <> p -> lookup fs' q = lookup fs q) /\
  (b = false -> fs' = fs).
Proof.
  intros W H. unfold path_rmdir in H. destruct (path_exists fs cwd z); cbn [negb] in H; [|injection H as <- <-; split; [exact W|split; [discriminate|reflexivity]]].
  destruct (fs_rmdir lk fs cwd z) as [f|] eqn:E; injection H as <- <-; [|split; [exact W|split; [discriminate|reflexivity]]].
  unfold fs_rmdir in E. destruct (resolve fs cwd z) as [[|a p]|] eqn:R; try discriminate.
  destruct (lookup fs (a :: p)) as [[|]|] eqn:L; try discriminate. destruct (children fs (a :: p)) eqn:C; try discriminate.
  destruct (rev_comps z) as [|c r]; try discriminate. destruct (name_dec c dot); try discriminate. destruct (lk (a :: p)) eqn:Lk; try discriminate. injection E as <-.
  split; [now apply wf_remove|]. split; [|discriminate]. intros _. exists (a :: p). split; [reflexivity|]. split; [exact L|]. split.
  { intros m. destruct (lookup fs ((a :: p) ++ [m])) eqn:X; [|reflexivity]. exfalso.
    assert (In m (children fs (a :: p))) as K by (apply children_spec; [exact W|congruence]). rewrite C in K. exact K. }
  split; [rewrite lookup_remove by discriminate; destruct (path_dec _ _); [reflexivity|contradiction]|].
  intros q Hq. destruct q as [|x q]; [reflexivity|]. rewrite lookup_remove by discriminate. destruct (path_dec _ _); [contradiction|reflexivity].
Qed.
Lemma file_leaf fs p c : wf fs -> lookup fs p = Some (EFile c) -> children fs p = [].
Proof.
  intros W L. destruct (children fs p) as [|n l] eqn:C; [reflexivity|]. exfalso.
  assert (lookup fs (p ++ [n]) <> None) as K by (apply children_spec; [exact W|rewrite C; now left]). apply wf_parent in K as [K _]; [congruence|exact W].
Qed.
Lemma remove_effect lk fs cwd z fs' b : wf fs -> path_remove lk fs cwd z = (fs', b) ->
  wf fs' /\
  (b = true -> exists p, resolve fs cwd z = Some p /\ lookup fs p <> None /\ (forall n, lookup fs (p ++ [n]) = None) /\
               lookup fs' p = None /\ forall q, q <> p -> lookup fs' q = lookup fs q) /\
  (b = false -> fs' = fs).
Proof.
  intros W H. unfold path_remove in H. destruct (path_exists fs cwd z) eqn:Ex; cbn [negb] in H; [|injection H as <- <-; split; [exact W|split; [discriminate|reflexivity]]].
  unfold fs_remove in H. destruct (resolve fs cwd z) as [p|] eqn:R; [|injection H as <- <-; split; [exact W|split; [discriminate|reflexivity]]].
  destruct (lookup fs p) as [[|c]|] eqn:L; [| |injection H as <- <-; split; [exact W|split; [discriminate|reflexivity]]].
  - destruct (rmdir_effect lk fs cwd z fs' b W) as (A & B & C).
    { unfold path_rmdir. rewrite Ex. exact H. }
    split; [exact A|]. split; [|exact C]. intros Hb. destruct (B Hb) as (p' & R' & L' & X). rewrite R in R'. injection R' as <-. exists p.
    split; [reflexivity|]. split; [congruence|]. tauto.
  - destruct (lk p) eqn:Lk; injection H as <- <-; [split; [exact W|split; [discriminate|reflexivity]]|]. pose proof (file_leaf fs p c W L) as C. split; [now apply wf_remove|]. split; [|discriminate]. intros _. exists p.
    split; [reflexivity|]. split; [congruence|]. destruct p as [|a p]; [discriminate|]. split.
    { intros n. destruct (lookup fs ((a :: p) ++ [n])) eqn:X; [|reflexivity]. exfalso.
      assert (In n (children fs (a :: p))) as K by (apply children_spec; [exact W|congruence]). rewrite C in K. exact K. }
    split; [rewrite lookup_remove by discriminate; destruct (path_dec _ _); [reflexivity|contradiction]|].
    intros q Hq. destruct q as [|x q]; [reflexivity|]. rewrite lookup_remove by discriminate. destruct (path_dec _ _); [contradiction|reflexivity].
Qed.

(** A path below a directory text that resolves. *)
Lemma resolve_under fs cwd : wf fs -> forall q z p, resolve fs cwd z = Some p -> lookup fs (p ++ q) <> None ->
  resolve fs cwd (below_text z q) = Some (p ++ q).
Proof.
  intros W q. induction q as [|n q IH]; intros z p R L; [unfold below_text; cbn; now rewrite !app_nil_r|].
  rewrite below_text_cons. change (p ++ n :: q) with (p ++ [n] ++ q) in *. rewrite (app_assoc p) in *. apply IH; [|exact L].
  assert (lookup fs (p ++ [n]) <> None) as K.
  { destruct q as [|m q]; [now rewrite app_nil_r in L|]. rewrite (wf_prefix fs _ _ W L) by discriminate. discriminate. }
  destruct (wf_parent _ _ _ W K) as [Ld On]. now apply resolve_child.
Qed.

Lemma dir_list_recurse_full fs cwd ign fuel z p pl : wf fs -> resolve fs cwd z = Some p -> lookup fs p = Some EDir -> (depth fs < fuel)%nat ->
  exists qs, dir_list_recurse fuel fs cwd ign pl z = Ok (Some (pl ++ map (below_text z) qs)) /\ listing fs p ign qs /\
    forall q, In q qs -> resolve fs cwd (below_text z q) = Some (p ++ q).
Proof.
  intros W R L Hf. destruct (dir_list_recurse_ok fs cwd ign W fuel z p pl R L) as (qs & E & HL); [lia|].
  exists qs. split; [exact E|]. split; [exact HL|]. intros q Hq. apply resolve_under; try assumption. apply HL in Hq. tauto.
Qed.

Lemma mkdir_effect fs cwd z fs' b : plain z -> wf fs -> path_mkdir fs cwd z = (fs', b) ->
  (b = true -> lookup fs' (target cwd z) <> None) /\ (forall q, q <> target cwd z -> lookup fs' q = lookup fs q) /\
  (lookup fs (target cwd z) <> None \/ b = false -> fs' = fs).
Proof.
  intros P W H. unfold path_mkdir in H. destruct (path_exists fs cwd z) eqn:Ex.
  - injection H as <- <-. split; [|split; [reflexivity|reflexivity]]. intros _. unfold path_exists in Ex. destruct (fs_stat fs cwd z) eqn:S; [|discriminate].
    apply stat_spec in S; [congruence|exact P].
  - destruct (fs_mkdir fs cwd z) as [f|] eqn:E; injection H as <- <-; [|split; [discriminate|split; reflexivity]].
    unfold fs_mkdir in E. destruct (new_entry fs cwd z) as [p|] eqn:N; [|discriminate]. injection E as <-.
    apply new_entry_inv in N as (ns & n & En & -> & L & K); [|exact P].
    assert (target cwd z <> []) as Hne by (unfold target; rewrite En; destruct (start cwd z), ns; discriminate).
    split; [|split].
    + intros _. rewrite lookup_store by assumption. destruct (path_dec _ _); [discriminate|contradiction].
    + intros q Hq. rewrite lookup_store by assumption. destruct (path_dec _ _); [contradiction|reflexivity].
    + intros [X|X]; [contradiction|discriminate].
Qed.

Lemma mkdir_effect2 fs cwd z fs' b : plain z -> wf fs -> path_mkdir fs cwd z = (fs', b) ->
  (b = true -> lookup fs (target cwd z) = None -> lookup fs' (target cwd z) = Some EDir) /\
  (b = true -> lookup fs' (target cwd z) <> None) /\
  (forall q, q <> target cwd z -> lookup fs' q = lookup fs q) /\
  (lookup fs (target cwd z) <> None \/ b = false -> fs' = fs).
Proof.
  intros P W H. split; [|exact (mkdir_effect fs cwd z fs' b P W H)].
  intros -> L. unfold path_mkdir in H. destruct (path_exists fs cwd z) eqn:Ex.
  - unfold path_exists in Ex. destruct (fs_stat fs cwd z) eqn:S; [|discriminate]. apply stat_spec in S; [congruence|exact P].
  - destruct (fs_mkdir fs cwd z) as [f|] eqn:E; [|discriminate]. injection H as <-.
    unfold fs_mkdir in E. destruct (new_entry fs cwd z) as [p|] eqn:N; [|discriminate]. injection E as <-.
    apply new_entry_inv in N as (ns & n & En & -> & L1 & K); [|exact P].
    assert (target cwd z <> []) as Hne by (unfold target; rewrite En; destruct (start cwd z), ns; discriminate).
    rewrite lookup_store by assumption. destruct (path_dec _ _); [reflexivity|contradiction].
Qed.

Lemma write_read dbg fs cwd z ns n (append ln : bool) (txt : text) :
  let old := match lookup fs (target cwd z) with Some (EFile c) => if append then c else [] | _ => [] end in
  let c := old ++ txt ++ (if ln then [10] else []) in
  wf fs -> plain z -> (forall a, z <> a ++ [47]) -> names z = ns ++ [n] ->
  lookup fs (start cwd z ++ ns) = Some EDir -> lookup fs (target cwd z) <> Some EDir ->
  0 < zlen c \/ dbg = false -> zlen c + 1 <= alloc_max ->
  exists fs' s, file_writefc fs cwd z append ln txt = (fs', true) /\ wf fs' /\
    lookup fs' (target cwd z) = Some (EFile c) /\ (forall q, q <> target cwd z -> lookup fs' q = lookup fs q) /\
    file_read dbg fs' cwd z = Ok (Some s) /\ sb s = map Some c ++ [Some 0] /\ sl s = zlen c.
Proof.
  intros old c W P Hs E L K Hd Hf.
  destruct (write_ok fs cwd z ns n append ln txt W P Hs E L K) as (fs' & E1 & W1 & Q1 & S1).
  change (written _ _ _ _) with c in S1, Q1.
  destruct (read_ok dbg fs' cwd z c S1 Hd Hf) as (s & E2 & B2 & L2 & _).
  exists fs', s. split; [exact E1|]. split; [exact W1|]. split; [|split; [|tauto]].
  - rewrite Q1. destruct (path_dec _ _); [reflexivity|contradiction].
  - intros q Hq. rewrite Q1. destruct (path_dec _ _); [contradiction|reflexivity].
Qed.

Lemma no_children fs p : wf fs -> (forall n, lookup fs (p ++ [n]) = None) -> children fs p = [].
Proof.
  intros W H. destruct (children fs p) as [|n l] eqn:E; [reflexivity|]. exfalso.
  assert (lookup fs (p ++ [n]) <> None) as K by (apply children_spec; [exact W|rewrite E; now left]). now apply K.
Qed.
Lemma removes lk fs cwd z p : wf fs -> plain z -> names z <> [] -> resolve fs cwd z = Some p -> p <> [] -> lk p = false ->
  (forall n, lookup fs (p ++ [n]) = None) ->
  (lookup fs p = Some EDir -> snd (path_rmdir lk fs cwd z) = true) /\
  (lookup fs p <> None -> snd (path_remove lk fs cwd z) = true).
Proof.
  intros W P Hn R Hp K Ch. pose proof (no_children fs p W Ch) as C.
  assert (A : lookup fs p = Some EDir -> path_rmdir lk fs cwd z = (remove_key fs p, true)) by (intros L; rewrite (rmdir_ok lk fs cwd z p), K; auto).
  split; [intros L; now rewrite A|]. intros L. unfold path_remove, path_exists, fs_stat, fs_remove. rewrite R.
  destruct (lookup fs p) as [[|c]|] eqn:E; [| |contradiction]; cbn [negb].
  - specialize (A eq_refl). unfold path_rmdir, path_exists, fs_stat in A. rewrite R, E in A. cbn [negb] in A. now rewrite A.
  - now rewrite K.
Qed.
