(** Proofs about LimModel.v. *)
From Coq Require Import String Ascii.
From Verif Require Import Base BaseFacts StrModel StrModel2 StrSpec StrProofs StrProofs2 StrProofs3 StrMain FsModel PathModel FsSpec PathProofs FsProofs FsMain FsMain2 PermModel PermProofs LimModel.
Local Open Scope list_scope.
Local Open Scope Z_scope.

(** The directory around [q] has a text that the system accepts. *)
Definition near (lim : Z) (z : list Z) (q : path) : bool := zlen (below_text z (removelast q)) <=? lim.
Lemma below_len z : forall q, zlen z <= zlen (below_text z q).
Proof. intros q. unfold below_text. rewrite zlen_app. pose proof (zlen_nonneg (flat_map (fun n => 47 :: n) q)). lia. Qed.
Lemma below_mono z a b : zlen (below_text z a) <= zlen (below_text z (a ++ b)).
Proof. unfold below_text. rewrite flat_map_app, !zlen_app. pose proof (zlen_nonneg (flat_map (fun n => 47 :: n) b)). lia. Qed.
Lemma near_cons lim z n q : q <> [] -> near lim z (n :: q) = near lim (z ++ sep ++ n) q.
Proof. intros Hq. unfold near. destruct q as [|m q]; [contradiction|]. change (removelast (n :: m :: q)) with (n :: removelast (m :: q)). now rewrite below_text_cons. Qed.
Lemma filter_cons_near lim z n qs : (forall q, In q qs -> q <> []) -> filter (near lim z) (map (cons n) qs) = map (cons n) (filter (near lim (z ++ sep ++ n)) qs).
Proof.
  induction qs as [|q qs IH]; intros H; [reflexivity|]. cbn [map filter]. rewrite near_cons by (apply H; now left). rewrite IH by (intros x Hx; apply H; now right).
  now destruct (near lim (z ++ sep ++ n) q).
Qed.
Lemma filter_far lim z qs : lim < zlen z -> filter (near lim z) qs = [].
Proof. intros H. induction qs as [|q qs IH]; [reflexivity|]. cbn [filter]. unfold near at 1. pose proof (below_len z (removelast q)). destruct (_ <=? _) eqn:E; [lia|exact IH]. Qed.

Lemma below_maps z : forall a b, map (below_text z) a = map (below_text z) b -> Forall (Forall okname) a -> Forall (Forall okname) b -> a = b.
Proof.
  induction a as [|x a IH]; intros [|y b] E Fa Fb; try discriminate; [reflexivity|]. cbn [map] in E. injection E as E1 E2. inversion Fa; inversion Fb; subst. f_equal; [|now apply IH].
  apply (f_equal comps) in E1. rewrite !below_comps in E1 by assumption. now apply app_inv_head in E1.
Qed.
Section One.
  Variables (lim : Z) (fs : fsys) (cwd : path) (ign : bool).
  Hypothesis W : wf fs.
  Definition agrees (rl rf : list (list Z) -> list Z -> res (option (list (list Z)))) z (p : path) := forall l m r,
    rf m z = Ok r -> exists qs, (forall q, In q qs -> q <> [] /\ lookup fs (p ++ q) <> None) /\ r = Some (m ++ map (below_text z) qs) /\ (zlen z <= lim -> rl l z = Ok (Some (l ++ map (below_text z) (filter (near lim z) qs)))).
  Lemma lim_loop_ok rl rf z p : resolve fs cwd z = Some p -> lookup fs p = Some EDir -> zlen z <= lim ->
    (forall n, path_is_dir fs cwd (z ++ sep ++ n) = true -> hidden ign n = false -> lookup fs (p ++ [n]) <> None -> agrees rl rf (z ++ sep ++ n) (p ++ [n])) ->
    forall ns l m r, (forall n, In n ns -> n = dot \/ n = dotdot \/ lookup fs (p ++ [n]) <> None) -> list_loop rf fs cwd ign z ns m = Ok r ->
    exists qs, (forall q, In q qs -> q <> [] /\ lookup fs (p ++ q) <> None) /\ r = Some (m ++ map (below_text z) qs) /\
      lim_list_loop lim rl fs cwd ign z ns l = Ok (Some (l ++ map (below_text z) (filter (near lim z) qs))).
  Proof.
    intros R L Hz A. induction ns as [|n ns IH]; intros l m r Hns H; cbn [list_loop lim_list_loop] in H |- *.
    { injection H as <-. exists []. cbn [map filter]. rewrite !app_nil_r. split; [intros q []|]. split; reflexivity. }
    assert (Hns' : forall x, In x ns -> x = dot \/ x = dotdot \/ lookup fs (p ++ [x]) <> None) by (intros x Hx; apply Hns; now right).
    destruct (hidden ign n) eqn:Hh; [now apply IH|].
    destruct (child_text fs cwd ign W z p n R L (Hns n (or_introl eq_refl)) Hh) as [K _].
    assert (N1 : near lim z [n] = true) by (unfold near; cbn [removelast]; unfold below_text; cbn [flat_map]; rewrite app_nil_r; lia).
    assert (T1 : below_text z [n] = z ++ sep ++ n) by (unfold below_text, sep; cbn [flat_map]; now rewrite app_nil_r).
    unfold lim_is_dir. destruct (path_is_dir fs cwd (z ++ sep ++ n)) eqn:D.
    - destruct (rf m (z ++ sep ++ n)) as [r1| | |] eqn:E1; cbn [bind] in H; try discriminate.
      destruct (A n D Hh K l m r1 E1) as (q1 & Q1 & -> & X). cbn [Base.bind] in H.
      destruct (zlen (z ++ sep ++ n) <=? lim) eqn:Hl; cbn [andb].
      + rewrite X by lia. cbn [bind].
        destruct (IH (((l ++ map (below_text (z ++ sep ++ n)) (filter (near lim (z ++ sep ++ n)) q1)) ++ [z ++ sep ++ n])) _ r Hns' H) as (q2 & Q2 & -> & E2).
        exists ((map (cons n) q1 ++ [[n]]) ++ q2). split; [intros q Hq; apply in_app_or in Hq as [Hq|Hq]; [apply in_app_or in Hq as [Hq|[<-|[]]]; [apply in_map_iff in Hq as (? & <- & Hq); split; [discriminate|]; apply Q1 in Hq as [_ Hq]; rewrite <- app_assoc in Hq; exact Hq|split; [discriminate|exact K]]|now apply Q2]|].
        split; [rewrite !map_app, below_text_map; cbn [map]; now rewrite T1, <- !app_assoc|].
        rewrite E2. do 2 f_equal. rewrite !filter_app, filter_cons_near by (intros x Hx; now apply Q1 in Hx). cbn [filter]. rewrite N1. rewrite !map_app, below_text_map. cbn [map]. now rewrite T1, <- !app_assoc.
      + destruct (IH (l ++ [z ++ sep ++ n]) _ r Hns' H) as (q2 & Q2 & -> & E2).
        exists ((map (cons n) q1 ++ [[n]]) ++ q2). split; [intros q Hq; apply in_app_or in Hq as [Hq|Hq]; [apply in_app_or in Hq as [Hq|[<-|[]]]; [apply in_map_iff in Hq as (? & <- & Hq); split; [discriminate|]; apply Q1 in Hq as [_ Hq]; rewrite <- app_assoc in Hq; exact Hq|split; [discriminate|exact K]]|now apply Q2]|].
        split; [rewrite !map_app, below_text_map; cbn [map]; now rewrite T1, <- !app_assoc|].
        rewrite E2. do 2 f_equal. rewrite !filter_app, filter_cons_near by (intros x Hx; now apply Q1 in Hx). rewrite (filter_far lim (z ++ sep ++ n)) by (apply Z.leb_gt in Hl; exact Hl). cbn [filter map app]. rewrite N1. cbn [map app]. now rewrite T1, <- !app_assoc.
    - rewrite andb_false_r. destruct (IH (l ++ [z ++ sep ++ n]) _ r Hns' H) as (q2 & Q2 & -> & E2).
      exists ([n] :: q2). split; [intros q [<-|Hq]; [split; [discriminate|exact K]|now apply Q2]|]. split; [cbn [map]; now rewrite T1, <- app_assoc|].
      rewrite E2. cbn [filter]. rewrite N1. cbn [map]. now rewrite T1, <- app_assoc.
  Qed.
  Lemma lim_rec_ok : forall fuel z p, resolve fs cwd z = Some p -> lookup fs p = Some EDir -> agrees (lim_list_recurse lim fuel fs cwd ign) (dir_list_recurse fuel fs cwd ign) z p.
  Proof.
    induction fuel as [|f IH]; intros z p R L l m r H; [discriminate|]. cbn [dir_list_recurse lim_list_recurse] in H |- *.
    destruct (readdir_dir fs cwd W z p R L) as (ns & E & Ex & Hns). unfold lim_exists. rewrite Ex, E in *. cbn [negb] in *.
    destruct (Z_le_gt_dec (zlen z) lim) as [Hz|Hz].
    - destruct (lim_loop_ok (lim_list_recurse lim f fs cwd ign) (dir_list_recurse f fs cwd ign) z p R L Hz) with (ns := ns) (l := l) (m := m) (r := r) as (qs & Q & E1 & E2); [|exact Hns|exact H|].
      + intros n D Hh K. destruct (child_text fs cwd ign W z p n R L (or_intror (or_intror K)) Hh) as [_ R']. apply (IH _ (p ++ [n]) R').
        unfold path_is_dir, fs_stat in D. rewrite R' in D. destruct (lookup fs (p ++ [n])) as [[|]|]; [reflexivity|discriminate|discriminate].
      + exists qs. split; [exact Q|]. split; [exact E1|]. intros _. rewrite (proj2 (Z.leb_le _ _) Hz). exact E2.
    - destruct (loop_adds fs cwd ign W (dir_list_recurse f fs cwd ign) z p) with (ns := ns) (m := m) (r := r) as (qs & E1 & Q); try assumption; [apply recurse_adds; exact W|].
      exists qs. split; [exact Q|]. split; [exact E1|]. lia.
  Qed.
End One.
Lemma lim_list_main lim fs cwd ign z p fuel : wf fs -> resolve fs cwd z = Some p -> lookup fs p = Some EDir -> (depth fs < fuel)%nat -> zlen z <= lim ->
  exists qs, dir_list_recurse fuel fs cwd ign [] z = Ok (Some (map (below_text z) qs)) /\ listing fs p ign qs /\
    lim_list_recurse lim fuel fs cwd ign [] z = Ok (Some (map (below_text z) (filter (near lim z) qs))).
Proof.
  intros W R L Hd Hz. destruct (dir_list_recurse_ok fs cwd ign W fuel z p [] R L) as (qs & E & Hl); [lia|]. cbn [app] in E. exists qs. split; [exact E|]. split; [exact Hl|].
  destruct (lim_rec_ok lim fs cwd ign W fuel z p R L [] [] _ E) as (qs' & Q & E1 & E2). cbn [app] in *. rewrite (E2 Hz). injection E1 as E1. do 2 f_equal.
  assert (qs' = qs) as ->; [|reflexivity]. symmetry. apply (below_maps z qs qs' E1); apply Forall_forall; intros q Hq.
  - apply Hl in Hq as (_ & Hq & _). apply wf_names in Hq; [|exact W]. now apply Forall_app in Hq.
  - apply Q in Hq as (_ & Hq). apply wf_names in Hq; [|exact W]. now apply Forall_app in Hq.
Qed.


(** * Removal *)
Lemma lim_step lim lk fs cwd t : zlen t <= lim ->
  (if lim_is_dir lim fs cwd t then lim_rmdir lim lk fs cwd t else lim_remove lim lk fs cwd t) = (if path_is_dir fs cwd t then path_rmdir lk fs cwd t else path_remove lk fs cwd t).
Proof. intros H. unfold lim_is_dir, lim_rmdir, lim_remove, lim_exists, path_rmdir, path_remove. rewrite (proj2 (Z.leb_le _ _) H). reflexivity. Qed.
Lemma lim_step_far lim lk fs cwd t : lim < zlen t ->
  (if lim_is_dir lim fs cwd t then lim_rmdir lim lk fs cwd t else lim_remove lim lk fs cwd t) = (fs, false).
Proof. intros H. unfold lim_is_dir, lim_remove, lim_exists. rewrite (proj2 (Z.leb_gt _ _) H). reflexivity. Qed.
Lemma lim_loop_near lim lk cwd : forall l fs, Forall (fun t => zlen t <= lim) l -> lim_remove_loop lim lk fs cwd l = remove_loop lk fs cwd l.
Proof.
  induction l as [|t l IH]; intros fs F; [reflexivity|]. inversion F; subst. cbn [lim_remove_loop remove_loop]. rewrite lim_step by assumption.
  destruct (if path_is_dir fs cwd t then _ else _) as [f [|]]; [now apply IH|reflexivity].
Qed.
Lemma lim_loop_far lim lk cwd : forall l fs, Exists (fun t => lim < zlen t) l -> exists l1 l2, l = l1 ++ l2 /\ Forall (fun t => zlen t <= lim) l1 /\
  lim_remove_loop lim lk fs cwd l = (fst (remove_loop lk fs cwd l1), false).
Proof.
  induction l as [|t l IH]; intros fs X; [inversion X|]. cbn [lim_remove_loop]. destruct (Z_le_gt_dec (zlen t) lim) as [H|H].
  - rewrite lim_step by assumption. assert (X' : Exists (fun t => lim < zlen t) l) by (inversion X; subst; [lia|assumption]).
    destruct (if path_is_dir fs cwd t then path_rmdir lk fs cwd t else path_remove lk fs cwd t) as [f b] eqn:E. destruct b.
    + destruct (IH f X') as (l1 & l2 & -> & F & E'). exists (t :: l1), l2. split; [reflexivity|]. split; [now constructor|]. rewrite E'. cbn [remove_loop]. now rewrite E.
    + exists [t], l. split; [reflexivity|]. split; [now repeat constructor|]. cbn [remove_loop]. now rewrite E.
  - exists [], (t :: l). split; [reflexivity|]. split; [constructor|]. rewrite lim_step_far by lia. reflexivity.
Qed.
Lemma filter_all_true {A} (f : A -> bool) l : (forall x, In x l -> f x = true) -> filter f l = l.
Proof. induction l as [|x l IH]; intros H; [reflexivity|]. cbn [filter]. rewrite (H x (or_introl eq_refl)). f_equal. apply IH. intros y Hy. apply H. now right. Qed.
Lemma removelast_mono z q : zlen (below_text z (removelast q)) <= zlen (below_text z q).
Proof. destruct q as [|n q]; [cbn [removelast]; lia|]. rewrite (app_removelast_last [] (l := n :: q)) at 2 by discriminate. apply below_mono. Qed.
Lemma lim_rmdir_near lim lk fs cwd z p fuel : wf fs -> resolve fs cwd z = Some p -> lookup fs p = Some EDir -> (depth fs < fuel)%nat ->
  (forall q, lookup fs (p ++ q) <> None -> zlen (below_text z q) <= lim) ->
  lim_rmdir_recurse lim lk fuel fs cwd z = path_rmdir_recurse lk fuel fs cwd z.
Proof.
  intros W R L Hd H. assert (Hz : zlen z <= lim) by (specialize (H []); rewrite app_nil_r in H; unfold below_text in H; cbn [flat_map] in H; rewrite app_nil_r in H; apply H; congruence).
  destruct (lim_list_main lim fs cwd false z p fuel W R L Hd Hz) as (qs & E & Hl & E').
  assert (Hq : forall q, In q qs -> zlen (below_text z q) <= lim) by (intros q Hq; apply H; apply Hl in Hq; tauto).
  rewrite filter_all_true in E' by (intros q Q; unfold near; apply Z.leb_le; pose proof (removelast_mono z q); specialize (Hq q Q); lia).
  unfold lim_rmdir_recurse, path_rmdir_recurse. rewrite E, E'. cbn [bind]. unfold lim_exists at 1. rewrite (proj2 (Z.leb_le _ _) Hz). cbn [andb].
  assert (Er : forall f, lim_rmdir lim lk f cwd z = path_rmdir lk f cwd z) by (intros f; unfold lim_rmdir, path_rmdir, lim_exists; now rewrite (proj2 (Z.leb_le _ _) Hz)).
  destruct (negb (path_exists fs cwd z)); [reflexivity|]. rewrite lim_loop_near by (apply Forall_forall; intros t Ht; apply in_map_iff in Ht as (q & <- & Ht); now apply Hq).
  destruct (map (below_text z) qs); [now rewrite Er|]. destruct (remove_loop _ _ _ _) as [f [|]]; [now rewrite Er|reflexivity].
Qed.
(** The first name at which a text becomes too long. *)
Lemma first_far lim z : zlen z <= lim -> forall q, lim < zlen (below_text z q) -> exists a n b, q = a ++ n :: b /\ zlen (below_text z a) <= lim /\ lim < zlen (below_text z (a ++ [n])).
Proof.
  intros Hz. induction q as [|n q IH] using rev_ind; intros H; [unfold below_text in H; cbn [flat_map] in H; rewrite app_nil_r in H; lia|].
  destruct (Z_le_gt_dec (zlen (below_text z q)) lim) as [K|K]; [exists q, n, []; auto|].
  destruct IH as (a & m & b & -> & A & B); [lia|]. exists a, m, (b ++ [n]). rewrite <- app_assoc. auto.
Qed.
Lemma map_prefix {A B} (f : A -> B) : forall ks l1 l2, map f ks = l1 ++ l2 -> exists k1, l1 = map f k1 /\ forall x, In x k1 -> In x ks.
Proof.
  induction ks as [|k ks IH]; intros l1 l2 E; destruct l1 as [|t l1]; try (exists []; split; [reflexivity|intros x []]); [discriminate|].
  cbn [map app] in E. injection E as <- E. destruct (IH _ _ E) as (k1 & -> & H). exists (k :: k1). split; [reflexivity|]. intros x [<-|Hx]; [now left|right; auto].
Qed.
Lemma lim_rmdir_far lim lk fs cwd z q fuel : let p := target cwd z in
  wf fs -> plain z -> names z <> [] -> lookup fs p = Some EDir -> (depth fs < fuel)%nat -> lookup fs (p ++ q) <> None -> lim < zlen (below_text z q) ->
  exists fs', lim_rmdir_recurse lim lk fuel fs cwd z = Ok (fs', false) /\ wf fs' /\
    (forall x, lookup fs' x = lookup fs x \/ (exists r, r <> [] /\ zlen (below_text z r) <= lim /\ x = p ++ r) /\ lookup fs' x = None).
Proof.
  intros p W P Hn L Hd Hq Hlim. assert (Hne : z <> []) by (intros ->; now apply Hn).
  assert (R : resolve fs cwd z = Some p) by (apply resolve_dir; assumption).
  unfold lim_rmdir_recurse, lim_exists. destruct (zlen z <=? lim) eqn:Hz; cbn [andb negb].
  2:{ exists fs. split; [reflexivity|]. split; [exact W|]. intros x. now left. }
  assert (Ex : path_exists fs cwd z = true) by (unfold path_exists, fs_stat; now rewrite R, L). rewrite Ex. cbn [negb]. apply Z.leb_le in Hz.
  destruct (lim_list_main lim fs cwd false z p fuel W R L Hd Hz) as (qs & E & Hl & E'). rewrite E'. cbn [bind].
  destruct (first_far lim z Hz q Hlim) as (a & n & b & -> & Ha & Hb).
  assert (I : In (a ++ [n]) (filter (near lim z) qs)).
  { apply filter_In. split; [|unfold near; rewrite removelast_last; now apply Z.leb_le]. apply Hl. split; [destruct a; discriminate|]. split.
    - destruct b as [|m b]; [exact Hq|]. change (n :: m :: b) with ([n] ++ m :: b) in Hq. rewrite !app_assoc in Hq. rewrite !app_assoc, (wf_prefix fs _ _ W Hq) by discriminate. discriminate.
    - apply Forall_forall. intros x _ X. discriminate. }
  destruct (lim_loop_far lim lk cwd (map (below_text z) (filter (near lim z) qs)) fs) as (l1 & l2 & El & F & Er).
  { apply Exists_exists. exists (below_text z (a ++ [n])). split; [now apply in_map|exact Hb]. }
  rewrite Er. destruct (map (below_text z) (filter (near lim z) qs)) as [|t0 t] eqn:Em.
  { apply in_map with (f := below_text z) in I. rewrite Em in I. destruct I. }
  rewrite <- Em in El. destruct (remove_loop lk fs cwd l1) as [f s] eqn:Eloop. cbn [fst]. exists f. split; [reflexivity|].
  assert (exists k1, l1 = map (below_text z) k1 /\ forall x, In x k1 -> In x qs) as (k1 & -> & Hk).
  { destruct (map_prefix (below_text z) _ _ _ El) as (k1 & -> & H). exists k1. split; [reflexivity|]. intros x Hx. apply H in Hx. now apply filter_In in Hx. }
  destruct (remove_part lk cwd z P Hne k1 fs f s W) as (W' & Le & _); [|exact Eloop|].
  { intros x Hx. apply Hk, Hl in Hx as (_ & Hx & _). apply wf_names in Hx; [|exact W]. now apply Forall_app in Hx. }
  split; [exact W'|]. intros x. destruct (Le x) as [X|[(r & Hr & ->) X]]; [now left|right]. split; [|exact X]. exists r. split; [now apply Hk, Hl in Hr|]. split; [|reflexivity].
  rewrite Forall_forall in F. apply F. now apply in_map.
Qed.

(** * Nested creation *)
Lemma slashed_mono abs a b : zlen (pfx abs ++ slashed a) <= zlen (pfx abs ++ slashed (a ++ b)).
Proof. unfold slashed. rewrite flat_map_app, !zlen_app. pose proof (zlen_nonneg (flat_map (fun n : name => n ++ [47]) b)). lia. Qed.
Lemma slashed_snoc abs a n : zlen (pfx abs ++ slashed (a ++ [n])) = zlen (pfx abs ++ slashed a) + zlen n + 1.
Proof. unfold slashed. rewrite flat_map_app. cbn [flat_map]. rewrite !zlen_app. zl. lia. Qed.
Lemma lim_step_text dbg z ns1 n ns2 d cd sfull cap : okname n -> srep n cd d -> srep (pfx (is_abs z) ++ slashed ns1) cap sfull ->
  zlen (pfx (is_abs z) ++ slashed (ns1 ++ n :: ns2)) + 1 <= alloc_max ->
  str_z d = Ok n /\ exists s1 s2 c, str_append dbg sfull n = Ok s1 /\ str_append dbg s1 sep = Ok s2 /\ srep (pfx (is_abs z) ++ slashed (ns1 ++ [n])) c s2.
Proof.
  intros On Rd R Hf. split; [apply (z_ok _ _ _ Rd)|].
  assert (0 < zlen n) as Hn0 by (destruct On as [H1 _]; destruct n; [congruence|]; rewrite zlen_cons; zlia).
  assert (zlen (slashed (ns1 ++ n :: ns2)) = zlen (slashed ns1) + zlen n + 1 + zlen (slashed ns2)) as Lt.
  { unfold slashed. rewrite flat_map_app. cbn [flat_map]. rewrite !zlen_app. zl. lia. }
  rewrite zlen_app, Lt in Hf. pose proof (zlen_nonneg (slashed ns2)).
  destruct (append_ok dbg _ cap sfull n R) as (s1 & E1 & R1); [apply On|exact Hn0|rewrite zlen_app; destruct R; lia|].
  destruct (append_ok dbg _ _ s1 sep R1 sep_ok) as (s2 & E2 & R2); [rewrite sep_len; lia|rewrite !zlen_app, ?sep_len; destruct R; lia|].
  assert (((pfx (is_abs z) ++ slashed ns1) ++ n) ++ sep = pfx (is_abs z) ++ slashed (ns1 ++ [n])) as Et.
  { unfold slashed, sep. rewrite flat_map_app. cbn [flat_map]. now rewrite app_nil_r, !app_assoc. }
  rewrite Et in R2. eauto 8.
Qed.
Lemma lim_loop_over lim dbg cwd z : forall ns2 ds ns1 sfull cap fs, Forall okname ns2 -> Forall2 (fun p x => exists c, srep p c x) ns2 ds ->
  srep (pfx (is_abs z) ++ slashed ns1) cap sfull -> zlen (pfx (is_abs z) ++ slashed (ns1 ++ ns2)) + 1 <= alloc_max ->
  lim <= zlen (pfx (is_abs z) ++ slashed ns1) -> lim_mkdir_loop lim dbg cwd ds sfull fs = Ok fs.
Proof.
  induction ns2 as [|n ns2 IH]; intros ds ns1 sfull cap fs F D R Hf Hl; inversion D as [|? d ? ds' [cd Rd] D']; subst; cbn [lim_mkdir_loop]; [reflexivity|].
  inversion F as [|? ? On F2]; subst. destruct (lim_step_text dbg z ns1 n ns2 d cd sfull cap On Rd R Hf) as (E0 & s1 & s2 & c & E1 & E2 & R2).
  rewrite E0. cbn [bind]. rewrite E1. cbn [bind]. rewrite E2. cbn [bind]. rewrite (z_ok _ _ _ R2). cbn [bind].
  pose proof (slashed_snoc (is_abs z) ns1 n) as Hs. pose proof (zlen_nonneg n). unfold lim_mkdir. rewrite (proj2 (Z.leb_gt _ _)) by lia. cbn [fst].
  apply (IH ds' (ns1 ++ [n]) s2 c fs F2 D' R2); [now rewrite <- app_assoc|lia].
Qed.
Lemma lim_mkdir_loop_ok lim dbg cwd z : forall ns2 ds ns1 sfull cap fs, let st := start cwd z in
  wf fs -> Forall okname (ns1 ++ ns2) -> Forall2 (fun p x => exists c, srep p c x) ns2 ds ->
  srep (pfx (is_abs z) ++ slashed ns1) cap sfull -> zlen (pfx (is_abs z) ++ slashed (ns1 ++ ns2)) + 1 <= alloc_max ->
  lookup fs (st ++ ns1) = Some EDir ->
  (forall a b, ns2 = a ++ b -> lookup fs (st ++ ns1 ++ a) = None \/ lookup fs (st ++ ns1 ++ a) = Some EDir) ->
  exists fs', lim_mkdir_loop lim dbg cwd ds sfull fs = Ok fs' /\ wf fs' /\
    (forall a b, ns2 = a ++ b -> lookup fs' (st ++ ns1 ++ a) = if zlen (pfx (is_abs z) ++ slashed (ns1 ++ a)) <=? lim then Some EDir else lookup fs (st ++ ns1 ++ a)) /\
    (forall q, (forall a b, ns2 = a ++ b -> q <> st ++ ns1 ++ a) -> lookup fs' q = lookup fs q).
Proof.
  intros ns2. induction ns2 as [|n ns2 IH]; intros ds ns1 sfull cap fs st W F D R Hf L K; inversion D as [|? d ? ds' [cd Rd] D']; subst; cbn [lim_mkdir_loop].
  - exists fs. split; [reflexivity|]. split; [exact W|]. split; [|reflexivity]. intros a b H. symmetry in H. apply app_eq_nil in H as [-> _].
    rewrite app_nil_r. fold st. rewrite L. now destruct (_ <=? _).
  - assert (okname n /\ Forall okname ns2 /\ Forall okname ns1) as (On & F2 & F1).
    { apply Forall_app in F as [? F]. inversion F. tauto. }
    destruct (lim_step_text dbg z ns1 n ns2 d cd sfull cap On Rd R Hf) as (E0 & s1 & s2 & c & E1 & E2 & R2).
    rewrite E0. cbn [bind]. rewrite E1. cbn [bind]. rewrite E2. cbn [bind]. rewrite (z_ok _ _ _ R2). cbn [bind].
    set (zf := pfx (is_abs z) ++ slashed (ns1 ++ [n])) in *.
    assert (Hf' : zlen (pfx (is_abs z) ++ slashed ((ns1 ++ [n]) ++ ns2)) + 1 <= alloc_max) by (now rewrite <- app_assoc).
    unfold lim_mkdir. destruct (zlen zf <=? lim) eqn:Hl.
    2:{ apply Z.leb_gt in Hl. cbn [fst]. rewrite (lim_loop_over lim dbg cwd z ns2 ds' (ns1 ++ [n]) s2 c fs F2 D' R2 Hf') by (fold zf; lia).
        exists fs. split; [reflexivity|]. split; [exact W|]. split; [|reflexivity]. intros a b E. destruct a as [|m a].
        - rewrite app_nil_r. fold st. rewrite L. now destruct (_ <=? _).
        - injection E as <- E. pose proof (slashed_mono (is_abs z) (ns1 ++ [n]) a) as M. fold zf in M. rewrite <- app_assoc in M. cbn [app] in M. now rewrite (proj2 (Z.leb_gt _ _)) by lia. }
    assert (Forall okname (ns1 ++ [n])) as F' by (apply Forall_app; split; [assumption|constructor; [exact On|constructor]]).
    assert (start cwd zf = st) as Es by (apply pfx_start; [exact F'|destruct ns1; discriminate]).
    destruct (mkdir_ok fs cwd zf ns1 n W) as (fs1 & E3 & W1 & L1).
    { now apply pfx_plain. } { now apply pfx_names. } { now rewrite Es. } { rewrite Es. apply (K [n] ns2). reflexivity. }
    rewrite E3. cbn [fst]. rewrite Es in L1.
    destruct (IH ds' (ns1 ++ [n]) s2 c fs1 W1) as (fs2 & E4 & W2 & A2 & B2).
    { rewrite <- app_assoc. exact F. } { exact D'. } { exact R2. } { exact Hf'. }
    { fold st. rewrite L1. destruct (path_dec _ _); [reflexivity|contradiction]. }
    { intros a b ->. fold st. rewrite L1. destruct (path_dec _ _); [now right|]. rewrite <- app_assoc. apply (K (n :: a) b). reflexivity. }
    fold st in A2, B2. exists fs2. split; [exact E4|]. split; [exact W2|]. split.
    + intros a b Ha. destruct a as [|m a].
      * rewrite app_nil_r. rewrite B2.
        -- rewrite L1. fold st. rewrite !L. destruct (path_dec _ _); match goal with |- context [if ?b then _ else _] => now destruct b end.
        -- intros a' b' _ E. apply app_inv_head in E. rewrite <- app_assoc in E. apply app_self in E. discriminate.
      * injection Ha as <- Ha. specialize (A2 a b Ha). rewrite <- !app_assoc in A2. cbn [app] in A2. fold st. rewrite A2. rewrite L1. destruct (path_dec _ _) as [E|_]; [|reflexivity].
        apply app_inv_head in E. apply app_inv_head in E. injection E as ->. fold zf. now rewrite Hl.
    + intros q Hq. rewrite B2.
      * rewrite L1. destruct (path_dec _ _) as [->|]; [|reflexivity]. exfalso. exact (Hq [n] ns2 eq_refl eq_refl).
      * intros a b -> E. apply (Hq (n :: a) b eq_refl). rewrite E, <- app_assoc. reflexivity.
Qed.
Lemma lim_mkdir_parents_ok lim dbg fs cwd z : let st := start cwd z in let ns := names z in
  wf fs -> plain z -> In 47 z -> ns <> [] -> (forall a, z <> a ++ [47; 47]) -> zlen z + 2 <= alloc_max ->
  lookup fs cwd = Some EDir ->
  (forall a b, ns = a ++ b -> lookup fs (st ++ a) = None \/ lookup fs (st ++ a) = Some EDir) ->
  exists fs', lim_mkdir_parents lim dbg fs cwd z = Ok (fs', true) /\ wf fs' /\
    (forall a b, ns = a ++ b -> lookup fs' (st ++ a) = if zlen (pfx (is_abs z) ++ slashed a) <=? lim then Some EDir else lookup fs (st ++ a)) /\
    (forall q, (forall a b, ns = a ++ b -> q <> st ++ a) -> lookup fs' q = lookup fs q).
Proof.
  intros st ns W P Hin Hne Hdd Hf Hc K. assert (z <> []) as Hz by (intros ->; contradiction).
  assert (0 < zlen z) as Hz0 by (destruct z; [contradiction|zl; zlia]).
  unfold lim_mkdir_parents. destruct (lim_exists lim fs cwd z) eqn:Ex.
  - exists fs. split; [reflexivity|]. split; [exact W|]. split; [|reflexivity]. intros a b E. apply andb_prop in Ex as [_ Ex].
    unfold path_exists in Ex. destruct (fs_stat fs cwd z) as [e|] eqn:S; [|discriminate]. apply stat_spec in S; [|exact P].
    assert (lookup fs (st ++ ns) = Some EDir) as Ld.
    { destruct (K ns [] (eq_sym (app_nil_r ns))) as [X|X]; [|exact X]. unfold target in S. fold st ns in S. congruence. }
    assert (lookup fs (st ++ a) = Some EDir) as ->; [|now destruct (_ <=? _)].
    destruct b as [|m b]; [rewrite app_nil_r in E; now subst a|]. apply wf_prefix with (q := m :: b); [exact W| |discriminate].
    rewrite <- app_assoc, <- E, Ld. discriminate.
  - pose proof P as (O & _). destruct (create_ok dbg z O Hz0) as (s & E1 & R1); [lia|]. rewrite E1. cbn [bind].
    unfold str_len. rewrite (r_len _ _ _ R1). rewrite w64_small by zlia.
    destruct (create_capacity_ok dbg (zlen z + 1)) as (sf & E2 & R2); [lia|lia|]. rewrite E2. cbn [bind].
    assert (exists sf' cap', (match z with c :: _ => if c =? 47 then str_append dbg sf sep else Ok sf | [] => Ok sf end) = Ok sf' /\ srep (pfx (is_abs z) ++ slashed []) cap' sf') as (sf' & cap' & E3 & R3).
    { destruct z as [|c z]; [contradiction|]. cbn [is_abs]. destruct (c =? 47); cbn [pfx slashed flat_map app].
      - destruct (append_ok dbg [] _ sf sep R2 sep_ok) as (s' & E' & R'); [rewrite sep_len; lia|rewrite sep_len; zl; zlia|]. eauto.
      - eauto. }
    rewrite E3. cbn [bind].
    destruct (split_scan dbg z _ s sep (comps z) R1) as [_ Sp]; [rewrite sep_len; lia|apply comps_scan|]. unfold lf in Sp.
    assert (1 < zlen (comps z)) as Hl.
    { apply in_split in Hin as (a & b & Ez). rewrite Ez, comps_app, zlen_app. destruct (comps_cons a) as (? & ? & ->), (comps_cons b) as (? & ? & ->). zl. zlia. }
    destruct Sp as (ds & E4 & D); [exact Hl| |].
    { intros l E. apply comps_double in E as [->|[a E]]; [now apply Hne|exact (Hdd a E)]. }
    rewrite E4. cbn [bind].
    assert (Forall okname ns) as Fn by (apply filter_ok, plain_comps, P).
    destruct (lim_mkdir_loop_ok lim dbg cwd z ns ds [] sf' cap' fs W) as (fs' & E5 & W' & A & B).
    + exact Fn.
    + fold (names z) in D. fold ns in D. clear -D. induction D; constructor; eauto.
    + exact R3.
    + cbn [app]. pose proof (pfx_len z). fold ns in H. lia.
    + rewrite app_nil_r. unfold start. destruct z as [|c z]; [exact Hc|]. destruct (c =? 47); [reflexivity|exact Hc].
    + exact K.
    + cbn [app] in *. rewrite E5. cbn [bind]. eauto.
Qed.
