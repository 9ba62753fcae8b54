(** Proofs: every call of path.c and fileio.c, with every path text, leaves a proper tree. *)
From Verif Require Import Base BaseFacts StrModel StrModel2 StrSpec FsModel PathModel FsSpec FsProofs FsMain FsMain2 RenameModel RenameProofs.

(** * Provenance of characters *)
Definition okb (b : blk) : Prop := Forall (fun o => match o with Some c => 0 <= c < 256 | None => True end) b.
Lemma okb_app a b : okb (a ++ b) <-> okb a /\ okb b.
Proof. apply Forall_app. Qed.
Lemma okb_firstn b n : okb b -> okb (firstn n b).
Proof. intros H. rewrite <- (firstn_skipn n b) in H. now apply okb_app in H. Qed.
Lemma okb_skipn b n : okb b -> okb (skipn n b).
Proof. intros H. rewrite <- (firstn_skipn n b) in H. now apply okb_app in H. Qed.
Lemma okb_text z : oks z -> okb (zblk z).
Proof.
  intros H. apply okb_app. split; [|repeat constructor; lia]. induction H as [|c z Hc _ IH]; constructor; [unfold okc in Hc; lia|exact IH].
Qed.
Lemma okb_cstr b : okb b -> forall z, cstr b = Ok z -> oks z.
Proof.
  induction 1 as [|[c|] b Hc _ IH]; intros z E; cbn [cstr] in E; try discriminate.
  destruct (Z.eqb_spec c 0) as [|N]; [injection E as <-; constructor|]. destruct (cstr b) as [t| | |]; try discriminate.
  injection E as <-. constructor; [unfold okc; lia|now apply IH].
Qed.
Lemma okb_cstr_at b o z : okb b -> cstr_at b o = Ok z -> oks z.
Proof. intros H E. unfold cstr_at in E. destruct (_ && _); [|discriminate]. exact (okb_cstr _ (okb_skipn _ _ H) _ E). Qed.
Lemma okb_write b o d b' : okb b -> okb d -> bwrite b o d = Ok b' -> okb b'.
Proof.
  intros Hb Hd E. unfold bwrite in E. destruct (_ && _); [|discriminate]. injection E as <-.
  rewrite !okb_app. repeat split; [now apply okb_firstn|exact Hd|now apply okb_skipn].
Qed.
Lemma okb_read b o n d : okb b -> bread b o n = Ok d -> okb d.
Proof. intros Hb E. unfold bread in E. destruct (_ && _); [|discriminate]. injection E as <-. now apply okb_firstn, okb_skipn. Qed.
Lemma okb_repeat o n : okb [o] -> okb (repeat o n).
Proof. intros H. inversion H; subst. induction n; constructor; assumption. Qed.

Lemma bind_ok {A B} (r : res A) (k : A -> res B) y : bind r k = Ok y -> exists x, r = Ok x /\ k x = Ok y.
Proof. destruct r; cbn [bind]; intros E; try discriminate. eauto. Qed.

Lemma okb_swrite s o d s' : okb (sb s) -> okb d -> swrite s o d = Ok s' -> okb (sb s').
Proof.
  intros H D E. unfold swrite in E. destruct (sv s); [discriminate|]. apply bind_ok in E as (b & X & E). injection E as <-. cbn [sb]. exact (okb_write _ _ _ _ H D X).
Qed.
Lemma okb_sput s o c s' : okb (sb s) -> 0 <= c < 256 -> sput s o c = Ok s' -> okb (sb s').
Proof. intros H C. apply okb_swrite; [exact H|repeat constructor; lia]. Qed.
Lemma okb_scopy s o z zo n s' : okb (sb s) -> oks z -> scopy s o z zo n = Ok s' -> okb (sb s').
Proof.
  intros H D E. unfold scopy in E. destruct (n =? 0); [injection E as <-; exact H|]. apply bind_ok in E as (l & X & E).
  apply (okb_swrite s o l s'); [exact H|exact (okb_read _ _ _ _ (okb_text z D) X)|exact E].
Qed.
Lemma okb_calloc dbg n b : c_calloc dbg n = Ok b -> okb b.
Proof.
  intros E. unfold c_calloc in E. apply bind_ok in E as (u & X & E). destruct (_ <=? _); [|discriminate]. injection E as <-. apply okb_repeat. repeat constructor; lia.
Qed.
Lemma okb_create_len dbg n s : str_create_len dbg n = Ok s -> okb (sb s).
Proof.
  intros E. unfold str_create_len in E. apply bind_ok in E as (u & _ & E). apply bind_ok in E as (w & _ & E). apply bind_ok in E as (b & X & E).
  cbv zeta in E. destruct (n =? 0).
  - injection E as <-. cbn [sb]. exact (okb_calloc _ _ _ X).
  - apply okb_swrite in E; [exact E|exact (okb_calloc _ _ _ X)|apply okb_repeat; repeat constructor; lia].
Qed.
Lemma okb_set_n dbg s z n s' : okb (sb s) -> oks z -> str_set_n dbg s z n = Ok s' -> okb (sb s').
Proof.
  intros H O E. unfold str_set_n in E. apply bind_ok in E as (u & _ & E). apply bind_ok in E as (w & _ & E). apply bind_ok in E as (s1 & X1 & E).
  apply bind_ok in E as (s2 & X2 & E). injection E as <-. cbn [sb set_len].
  apply okb_sput in X2; [exact X2|exact (okb_scopy _ _ _ _ _ _ H O X1)|lia].
Qed.
Lemma okb_create dbg z s : oks z -> str_create dbg z = Ok s -> okb (sb s).
Proof. intros O E. unfold str_create in E. apply bind_ok in E as (s1 & X & E). exact (okb_set_n _ _ _ _ _ (okb_create_len _ _ _ X) O E). Qed.
Lemma okb_capacity dbg n s : str_create_capacity dbg n = Ok s -> okb (sb s).
Proof.
  intros E. unfold str_create_capacity in E. apply bind_ok in E as (u & _ & E). apply bind_ok in E as (s1 & X & E). unfold str_clear in E.
  apply bind_ok in E as (s2 & X2 & E). injection E as <-. cbn [sb set_len]. apply okb_sput in X2; [exact X2|exact (okb_create_len _ _ _ X)|lia].
Qed.
Lemma okb_append dbg s z s' : okb (sb s) -> oks z -> str_append dbg s z = Ok s' -> okb (sb s').
Proof.
  intros H O E. unfold str_append, str_append_n in E. apply bind_ok in E as (u & _ & E). apply bind_ok in E as (s1 & X1 & E).
  apply bind_ok in E as (s2 & X2 & E). cbv zeta in E.
  assert (okb (sb s1)) as H1.
  { destruct (_ <? _); [|injection X1 as <-; exact H]. unfold str_reserve in X1. apply bind_ok in X1 as (w & _ & X1). apply bind_ok in X1 as (w' & _ & X1).
    apply bind_ok in X1 as (s3 & X3 & X1). cbv zeta in X1. apply okb_sput in X1; [exact X1| |lia]. cbn [sb].
    unfold srealloc in X3. apply bind_ok in X3 as (b & X3 & X4). injection X4 as <-. cbn [sb]. unfold c_realloc in X3. apply bind_ok in X3 as (w2 & _ & X3).
    destruct (_ =? 0); [discriminate|]. destruct (_ <=? _); [|discriminate]. injection X3 as <-. apply okb_app. split; [now apply okb_firstn|].
    apply okb_repeat. repeat constructor. }
  apply okb_sput in E; [exact E| |lia]. cbn [sb set_len]. exact (okb_scopy _ _ _ _ _ _ H1 O X2).
Qed.
Lemma okb_split_loop dbg sep f : forall b h acc l, okb b -> Forall (fun s => okb (sb s)) acc -> split_loop f dbg b sep h acc = Ok l -> Forall (fun s => okb (sb s)) l.
Proof.
  induction f as [|f IH]; intros b h acc l Hb Ha E; [discriminate|]. cbn [split_loop] in E. apply bind_ok in E as (t & Xt & E). cbv zeta in E.
  destruct (_ =? 0); [exact (IH _ _ _ _ Hb Ha E)|]. apply bind_ok in E as (p1 & X1 & E). apply bind_ok in E as (p2 & X2 & E).
  assert (Forall (fun s => okb (sb s)) (acc ++ [p2])) as Ha2.
  { apply Forall_app. split; [exact Ha|]. constructor; [|constructor]. exact (okb_set_n _ _ _ _ _ (okb_create_len _ _ _ X1) (okb_cstr_at _ _ _ Hb Xt) X2). }
  destruct (strstr t sep); [|injection E as <-; exact Ha2]. apply bind_ok in E as (c & _ & E). destruct (c =? 0); [injection E as <-; exact Ha2|].
  exact (IH _ _ _ _ Hb Ha2 E).
Qed.

(** * Places *)
Lemma walk_exists fs : wf fs -> forall cs cur p, (cs = [] -> lookup fs cur <> None) -> walk fs cur cs = Some p -> lookup fs p <> None.
Proof.
  intros W. induction cs as [|c cs IH]; intros cur p H E; cbn [walk] in E; [injection E as <-; now apply H|].
  destruct (lookup fs cur) as [[|]|] eqn:L; try discriminate. destruct (name_dec c []); [|destruct (name_dec c dot); [|destruct (name_dec c dotdot)]].
  - apply (IH cur p); [congruence|exact E].
  - apply (IH cur p); [congruence|exact E].
  - apply (IH (removelast cur) p); [|exact E]. intros _. destruct (list_eq_dec name_dec cur []) as [->|N]; [discriminate|].
    destruct (exists_last N) as (q & nm & ->). rewrite removelast_last. destruct (wf_parent fs q nm W) as [L' _]; [congruence|]. congruence.
  - destruct (lookup fs (cur ++ [c])) eqn:L'; [|discriminate]. apply (IH (cur ++ [c]) p); [congruence|exact E].
Qed.

Lemma drop_nil_head l : match drop_nil l with c :: _ => c <> [] /\ In c l | [] => True end.
Proof.
  induction l as [|x l IH]; [exact I|]. destruct x as [|a x]; cbn [drop_nil].
  - destruct (drop_nil l); [exact I|]. split; [tauto|]. right. tauto.
  - split; [discriminate|now left].
Qed.
Lemma last_okname z c r : oks z -> rev_comps z = c :: r -> special c = false -> okname c.
Proof.
  intros O E S. pose proof (drop_nil_head (rev (comps z))) as D. unfold rev_comps in E. rewrite E in D. destruct D as [D1 D2]. apply in_rev in D2.
  pose proof (comps_chars z O) as F. rewrite Forall_forall in F. specialize (F c D2). unfold special in S.
  destruct (name_dec c dot); [discriminate|]. destruct (name_dec c dotdot); [discriminate|]. repeat split; tauto.
Qed.

Lemma entry_place_gen fs cwd z q : wf fs -> oks z -> entry_place fs cwd z = Some q ->
  exists d n, q = d ++ [n] /\ okname n /\ lookup fs d = Some EDir.
Proof.
  intros W O E. unfold entry_place in E. destruct z as [|a z]; [discriminate|]. destruct (rev_comps (a :: z)) as [|c r] eqn:Er; [discriminate|].
  destruct (special c) eqn:S; [discriminate|]. destruct (walk _ _ _) as [p|] eqn:Ew; [|discriminate].
  destruct (lookup fs p) as [[|]|] eqn:L; try discriminate. injection E as <-. exists p, c. split; [reflexivity|]. split; [|exact L].
  exact (last_okname _ _ _ O Er S).
Qed.
Lemma new_entry_gen fs cwd z q : wf fs -> oks z -> new_entry fs cwd z = Some q ->
  exists d n, q = d ++ [n] /\ okname n /\ lookup fs d = Some EDir /\ lookup fs q = None.
Proof.
  intros W O E. unfold new_entry in E. destruct z as [|a z]; [discriminate|]. destruct (rev_comps (a :: z)) as [|c r] eqn:Er; [discriminate|].
  destruct (special c) eqn:S; [discriminate|]. destruct (walk _ _ _) as [p|] eqn:Ew; [|discriminate].
  destruct (lookup fs p) as [[|]|] eqn:L; try discriminate. destruct (lookup fs (p ++ [c])) eqn:L2; [discriminate|]. injection E as <-.
  exists p, c. split; [reflexivity|]. split; [exact (last_okname _ _ _ O Er S)|]. tauto.
Qed.
Lemma resolve_exists fs cwd z p : wf fs -> resolve fs cwd z = Some p -> lookup fs p <> None.
Proof.
  intros W E. unfold resolve in E. destruct z as [|a z]; [discriminate|]. apply (walk_exists fs W _ _ _) in E; [exact E|].
  destruct (comps_cons (a :: z)) as (x & l & ->). discriminate.
Qed.
Lemma snoc_ne {A} (d : list A) n : d ++ [n] <> [].
Proof. destruct d; discriminate. Qed.

Lemma store_new fs d n e : wf fs -> lookup fs d = Some EDir -> okname n -> lookup fs (d ++ [n]) = None -> wf (store fs (d ++ [n]) e).
Proof.
  intros W L O N. apply wf_store; try assumption; [apply (wf_names fs d W); congruence|]. congruence.
Qed.

(** * The calls *)
(** What a call may do: add directories; take entries away. *)
Definition adds_dirs (fs fs' : fsys) : Prop := forall x, lookup fs' x = lookup fs x \/ (lookup fs x = None /\ lookup fs' x = Some EDir).
Definition takes_away (fs fs' : fsys) : Prop := forall x, lookup fs' x = lookup fs x \/ lookup fs' x = None.
Definition changes_file (fs fs' : fsys) : Prop :=
  exists p, (lookup fs' p = lookup fs p \/ (lookup fs p <> Some EDir /\ exists c, lookup fs' p = Some (EFile c))) /\ forall x, x <> p -> lookup fs' x = lookup fs x.
Definition moves (fs fs' : fsys) : Prop :=
  (forall x, lookup fs' x = lookup fs x) \/
  exists p q, (forall r, q <> p ++ r) /\ (forall r, p <> q ++ r) /\ (forall r, lookup fs' (q ++ r) = lookup fs (p ++ r)) /\ (forall r, lookup fs' (p ++ r) = None) /\
    (forall x, (forall r, x <> p ++ r) -> (forall r, x <> q ++ r) -> lookup fs' x = lookup fs x) /\
    (lookup fs q = None \/ (lookup fs p = Some EDir /\ lookup fs q = Some EDir /\ forall n, lookup fs (q ++ [n]) = None) \/
     (exists c c', lookup fs p = Some (EFile c) /\ lookup fs q = Some (EFile c'))).

Lemma adds_refl fs : adds_dirs fs fs.
Proof. intros x. now left. Qed.
Lemma adds_trans a b c : adds_dirs a b -> adds_dirs b c -> adds_dirs a c.
Proof.
  intros H K x. destruct (H x) as [E|[E1 E2]], (K x) as [F|[F1 F2]]; try (left; congruence); try (right; split; congruence).
Qed.
Lemma takes_refl fs : takes_away fs fs.
Proof. intros x. now left. Qed.
Lemma takes_trans a b c : takes_away a b -> takes_away b c -> takes_away a c.
Proof. intros H K x. destruct (H x) as [E|E], (K x) as [F|F]; try (left; congruence); right; congruence. Qed.

Lemma mkdir_tree fs cwd z : wf fs -> oks z -> wf (fst (path_mkdir fs cwd z)) /\ adds_dirs fs (fst (path_mkdir fs cwd z)).
Proof.
  intros W O. unfold path_mkdir. destruct (path_exists fs cwd z); [split; [exact W|apply adds_refl]|]. unfold fs_mkdir.
  destruct (new_entry fs cwd z) as [p|] eqn:E; [|split; [exact W|apply adds_refl]]. cbn [fst].
  destruct (new_entry_gen fs cwd z p W O E) as (d & n & -> & On & L & N). split; [now apply store_new|].
  intros x. rewrite lookup_store by apply snoc_ne. destruct path_dec as [->|]; [right|left]; auto.
Qed.
Lemma mkdir_loop_tree dbg cwd dirs : forall sfull fs fs', wf fs -> okb (sb sfull) -> Forall (fun s => okb (sb s)) dirs ->
  mkdir_loop dbg cwd dirs sfull fs = Ok fs' -> wf fs' /\ adds_dirs fs fs'.
Proof.
  induction dirs as [|d dirs IH]; intros sfull fs fs' W H F E; cbn [mkdir_loop] in E.
  - injection E as <-. split; [exact W|apply adds_refl].
  - inversion F as [|? ? Hd Fd]; subst. apply bind_ok in E as (zd & X1 & E). apply bind_ok in E as (s1 & X2 & E). apply bind_ok in E as (s2 & X3 & E).
    apply bind_ok in E as (zf & X4 & E).
    pose proof (okb_append _ _ _ _ H (okb_cstr _ Hd _ X1) X2) as H1. assert (oks sep) as Os by (repeat constructor; lia).
    pose proof (okb_append _ _ _ _ H1 Os X3) as H2. destruct (mkdir_tree fs cwd zf W (okb_cstr _ H2 _ X4)) as [W1 A1].
    destruct (IH _ _ _ W1 H2 Fd E) as [W2 A2]. split; [exact W2|exact (adds_trans _ _ _ A1 A2)].
Qed.
Lemma mkdir_parents_tree dbg fs cwd z fs' b : wf fs -> oks z -> path_mkdir_parents dbg fs cwd z = Ok (fs', b) -> wf fs' /\ adds_dirs fs fs'.
Proof.
  intros W O E. unfold path_mkdir_parents in E. destruct (path_exists fs cwd z); [injection E as <- <-; split; [exact W|apply adds_refl]|].
  apply bind_ok in E as (s & X1 & E). apply bind_ok in E as (s1 & X2 & E). apply bind_ok in E as (s2 & X3 & E). apply bind_ok in E as (dirs & X4 & E).
  destruct dirs as [dirs|]; [|injection E as <- <-; split; [exact W|apply adds_refl]]. apply bind_ok in E as (f1 & X5 & E). injection E as <- <-.
  assert (oks sep) as Os by (repeat constructor; lia). pose proof (okb_capacity _ _ _ X2) as H1.
  assert (okb (sb s2)) as H2.
  { destruct z as [|c z]; [injection X3 as <-; exact H1|]. destruct (c =? 47); [exact (okb_append _ _ _ _ H1 Os X3)|injection X3 as <-; exact H1]. }
  unfold str_split in X4. apply bind_ok in X4 as (k & _ & X4). destruct (k =? 0); [discriminate|]. apply bind_ok in X4 as (l & X6 & X4). injection X4 as <-.
  apply (mkdir_loop_tree dbg cwd l s2 fs f1 W H2); [|exact X5].
  exact (okb_split_loop _ _ _ _ _ _ _ (okb_create _ _ _ O X1) (Forall_nil _) X6).
Qed.

Lemma write_tree fs cwd z append ln txt : wf fs -> oks z -> wf (fst (file_writefc fs cwd z append ln txt)) /\ changes_file fs (fst (file_writefc fs cwd z append ln txt)).
Proof.
  intros W O. assert (changes_file fs fs) as R by (exists []; split; [now left|reflexivity]).
  unfold file_writefc, fs_write. destruct (resolve fs cwd z) as [p|] eqn:E.
  - destruct (lookup fs p) as [[|c]|] eqn:L; [split; [exact W|exact R]| |split; [exact W|exact R]]. cbn [fst].
    assert (p <> []) as Hp by (intros ->; discriminate). destruct (exists_last Hp) as (d & n & ->).
    destruct (wf_parent fs d n W) as [Ld On]; [congruence|]. split.
    + apply wf_store; try assumption; [apply (wf_names fs d W); congruence|]. intros _. left. congruence.
    + exists (d ++ [n]). split.
      * right. split; [congruence|]. eexists. rewrite lookup_store by apply snoc_ne. destruct path_dec as [_|X]; [reflexivity|now elim X].
      * intros x Hx. rewrite lookup_store by apply snoc_ne. destruct path_dec; congruence.
  - destruct (last (comps z) []); [split; [exact W|exact R]|]. destruct (new_entry fs cwd z) as [p|] eqn:N; [|split; [exact W|exact R]]. cbn [fst].
    destruct (new_entry_gen fs cwd z p W O N) as (d & m & -> & On & L & Nn). split; [now apply store_new|].
    exists (d ++ [m]). split.
    + right. split; [congruence|]. eexists. rewrite lookup_store by apply snoc_ne. destruct path_dec as [_|X]; [reflexivity|now elim X].
    + intros x Hx. rewrite lookup_store by apply snoc_ne. destruct path_dec; congruence.
Qed.

Lemma rmdir_tree lk fs cwd z : wf fs -> wf (fst (path_rmdir lk fs cwd z)) /\ takes_away fs (fst (path_rmdir lk fs cwd z)).
Proof.
  intros W. destruct (path_rmdir lk fs cwd z) as [fs' b] eqn:E. cbn [fst]. destruct (rmdir_effect lk fs cwd z fs' b W E) as (W' & T & F).
  split; [exact W'|]. destruct b; [|rewrite F by reflexivity; apply takes_refl]. destruct (T eq_refl) as (p & _ & _ & _ & N & K).
  intros x. destruct (path_dec x p) as [->|]; [now right|left; now apply K].
Qed.
Lemma remove_tree lk fs cwd z : wf fs -> wf (fst (path_remove lk fs cwd z)) /\ takes_away fs (fst (path_remove lk fs cwd z)).
Proof.
  intros W. destruct (path_remove lk fs cwd z) as [fs' b] eqn:E. cbn [fst]. destruct (remove_effect lk fs cwd z fs' b W E) as (W' & T & F).
  split; [exact W'|]. destruct b; [|rewrite F by reflexivity; apply takes_refl]. destruct (T eq_refl) as (p & _ & _ & _ & N & K).
  intros x. destruct (path_dec x p) as [->|]; [now right|left; now apply K].
Qed.
Lemma remove_loop_tree lk cwd l : forall fs, wf fs -> wf (fst (remove_loop lk fs cwd l)) /\ takes_away fs (fst (remove_loop lk fs cwd l)).
Proof.
  induction l as [|z l IH]; intros fs W; cbn [remove_loop]; [split; [exact W|apply takes_refl]|].
  assert (wf (fst (if path_is_dir fs cwd z then path_rmdir lk fs cwd z else path_remove lk fs cwd z)) /\
          takes_away fs (fst (if path_is_dir fs cwd z then path_rmdir lk fs cwd z else path_remove lk fs cwd z))) as [W1 T1].
  { destruct (path_is_dir fs cwd z); [now apply rmdir_tree|now apply remove_tree]. }
  destruct (if path_is_dir fs cwd z then path_rmdir lk fs cwd z else path_remove lk fs cwd z) as [fs1 b]. cbn [fst] in *.
  destruct b; [|tauto]. destruct (IH fs1 W1) as [W2 T2]. split; [exact W2|exact (takes_trans _ _ _ T1 T2)].
Qed.
Lemma rmdir_recurse_tree lk fuel fs cwd z fs' b : wf fs -> path_rmdir_recurse lk fuel fs cwd z = Ok (fs', b) -> wf fs' /\ takes_away fs fs'.
Proof.
  intros W E. unfold path_rmdir_recurse in E. destruct (path_exists fs cwd z); cbn [negb] in E; [|injection E as <- <-; split; [exact W|apply takes_refl]].
  apply bind_ok in E as (l & _ & E). destruct (rmdir_tree lk fs cwd z W) as [W0 T0].
  destruct l as [[|x l]|]; [injection E as E; rewrite E in *; tauto| |injection E as E; rewrite E in *; tauto].
  destruct (remove_loop_tree lk cwd (x :: l) fs W) as [W1 T1]. destruct (remove_loop lk fs cwd (x :: l)) as [fs1 s]. cbn [fst] in *.
  destruct s; [|injection E as <- <-; tauto]. injection E as <- <-. destruct (rmdir_tree lk fs1 cwd z W1) as [W2 T2].
  split; [exact W2|exact (takes_trans _ _ _ T1 T2)].
Qed.

Lemma move_tree fs p q : wf fs -> p <> [] -> lookup fs p <> None -> (exists d n, q = d ++ [n] /\ okname n /\ lookup fs d = Some EDir) ->
  (forall r, q <> p ++ r) -> (lookup fs q = Some EDir -> children fs q = []) ->
  (lookup fs q = None \/ (lookup fs p = Some EDir /\ lookup fs q = Some EDir) \/
     (exists c c', lookup fs p = Some (EFile c) /\ lookup fs q = Some (EFile c'))) ->
  wf (fs_move fs p q) /\ moves fs (fs_move fs p q).
Proof.
  intros W Hp Lp (d & n & Eq & On & Ld) Hpq C OR. pose proof (free_below fs q W C) as FB. split; [eapply move_wf; eauto|].
  right. exists p, q. split; [exact Hpq|]. split; [intros r; eapply p_not_below_q; eauto|]. split; [intros r; eapply move_new; eauto|].
  split; [intros r; eapply move_old; eauto|]. split; [intros x X1 X2; eapply move_other; eauto; now apply below_none|].
  destruct OR as [OR|[[A B]|OR]]; [tauto|right; left|tauto]. split; [exact A|]. split; [exact B|]. intros m. apply FB. discriminate.
Qed.
Lemma rename_tree lk fs cwd z1 z2 : wf fs -> oks z2 -> wf (fst (path_rename lk fs cwd z1 z2)) /\ moves fs (fst (path_rename lk fs cwd z1 z2)).
Proof.
  intros W O. assert (wf fs /\ moves fs fs) as R by (split; [exact W|left; reflexivity]).
  unfold path_rename. destruct (negb _); [exact R|]. unfold fs_rename. destruct (resolve fs cwd z1) as [p|]; [|exact R].
  destruct (rev_comps z1) as [|c r0]; [exact R|]. destruct (entry_place fs cwd z2) as [q|] eqn:P; [|exact R].
  pose proof (entry_place_gen fs cwd z2 q W O P) as Q. destruct (special c); [exact R|]. destruct (path_dec p []) as [|Hp]; [exact R|].
  destruct (lookup fs p) as [[|c1]|] eqn:L; [| |exact R].
  - destruct (path_dec p q) as [|Npq]; [exact R|]. destruct (below p q) eqn:B; [exact R|]. pose proof (proj1 (below_none p q) B) as NB.
    destruct (lookup fs q) as [[|c2]|] eqn:Lq; [|exact R|].
    + destruct (children fs q) eqn:C; [|exact R]. destruct (lk p || lk q); [exact R|]. cbn [fst]. apply move_tree; try assumption; try congruence. right. left. tauto.
    + destruct (lk p); [exact R|]. cbn [fst]. apply move_tree; try assumption; try congruence. now left.
  - destruct (ends_in_slash z2); [exact R|]. destruct (path_dec p q) as [|Npq]; [exact R|].
    assert (NB : forall r, q <> p ++ r).
    { intros r E. destruct Q as (d & n & Eq & _ & Ld). destruct r as [|x r]; [rewrite app_nil_r in E; auto|]. rewrite Eq in E.
      assert (exists s, d = p ++ s) as [s Es].
      { exists (removelast (x :: r)). apply (f_equal (@removelast _)) in E. rewrite removelast_last in E. rewrite E. apply removelast_app. discriminate. }
      assert (lookup fs (p ++ s) <> None) as L2 by (rewrite <- Es; congruence).
      destruct s as [|y s]; [rewrite app_nil_r in Es; rewrite Es in Ld; congruence|]. apply (wf_prefix fs p) in L2; [congruence|exact W|discriminate]. }
    destruct (lookup fs q) as [[|c2]|] eqn:Lq; [exact R| |].
    + destruct (lk p || lk q); [exact R|]. cbn [fst]. apply move_tree; try assumption; try congruence. right. right. eauto.
    + destruct (lk p); [exact R|]. cbn [fst]. apply move_tree; try assumption; try congruence. now left.
Qed.

(** * Sequences of calls *)
Inductive fop :=
| OMkdir (z : text) | OMkdirParents (z : text) | OWrite (z : text) (append ln : bool) (txt : text)
| ORemove (z : text) | ORmdir (z : text) | ORmdirRecurse (z : text) | ORename (z1 z2 : text).
(** The calls; [fuel] bounds the recursion of vt_path_rmdir_recurse. *)
Definition fstep (dbg : bool) (lk : path -> bool) (fuel : nat) (cwd : path) (fs : fsys) (o : fop) : res (fsys * bool) :=
  match o with
  | OMkdir z => Ok (path_mkdir fs cwd z)
  | OMkdirParents z => path_mkdir_parents dbg fs cwd z
  | OWrite z append ln txt => Ok (file_writefc fs cwd z append ln txt)
  | ORemove z => Ok (path_remove lk fs cwd z)
  | ORmdir z => Ok (path_rmdir lk fs cwd z)
  | ORmdirRecurse z => path_rmdir_recurse lk fuel fs cwd z
  | ORename z1 z2 => Ok (path_rename lk fs cwd z1 z2)
  end.
Fixpoint frun (dbg : bool) (lk : path -> bool) (fuel : nat) (cwd : path) (fs : fsys) (os : list fop) : res fsys :=
  match os with
  | [] => Ok fs
  | o :: os' => let* r := fstep dbg lk fuel cwd fs o in frun dbg lk fuel cwd (fst r) os'
  end.
(** The texts are C strings. *)
Definition ftexts (o : fop) : Prop :=
  match o with
  | OMkdir z | OMkdirParents z | OWrite z _ _ _ | ORemove z | ORmdir z | ORmdirRecurse z => oks z
  | ORename z1 z2 => oks z1 /\ oks z2
  end.
Definition effect (o : fop) (fs fs' : fsys) : Prop :=
  match o with
  | OMkdir _ | OMkdirParents _ => adds_dirs fs fs'
  | OWrite _ _ _ _ => changes_file fs fs'
  | ORemove _ | ORmdir _ | ORmdirRecurse _ => takes_away fs fs'
  | ORename _ _ => moves fs fs'
  end.

Lemma step_tree dbg lk fuel cwd fs o fs' b : wf fs -> ftexts o -> fstep dbg lk fuel cwd fs o = Ok (fs', b) -> wf fs' /\ effect o fs fs'.
Proof.
  intros W F E. destruct o; cbn [fstep ftexts effect] in *.
  - injection E as E. replace fs' with (fst (path_mkdir fs cwd z)) by now rewrite E. now apply mkdir_tree.
  - exact (mkdir_parents_tree dbg fs cwd z fs' b W F E).
  - injection E as E. replace fs' with (fst (file_writefc fs cwd z append ln txt)) by now rewrite E. now apply write_tree.
  - injection E as E. replace fs' with (fst (path_remove lk fs cwd z)) by now rewrite E. now apply remove_tree.
  - injection E as E. replace fs' with (fst (path_rmdir lk fs cwd z)) by now rewrite E. now apply rmdir_tree.
  - exact (rmdir_recurse_tree lk fuel fs cwd z fs' b W E).
  - injection E as E. replace fs' with (fst (path_rename lk fs cwd z1 z2)) by now rewrite E. now apply rename_tree.
Qed.
Lemma run_tree dbg lk fuel cwd os : forall fs fs', wf fs -> Forall ftexts os -> frun dbg lk fuel cwd fs os = Ok fs' -> wf fs'.
Proof.
  induction os as [|o os IH]; intros fs fs' W F E; cbn [frun] in E; [injection E as <-; exact W|]. inversion F; subst.
  apply bind_ok in E as ([fs1 b] & X & E). apply (IH fs1 fs'); [|assumption|exact E]. eapply step_tree; eassumption.
Qed.
