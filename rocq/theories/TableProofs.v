(** A table kept in a file: the fields of a row joined by a separator, one row per line; read back with two splits (C205). *)
From Verif Require Import Base BaseFacts StrModel StrModel2 StrSpec StrProofs StrProofs2 StrMain ExactStr FsModel PathModel FsSpec FsProofs FsMain FsMain2 LineProofs.

(** vt_str_join and vt_file_appendln once per row, until one fails. *)
Fixpoint write_table (dbg : bool) (fs : fsys) (cwd : path) (z : list Z) (c : Z) (rows : list (list text)) : res (fsys * bool) :=
  match rows with
  | [] => Ok (fs, true)
  | r :: rows =>
      let* s := str_join dbg None [c] r in
      let* l := str_z s in
      let '(fs, ok) := file_appendln fs cwd z l in
      if ok then write_table dbg fs cwd z c rows else Ok (fs, false)
  end.
(** The texts of the strings of a list. *)
Fixpoint texts_of (l : list str) : res (list text) :=
  match l with
  | [] => Ok []
  | s :: l => let* t := str_z s in let* ts := texts_of l in Ok (t :: ts)
  end.
(** vt_str_split of each line; a NULL result (no separator) gives no fields. *)
Fixpoint split_rows (dbg : bool) (c : Z) (l : list str) : res (list (list text)) :=
  match l with
  | [] => Ok []
  | s :: l =>
      let* o := str_split dbg (lf s) s [c] in
      let* r := texts_of (match o with Some ps => ps | None => [] end) in
      let* rs := split_rows dbg c l in
      Ok (r :: rs)
  end.
(** vt_file_read, vt_str_split at line feeds, and the above. *)
Definition read_table (dbg : bool) (fs : fsys) (cwd : path) (z : list Z) (c : Z) : res (option (list (list text))) :=
  let* f := file_read dbg fs cwd z in
  match f with
  | None => Ok None
  | Some s =>
      let* o := str_split dbg (lf s) s [10] in
      let* rs := split_rows dbg c (match o with Some ls => ls | None => [] end) in
      Ok (Some rs)
  end.

Lemma join_scan (c : Z) l : forall x, Forall (fun p : text => ~ In c p) (x :: l) -> scan [c] (join_with [c] (x :: l)) (x :: l).
Proof.
  induction l as [|y l IH]; intros x F; inversion F as [|? ? Nx F']; subst.
  - apply scan_end. intros a b E. apply Nx. cbn [join_with] in E. rewrite E. apply in_or_app. right. now left.
  - change (join_with [c] (x :: y :: l)) with (x ++ [c] ++ join_with [c] (y :: l)). apply scan_next; [|now apply IH].
    intros a' b'. now apply first_sep.
Qed.
Lemma join_no (c d : Z) l : d <> c -> Forall (fun p : text => ~ In d p) l -> ~ In d (join_with [c] l).
Proof.
  intros N. induction 1 as [|x l Nx F IH]; [intros []|]. destruct l as [|y l]; [exact Nx|].
  change (join_with [c] (x :: y :: l)) with (x ++ [c] ++ join_with [c] (y :: l)). intros H. apply in_app_or in H as [H|H]; [now apply Nx|].
  destruct H as [H|H]; [now apply N|now apply IH].
Qed.
Lemma join_okss (c : Z) l : okc c -> Forall (fun p : text => oks p) l -> oks (join_with [c] l).
Proof.
  intros N. induction 1 as [|x l Nx F IH]; [constructor|]. destruct l as [|y l]; [exact Nx|].
  change (join_with [c] (x :: y :: l)) with (x ++ [c] ++ join_with [c] (y :: l)). apply Forall_app. split; [exact Nx|]. constructor; [exact N|exact IH].
Qed.

(** A row: two or more fields, none of them empty. *)
Definition field (c : Z) (t : text) : Prop := oks t /\ t <> [] /\ ~ In c t /\ ~ In 10 t.
Definition row (c : Z) (r : list text) : Prop := (2 <= length r)%nat /\ Forall (field c) r.

Lemma row_line c r : okc c -> c <> 10 -> row c r -> line (join_with [c] r) /\ join_with [c] r <> [].
Proof.
  intros Oc N [L F]. split; [split|].
  - apply join_okss; [exact Oc|]. eapply Forall_impl; [|exact F]. intros t (O & _). exact O.
  - apply join_no; [congruence|]. eapply Forall_impl; [|exact F]. intros t (_ & _ & _ & X). exact X.
  - destruct r as [|x [|y r]]; cbn [length] in L; try lia. change (join_with [c] (x :: y :: r)) with (x ++ [c] ++ join_with [c] (y :: r)). destruct x; discriminate.
Qed.
Lemma row_len c (r : list text) rows : In r rows -> zlen (join_with [c] r) + 1 <= zlen (of_lines (map (join_with [c]) rows)).
Proof.
  induction rows as [|q rows IH]; [intros []|]. unfold of_lines in *. cbn [map concat]. rewrite !zlen_app. change (zlen [10]) with 1. pose proof (zlen_nonneg (concat (map (fun l => l ++ [10]) (map (join_with [c]) rows)))).
  pose proof (zlen_nonneg (join_with [c] q)). intros [->|H']; [lia|]. specialize (IH H'). lia.
Qed.
Lemma join_row dbg c r : okc c -> row c r -> zlen (join_with [c] r) + 1 <= alloc_max ->
  exists s, str_join dbg None [c] r = Ok s /\ str_z s = Ok (join_with [c] r).
Proof.
  intros Oc [L F] A. destruct r as [|x r]; [cbn in L; lia|].
  destruct (join_new_ok dbg [c] x r) as (s & E & R); [constructor; [exact Oc|constructor]|reflexivity| |exact A|exists s; split; [exact E|exact (z_ok _ _ _ R)]].
  eapply Forall_impl; [|exact F]. intros t (O & Nt & _). split; [exact O|]. destruct t; [contradiction|]. rewrite zlen_cons. pose proof (zlen_nonneg t). lia.
Qed.
Lemma write_lines dbg c cwd z rows : forall fs, okc c -> Forall (row c) rows -> Forall (fun r => zlen (join_with [c] r) + 1 <= alloc_max) rows ->
  write_table dbg fs cwd z c rows = Ok (append_lines fs cwd z (map (join_with [c]) rows)).
Proof.
  induction rows as [|r rows IH]; intros fs Oc F A; [reflexivity|]. inversion F as [|? ? Fr F']; subst. inversion A as [|? ? Ar A']; subst.
  cbn [write_table map append_lines]. destruct (join_row dbg c r Oc Fr Ar) as (s & E & Z0). rewrite E. cbn [bind]. rewrite Z0. cbn [bind].
  destruct (file_appendln fs cwd z (join_with [c] r)) as [f ok]. destruct ok; [now apply IH|reflexivity].
Qed.
Lemma texts_ok ps l : Forall2 (fun p x => srep p (zlen p) x) ps l -> texts_of l = Ok ps.
Proof. induction 1 as [|p x ps l R F IH]; [reflexivity|]. cbn [texts_of]. rewrite (z_ok _ _ _ R). cbn [bind]. rewrite IH. reflexivity. Qed.
Lemma all_nonempty (ls : list text) : Forall (fun l => l <> []) ls -> filter nonempty ls = ls.
Proof.
  induction 1 as [|l ls Nl _ IH]; [reflexivity|]. cbn [filter]. destruct l; [contradiction|]. unfold nonempty at 1. unfold zlen. cbn [length].
  replace (Z.of_nat (S (length l)) =? 0) with false by lia. cbn [negb]. now rewrite IH.
Qed.
Lemma split_row dbg c r s : row c r -> srep (join_with [c] r) (zlen (join_with [c] r)) s ->
  exists ps, str_split dbg (lf s) s [c] = Ok (Some ps) /\ texts_of ps = Ok r.
Proof.
  intros [L F] R. destruct r as [|x r]; [cbn in L; lia|].
  destruct (split_scan dbg _ _ s [c] (x :: r) R) as [_ Sp].
  - change (zlen [c]) with 1. destruct r as [|y r]; [cbn in L; lia|]. change (join_with [c] (x :: y :: r)) with (x ++ [c] ++ join_with [c] (y :: r)). rewrite !zlen_app. change (zlen [c]) with 1. pose proof (zlen_nonneg x). pose proof (zlen_nonneg (join_with [c] (y :: r))). lia.
  - apply join_scan. eapply Forall_impl; [|exact F]. intros t (_ & _ & X & _). exact X.
  - destruct Sp as (l & E & G).
    + unfold zlen. cbn [length] in *. lia.
    + intros l E. rewrite E in F. apply Forall_app in F as [_ F]. inversion F as [|? ? (_ & X & _) _]; subst. now apply X.
    + exists l. split; [exact E|]. rewrite all_nonempty in G; [now apply texts_ok|]. eapply Forall_impl; [|exact F]. intros t (_ & X & _). exact X.
Qed.
Lemma split_all dbg c rows l : Forall (row c) rows -> Forall2 (fun p x => srep p (zlen p) x) (map (join_with [c]) rows) l -> split_rows dbg c l = Ok rows.
Proof.
  revert l. induction rows as [|r rows IH]; intros l F G; inversion G as [|? s ? l' R G']; subst; [reflexivity|]. inversion F as [|? ? Fr F']; subst.
  cbn [split_rows]. destruct (split_row dbg c r s Fr R) as (ps & E & X). rewrite E. cbn [bind]. rewrite X. cbn [bind]. rewrite (IH l' F' G'). reflexivity.
Qed.

Lemma table_ok dbg fs cwd z ns n c rows : plain z -> (forall a, z <> a ++ [47]) -> names z = ns ++ [n] -> wf fs ->
  lookup fs (start cwd z ++ ns) = Some EDir -> lookup fs (target cwd z) = None \/ lookup fs (target cwd z) = Some (EFile []) ->
  okc c -> c <> 10 -> rows <> [] -> Forall (row c) rows -> zlen (of_lines (map (join_with [c]) rows)) + 1 <= alloc_max ->
  exists fs', write_table dbg fs cwd z c rows = Ok (fs', true) /\ read_table dbg fs' cwd z c = Ok (Some rows).
Proof.
  intros P Hs E W L K Oc N10 N F A. set (ls := map (join_with [c]) rows) in *.
  assert (Forall (fun l => line l /\ l <> []) ls) as FL. { unfold ls. apply Forall_map. eapply Forall_impl; [|exact F]. intros r Fr. now apply row_line. }
  assert (Forall line ls) as FL1 by (eapply Forall_impl; [|exact FL]; intros l [X _]; exact X).
  assert (Forall (fun l => l <> []) ls) as FL2 by (eapply Forall_impl; [|exact FL]; intros l [_ X]; exact X).
  assert (ls <> []) as Nl by (unfold ls; destruct rows; [contradiction|discriminate]).
  rewrite write_lines; [|exact Oc|exact F|apply Forall_forall; intros r Hr; pose proof (row_len c r rows Hr); fold ls in H; lia]. fold ls.
  destruct (append_lines_ok cwd z ns n ls fs P Hs E W L) as (f & E1 & W1 & S1 & _); [destruct K as [-> | ->]; discriminate|exact Nl|].
  replace (match lookup fs (target cwd z) with Some (EFile c) => c | _ => [] end) with (@nil Z) in S1 by (destruct K as [-> | ->]; reflexivity). cbn [app] in S1.
  assert (1 <= zlen (of_lines ls)) as Hp. { destruct ls as [|l ls']; [contradiction|]. unfold of_lines. cbn [map concat]. rewrite !zlen_app. change (zlen [10]) with 1. pose proof (zlen_nonneg l). pose proof (zlen_nonneg (concat (map (fun l0 => l0 ++ [10]) ls'))). lia. }
  destruct (read_file dbg f cwd z (of_lines ls) S1 ltac:(lia) A (lines_oks ls FL1)) as (s & E2 & R & B).
  exists f. rewrite E1. split; [reflexivity|]. unfold read_table. rewrite E2. cbn [bind].
  pose proof (lines_scan ls FL1) as Sc. destruct (exists_last Nl) as (ls' & x & El).
  destruct (split_scan dbg _ _ s [10] (ls ++ [[]]) R) as [_ Sp]; [change (zlen [10]) with 1; lia|exact Sc|]. destruct Sp as (ps & Es & G).
  - rewrite zlen_app. rewrite El, zlen_app. change (zlen [[]]) with 1. change (zlen [x]) with 1. pose proof (zlen_nonneg ls'). change (zlen [@nil Z]) with 1. lia.
  - intros l X. apply (f_equal (@rev _)) in X. rewrite El, !rev_app_distr in X. cbn [rev app] in X. injection X as X _. rewrite El in FL2. apply Forall_app in FL2 as [_ FL2]. inversion FL2 as [|? ? Y _]; subst. now apply Y.
  - rewrite Es. cbn [bind]. rewrite filter_app in G. cbn [filter] in G. replace (nonempty []) with false in G by reflexivity. rewrite app_nil_r in G. rewrite all_nonempty in G by exact FL2.
    rewrite (split_all dbg c rows ps F G). reflexivity.
Qed.
