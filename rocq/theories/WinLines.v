(** Files of lines, tables and files loaded and saved again in the Windows build (C216, C217, C218). *)
From Verif Require Import Base BaseFacts StrModel StrModel2 StrSpec StrProofs StrProofs2 StrMain ExactStr FsModel PathModel FsSpec FsProofs FsMain FsMain2 LineProofs TableProofs WinModel.

(** vt_file_appendln (text mode, [bin] false) or vt_file_appendbln ([bin] true), fileio.c:180-196, once per line, until it fails. *)
Fixpoint wappend_lines (bin : bool) (fs : fsys) (cwd : path) (z : list Z) (ls : list text) : fsys * bool :=
  match ls with
  | [] => (fs, true)
  | l :: ls => let '(fs, ok) := wfile_writefc bin fs cwd z true true l in if ok then wappend_lines bin fs cwd z ls else (fs, false)
  end.
(** vt_str_join and vt_file_appendln or vt_file_appendbln once per row, until one fails. *)
Fixpoint wwrite_table (bin dbg : bool) (fs : fsys) (cwd : path) (z : list Z) (c : Z) (rows : list (list text)) : res (fsys * bool) :=
  match rows with
  | [] => Ok (fs, true)
  | r :: rows =>
      let* s := str_join dbg None [c] r in
      let* l := str_z s in
      let '(fs, ok) := wfile_writefc bin fs cwd z true true l in
      if ok then wwrite_table bin dbg fs cwd z c rows else Ok (fs, false)
  end.
(** Load a file and save it again, [n] times: vt_file_read (fileio.c:3-54), vt_file_write or vt_file_writeb (fileio.c:150-166). *)
Fixpoint resave (n : nat) (bin dbg : bool) (fs : fsys) (cwd : path) (z : list Z) : res (fsys * bool) :=
  match n with
  | O => Ok (fs, true)
  | S n =>
      let* f := file_read dbg fs cwd z in
      match f with
      | None => Ok (fs, false)
      | Some s =>
          let* t := str_z s in
          let '(fs, ok) := wfile_writefc bin fs cwd z false false t in
          if ok then resave n bin dbg fs cwd z else Ok (fs, false)
      end
  end.

Lemma crlf_none l : ~ In 10 l -> crlf l = l.
Proof.
  induction l as [|c l IH]; intros N; [reflexivity|]. unfold crlf in *. cbn [flat_map]. replace (c =? 10) with false by (symmetry; apply Z.eqb_neq; intros ->; apply N; now left).
  cbn [app]. f_equal. apply IH. intros H. apply N. now right.
Qed.
Lemma crlf_line l : ~ In 10 l -> crlf (l ++ [10]) = (l ++ [13]) ++ [10].
Proof. intros N. unfold crlf. rewrite flat_map_app. fold (crlf l). rewrite (crlf_none l N). rewrite <- app_assoc. reflexivity. Qed.
Lemma writefc_text fs cwd z a l : ~ In 10 l -> wfile_writefc false fs cwd z a true l = file_writefc fs cwd z a true (l ++ [13]).
Proof. intros N. unfold wfile_writefc, file_writefc. rewrite (crlf_line l N), app_nil_r. reflexivity. Qed.
Lemma writefc_bin fs cwd z a ln l : wfile_writefc true fs cwd z a ln l = file_writefc fs cwd z a ln l.
Proof. unfold wfile_writefc, file_writefc. now rewrite app_nil_r. Qed.

Lemma wlines_text cwd z ls : forall fs, Forall line ls -> wappend_lines false fs cwd z ls = append_lines fs cwd z (map (fun l => l ++ [13]) ls).
Proof.
  induction ls as [|l ls IH]; intros fs F; [reflexivity|]. inversion F as [|? ? [_ N] F']; subst. cbn [wappend_lines map append_lines].
  rewrite writefc_text by exact N. unfold file_appendln. destruct (file_writefc fs cwd z true true (l ++ [13])) as [f ok]. destruct ok; [now apply IH|reflexivity].
Qed.
Lemma wlines_bin cwd z ls : forall fs, wappend_lines true fs cwd z ls = append_lines fs cwd z ls.
Proof.
  induction ls as [|l ls IH]; intros fs; [reflexivity|]. cbn [wappend_lines append_lines]. rewrite writefc_bin. unfold file_appendln.
  destruct (file_writefc fs cwd z true true l) as [f ok]. destruct ok; [now apply IH|reflexivity].
Qed.
Lemma wtable_bin dbg cwd z c rows : forall fs, wwrite_table true dbg fs cwd z c rows = write_table dbg fs cwd z c rows.
Proof.
  induction rows as [|r rows IH]; intros fs; [reflexivity|]. cbn [wwrite_table write_table]. destruct (str_join dbg None [c] r) as [s| | |]; try reflexivity. cbn [bind].
  destruct (str_z s) as [l| | |]; try reflexivity. cbn [bind]. rewrite writefc_bin. unfold file_appendln. destruct (file_writefc fs cwd z true true l) as [f ok]. destruct ok; [apply IH|reflexivity].
Qed.

Lemma cr_line l : line l -> line (l ++ [13]).
Proof. intros [O N]. split; [apply Forall_app; split; [exact O|]; repeat constructor; unfold okc; lia|]. intros H. apply in_app_or in H as [H|[H|[]]]; [now apply N|lia]. Qed.
Lemma last_cr ls : ls <> [] -> last (map (fun l : text => l ++ [13]) ls) [] <> [].
Proof. intros N. destruct (exists_last N) as (ls' & x & ->). rewrite map_app. cbn [map]. rewrite last_last. destruct x; discriminate. Qed.

Lemma wlines_ok dbg fs cwd z ns n ls : plain z -> (forall a, z <> a ++ [47]) -> names z = ns ++ [n] -> wf fs ->
  lookup fs (start cwd z ++ ns) = Some EDir -> lookup fs (target cwd z) = None \/ lookup fs (target cwd z) = Some (EFile []) ->
  ls <> [] -> Forall line ls -> zlen (concat (map (fun l => l ++ [13; 10]) ls)) + 1 <= alloc_max ->
  exists fs' s ps, wappend_lines false fs cwd z ls = (fs', true) /\ file_read dbg fs' cwd z = Ok (Some s) /\ str_z s = Ok (concat (map (fun l => l ++ [13; 10]) ls)) /\
    str_split dbg (lf s) s [10] = Ok (Some ps) /\ Forall2 (fun l p => str_z p = Ok (l ++ [13])) ls ps.
Proof.
  intros P Hs E W L K N F A. set (ls' := map (fun l => l ++ [13]) ls).
  assert (of_lines ls' = concat (map (fun l => l ++ [13; 10]) ls)) as X. { unfold of_lines, ls'. rewrite map_map. f_equal. apply map_ext. intros l. now rewrite <- app_assoc. }
  rewrite <- X in *. assert (Forall line ls') as F' by (apply Forall_map; eapply Forall_impl; [|exact F]; intros l; apply cr_line).
  assert (ls' <> []) as N' by (unfold ls'; destruct ls; [contradiction|discriminate]).
  destruct (lines_ok dbg fs cwd z ns n ls' P Hs E W L K N' F' A) as (f & s & E1 & E2 & E3 & G & _).
  destruct G as (ps & E4 & G); [now apply last_cr|]. exists f, s, ps. rewrite (wlines_text cwd z ls fs F). repeat (split; [assumption|]).
  rewrite all_nonempty in G by (apply Forall_map, Forall_forall; intros [|? ?] _; discriminate).
  clear -G. unfold ls' in G. revert ps G. induction ls as [|l ls IH]; intros ps G; inversion G; subst; constructor; [assumption|now apply IH].
Qed.

(** The row with a carriage return at the end of its last field. *)
Definition cr_last (r : list text) : list text := removelast r ++ [last r [] ++ [13]].
Lemma join_cr c r : r <> [] -> join_with [c] (cr_last r) = join_with [c] r ++ [13].
Proof.
  unfold cr_last. induction r as [|x [|y r] IH]; intros N; [contradiction|reflexivity|]. specialize (IH ltac:(discriminate)).
  change (removelast (x :: y :: r)) with (x :: removelast (y :: r)). change (last (x :: y :: r) []) with (last (y :: r) []).
  change (join_with [c] (x :: y :: r)) with (x ++ [c] ++ join_with [c] (y :: r)). rewrite <- !app_assoc, <- IH.
  cbn [app]. destruct (removelast (y :: r) ++ [last (y :: r) [] ++ [13]]) as [|u v] eqn:Eu; [destruct (removelast (y :: r)); discriminate|]. reflexivity.
Qed.
Lemma cr_row c r : c <> 13 -> row c r -> row c (cr_last r).
Proof.
  intros Nc [L F]. destruct (@exists_last _ r) as (r' & x & ->); [intros ->; cbn in L; lia|]. unfold cr_last. rewrite removelast_last, last_last. split.
  - rewrite app_length in *. exact L.
  - apply Forall_app in F as [F1 F2]. inversion F2 as [|? ? (O & Nx & X1 & X2) _]; subst. apply Forall_app. split; [exact F1|]. constructor; [|constructor].
    split; [apply Forall_app; split; [exact O|repeat constructor; unfold okc; lia]|]. split; [destruct x; discriminate|].
    split; intros H; apply in_app_or in H as [H|[H|[]]]; try lia; auto.
Qed.
Lemma wtable_text dbg c cwd z rows : forall fs, okc c -> c <> 10 -> Forall (row c) rows -> Forall (fun r => zlen (join_with [c] r) + 1 <= alloc_max) rows ->
  wwrite_table false dbg fs cwd z c rows = Ok (append_lines fs cwd z (map (join_with [c]) (map cr_last rows))).
Proof.
  induction rows as [|r rows IH]; intros fs Oc N10 F A; [reflexivity|]. inversion F as [|? ? Fr F']; subst. inversion A as [|? ? Ar A']; subst.
  cbn [wwrite_table map append_lines]. destruct (join_row dbg c r Oc Fr Ar) as (s & E & Z0). rewrite E. cbn [bind]. rewrite Z0. cbn [bind].
  destruct (row_line c r Oc N10 Fr) as [[_ N] _]. rewrite writefc_text by exact N. rewrite join_cr by (intros ->; destruct Fr as [X _]; cbn in X; lia). unfold file_appendln.
  destruct (file_writefc fs cwd z true true (join_with [c] r ++ [13])) as [f ok]. destruct ok; [now apply IH|reflexivity].
Qed.
Lemma wtable_ok dbg fs cwd z ns n c rows : plain z -> (forall a, z <> a ++ [47]) -> names z = ns ++ [n] -> wf fs ->
  lookup fs (start cwd z ++ ns) = Some EDir -> lookup fs (target cwd z) = None \/ lookup fs (target cwd z) = Some (EFile []) ->
  okc c -> c <> 10 -> c <> 13 -> rows <> [] -> Forall (row c) rows -> zlen (concat (map (fun r => join_with [c] r ++ [13; 10]) rows)) + 1 <= alloc_max ->
  exists fs', wwrite_table false dbg fs cwd z c rows = Ok (fs', true) /\ read_table dbg fs' cwd z c = Ok (Some (map cr_last rows)).
Proof.
  intros P Hs E W L K Oc N10 N13 N F A.
  assert (Forall (row c) (map cr_last rows)) as F' by (apply Forall_map; eapply Forall_impl; [|exact F]; intros r; now apply cr_row).
  assert (Forall (fun r => r <> []) rows) as Fn by (eapply Forall_impl; [|exact F]; intros r [X _] ->; cbn in X; lia).
  assert (of_lines (map (join_with [c]) (map cr_last rows)) = concat (map (fun r => join_with [c] r ++ [13; 10]) rows)) as X.
  { unfold of_lines. rewrite !map_map. f_equal. clear -Fn. induction Fn as [|r rows Nr _ IH]; [reflexivity|]. cbn [map]. rewrite IH, join_cr by exact Nr. now rewrite <- app_assoc. }
  rewrite <- X in A. assert (Forall (fun r => zlen (join_with [c] r) + 1 <= alloc_max) (map cr_last rows)) as A'.
  { apply Forall_forall. intros r Hr. pose proof (row_len c r _ Hr). lia. }
  rewrite wtable_text; [|exact Oc|exact N10|exact F|].
  - rewrite <- (write_lines dbg) by assumption. apply (table_ok dbg fs cwd z ns n c); try assumption. destruct rows; [contradiction|discriminate].
  - rewrite Forall_forall in Fn. rewrite Forall_forall in A'. apply Forall_forall. intros r Hr. specialize (A' (cr_last r) (in_map cr_last _ _ Hr)). rewrite join_cr in A' by now apply Fn. rewrite zlen_app in A'. change (zlen [13]) with 1 in A'. lia.
Qed.

Lemma crlf_len l : zlen (crlf l) = zlen l + Z.of_nat (count_occ Z.eq_dec l 10).
Proof.
  induction l as [|c l IH]; [reflexivity|]. unfold crlf in *. cbn [flat_map count_occ]. rewrite zlen_app, IH, zlen_cons. destruct (Z.eq_dec c 10) as [->|N].
  - change (zlen (if 10 =? 10 then [13; 10] else [10])) with 2. lia.
  - replace (c =? 10) with false by lia. change (zlen [c]) with 1. lia.
Qed.
Lemma crlf_count l : count_occ Z.eq_dec (crlf l) 10 = count_occ Z.eq_dec l 10.
Proof.
  induction l as [|c l IH]; [reflexivity|]. unfold crlf in *. cbn [flat_map]. rewrite count_occ_app, IH. cbn [count_occ]. destruct (Z.eqb_spec c 10) as [->|N].
  - reflexivity.
  - cbn [count_occ]. destruct (Z.eq_dec c 10); [contradiction|reflexivity].
Qed.
Lemma crlf_oks l : oks l -> oks (crlf l).
Proof.
  induction 1 as [|c l O _ IH]; [constructor|]. unfold crlf in *. cbn [flat_map]. apply Forall_app. split; [|exact IH].
  destruct (c =? 10); [repeat constructor; unfold okc; lia|]. constructor; [exact O|constructor].
Qed.
Lemma resave_ok dbg cwd z ns n (bin : bool) : plain z -> (forall a, z <> a ++ [47]) -> names z = ns ++ [n] ->
  forall k fs c, wf fs -> lookup fs (start cwd z ++ ns) = Some EDir -> lookup fs (target cwd z) = Some (EFile c) -> fs_stat fs cwd z = Some (EFile c) ->
  c <> [] -> oks c -> zlen c + Z.of_nat k * Z.of_nat (count_occ Z.eq_dec c 10) + 1 <= alloc_max ->
  exists fs', resave k bin dbg fs cwd z = Ok (fs', true) /\ fs_stat fs' cwd z = Some (EFile (if bin then c else Nat.iter k crlf c)) /\
    (forall q, q <> target cwd z -> lookup fs' q = lookup fs q).
Proof.
  intros P Hs E. induction k as [|k IH]; intros fs c W L K St Nc O A.
  - exists fs. split; [reflexivity|]. split; [now destruct bin|reflexivity].
  - cbn [resave]. assert (0 < zlen c) as Hp by (destruct c; [contradiction|rewrite zlen_cons; pose proof (zlen_nonneg c); lia]).
    destruct (read_file dbg fs cwd z c St ltac:(lia) ltac:(lia) O) as (s & E2 & R & B). rewrite E2. cbn [bind]. rewrite (z_ok _ _ _ R). cbn [bind].
    set (c' := if bin then c else crlf c).
    assert (wfile_writefc bin fs cwd z false false c = file_writefc fs cwd z false false c') as X. { unfold wfile_writefc. rewrite app_nil_r. reflexivity. }
    destruct (write_ok fs cwd z ns n false false c' W P Hs E L) as (f & E3 & W3 & Q3 & S3); [rewrite K; discriminate|].
    assert (written (lookup fs (target cwd z)) false false c' = c') as Xw by (unfold written; rewrite K; cbn [app]; apply app_nil_r). rewrite Xw in *.
    rewrite X, E3. destruct (IH f c') as (f' & E4 & S4 & Q4).
    + exact W3.
    + rewrite Q3. destruct path_dec as [Eq|]; [|exact L]. exfalso. unfold target in Eq. rewrite E in Eq. apply (f_equal (@length _)) in Eq. rewrite !app_length in Eq. cbn [length] in Eq. lia.
    + rewrite Q3. destruct path_dec; [reflexivity|contradiction].
    + exact S3.
    + unfold c'. destruct bin; [exact Nc|]. intros Y. pose proof (crlf_len c) as Z1. rewrite Y in Z1. change (zlen (@nil Z)) with 0 in Z1. lia.
    + unfold c'. destruct bin; [exact O|now apply crlf_oks].
    + unfold c'. destruct bin; [lia|]. rewrite crlf_count, crlf_len. lia.
    + exists f'. split; [exact E4|]. split.
      * rewrite S4. unfold c'. destruct bin; [reflexivity|]. replace (Nat.iter k crlf (crlf c)) with (Nat.iter (S k) crlf c); [reflexivity|]. clear. induction k as [|k IH]; [reflexivity|]. change (crlf (Nat.iter (S k) crlf c) = crlf (Nat.iter k crlf (crlf c))). now rewrite IH.
      * intros q Nq. rewrite (Q4 q Nq), Q3. destruct path_dec; [contradiction|reflexivity].
Qed.
Lemma iter_len k l : zlen (Nat.iter k crlf l) = zlen l + Z.of_nat k * Z.of_nat (count_occ Z.eq_dec l 10).
Proof.
  assert (count_occ Z.eq_dec (Nat.iter k crlf l) 10 = count_occ Z.eq_dec l 10 /\ zlen (Nat.iter k crlf l) = zlen l + Z.of_nat k * Z.of_nat (count_occ Z.eq_dec l 10)) as [_ H]; [|exact H].
  induction k as [|k [IH1 IH2]]; [change (Nat.iter 0 crlf l) with l; split; [reflexivity|lia]|]. change (Nat.iter (S k) crlf l) with (crlf (Nat.iter k crlf l)). rewrite crlf_count, crlf_len, IH1, IH2. split; [reflexivity|lia].
Qed.
Lemma crlf_app a b : crlf (a ++ b) = crlf a ++ crlf b.
Proof. apply flat_map_app. Qed.
Lemma iter_crlf k c : Nat.iter k crlf c = flat_map (fun b => if b =? 10 then repeat 13 k ++ [10] else [b]) c.
Proof.
  induction k as [|k IH].
  - cbn [Nat.iter repeat app]. induction c as [|x c IH]; [reflexivity|]. cbn [flat_map]. rewrite <- IH. destruct (Z.eqb_spec x 10) as [->|_]; reflexivity.
  - change (Nat.iter (S k) crlf c) with (crlf (Nat.iter k crlf c)). rewrite IH. clear IH. induction c as [|x c IH]; [reflexivity|]. cbn [flat_map]. rewrite crlf_app, IH. f_equal.
    destruct (x =? 10) eqn:Ex; [|unfold crlf; cbn [flat_map]; rewrite Ex; reflexivity].
    rewrite crlf_app, crlf_none by (intros H; apply repeat_spec in H; lia). change (crlf [10]) with ([13] ++ [10]). rewrite app_assoc. f_equal. clear. induction k as [|k IH]; [reflexivity|]. cbn [repeat app]. now f_equal.
Qed.
