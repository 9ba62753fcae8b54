(** Tables of numbers in files in the Windows build (C219). *)
From Verif Require Import Base BaseFacts StrModel StrModel2 StrSpec StrProofs StrProofs2 StrMain NumModel NumProofs PrintProofs FsModel PathModel FsSpec FsProofs FsMain FsMain2 LineProofs TableProofs NumTable WinModel WinLines.

(** Numbers to texts, joined and written with vt_file_appendln ([bin] false) or vt_file_appendbln. *)
Definition wwrite_numbers (bin dbg : bool) (fs : fsys) (cwd : path) (z : list Z) (c : Z) (rows : list (list Z)) : res (fsys * bool) :=
  let* ts := map_res (map_res number_text) rows in wwrite_table bin dbg fs cwd z c ts.

Lemma cr_len c (rows : list (list text)) : Forall (fun r => r <> []) rows ->
  zlen (concat (map (fun r => join_with [c] r ++ [13; 10]) rows)) <= zlen (of_lines (map (join_with [c]) rows)) + count_all rows.
Proof.
  induction 1 as [|r rows N F IH]; [vm_compute; congruence|]. unfold of_lines in *. cbn [map concat count_all]. rewrite !zlen_app. change (zlen [10]) with 1. change (zlen [13; 10]) with 2.
  assert (1 <= zlen r) by (destruct r; [contradiction|rewrite zlen_cons; pose proof (zlen_nonneg r); lia]). lia.
Qed.
Lemma conv_row (conv : text -> res Z) b r : r <> [] -> (forall v, 0 <= v < b -> conv (fmt_int v) = Ok v) -> (forall t, conv (t ++ [13]) = Ok 0) ->
  Forall (fun v => 0 <= v < b) r -> map_res conv (cr_last (map fmt_int r)) = Ok (removelast r ++ [0]).
Proof.
  intros N Hc H0 F. destruct (exists_last N) as (r' & x & ->). unfold cr_last. rewrite map_app. cbn [map]. rewrite !removelast_last, last_last. apply Forall_app in F as [F _]. clear N.
  induction F as [|v r' Hv F IH]; [cbn [map app map_res]; rewrite H0; reflexivity|]. cbn [map app map_res]. rewrite (Hc v Hv). cbn [bind]. rewrite IH. reflexivity.
Qed.

Lemma wnumber_table dbg fs cwd z ns n c w rows : plain z -> (forall a, z <> a ++ [47]) -> names z = ns ++ [n] -> wf fs ->
  lookup fs (start cwd z ++ ns) = Some EDir -> lookup fs (target cwd z) = None \/ lookup fs (target cwd z) = Some (EFile []) ->
  okc c -> c <> 10 -> c <> 13 -> ~ digit c -> width w -> rows <> [] -> Forall (fun r => (2 <= length r)%nat) rows -> 22 * count_all rows + 1 <= alloc_max ->
  (Forall (Forall (fun v => 0 <= v < 2 ^ w)) rows ->
   exists fs', wwrite_numbers false dbg fs cwd z c rows = Ok (fs', true) /\ read_numbers (conv_str_to_u w) dbg fs' cwd z c = Ok (Some (map (fun r => removelast r ++ [0]) rows))) /\
  (Forall (Forall (fun v => 0 <= v < 2 ^ (w - 1))) rows ->
   exists fs', wwrite_numbers false dbg fs cwd z c rows = Ok (fs', true) /\ read_numbers (conv_str_to_i w) dbg fs' cwd z c = Ok (Some (map (fun r => removelast r ++ [0]) rows))).
Proof.
  intros P Hs E W L K Oc N10 N13 Nd Ww N F A. destruct (width_le w Ww) as (L1 & L2 & L3).
  assert (forall b conv, b <= two64 -> (forall v, 0 <= v < b -> conv (fmt_int v) = Ok v) -> (forall t, conv (t ++ [13]) = Ok 0) -> Forall (Forall (fun v => 0 <= v < b)) rows ->
    exists fs', wwrite_numbers false dbg fs cwd z c rows = Ok (fs', true) /\ read_numbers conv dbg fs' cwd z c = Ok (Some (map (fun r => removelast r ++ [0]) rows))) as G.
  { intros b conv Hb Hc H0 G. set (ts := map (map fmt_int) rows).
    assert (map_res (map_res number_text) rows = Ok ts) as E1.
    { apply map_res_ok. eapply Forall_impl; [|exact G]. intros r Gr. apply map_res_ok. eapply Forall_impl; [|exact Gr]. intros v Hv. cbv beta in Hv. apply number_ok. lia. }
    assert (Forall (row c) ts) as Fr.
    { unfold ts. apply Forall_map. rewrite Forall_forall in F, G |- *. intros r Hr. split; [rewrite map_length; now apply F|]. apply Forall_map. specialize (G r Hr). eapply Forall_impl; [|exact G].
      intros v Hv. cbv beta in Hv. apply (decimal_field c v); [|exact Nd]. apply number_ok. lia. }
    assert (Forall (fun r => r <> []) ts) as Fn by (eapply Forall_impl; [|exact Fr]; intros r [X _] ->; cbn in X; lia).
    destruct (wtable_ok dbg fs cwd z ns n c ts P Hs E W L K Oc N10 N13) as (f & E2 & E3); [unfold ts; destruct rows; [contradiction|discriminate]|exact Fr| |].
    - pose proof (cr_len c ts Fn). assert (zlen (of_lines (map (join_with [c]) ts)) <= 21 * count_all ts); [|unfold ts in *; rewrite count_map in *; lia].
      apply lines_len. rewrite Forall_forall in Fn |- *. intros r Hr. split; [now apply Fn|]. unfold ts in Hr. apply in_map_iff in Hr as (q & <- & Hq).
      apply Forall_map. rewrite Forall_forall in G. eapply Forall_impl; [|exact (G q Hq)]. intros v Hv. cbv beta in Hv. apply number_ok. lia.
    - exists f. unfold wwrite_numbers. rewrite E1. cbn [bind]. split; [exact E2|]. unfold read_numbers. rewrite E3. cbn [bind].
      assert (map_res (map_res conv) (map cr_last ts) = Ok (map (fun r => removelast r ++ [0]) rows)) as ->; [|reflexivity]. unfold ts. clear - G F Hc H0.
      induction G as [|r rows Gr G IH]; [reflexivity|]. inversion F as [|? ? Fr F']; subst. cbn [map map_res].
      rewrite (conv_row conv b r) by (try assumption; intros ->; cbn in Fr; lia). cbn [bind]. rewrite (IH F'). reflexivity. }
  assert (forall t, forallb numch (t ++ [13]) = false) as X by (intros t; rewrite forallb_app; replace (forallb numch [13]) with false by reflexivity; apply andb_false_r).
  split; intros G'; [apply (G (2 ^ w))|apply (G (2 ^ (w - 1)))]; try assumption; try lia.
  - intros v Hv. destruct (fmt_ok v ltac:(lia)) as (D1 & _ & D3 & _). rewrite str_to_u_digits; [now rewrite D3|assumption|assumption|lia].
  - intros t. apply str_to_other, X.
  - intros v Hv. destruct (fmt_ok v ltac:(lia)) as (D1 & _ & D3 & _). rewrite str_to_i_digits; [now rewrite D3|assumption|assumption|lia].
  - intros t. apply str_to_other, X.
Qed.
