(** Tables of numbers in files (C207). *)
From Verif Require Import Base BaseFacts StrModel StrModel2 StrSpec StrProofs StrProofs2 StrMain NumModel NumProofs PrintProofs FsModel PathModel FsSpec FsProofs FsMain FsMain2 LineProofs TableProofs.

(** The text of a number: vt_conv_u64_to_str (and the others) with a buffer of 24 characters. *)
Definition number_text (v : Z) : res text := let* b := conv_to_str (repeat None 24) 24 v in cstr b.
Fixpoint map_res {A B} (f : A -> res B) (l : list A) : res (list B) :=
  match l with
  | [] => Ok []
  | x :: l => let* y := f x in let* ys := map_res f l in Ok (y :: ys)
  end.
(** Numbers to texts, joined and written; read, split and converted back with [conv]. *)
Definition write_numbers (dbg : bool) (fs : fsys) (cwd : path) (z : list Z) (c : Z) (rows : list (list Z)) : res (fsys * bool) :=
  let* ts := map_res (map_res number_text) rows in write_table dbg fs cwd z c ts.
Definition read_numbers (conv : text -> res Z) (dbg : bool) (fs : fsys) (cwd : path) (z : list Z) (c : Z) : res (option (list (list Z))) :=
  let* o := read_table dbg fs cwd z c in
  match o with
  | None => Ok None
  | Some ts => let* rows := map_res (map_res conv) ts in Ok (Some rows)
  end.

Lemma map_res_ok {A B} (f : A -> res B) (g : A -> B) l : Forall (fun x => f x = Ok (g x)) l -> map_res f l = Ok (map g l).
Proof. induction 1 as [|x l E F IH]; [reflexivity|]. cbn [map_res map]. rewrite E. cbn [bind]. rewrite IH. reflexivity. Qed.

Lemma number_ok v : 0 <= v < two64 -> number_text v = Ok (fmt_int v) /\ decimal v (fmt_int v) /\ zlen (fmt_int v) <= 20.
Proof.
  intros H. pose proof (fmt_ok v H) as D. assert (zlen (fmt_int v) <= 20) as L.
  { apply (decimal_len v _ 20 D); [lia|]. change (10 ^ 20) with 100000000000000000000. unfold two64 in H. lia. }
  split; [|split; assumption]. unfold number_text. destruct (to_str_ok (repeat None 24) 24 v H) as (b & E1 & E2 & _); [vm_compute; congruence|lia|].
  rewrite E1. exact E2.
Qed.
Lemma decimal_field c v t : decimal v t -> ~ digit c -> field c t.
Proof.
  intros (D & N & _) Hc. split; [|split; [exact N|split]].
  - eapply Forall_impl; [|exact D]. unfold digit, okc. lia.
  - intros X. rewrite Forall_forall in D. now apply Hc, D.
  - intros X. rewrite Forall_forall in D. apply D in X. unfold digit in X. lia.
Qed.
Lemma join_len c (r : list text) : Forall (fun t => zlen t <= 20) r -> zlen (join_with [c] r) + 1 <= Z.max 1 (21 * zlen r).
Proof.
  induction 1 as [|x r Lx F IH]; [vm_compute; congruence|]. destruct r as [|y r]; [change (zlen [x]) with 1; cbn [join_with]; lia|].
  change (join_with [c] (x :: y :: r)) with (x ++ [c] ++ join_with [c] (y :: r)). rewrite !zlen_app. change (zlen [c]) with 1. rewrite (zlen_cons x). rewrite zlen_cons in *. pose proof (zlen_nonneg r). lia.
Qed.
Fixpoint count_all {A} (rows : list (list A)) : Z := match rows with [] => 0 | r :: rows => zlen r + count_all rows end.
Lemma count_map {A B} (f : A -> B) rows : count_all (map (map f) rows) = count_all rows.
Proof. induction rows as [|r rows IH]; [reflexivity|]. cbn [map count_all]. rewrite IH. unfold zlen. now rewrite map_length. Qed.
Lemma lines_len c (rows : list (list text)) : Forall (fun r => r <> [] /\ Forall (fun t => zlen t <= 20) r) rows ->
  zlen (of_lines (map (join_with [c]) rows)) <= 21 * count_all rows.
Proof.
  induction 1 as [|r rows [N L] F IH]; [vm_compute; congruence|]. unfold of_lines in *. cbn [map concat count_all]. rewrite !zlen_app. change (zlen [10]) with 1.
  pose proof (join_len c r L). assert (1 <= zlen r) by (destruct r; [contradiction|rewrite zlen_cons; pose proof (zlen_nonneg r); lia]). lia.
Qed.

Lemma number_table dbg fs cwd z ns n c w rows : plain z -> (forall a, z <> a ++ [47]) -> names z = ns ++ [n] -> wf fs ->
  lookup fs (start cwd z ++ ns) = Some EDir -> lookup fs (target cwd z) = None \/ lookup fs (target cwd z) = Some (EFile []) ->
  okc c -> c <> 10 -> ~ digit c -> width w -> rows <> [] -> Forall (fun r => (2 <= length r)%nat) rows -> 21 * count_all rows + 1 <= alloc_max ->
  (Forall (Forall (fun v => 0 <= v < 2 ^ w)) rows ->
   exists fs', write_numbers dbg fs cwd z c rows = Ok (fs', true) /\ read_numbers (conv_str_to_u w) dbg fs' cwd z c = Ok (Some rows)) /\
  (Forall (Forall (fun v => 0 <= v < 2 ^ (w - 1))) rows ->
   exists fs', write_numbers dbg fs cwd z c rows = Ok (fs', true) /\ read_numbers (conv_str_to_i w) dbg fs' cwd z c = Ok (Some rows)).
Proof.
  intros P Hs E W L K Oc N10 Nd Ww N F A. destruct (width_le w Ww) as (L1 & L2 & L3).
  assert (forall b conv, b <= two64 -> (forall v, 0 <= v < b -> conv (fmt_int v) = Ok v) -> Forall (Forall (fun v => 0 <= v < b)) rows ->
    exists fs', write_numbers dbg fs cwd z c rows = Ok (fs', true) /\ read_numbers conv dbg fs' cwd z c = Ok (Some rows)) as G.
  { intros b conv Hb Hc G. set (ts := map (map fmt_int) rows).
    assert (map_res (map_res number_text) rows = Ok ts) as E1.
    { apply map_res_ok. eapply Forall_impl; [|exact G]. intros r Gr. apply map_res_ok. eapply Forall_impl; [|exact Gr]. intros v Hv. cbv beta in Hv. apply number_ok. lia. }
    assert (Forall (row c) ts) as Fr.
    { unfold ts. apply Forall_map. rewrite Forall_forall in F, G |- *. intros r Hr. split; [rewrite map_length; now apply F|]. apply Forall_map. specialize (G r Hr). eapply Forall_impl; [|exact G].
      intros v Hv. cbv beta in Hv. apply (decimal_field c v); [|exact Nd]. apply number_ok. lia. }
    destruct (table_ok dbg fs cwd z ns n c ts P Hs E W L K Oc N10) as (f & E2 & E3); [unfold ts; destruct rows; [contradiction|discriminate]|exact Fr| |].
    - assert (zlen (of_lines (map (join_with [c]) ts)) <= 21 * count_all ts); [|unfold ts in *; rewrite count_map in H; lia].
      apply lines_len. unfold ts. apply Forall_map. rewrite Forall_forall in F, G |- *. intros r Hr. split.
      + pose proof (F r Hr) as X. destruct r; [cbn in X; lia|discriminate].
      + apply Forall_map. eapply Forall_impl; [|exact (G r Hr)]. intros v Hv. cbv beta in Hv. apply number_ok. lia.
    - exists f. unfold write_numbers. rewrite E1. cbn [bind]. split; [exact E2|]. unfold read_numbers. rewrite E3. cbn [bind].
      assert (map_res (map_res conv) ts = Ok rows) as ->; [|reflexivity]. unfold ts. clear - G Hc. induction G as [|r rows Gr G IH]; [reflexivity|]. cbn [map map_res].
      assert (map_res conv (map fmt_int r) = Ok r) as ->. { clear - Gr Hc. induction Gr as [|v r Hv Gr IH]; [reflexivity|]. cbn [map map_res]. rewrite (Hc v Hv). cbn [bind]. rewrite IH. reflexivity. }
      cbn [bind]. rewrite IH. reflexivity. }
  split; intros G'; [apply (G (2 ^ w))|apply (G (2 ^ (w - 1)))]; try assumption; try lia.
  - intros v Hv. destruct (fmt_ok v ltac:(lia)) as (D1 & _ & D3 & _). rewrite str_to_u_digits; [now rewrite D3|assumption|assumption|lia].
  - intros v Hv. destruct (fmt_ok v ltac:(lia)) as (D1 & _ & D3 & _). rewrite str_to_i_digits; [now rewrite D3|assumption|assumption|lia].
Qed.
