(** A file of settings: lines of the form key=value (C220). *)
From Verif Require Import Base BaseFacts StrModel StrModel2 StrSpec StrProofs StrProofs2 StrMain ExactStr FsModel PathModel FsSpec FsProofs FsMain FsMain2 LineProofs TableProofs WinModel WinLines.

(** vt_file_writefc in append mode with a line end and the format "%s=%s" (fileio.c:249-276), once per setting. *)
Definition setting_line (kv : text * text) : text := fst kv ++ [61] ++ snd kv.
Definition write_settings (fs : fsys) (cwd : path) (z : list Z) (l : list (text * text)) : fsys * bool := append_lines fs cwd z (map setting_line l).
(** vt_str_pop_get_first (str.c:1084-1128) of each line at '=': the key is returned and the value left; a line for which it returns NULL is skipped. *)
Fixpoint pairs_of (dbg : bool) (l : list str) : res (list (text * text)) :=
  match l with
  | [] => Ok []
  | s :: l =>
      let* r := str_pop_get_first dbg None s [61] in
      let* rest := pairs_of dbg l in
      match fst r with
      | None => Ok rest
      | Some k => let* kt := str_z k in let* vt := str_z (snd r) in Ok ((kt, vt) :: rest)
      end
  end.
(** vt_file_read, vt_str_split at line feeds, and the above. *)
Definition read_settings (dbg : bool) (fs : fsys) (cwd : path) (z : list Z) : res (option (list (text * text))) :=
  let* f := file_read dbg fs cwd z in
  match f with
  | None => Ok None
  | Some s =>
      let* o := str_split dbg (lf s) s [10] in
      let* ps := pairs_of dbg (match o with Some ls => ls | None => [] end) in
      Ok (Some ps)
  end.

Definition setting (kv : text * text) : Prop :=
  oks (fst kv) /\ fst kv <> [] /\ ~ In 61 (fst kv) /\ ~ In 10 (fst kv) /\ oks (snd kv) /\ ~ In 10 (snd kv).

Lemma setting_ok kv : setting kv -> line (setting_line kv) /\ setting_line kv <> [].
Proof.
  destruct kv as [k v]. intros (O1 & N & _ & L1 & O2 & L2). unfold setting_line. cbn [fst snd] in *. split; [split|].
  - apply Forall_app. split; [exact O1|]. constructor; [unfold okc; lia|exact O2].
  - intros H. apply in_app_or in H as [H|[H|H]]; [now apply L1|lia|now apply L2].
  - destruct k; [contradiction|discriminate].
Qed.
Lemma same_head {A} (a b c d : list A) : length a = length b -> a ++ c = b ++ d -> a = b /\ c = d.
Proof.
  revert b. induction a as [|x a IH]; intros [|y b] L E; try discriminate L; [now split|]. cbn [app length] in *. injection L as L. injection E as -> E.
  destruct (IH b L E) as [-> ->]. now split.
Qed.
Lemma cut_setting k v : ~ In 61 k -> cut [61] (k ++ [61] ++ v) = Some (k, v).
Proof.
  intros N. destruct (cut [61] (k ++ [61] ++ v)) as [[a b]|] eqn:E; [|exfalso; exact (proj1 (cut_none _ _) E k v eq_refl)].
  pose proof (cut_some _ _ _ _ E) as X. pose proof (cut_leftmost _ _ _ _ E k v eq_refl) as Y. pose proof (first_sep 61 k N a v b X) as Z0.
  destruct (same_head k a ([61] ++ v) ([61] ++ b)) as [-> H]; [unfold zlen in *; lia|exact X|]. injection H as ->. reflexivity.
Qed.
Lemma pairs_ok dbg l : forall ss, Forall setting l -> Forall2 (fun p x => srep p (zlen p) x) (map setting_line l) ss -> pairs_of dbg ss = Ok l.
Proof.
  induction l as [|[k v] l IH]; intros ss F G; inversion G as [|? s ? ss' R G']; subst; [reflexivity|]. inversion F as [|? ? (O1 & N & N61 & _ & O2 & _) F']; subst.
  cbn [fst snd] in *. cbn [pairs_of]. unfold setting_line in R. cbn [fst snd] in R.
  assert (0 < zlen k) as Hk by (destruct k; [contradiction|rewrite zlen_cons; pose proof (zlen_nonneg k); lia]).
  destruct (pop_first_ok dbg None _ _ s [61] k v R ltac:(reflexivity) (cut_setting k v N61) Hk) as (r & s' & capr & E & R1 & R2).
  - intros q H. discriminate H.
  - rewrite E. cbn [bind fst snd]. rewrite (IH ss' F' G'). cbn [bind]. rewrite (z_ok _ _ _ R1). cbn [bind]. rewrite (z_ok _ _ _ R2). reflexivity.
Qed.

Lemma settings_ok dbg fs cwd z ns n l : plain z -> (forall a, z <> a ++ [47]) -> names z = ns ++ [n] -> wf fs ->
  lookup fs (start cwd z ++ ns) = Some EDir -> lookup fs (target cwd z) = None \/ lookup fs (target cwd z) = Some (EFile []) ->
  l <> [] -> Forall setting l -> zlen (of_lines (map setting_line l)) + 1 <= alloc_max ->
  exists fs', write_settings fs cwd z l = (fs', true) /\ read_settings dbg fs' cwd z = Ok (Some l).
Proof.
  intros P Hs E W L K N F A. unfold write_settings. set (ls := map setting_line l) in *.
  assert (Forall (fun l => line l /\ l <> []) ls) as FL. { unfold ls. apply Forall_map. eapply Forall_impl; [|exact F]. intros r Fr. now apply setting_ok. }
  assert (Forall line ls) as FL1 by (eapply Forall_impl; [|exact FL]; intros x [X _]; exact X).
  assert (Forall (fun l => l <> []) ls) as FL2 by (eapply Forall_impl; [|exact FL]; intros x [_ X]; exact X).
  assert (ls <> []) as Nl by (unfold ls; destruct l; [contradiction|discriminate]).
  destruct (append_lines_ok cwd z ns n ls fs P Hs E W L) as (f & E1 & W1 & S1 & _); [destruct K as [-> | ->]; discriminate|exact Nl|].
  replace (match lookup fs (target cwd z) with Some (EFile c) => c | _ => [] end) with (@nil Z) in S1 by (destruct K as [-> | ->]; reflexivity). cbn [app] in S1.
  assert (1 <= zlen (of_lines ls)) as Hp. { destruct ls as [|x ls']; [contradiction|]. unfold of_lines. cbn [map concat]. rewrite !zlen_app. change (zlen [10]) with 1. pose proof (zlen_nonneg x). pose proof (zlen_nonneg (concat (map (fun l0 => l0 ++ [10]) ls'))). lia. }
  destruct (read_file dbg f cwd z (of_lines ls) S1 ltac:(lia) A (lines_oks ls FL1)) as (s & E2 & R & B).
  exists f. rewrite E1. split; [reflexivity|]. unfold read_settings. rewrite E2. cbn [bind].
  pose proof (lines_scan ls FL1) as Sc. destruct (exists_last Nl) as (ls' & x & El).
  destruct (split_scan dbg _ _ s [10] (ls ++ [[]]) R) as [_ Sp]; [change (zlen [10]) with 1; lia|exact Sc|]. destruct Sp as (ps & Es & G).
  - rewrite zlen_app. rewrite El, zlen_app. change (zlen [[]]) with 1. change (zlen [x]) with 1. pose proof (zlen_nonneg ls'). change (zlen [@nil Z]) with 1. lia.
  - intros q X. apply (f_equal (@rev _)) in X. rewrite El, !rev_app_distr in X. cbn [rev app] in X. injection X as X _. rewrite El in FL2. apply Forall_app in FL2 as [_ FL2]. inversion FL2 as [|? ? Y _]; subst. now apply Y.
  - rewrite Es. cbn [bind]. rewrite filter_app in G. cbn [filter] in G. replace (nonempty []) with false in G by reflexivity. rewrite app_nil_r in G. rewrite all_nonempty in G by exact FL2.
    rewrite (pairs_ok dbg l ps F G). reflexivity.
Qed.
(** In the Windows build in text mode: a carriage return after every value. *)
Definition cr_value (kv : text * text) : text * text := (fst kv, snd kv ++ [13]).
Lemma wsettings_ok dbg fs cwd z ns n l : plain z -> (forall a, z <> a ++ [47]) -> names z = ns ++ [n] -> wf fs ->
  lookup fs (start cwd z ++ ns) = Some EDir -> lookup fs (target cwd z) = None \/ lookup fs (target cwd z) = Some (EFile []) ->
  l <> [] -> Forall setting l -> zlen (of_lines (map setting_line l)) + zlen l + 1 <= alloc_max ->
  exists fs', wappend_lines false fs cwd z (map setting_line l) = (fs', true) /\ read_settings dbg fs' cwd z = Ok (Some (map cr_value l)).
Proof.
  intros P Hs E W L K N F A.
  assert (map (fun l => l ++ [13]) (map setting_line l) = map setting_line (map cr_value l)) as X.
  { rewrite !map_map. apply map_ext. intros [k v]. unfold setting_line, cr_value. cbn [fst snd]. now rewrite <- !app_assoc. }
  rewrite wlines_text by (apply Forall_map; eapply Forall_impl; [|exact F]; intros kv H; now apply setting_ok). rewrite X.
  apply (settings_ok dbg fs cwd z ns n (map cr_value l) P Hs E W L K).
  - destruct l; [contradiction|discriminate].
  - apply Forall_map. eapply Forall_impl; [|exact F]. intros [k v] (A1 & A2 & A3 & A4 & A5 & A6). unfold setting, cr_value. cbn [fst snd] in *. repeat (split; [assumption|]). split.
    + apply Forall_app. split; [exact A5|repeat constructor; unfold okc; lia].
    + intros H. apply in_app_or in H as [H|[H|[]]]; [now apply A6|lia].
  - rewrite <- X. assert (zlen (of_lines (map (fun l => l ++ [13]) (map setting_line l))) = zlen (of_lines (map setting_line l)) + zlen l) as ->; [|lia].
    clear. induction l as [|kv l IH]; [reflexivity|]. unfold of_lines in *. cbn [map concat]. rewrite !zlen_app, IH, (zlen_cons kv). change (zlen [13]) with 1. lia.
Qed.
