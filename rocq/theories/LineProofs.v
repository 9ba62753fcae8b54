(** Proofs about files of lines: written line by line, read as a whole and split. *)
From Verif Require Import Base BaseFacts StrModel StrModel2 StrSpec StrProofs StrProofs2 StrMain ExactStr FsModel PathModel FsSpec FsProofs FsMain FsMain2.

(** vt_file_appendln once per line, until it fails. *)
Fixpoint append_lines (fs : fsys) (cwd : path) (z : list Z) (ls : list text) : fsys * bool :=
  match ls with
  | [] => (fs, true)
  | l :: ls => let '(fs, ok) := file_appendln fs cwd z l in if ok then append_lines fs cwd z ls else (fs, false)
  end.
Definition of_lines (ls : list text) : text := concat (map (fun l => l ++ [10]) ls).
Definition line (l : text) : Prop := oks l /\ ~ In 10 l.

Lemma lines_oks ls : Forall line ls -> oks (of_lines ls).
Proof.
  induction 1 as [|l ls [O _] _ IH]; [constructor|]. unfold of_lines. cbn [map concat]. apply Forall_app. split; [|exact IH]. apply Forall_app. split; [exact O|]. repeat constructor; unfold okc; lia.
Qed.
Lemma first_sep (c : Z) a : ~ In c a -> forall a' b b' : text, a ++ [c] ++ b = a' ++ [c] ++ b' -> zlen a <= zlen a'.
Proof.
  induction a as [|x a IH]; intros N a' b b' E; [unfold zlen; cbn [length]; lia|]. destruct a' as [|y a'].
  - exfalso. cbn [app] in E. injection E as -> _. apply N. now left.
  - cbn [app] in E. injection E as -> E. specialize (IH (fun X => N (or_intror X)) a' b b' E). unfold zlen in *. cbn [length]. lia.
Qed.
Lemma lines_scan ls : Forall line ls -> scan [10] (of_lines ls) (ls ++ [[]]).
Proof.
  induction 1 as [|l ls [_ N] _ IH].
  - cbn. apply scan_end. intros [|x a] b E; discriminate E.
  - unfold of_lines. cbn [map concat app]. rewrite <- app_assoc. apply scan_next; [|exact IH]. intros a' b'. now apply first_sep.
Qed.

Lemma append_lines_ok cwd z ns n ls : forall fs, plain z -> (forall a, z <> a ++ [47]) -> names z = ns ++ [n] ->
  wf fs -> lookup fs (start cwd z ++ ns) = Some EDir -> lookup fs (target cwd z) <> Some EDir -> ls <> [] ->
  let old := match lookup fs (target cwd z) with Some (EFile c) => c | _ => [] end in
  exists fs', append_lines fs cwd z ls = (fs', true) /\ wf fs' /\ fs_stat fs' cwd z = Some (EFile (old ++ of_lines ls)) /\
    (forall q, lookup fs' q = if path_dec q (target cwd z) then Some (EFile (old ++ of_lines ls)) else lookup fs q).
Proof.
  induction ls as [|l ls IH]; intros fs P Hs E W L K N; [contradiction|]. cbn zeta. cbn [append_lines]. unfold file_appendln.
  destruct (write_ok fs cwd z ns n true true l W P Hs E L K) as (f1 & E1 & W1 & Q1 & S1). rewrite E1.
  assert (forall c, written (lookup fs (target cwd z)) true true l = c -> c = match lookup fs (target cwd z) with Some (EFile c) => c | _ => [] end ++ l ++ [10]) as Wr.
  { intros c <-. unfold written. destruct (lookup fs (target cwd z)) as [[|c]|]; cbn [app]; rewrite ?app_nil_r; try reflexivity. }
  specialize (Wr _ eq_refl). rewrite Wr in Q1, S1. set (old := match lookup fs (target cwd z) with Some (EFile c) => c | _ => [] end) in *.
  destruct ls as [|l' ls].
  - exists f1. cbn [append_lines]. unfold of_lines. cbn [map concat]. rewrite app_nil_r. repeat (split; [assumption || reflexivity|]). exact Q1.
  - destruct (IH f1 P Hs E W1) as (f2 & E2 & W2 & S2 & Q2); [| |discriminate|].
    + rewrite Q1. destruct path_dec as [X|_]; [|exact L]. exfalso. unfold target in X. rewrite E in X. apply app_inv_head in X. symmetry in X. apply (f_equal (@length _)) in X. rewrite app_length in X. cbn in X. lia.
    + rewrite Q1. destruct path_dec; [discriminate|contradiction].
    + rewrite Q1 in S2. rewrite Q1 in Q2. destruct (path_dec (target cwd z) (target cwd z)); [|contradiction]. exists f2. split; [exact E2|]. split; [exact W2|].
      assert ((old ++ l ++ [10]) ++ of_lines (l' :: ls) = old ++ of_lines (l :: l' :: ls)) as X. { unfold of_lines. cbn [map concat]. now rewrite <- !app_assoc. }
      rewrite X in S2, Q2. split; [exact S2|]. intros q. rewrite Q2. destruct path_dec; [reflexivity|]. rewrite Q1. destruct path_dec; [contradiction|reflexivity].
Qed.
Lemma read_file dbg fs cwd z c : fs_stat fs cwd z = Some (EFile c) -> 0 < zlen c -> zlen c + 1 <= alloc_max -> oks c ->
  exists s, file_read dbg fs cwd z = Ok (Some s) /\ srep c (zlen c) s /\ zlen (sb s) = zlen c + 1.
Proof.
  intros S0 H F O. destruct (read_ok dbg fs cwd z c S0 (or_introl H) F) as (s & E & B & L & C). exists s. split; [exact E|]. split; [|rewrite B; autorewrite with zlen; unfold zlen; cbn [length]; lia].
  destruct C as [C V]. constructor; try assumption.
  - rewrite B. exists []. unfold zblk. now rewrite app_nil_r.
  - lia.
  - rewrite B. autorewrite with zlen. unfold zlen. cbn [length]. lia.
Qed.
(** All but the last line. *)
Lemma lines_ok dbg fs cwd z ns n ls : plain z -> (forall a, z <> a ++ [47]) -> names z = ns ++ [n] -> wf fs ->
  lookup fs (start cwd z ++ ns) = Some EDir -> lookup fs (target cwd z) = None \/ lookup fs (target cwd z) = Some (EFile []) ->
  ls <> [] -> Forall line ls -> zlen (of_lines ls) + 1 <= alloc_max ->
  exists fs' s, append_lines fs cwd z ls = (fs', true) /\ file_read dbg fs' cwd z = Ok (Some s) /\ str_z s = Ok (of_lines ls) /\
    (last ls [] <> [] -> exists ps, str_split dbg (lf s) s [10] = Ok (Some ps) /\ Forall2 (fun l p => str_z p = Ok l) (filter nonempty ls) ps) /\
    (last ls [] = [] -> str_split dbg (lf s) s [10] = UB).
Proof.
  intros P Hs E W L K N F A.
  destruct (append_lines_ok cwd z ns n ls fs P Hs E W L) as (f & E1 & W1 & S1 & _); [destruct K as [-> | ->]; discriminate|exact N|].
  replace (match lookup fs (target cwd z) with Some (EFile c) => c | _ => [] end) with (@nil Z) in S1 by (destruct K as [-> | ->]; reflexivity). cbn [app] in S1.
  assert (1 <= zlen (of_lines ls)) as Hp. { destruct ls as [|l ls]; [contradiction|]. unfold of_lines. cbn [map concat]. autorewrite with zlen. unfold zlen. cbn [length]. lia. }
  destruct (read_file dbg f cwd z (of_lines ls) S1 ltac:(lia) A (lines_oks ls F)) as (s & E2 & R & B). exists f, s. split; [exact E1|]. split; [exact E2|].
  split; [exact (z_ok _ _ _ R)|]. pose proof (lines_scan ls F) as Sc. change (zlen [10]) with 1 in *.
  destruct (exists_last N) as (ls' & x & El). rewrite El, last_last.
  split.
  - intros Hx. destruct (split_scan dbg _ _ s [10] (ls ++ [[]]) R) as [_ Sp]; [change (zlen [10]) with 1; lia|exact Sc|]. destruct Sp as (ps & Es & G).
    + rewrite zlen_app. rewrite El, zlen_app. unfold zlen. cbn [length]. lia.
    + intros l X. apply (f_equal (@rev _)) in X. rewrite El, !rev_app_distr in X. cbn [rev app] in X. injection X as X _. contradiction.
    + exists ps. split; [exact Es|]. rewrite filter_app in G. cbn [filter] in G. replace (nonempty []) with false in G by reflexivity. rewrite app_nil_r, El in G.
      clear -G. revert ps G. induction (filter nonempty (ls' ++ [x])) as [|y l IH]; intros ps G; inversion G; subst; constructor; [eapply z_ok; eassumption|now apply IH].
  - intros ->. destruct (split_cases dbg _ _ s [10] R) as (_ & _ & U). apply (U ls'); [change (zlen [10]) with 1; lia| |exact B].
    rewrite El, <- app_assoc in Sc. rewrite El. exact Sc.
Qed.
