(** Proofs: doubling a byte of a text with vt_str_replace (C232, C233). *)
From Verif Require Import Base BaseFacts StrModel StrModel2 StrSpec StrProofs StrProofs2 StrProofs3 StrMain StrLaws FmtModel FmtProofs PropsFmt.

(** [t] with [c] written twice wherever it stands. *)
Definition doubled (c : Z) (t : list Z) : list Z := flat_map (fun x => if x =? c then [c; c] else [x]) t.

Definition each (c : Z) (r t : list Z) : list Z := flat_map (fun x => if x =? c then r else [x]) t.
Lemma each_not c r t : ~ In c t -> each c r t = t.
Proof.
  induction t as [|x t IH]; intros H; [reflexivity|]. unfold each. cbn [flat_map]. destruct (Z.eqb_spec x c) as [->|N]; [elim H; now left|].
  cbn [app]. f_equal. apply IH. intros X. apply H. now right.
Qed.
Lemma scan_each c r t ps : scan [c] t ps -> ps <> [] /\ join_with r ps = each c r t /\ Forall (fun p => ~ In c p) ps.
Proof.
  induction 1 as [t H|a b ps H _ (IH0 & IH1 & IH2)].
  - assert (~ In c t) as N by (intros X; apply in_split in X as (x & y & ->); now apply (H x y)). split; [discriminate|]. split; [|now repeat constructor]. cbn [join_with]. now rewrite each_not.
  - assert (~ In c a) as N.
    { intros X. apply in_split in X as (x & y & ->). specialize (H x (y ++ [c] ++ b)). rewrite <- app_assoc in H. specialize (H eq_refl). unfold zlen in H. rewrite app_length in H. cbn [length] in H. lia. }
    split; [discriminate|]. split; [|now constructor]. unfold each. rewrite flat_map_app. cbn [app flat_map]. rewrite Z.eqb_refl. fold (each c r a) (each c r b). rewrite each_not, <- IH1 by exact N.
    destruct ps as [|p ps]; [congruence|reflexivity].
Qed.
Lemma replace_each dbg t cap s c r : srep t cap s -> r <> [] -> oks r -> Z.max cap (zlen (each c r t)) + 1 <= alloc_max ->
  exists s' cap', str_replace dbg (lf s) s [c] r = Ok s' /\ srep (each c r t) cap' s'.
Proof.
  intros R Hr Or A. pose proof (scan_pieces [c] ltac:(reflexivity) (length t) t (le_n _)) as Sc. destruct (scan_each c r t _ Sc) as (_ & E & _). rewrite <- E in A |- *.
  apply (replace_scan dbg t cap s [c] r _ R); try assumption; [reflexivity|]. destruct r; [congruence|]. unfold zlen. cbn [length]. lia.
Qed.

Lemma double_halve dbg t cap s c : srep t cap s -> okc c -> zlen t + zlen (doubled c t) + cap + 1 <= alloc_max ->
  exists s1 s2 cap1 cap2, str_replace dbg (lf s) s [c] [c; c] = Ok s1 /\ srep (doubled c t) cap1 s1 /\ str_replace dbg (lf s1) s1 [c; c] [c] = Ok s2 /\ srep t cap2 s2.
Proof.
  intros R Oc A. pose proof (scan_pieces [c] ltac:(reflexivity) (length t) t (le_n _)) as Sc. destruct (scan_each c [c; c] t _ Sc) as (Hne & E & F).
  change (doubled c t) with (each c [c; c] t) in *. rewrite <- E in A |- *. set (ps := pieces (length t) [c] t) in *.
  assert (oks [c]) as O1 by (constructor; [exact Oc|constructor]). assert (oks [c; c]) as O2 by (constructor; [exact Oc|exact O1]).
  apply (replace_back dbg t cap s [c] [c; c] ps); try assumption; try reflexivity.
  - apply Forall_forall. intros x Hx. assert (~ In c x) as N. { rewrite Forall_forall in F. apply F. rewrite (app_removelast_last [] Hne). apply in_or_app. now left. }
    unfold clear_of. change (x ++ [c; c]) with (x ++ [c; c] ++ []). apply cut_intro. intros a' b' X.
    destruct (Z.le_gt_cases (zlen x) (zlen a')) as [|Hlt]; [assumption|exfalso]. apply N.
    destruct (split_at x (zlen a')) as (p & q & Ex & Lp); [zlia|]. subst x. rewrite <- app_assoc in X.
    destruct (app_len_inj _ _ _ _ X Lp) as [-> X2]. destruct q as [|y q]; [rewrite app_nil_r in Hlt; lia|]. injection X2 as -> _. apply in_or_app. right. now left.
  - apply cut_none. intros a b X. assert (In c (last ps [])) as I by (rewrite X; apply in_or_app; right; now left).
    rewrite Forall_forall in F. apply (F (last ps [])); [|exact I]. rewrite (app_removelast_last [] Hne) at 2. apply in_or_app. right. now left.
Qed.

(** * The doubled text as a format *)
Lemma parse_doubled t : parse (doubled 37 t) = Some (map Chr t).
Proof.
  induction t as [|c t IH]; [reflexivity|]. unfold doubled. cbn [flat_map]. fold (doubled 37 t). destruct (Z.eqb_spec c 37) as [->|N].
  - unfold parse. cbn [app parse_at]. change (37 =? 37) with true. cbn. fold (parse (doubled 37 t)). now rewrite IH.
  - unfold parse. cbn [app parse_at]. apply Z.eqb_neq in N. rewrite N. fold (parse (doubled 37 t)). now rewrite IH.
Qed.
Lemma format_doubled t args : format (doubled 37 t) args = Ok t.
Proof. unfold format. rewrite parse_doubled. apply eval_plain. Qed.

(** Inside a conversion that is not just begun something is converted in the end. *)
Definition begun (p : place) (sp : spec) : Prop := p <> Out /\ (p = AtFlags -> sp <> spec0).
Lemma flag_set sp c sp' : set_flag sp c = Some sp' -> sp' <> spec0.
Proof. unfold set_flag. repeat match goal with |- context [if ?b then _ else _] => destruct b end; intros [= <-]; discriminate. Qed.
Lemma inside_begun p sp c p' sp' : inside p sp c = Some (inl (p', sp')) -> begun p' sp'.
Proof.
  unfold inside. destruct (match p with AtFlags => set_flag sp c | _ => None end) as [sp1|] eqn:E.
  - intros [= <- <-]. split; [discriminate|]. intros _. destruct p; try discriminate. now apply flag_set in E.
  - clear E. assert (forall q sp1, q <> Out -> q <> AtFlags -> begun q sp1) as K by (intros q sp1 A B; split; [exact A|intros X; contradiction]).
    repeat match goal with
      | |- Some _ = Some _ -> _ => intros [= <- <-]; apply K; discriminate
      | |- _ -> _ => discriminate
      | |- match ?b with _ => _ end = _ -> _ => destruct b
      end.
Qed.
Lemma inside_item p sp c i : begun p sp -> p <> Out -> inside p sp c = Some (inr i) -> wants i <> [].
Proof.
  intros B _. assert (forall sp k, wants (Dir sp k) <> []) as W by (intros sp1 k; cbn [wants]; destruct (sp_width sp1), (sp_prec sp1); discriminate).
  unfold inside. destruct (match p with AtFlags => set_flag sp c | _ => None end) as [sp1|]; [discriminate|].
  destruct B as [_ B]. unfold spec0 in B.
  repeat match goal with
      | |- Some _ = Some _ -> _ => intros [= <-]; (apply W || (exfalso; now apply B))
      | |- _ -> _ => discriminate
      | |- match ?b with _ => _ end = _ -> _ => destruct b
      end.
Qed.
Lemma parse_begun f : forall p sp items, begun p sp -> parse_at p sp f = Some items -> want items <> [].
Proof.
  induction f as [|c f IH]; intros p sp items B H.
  - destruct p; try discriminate. now destruct B.
  - assert (match inside p sp c with None => None | Some (inl (p, sp)) => parse_at p sp f | Some (inr i) => option_map (cons i) (parse_at Out spec0 f) end = Some items) as H'
      by (destruct p; [now destruct B|exact H..]). clear H.
    destruct (inside p sp c) as [[[p' sp']|i]|] eqn:E; [|destruct (parse_at Out spec0 f) as [l|]; [|discriminate]|discriminate].
    + apply (IH _ _ _ (inside_begun _ _ _ _ _ E) H').
    + injection H' as <-. intros W. unfold want in W. cbn [flat_map] in W. apply app_eq_nil in W as [W _]. exact (inside_item _ _ _ _ B (proj1 B) E W).
Qed.
Lemma parse_only : forall n f items, (length f <= n)%nat -> parse f = Some items -> want items = [] -> exists t, items = map Chr t /\ f = doubled 37 t.
Proof.
  induction n as [|n IH]; intros f items L H W.
  - destruct f; [|cbn in L; lia]. injection H as <-. now exists [].
  - destruct f as [|c f]; [injection H as <-; now exists []|]. unfold parse in H. cbn [parse_at] in H. destruct (Z.eqb_spec c 37) as [->|N].
    + destruct f as [|d f]; [discriminate|]. destruct (Z.eqb_spec d 37) as [->|M].
      * cbn in H. fold (parse f) in H. destruct (parse f) as [l|] eqn:E; [|discriminate]. injection H as <-.
        destruct (IH f l) as (t & -> & ->); [cbn in L; lia|exact E|exact W|]. exists (37 :: t). now split.
      * exfalso. cbn [parse_at] in H. destruct (inside AtFlags spec0 d) as [[[p' sp']|i]|] eqn:E; [| |discriminate].
        -- exact (parse_begun _ _ _ _ (inside_begun _ _ _ _ _ E) H W).
        -- destruct (parse_at Out spec0 f); [|discriminate]. injection H as <-. unfold want in W. cbn [flat_map] in W. apply app_eq_nil in W as [W _].
           assert (forall sp k, wants (Dir sp k) <> []) as K by (intros sp1 k; cbn [wants]; destruct (sp_width sp1), (sp_prec sp1); discriminate).
           destruct i as [x|sp k]; [|exact (K _ _ W)]. clear W K. unfold inside in E. apply Z.eqb_neq in M. rewrite M in E. revert E.
           repeat match goal with
             | |- Some _ = Some _ -> _ => discriminate
             | |- _ -> _ => discriminate
             | |- match ?b with _ => _ end = _ -> _ => destruct b
             end.
    + fold (parse f) in H. destruct (parse f) as [l|] eqn:E; [|discriminate]. injection H as <-.
      destruct (IH f l) as (t & -> & ->); [cbn in L; lia|exact E|exact W|]. exists (c :: t). split; [reflexivity|]. unfold doubled. cbn [flat_map]. apply Z.eqb_neq in N. now rewrite N.
Qed.
Lemma format_only f z : format f [] = Ok z <-> f = doubled 37 z.
Proof.
  split; [|intros ->; apply format_doubled]. unfold format. intros H. destruct (parse f) as [items|] eqn:E; [|discriminate]. destruct (eval_chars _ _ H) as [_ W].
  destruct (parse_only _ f items (le_n _) E W) as (t & -> & ->). rewrite eval_plain in H. now injection H as ->.
Qed.
