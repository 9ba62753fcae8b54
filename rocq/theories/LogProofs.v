(** Proofs about logging and checks. *)
From Verif Require Import Base BaseFacts StrModel StrSpec StrProofs NumModel LogModel LogSpec.

(** * Names in their arrays *)
Definition holds_name (b : blk) (z : text) : Prop := oks z /\ zlen z <= 4095 /\ b = map Some z ++ repeat (Some 0) (4096 - length z).

Lemma name_cstr b z : holds_name b z -> cstr b = Ok z.
Proof.
  intros (O & L & ->). replace (4096 - length z)%nat with (S (4095 - length z)) by (unfold zlen in L; lia). cbn [repeat].
  apply cstr_app. now apply oks_nonul.
Qed.
Lemma strncpy_ok b y z : holds_name b y -> oks z -> zlen z <= 4095 -> exists b', strncpy b z (path_max - 1) = Ok b' /\ holds_name b' z.
Proof.
  intros (Oy & Ly & Eb) O L. unfold strncpy, path_max. rewrite firstn_all2 by (unfold zlen in L; lia).
  assert (exists b0, b = b0 ++ [Some 0] /\ zlen b0 = 4095) as (b0 & E0 & L0).
  { exists (map Some y ++ repeat (Some 0) (4095 - length y)). split.
    - rewrite Eb, <- app_assoc. f_equal. replace (4096 - length y)%nat with (4095 - length y + 1)%nat by (unfold zlen in Ly; lia). rewrite repeat_app. reflexivity.
    - unfold zlen in *. rewrite app_length, map_length, repeat_length. lia. }
  assert (Z.to_nat (4096 - 1) = 4095%nat) as -> by lia.
  set (d := map Some z ++ repeat (Some 0) (4095 - length z)).
  assert (zlen d = 4095) as Ld by (unfold d, zlen in *; rewrite app_length, map_length, repeat_length; lia).
  pose proof (bwrite_app [] b0 [Some 0] 0 d eq_refl) as B. cbn [app] in B. rewrite E0, B by lia. eexists. split; [reflexivity|].
  split; [exact O|]. split; [exact L|]. unfold d. rewrite <- app_assoc. f_equal.
  replace (4096 - length z)%nat with (4095 - length z + 1)%nat by (unfold zlen in L; lia). rewrite repeat_app. reflexivity.
Qed.

Lemma set_at_length {A} (l : list A) j x : length (set_at l j x) = length l.
Proof. revert j; induction l; intros [|j]; cbn; auto. Qed.
Lemma nth_at_same {A} (l : list A) j x : (j < length l)%nat -> nth_error (set_at l j x) j = Some x.
Proof. revert j; induction l; intros [|j] H; cbn in *; try lia; auto. apply IHl. lia. Qed.
Lemma nth_at_other {A} (l : list A) j k x : j <> k -> nth_error (set_at l j x) k = nth_error l k.
Proof. revert j k; induction l; intros [|j] [|k] H; cbn; try reflexivity; try lia; apply IHl; lia. Qed.

(** [l] holds the names given by [r]. *)
Definition table (l : list blk) (r : nat -> text) : Prop :=
  length l = 6%nat /\ forall i, (i < 6)%nat -> exists b, nth_error l i = Some b /\ holds_name b (r i).

Lemma table_set l r i z : table l r -> (i < 6)%nat -> oks z -> zlen z <= 4095 ->
  exists b b', nth_error l i = Some b /\ strncpy b z (path_max - 1) = Ok b' /\ table (set_at l i b') (fun j => if Nat.eqb i j then z else r j).
Proof.
  intros [L T] Hi O Hz. destruct (T i Hi) as (b & E & H). destruct (strncpy_ok b _ z H O Hz) as (b' & E' & H').
  exists b, b'. split; [exact E|]. split; [exact E'|]. split; [now rewrite set_at_length|]. intros j Hj. destruct (Nat.eqb_spec i j) as [<-|N].
  - exists b'. split; [apply nth_at_same; lia|exact H'].
  - rewrite nth_at_other by assumption. now apply T.
Qed.
Lemma redirect_loop_ok z : oks z -> zlen z <= 4095 -> forall k i l r, (i + k <= 6)%nat -> table l r ->
  exists l', redirect_loop k l i z = Ok l' /\ table l' (fun j => if Nat.leb i j && Nat.ltb j (i + k) then z else r j).
Proof.
  intros O L. induction k as [|k IH]; intros i l r Hi T.
  - exists l. split; [reflexivity|]. destruct T as [A B]. split; [exact A|]. intros j Hj. destruct (B j Hj) as (b & E & H). exists b. split; [exact E|].
    replace (Nat.leb i j && Nat.ltb j (i + 0)) with false; [exact H|]. symmetry. apply andb_false_iff. destruct (Nat.leb_spec i j); [right; apply Nat.ltb_ge; lia|now left].
  - cbn [redirect_loop]. destruct (table_set l r i z T ltac:(lia) O L) as (b & b' & E & E' & T'). rewrite E, E'. cbn [bind].
    destruct (IH (S i) _ _ ltac:(lia) T') as (l' & E2 & T2). exists l'. split; [exact E2|]. destruct T2 as [A B]. split; [exact A|]. intros j Hj.
    destruct (B j Hj) as (c & Ec & H). exists c. split; [exact Ec|]. revert H.
    destruct (Nat.leb_spec (S i) j), (Nat.ltb_spec j (S i + k)), (Nat.eqb_spec i j), (Nat.leb_spec i j), (Nat.ltb_spec j (i + S k)); cbn [andb]; intros H'; try exact H'; lia.
Qed.

(** * The state after calls *)
Definition rep (can_open : text -> bool) (h : list call) (p : proc) : Prop :=
  table (p_names p) (fun i => route h (Z.of_nat i)) /\
  (forall i, 0 <= i < 6 -> route h i = [] \/ can_open (route h i) = true) /\
  p_on p = debug_on h /\ p_dest p = debug_dest h /\ (forall z, debug_dest h = Some z -> can_open z = true) /\ p_err p = true.

Lemma init_rep can_open : rep can_open [] init.
Proof.
  split; [|cbn; repeat split; try discriminate; auto]. unfold init. cbn [p_names]. split; [unfold log_count; rewrite repeat_length; lia|].
  intros i Hi. exists (repeat (Some 0) (Z.to_nat path_max)). split.
  - apply nth_error_repeat. unfold log_count. lia.
  - split; [constructor|]. split; [zl; lia|]. unfold path_max. reflexivity.
Qed.

Lemma level_text l : 0 <= l < 6 -> pad5 (nth (Z.to_nat l) level_strings []) = level_name l.
Proof. intros H. assert (l = 0 \/ l = 1 \/ l = 2 \/ l = 3 \/ l = 4 \/ l = 5) as C by lia. repeat destruct C as [->|C]; try reflexivity. subst. reflexivity. Qed.
Lemma record_text tm l zexpr pl msg : 0 <= l < 6 -> log_record tm l zexpr pl msg = log_text tm l zexpr pl msg.
Proof. intros H. unfold log_record, log_text. now rewrite level_text. Qed.

Lemma emit_ok p s t : p_err p = true -> emit p s t = Ok (mk_proc (p_names p) (p_on p) (p_dest p) (p_err p) (p_out p ++ [(s, t)])).
Proof. intros H. unfold emit. rewrite H. now destruct s. Qed.

Lemma debug_write_ok can_open h p t : rep can_open h p ->
  exists p', debug_write can_open p t = Ok p' /\ p_names p' = p_names p /\ p_on p' = p_on p /\ p_dest p' = p_dest p /\ p_err p' = true /\ p_out p' = p_out p ++ debug_out h t.
Proof.
  intros (T & R & On & D & Dok & E). unfold debug_write, debug_out. rewrite On. destruct (debug_on h) eqn:Q; cbn [negb].
  - unfold debug_sink. rewrite D. destruct (debug_dest h) as [z|] eqn:Z1.
    + rewrite (Dok z eq_refl), emit_ok by assumption. rewrite D. cbn [bind p_dest]. eexists. split; [reflexivity|]. cbn. repeat split; assumption.
    + rewrite emit_ok by assumption. rewrite D. cbn [bind p_dest]. eexists. split; [reflexivity|]. cbn. repeat split; assumption.
  - exists p. split; [reflexivity|]. rewrite app_nil_r. repeat split; assumption.
Qed.

Lemma keeps can_open h c p p' : rep can_open h p -> p_names p' = p_names p -> p_on p' = p_on p -> p_dest p' = p_dest p -> p_err p' = true ->
  (forall i, route (c :: h) i = route h i) -> debug_on (c :: h) = debug_on h -> debug_dest (c :: h) = debug_dest h -> rep can_open (c :: h) p'.
Proof.
  intros (T & R & On & D & Dok & E) H1 H2 H3 H4 Q1 Q2 Q3. split; [|split; [|split; [|split; [|split]]]].
  - rewrite H1. destruct T as [A B]. split; [exact A|]. intros i Hi. rewrite Q1. now apply B.
  - intros i Hi. rewrite Q1. now apply R.
  - congruence.
  - congruence.
  - rewrite Q3. exact Dok.
  - exact H4.
Qed.

Lemma step_ok dbg can_open h p c : rep can_open h p -> fine can_open c ->
  exists p', step dbg can_open p c = Ok (p', if ends c then Exits else Returns) /\ rep can_open (c :: h) p' /\ p_out p' = p_out p ++ said h c.
Proof.
  intros Hr F. pose proof Hr as (T & R & On & D & Dok & E).
  destruct c as [l f|f|tm f l expr zexpr pl msg errmsg|f|off|tm expr zexpr subject quit pl msg|tm subject msg]; cbn [fine] in F; cbn [step ends said].
  - destruct F as [Hl F]. unfold log_redirect_level. rewrite dassert_true by (unfold log_count; lia). cbn [bind].
    assert (oks (text_or_empty f) /\ zlen (text_or_empty f) <= 4095 /\ (text_or_empty f = [] \/ can_open (text_or_empty f) = true)) as (O & L & C).
    { destruct f as [z|]; cbn [text_or_empty]; [now apply F|]. split; [constructor|]. split; [zl; lia|now left]. }
    destruct (table_set _ _ (Z.to_nat l) (text_or_empty f) T ltac:(lia) O L) as (b & b' & E1 & E2 & T'). rewrite E1.
    change (name_text f) with (text_or_empty f). rewrite E2. cbn [bind].
    eexists. split; [reflexivity|]. cbn [set_names p_out]. rewrite app_nil_r. split; [|reflexivity].
    split; [|split; [|cbn [p_on p_dest p_err debug_on debug_dest]; tauto]].
    + cbn [p_names]. destruct T' as [A B]. split; [exact A|]. intros i Hi. destruct (B i Hi) as (c & Ec & Hc). exists c. split; [exact Ec|]. cbn [route].
      destruct (Nat.eqb_spec (Z.to_nat l) i), (Z.eqb_spec l (Z.of_nat i)); try lia; exact Hc.
    + intros i Hi. cbn [route]. destruct (l =? i); [exact C|now apply R].
  - assert (oks (text_or_empty f) /\ zlen (text_or_empty f) <= 4095 /\ (text_or_empty f = [] \/ can_open (text_or_empty f) = true)) as (O & L & C).
    { destruct f as [z|]; cbn [text_or_empty]; [now apply F|]. split; [constructor|]. split; [zl; lia|now left]. }
    unfold log_redirect_all. change (name_text f) with (text_or_empty f). change (Z.to_nat log_count) with 6%nat.
    destruct (redirect_loop_ok _ O L 6 0 _ _ ltac:(lia) T) as (l' & E1 & T'). rewrite E1. cbn [bind].
    eexists. split; [reflexivity|]. cbn [set_names p_out]. rewrite app_nil_r. split; [|reflexivity].
    split; [|split; [|cbn [p_on p_dest p_err debug_on debug_dest]; tauto]].
    + cbn [p_names]. destruct T' as [A B]. split; [exact A|]. intros i Hi. destruct (B i Hi) as (c & Ec & Hc). exists c. split; [exact Ec|]. cbn [route].
      replace (Nat.leb 0 i && Nat.ltb i (0 + 6)) with true in Hc; [exact Hc|]. symmetry. apply andb_true_iff. split; [reflexivity|]. apply Nat.ltb_lt. lia.
    + intros i Hi. exact C.
  - destruct F as [Hl F]. unfold vt_log. rewrite dassert_true by (unfold log_count; lia). cbn [bind].
    destruct expr.
    { eexists. split; [reflexivity|]. rewrite app_nil_r. split; [|reflexivity]. apply (keeps can_open h _ p p Hr); auto. }
    destruct T as [TA TB]. destruct (TB (Z.to_nat l) ltac:(lia)) as (b & Eb & Hb). rewrite Eb. rewrite Z2Nat.id in Hb by lia.
    assert ((match f with Some z => Ok z | None => cstr b end) = Ok (match f with Some z => z | None => route h l end)) as ->.
    { destruct f; [reflexivity|]. now apply name_cstr. }
    cbn [bind]. set (z := match f with Some z => z | None => route h l end).
    assert (z = [] \/ can_open z = true) as C. { unfold z. destruct f as [x|]; [now apply F|]. now apply R. }
    unfold log_fatal, log_assert. destruct z as [|a z'].
    + rewrite emit_ok by assumption. cbn [bind]. rewrite record_text by assumption. eexists. split; [reflexivity|]. split; [|reflexivity].
      apply (keeps can_open h _ p _ Hr); auto.
    + destruct C as [C|C]; [discriminate|]. rewrite C, emit_ok by assumption. cbn [bind]. rewrite record_text by assumption.
      eexists. split; [reflexivity|]. split; [|reflexivity]. apply (keeps can_open h _ p _ Hr); auto.
  - eexists. split; [reflexivity|]. cbn [debug_redirect p_out]. rewrite app_nil_r. split; [|reflexivity].
    split; [exact T|]. split; [exact R|]. cbn [p_on p_dest p_err debug_on debug_dest]. tauto.
  - eexists. split; [reflexivity|]. cbn [debug_disable p_out]. rewrite app_nil_r. split; [|reflexivity].
    split; [exact T|]. split; [exact R|]. cbn [p_on p_dest p_err debug_on debug_dest]. tauto.
  - unfold debug_assert. destruct expr.
    { eexists. split; [reflexivity|]. rewrite app_nil_r. split; [|reflexivity]. apply (keeps can_open h _ p p Hr); auto. }
    destruct (debug_write_ok can_open h p (debug_record tm subject zexpr pl msg) Hr) as (p' & E1 & A1 & A2 & A3 & A4 & A5). rewrite E1. cbn [bind].
    eexists. split; [reflexivity|]. split; [|exact A5]. apply (keeps can_open h _ p _ Hr); auto.
  - unfold debug_printf. destruct (debug_write_ok can_open h p (tm ++ [32] ++ subject ++ [32] ++ msg) Hr) as (p' & E1 & A1 & A2 & A3 & A4 & A5).
    rewrite E1. cbn [bind]. eexists. split; [reflexivity|]. split; [|exact A5]. apply (keeps can_open h _ p _ Hr); auto.
Qed.

Lemma run_rep dbg can_open cs : forall h p, rep can_open h p -> Forall (fine can_open) cs ->
  exists p', run dbg can_open p cs = Ok (p', snd (transcript h cs)) /\ p_out p' = p_out p ++ fst (transcript h cs).
Proof.
  induction cs as [|c cs IH]; intros h p R F; [exists p; split; [reflexivity|]; now rewrite app_nil_r|].
  inversion F as [|? ? Fc Fr]; subst. destruct (step_ok dbg can_open h p c R Fc) as (p1 & E1 & R1 & O1). cbn [run transcript]. rewrite E1. cbn [bind].
  destruct (ends c).
  - exists p1. split; [reflexivity|exact O1].
  - destruct (IH (c :: h) p1 R1 Fr) as (p' & E & O). exists p'. destruct (transcript (c :: h) cs) as [o e]. cbn [fst snd] in *.
    split; [exact E|]. rewrite O, O1. now rewrite app_assoc.
Qed.
Lemma run_ok dbg can_open cs : Forall (fine can_open) cs ->
  exists p', run dbg can_open init cs = Ok (p', snd (transcript [] cs)) /\ p_out p' = fst (transcript [] cs).
Proof. intros F. destruct (run_rep dbg can_open cs [] init (init_rep can_open) F) as (p' & E & O). exists p'. split; [exact E|exact O]. Qed.

(** * One check, whatever the settings *)
Lemma check_any can_open p expr tm zexpr subject quit pl msg : p_err p = true ->
  exists p' , debug_assert can_open p expr tm zexpr subject quit pl msg = Ok (p', if expr then Returns else if quit then Exits else Returns) /\
  (expr = true -> p' = p).
Proof.
  intros E. unfold debug_assert. destruct expr; [exists p; split; auto|]. unfold debug_write. destruct (p_on p); cbn [negb].
  - rewrite emit_ok by assumption. cbn [bind p_dest]. destruct (p_dest p) as [z|] eqn:D.
    + destruct (debug_sink can_open p); eexists; (split; [reflexivity|discriminate]).
    + eexists; (split; [reflexivity|discriminate]).
  - eexists; (split; [reflexivity|discriminate]).
Qed.
(** With output off, or to a file that can be opened, even a closed stderr does not matter. *)
Lemma check_any2 can_open p expr tm zexpr subject quit pl msg : p_on p = false \/ (exists z, p_dest p = Some z /\ can_open z = true) ->
  exists p' , debug_assert can_open p expr tm zexpr subject quit pl msg = Ok (p', if expr then Returns else if quit then Exits else Returns).
Proof.
  intros H. unfold debug_assert. destruct expr; [eauto|]. unfold debug_write. destruct H as [H|(z & D & C)].
  - rewrite H. eexists. reflexivity.
  - destruct (p_on p); cbn [negb]; [|eexists; reflexivity]. unfold debug_sink. rewrite D, C. cbn [emit bind p_dest]. rewrite D. eexists. reflexivity.
Qed.
