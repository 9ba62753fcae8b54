(** The storage of a string never exceeds what can be allocated. *)
From Verif Require Import Base BaseFacts StrModel StrModel2 StrSpec.

Definition bnd (s : str) : Prop := zlen (sb s) <= alloc_max.

Lemma bwrite_len b off d b' : bwrite b off d = Ok b' -> zlen b' = zlen b.
Proof.
  unfold bwrite. destruct (_ && _) eqn:E; [|discriminate]. intros H. injection H as <-.
  rewrite !andb_true_iff, !Z.leb_le in E. autorewrite with zlen. unfold zlen in *. lia.
Qed.

Lemma c_realloc_len dbg b n b' : c_realloc dbg b n = Ok b' -> zlen b' <= alloc_max.
Proof.
  unfold c_realloc. destruct (dassert _ _); cbn [bind]; try discriminate.
  destruct (n =? 0); [discriminate|]. destruct (n <=? alloc_max) eqn:E; [|discriminate]. intros H. injection H as <-.
  apply Z.leb_le in E. autorewrite with zlen. unfold zlen. unfold alloc_max in *. lia.
Qed.

Ltac bi1 := match goal with
  | H : bind ?r _ = Ok _ |- _ => let E := fresh "E" in destruct r eqn:E; cbn [bind] in H; try discriminate H
  | H : Ok _ = Ok _ |- _ => injection H; clear H; intros; subst
  | H : UB = Ok _ |- _ => discriminate H
  | H : NoFuel = Ok _ |- _ => discriminate H
  | H : Abort = Ok _ |- _ => discriminate H
  | H : (if ?b then _ else _) = Ok _ |- _ => let E := fresh "E" in destruct b eqn:E
  | H : match ?o with Some _ => _ | None => _ end = Ok _ |- _ => let E := fresh "E" in destruct o eqn:E
  end.
Ltac bi := repeat bi1.

Section Bounds.
Local Hint Extern 1 => (unfold bnd, set_len in *; cbn [sb sl sc sv ss] in *; assumption) : bnd.

Lemma swrite_bnd s off d s' : swrite s off d = Ok s' -> bnd s -> bnd s'.
Proof. unfold swrite. intros H B. bi. unfold bnd in *. cbn [sb]. now rewrite (bwrite_len _ _ _ _ E0). Qed.
Lemma sput_bnd s off c s' : sput s off c = Ok s' -> bnd s -> bnd s'.
Proof. apply swrite_bnd. Qed.
Lemma smove_bnd s a b n s' : smove s a b n = Ok s' -> bnd s -> bnd s'.
Proof. unfold smove. intros H B. bi; auto. eapply swrite_bnd; eauto. Qed.
Lemma scopy_bnd s a z b n s' : scopy s a z b n = Ok s' -> bnd s -> bnd s'.
Proof. unfold scopy. intros H B. bi; auto. eapply swrite_bnd; eauto. Qed.
Lemma srealloc_bnd dbg s n s' : srealloc dbg s n = Ok s' -> bnd s'.
Proof. unfold srealloc. intros H. bi. unfold bnd. cbn [sb]. eapply c_realloc_len; eauto. Qed.
Lemma set_len_bnd s n : bnd s -> bnd (set_len s n).
Proof. auto. Qed.

Lemma reserve_bnd dbg s n s' : str_reserve dbg s n = Ok s' -> bnd s'.
Proof. unfold str_reserve. intros H. bi. eapply sput_bnd; [exact H|]. apply srealloc_bnd in E1. exact E1. Qed.
Lemma resize_bnd dbg s n s' : str_resize dbg s n = Ok s' -> bnd s'.
Proof. unfold str_resize. intros H. bi. eapply sput_bnd; [exact H|]. apply srealloc_bnd in E1. exact E1. Qed.
Lemma shrink_bnd dbg s s' : str_shrink dbg s = Ok s' -> bnd s -> bnd s'.
Proof. unfold str_shrink. intros H B. bi; auto. eapply sput_bnd; [exact H|]. apply srealloc_bnd in E1. exact E1. Qed.
Lemma clear_bnd s s' : str_clear s = Ok s' -> bnd s -> bnd s'.
Proof. unfold str_clear. intros H B. bi. apply set_len_bnd. eapply sput_bnd; eauto. Qed.

Lemma maybe_bnd dbg s (c : bool) n s' : (if c then str_reserve dbg s n else Ok s) = Ok s' -> bnd s -> bnd s'.
Proof. intros H B. bi; auto. eapply reserve_bnd; eauto. Qed.

Ltac chain := repeat match goal with
  | H : (if _ then str_reserve _ _ _ else Ok _) = Ok _ |- _ => apply maybe_bnd in H; [|assumption]
  | H : smove _ _ _ _ = Ok _ |- _ => apply smove_bnd in H; [|assumption]
  | H : scopy _ _ _ _ _ = Ok _ |- _ => apply scopy_bnd in H; [|assumption]
  | H : sput (set_len _ _) _ _ = Ok _ |- _ => apply sput_bnd in H; [|apply set_len_bnd; assumption]
  | H : sput _ _ _ = Ok _ |- _ => apply sput_bnd in H; [|assumption]
  | H : swrite _ _ _ = Ok _ |- _ => apply swrite_bnd in H; [|assumption]
  end; try assumption; try (apply set_len_bnd; assumption).

(* a bind whose first part is kept as an equation *)
Ltac step := match goal with
  | H : bind ?r _ = Ok _ |- _ => let E := fresh "E" in destruct r eqn:E; cbn [bind] in H; try discriminate H
  end.
Ltac steps := repeat step.

Lemma set_n_bnd dbg s z n s' : str_set_n dbg s z n = Ok s' -> bnd s -> bnd s'.
Proof. unfold str_set_n. intros H B. steps. injection H as <-. chain. Qed.
Lemma append_n_bnd dbg s z n s' : str_append_n dbg s z n = Ok s' -> bnd s -> bnd s'.
Proof. unfold str_append_n. intros H B. steps. chain. Qed.
Lemma append_bnd dbg s z s' : str_append dbg s z = Ok s' -> bnd s -> bnd s'.
Proof. apply append_n_bnd. Qed.
Lemma appendf_bnd dbg s z s' : str_appendf dbg s z = Ok s' -> bnd s -> bnd s'.
Proof. unfold str_appendf. intros H B. steps. chain. Qed.
Lemma vfmt_set_bnd dbg s z s' : str_vfmt_set dbg s z = Ok s' -> bnd s -> bnd s'.
Proof. unfold str_vfmt_set. intros H B. steps. chain. Qed.
Lemma insert_bnd dbg s z i s' : str_insert dbg s z i = Ok s' -> bnd s -> bnd s'.
Proof. unfold str_insert. intros H B. steps. chain. Qed.
Lemma insert_n_bnd dbg s z i n s' : str_insert_n dbg s z i n = Ok s' -> bnd s -> bnd s'.
Proof. unfold str_insert_n. intros H B. steps. chain. Qed.
Lemma insertf_bnd dbg s i z s' : str_insertf dbg s i z = Ok s' -> bnd s -> bnd s'.
Proof. unfold str_insertf. intros H B. destruct (_ <? _); steps; eapply insert_bnd; eauto. Qed.
Lemma insert_before_bnd dbg s a z s' : str_insert_before dbg s a z = Ok s' -> bnd s -> bnd s'.
Proof. unfold str_insert_before. intros H B. step. destruct (_ <? _); [now injection H as <-|eapply insert_bnd; eauto]. Qed.
Lemma insert_after_bnd dbg s a z s' : str_insert_after dbg s a z = Ok s' -> bnd s -> bnd s'.
Proof. unfold str_insert_after. intros H B. step. destruct (_ <? _); [now injection H as <-|eapply insert_bnd; eauto]. Qed.
Lemma remove_bnd dbg s i n s' : str_remove dbg s i n = Ok s' -> bnd s -> bnd s'.
Proof. unfold str_remove. intros H B. steps. chain. Qed.
Lemma set_at_bnd dbg s z i s' : str_set_at dbg s z i = Ok s' -> bnd s -> bnd s'.
Proof. unfold str_set_at. intros H B. steps. eapply append_n_bnd; [exact H|]. eapply remove_bnd; eauto. Qed.
Lemma set_c_bnd dbg s c i s' : str_set_c dbg s c i = Ok s' -> bnd s -> bnd s'.
Proof. unfold str_set_c. intros H B. steps. chain. Qed.
Lemma remove_first_bnd s z s' f : str_remove_first s z = Ok (s', f) -> bnd s -> bnd s'.
Proof. unfold str_remove_first. intros H B. step. destruct (strstr _ _); [|now injection H as <-]. steps. injection H as <- _. chain. Qed.
Lemma remove_all_bnd k : forall s z s', str_remove_all k s z = Ok s' -> bnd s -> bnd s'.
Proof.
  induction k as [|k IH]; cbn [str_remove_all]; intros s z s' H B; [discriminate|]. step. destruct a as [s1 f]. cbn [fst snd] in H.
  apply remove_first_bnd in E; auto. destruct f; [eauto|]. now injection H as <-.
Qed.
Lemma rmc_bnd k : forall s c i o s' o', rmc_loop k s c i o = Ok (s', o') -> bnd s -> bnd s'.
Proof.
  induction k as [|k IH]; cbn [rmc_loop]; intros s c i o s' o' H B; [now injection H as <- _|]. step.
  destruct (memb _ _); [eauto|]. step. apply sput_bnd in E0; eauto.
Qed.
Lemma remove_c_bnd s c s' : str_remove_c s c = Ok s' -> bnd s -> bnd s'.
Proof. unfold str_remove_c. intros H B. step. destruct a as [s1 o]. apply rmc_bnd in E; auto. cbn [fst snd] in H. chain. Qed.
Lemma replace_at_bnd dbg s a z i s' : replace_at dbg s a z i = Ok s' -> bnd s -> bnd s'.
Proof.
  unfold replace_at. intros H B. destruct (_ =? _); [chain|]. step. apply remove_bnd in E; auto.
  destruct (_ <? _); [eapply insert_bnd|eapply append_bnd]; eauto.
Qed.
Lemma replace_loop_bnd k dbg : forall s a z p s', replace_loop k dbg s a z p = Ok s' -> bnd s -> bnd s'.
Proof.
  induction k as [|k IH]; cbn [replace_loop]; intros s a z p s' H B; [discriminate|]. step.
  destruct (strstr _ _); [|now injection H as <-]. step. apply replace_at_bnd in E0; eauto.
Qed.
Lemma replace_bnd dbg k s a z s' : str_replace dbg k s a z = Ok s' -> bnd s -> bnd s'.
Proof. unfold str_replace. intros H B. destruct (_ || _); [now injection H as <-|]. eapply replace_loop_bnd; eauto. Qed.
Lemma replace_first_bnd dbg s a z s' : str_replace_first dbg s a z = Ok s' -> bnd s -> bnd s'.
Proof.
  unfold str_replace_first. intros H B. destruct (_ || _); [now injection H as <-|]. step.
  destruct a0; [eapply replace_at_bnd; eauto|now injection H as <-].
Qed.
Lemma replace_last_bnd dbg k s a z s' : str_replace_last dbg k s a z = Ok s' -> bnd s -> bnd s'.
Proof.
  unfold str_replace_last. intros H B. destruct (_ || _); [now injection H as <-|]. step.
  destruct (strstr _ _); [|discriminate]. step. eapply replace_at_bnd; eauto.
Qed.
Lemma rpc_bnd k : forall s c r i s', rpc_loop k s c r i = Ok s' -> bnd s -> bnd s'.
Proof.
  induction k as [|k IH]; cbn [rpc_loop]; intros s c r i s' H B; [now injection H as <-|]. step.
  destruct (index_in _ _); [|eauto]. steps. apply sput_bnd in E1; eauto.
Qed.
Lemma replace_c_bnd s c r s' : str_replace_c s c r = Ok s' -> bnd s -> bnd s'.
Proof. unfold str_replace_c. intros H B. step. destruct (_ || _); [now injection H as <-|]. eapply rpc_bnd; eauto. Qed.
Lemma strip_bnd k f s s' : strip_by k f s = Ok s' -> bnd s -> bnd s'.
Proof. unfold strip_by. intros H B. steps. apply smove_bnd in E1; [|auto with bnd]. chain. Qed.
Lemma apply_bnd k : forall s f i s', apply_loop k s f i = Ok s' -> bnd s -> bnd s'.
Proof.
  induction k as [|k IH]; cbn [apply_loop]; intros s f i s' H B; [now injection H as <-|]. steps.
  apply sput_bnd in E0; eauto.
Qed.
Lemma validate_bnd s s' n : str_validate_len s = Ok (s', n) -> bnd s -> bnd s'.
Proof. unfold str_validate_len. intros H B. steps. injection H as <- _. chain. Qed.

Lemma c_calloc_len dbg n b : c_calloc dbg n = Ok b -> zlen b <= alloc_max.
Proof.
  unfold c_calloc. destruct (dassert _ _); cbn [bind]; try discriminate.
  destruct (n <=? alloc_max) eqn:E; [|discriminate]. intros H. injection H as <-.
  apply Z.leb_le in E. autorewrite with zlen. unfold alloc_max in *. lia.
Qed.
Lemma create_len_bnd dbg n s : str_create_len dbg n = Ok s -> bnd s.
Proof.
  unfold str_create_len. intros H. steps. apply c_calloc_len in E1.
  destruct (_ =? _); [injection H as <-; exact E1|]. apply swrite_bnd in H; [auto|exact E1].
Qed.
Lemma create_bnd dbg z s : str_create dbg z = Ok s -> bnd s.
Proof. unfold str_create. intros H. step. apply create_len_bnd in E. eapply set_n_bnd; eauto. Qed.
Lemma create_capacity_bnd dbg n s : str_create_capacity dbg n = Ok s -> bnd s.
Proof. unfold str_create_capacity. intros H. steps. apply create_len_bnd in E0. eapply clear_bnd; eauto. Qed.
Lemma dup_bnd dbg s s' : str_dup dbg s = Ok s' -> bnd s'.
Proof. unfold str_dup. intros H. step. eapply create_bnd; eauto. Qed.

Lemma sstep_bnd dbg s o s' q : sstep dbg s o = Ok (s', q) -> bnd s -> bnd s'.
Proof.
  intros H B. destruct o; cbn [sstep] in H; unfold ok1, okq in H; try step;
    repeat match goal with X : (_ * _)%type |- _ => destruct X; cbn [fst snd] in H end;
    try (injection H as <- _); try assumption;
    eauto using append_bnd, append_n_bnd, appendf_bnd, insert_bnd, insertf_bnd, insert_n_bnd, insert_before_bnd,
      insert_after_bnd, remove_bnd, clear_bnd, set_n_bnd, set_at_bnd, set_c_bnd, reserve_bnd, resize_bnd, shrink_bnd,
      remove_first_bnd, remove_all_bnd, remove_c_bnd, replace_bnd, replace_first_bnd, replace_last_bnd, replace_c_bnd,
      apply_bnd, validate_bnd.
  - eapply strip_bnd; eauto.
  - eapply strip_bnd; eauto.
  - unfold str_strip_c in *. destruct (is_nil c); [discriminate|]. eapply strip_bnd; eauto.
Qed.
End Bounds.
