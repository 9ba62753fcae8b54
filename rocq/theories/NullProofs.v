(** Outcomes of calls with NULL arguments are decided by running the functions on all
    combinations of argument values; the depth of calls is bounded by a fixed point. *)
From Coq Require Import List String Bool Arith Lia.
From Verif Require Import NullModel.
Import ListNotations.
Local Open Scope string_scope.
Local Open Scope list_scope.

(** All combinations of argument values. *)
Fixpoint envs (ks : list kind) : list (list val) :=
  match ks with
  | [] => [[]]
  | T :: r => flat_map (fun w => [Null :: w; Full :: w]) (envs r)
  | O :: r => flat_map (fun w => [Null :: w; Hollow :: w; Full :: w]) (envs r)
  end.

Lemma pad_in ks : forall env, In (pad ks env) (envs ks).
Proof.
  induction ks as [|k r IH]; intros env; [now left|].
  destruct env as [|v w]; cbn [pad envs]; destruct k; apply in_flat_map.
  - exists (pad r []). split; [apply IH | right; now left].
  - exists (pad r []). split; [apply IH | right; right; now left].
  - exists (pad r w). split; [apply IH|]. destruct v; [now left | right; now left | right; now left].
  - exists (pad r w). split; [apply IH|]. destruct v; [now left | right; now left | right; right; now left].
Qed.

Lemma pad_pad ks : forall env, pad ks (pad ks env) = pad ks env.
Proof.
  induction ks as [|k r IH]; intros env; [reflexivity|].
  destruct env as [|v w]; cbn [pad].
  - f_equal; [destruct k; reflexivity | apply IH].
  - f_equal; [destruct k, v; reflexivity | apply IH].
Qed.

Lemma sem_pad dbg n f x env : find_fn f = Some x -> sem dbg n f (pad (fkinds x) env) = sem dbg n f env.
Proof. intros E. destruct n; [reflexivity|]. cbn [sem]. rewrite E, pad_pad. reflexivity. Qed.

(** Outcomes only depend on those of the functions called. *)
Lemma exec_ext dbg c1 c2 env : (forall f w, c1 f w = c2 f w) -> forall a, exec dbg c1 env a = exec dbg c2 env a.
Proof.
  intros E. induction a; cbn [exec]; try reflexivity; try congruence.
  - destruct (getv env i); congruence.
  - destruct dbg; congruence.
  - destruct (argvs env l); [apply E | reflexivity].
Qed.

Definition outs_eqb (a b : outs) : bool :=
  Bool.eqb (o_fall a) (o_fall b) && Bool.eqb (o_ret a) (o_ret b) && Bool.eqb (o_stop a) (o_stop b) &&
  Bool.eqb (o_other a) (o_other b) && Bool.eqb (o_undef a) (o_undef b).

Lemma outs_eqb_ok a b : outs_eqb a b = true -> a = b.
Proof.
  destruct a, b. unfold outs_eqb. cbn. rewrite !andb_true_iff, !Bool.eqb_true_iff. intros [[[[? ?] ?] ?] ?].
  now subst.
Qed.

Definition depth : nat := 7.

Definition stable (dbg : bool) : bool :=
  forallb (fun x => forallb (fun e => outs_eqb (sem dbg depth (fname x) e) (sem dbg (S depth) (fname x) e))
                            (envs (fkinds x))) library.

Lemma stable_debug : stable true = true.
Proof. vm_compute. reflexivity. Qed.
Lemma stable_release : stable false = true.
Proof. vm_compute. reflexivity. Qed.

Lemma find_fn_name f x : find_fn f = Some x -> fname x = f /\ In x library.
Proof. intros E. apply find_some in E. destruct E as [I E]. apply String.eqb_eq in E. auto. Qed.

Lemma names_find : forall x, In x library -> find_fn (fname x) = Some x.
Proof.
  assert (H : Forall (fun x => find_fn (fname x) = Some x) library).
  { repeat (apply Forall_cons; [vm_compute; reflexivity|]). apply Forall_nil. }
  rewrite Forall_forall in H. exact H.
Qed.

Lemma step_stable dbg f env : sem dbg depth f env = sem dbg (S depth) f env.
Proof.
  destruct (find_fn f) as [x|] eqn:E.
  - destruct (find_fn_name _ _ E) as [N I].
    rewrite <- (sem_pad dbg depth f x env E), <- (sem_pad dbg (S depth) f x env E).
    assert (H : stable dbg = true) by (destruct dbg; [exact stable_debug | exact stable_release]).
    unfold stable in H. rewrite forallb_forall in H. specialize (H x I). rewrite forallb_forall in H.
    specialize (H _ (pad_in (fkinds x) env)). rewrite N in H. now apply outs_eqb_ok.
  - unfold depth. cbn [sem]. rewrite E. reflexivity.
Qed.

Lemma sem_depth dbg : forall n f env, depth <= n -> sem dbg n f env = sem dbg depth f env.
Proof.
  intros n. induction n as [|n IH]; intros f env L; [unfold depth in L; lia|].
  destruct (Nat.eq_dec (S n) depth) as [->|D]; [reflexivity|].
  rewrite (step_stable dbg f env). cbn [sem].
  destruct (find_fn f) as [x|]; [|reflexivity]. f_equal. apply exec_ext. intros g w. apply IH. lia.
Qed.

(** More calls allowed, more outcomes. *)
Definition sub (a b : outs) : Prop :=
  (o_fall a = true -> o_fall b = true) /\ (o_ret a = true -> o_ret b = true) /\
  (o_stop a = true -> o_stop b = true) /\ (o_other a = true -> o_other b = true) /\
  (o_undef a = true -> o_undef b = true).

Lemma sub_refl a : sub a a.
Proof. unfold sub. tauto. Qed.

Lemma andthen_sub a b a' b' : sub a a' -> sub b b' -> sub (andthen a b) (andthen a' b').
Proof.
  unfold sub, andthen. intros (A & B & C & D & E) (A' & B' & C' & D' & E').
  destruct (o_fall a) eqn:F.
  - rewrite (A eq_refl). cbn. rewrite !orb_true_iff. tauto.
  - destruct (o_fall a') eqn:F'; cbn; rewrite ?orb_true_iff, ?F; intuition congruence.
Qed.

Lemma join_sub a b a' b' : sub a a' -> sub b b' -> sub (join a b) (join a' b').
Proof. unfold sub, join. cbn. rewrite !orb_true_iff. tauto. Qed.

Lemma exec_sub dbg c1 c2 env : (forall f w, sub (c1 f w) (c2 f w)) ->
  forall a, sub (exec dbg c1 env a) (exec dbg c2 env a).
Proof.
  intros E. induction a; cbn [exec]; try apply sub_refl.
  - now apply andthen_sub.
  - now apply join_sub.
  - destruct (getv env i); assumption.
  - destruct dbg; [assumption | apply sub_refl].
  - destruct (argvs env l); [apply E | apply sub_refl].
Qed.

Lemma finish_sub a b : sub a b -> sub (finish a) (finish b).
Proof. unfold sub, finish. cbn. rewrite !orb_true_iff. intuition congruence. Qed.

Lemma sem_sub dbg : forall n f env, sub (sem dbg n f env) (sem dbg (S n) f env).
Proof.
  induction n as [|n IH]; intros f env.
  - unfold sub. cbn. intuition discriminate.
  - change (sub (sem dbg (S n) f env) (match find_fn f with None => undef | Some x =>
      finish (exec dbg (sem dbg (S n)) (pad (fkinds x) env) (fbody x)) end)).
    cbn [sem]. destruct (find_fn f); [|apply sub_refl].
    apply finish_sub, exec_sub. intros g w. apply IH.
Qed.

Lemma sub_trans a b c : sub a b -> sub b c -> sub a c.
Proof. unfold sub. tauto. Qed.

Lemma sem_le dbg n m f env : n <= m -> sub (sem dbg n f env) (sem dbg m f env).
Proof. induction 1 as [|m L IH]; [apply sub_refl | eapply sub_trans; [exact IH | apply sem_sub]]. Qed.

Lemma has_sub a b x : sub a b -> has a x = true -> has b x = true.
Proof. unfold sub. destruct x; cbn; tauto. Qed.

Lemma may_depth dbg f env x : may dbg f env x <-> has (sem dbg depth f env) x = true.
Proof.
  split; [intros [n H] | intros H; now exists depth].
  destruct (le_lt_dec depth n) as [L|L].
  - now rewrite <- (sem_depth dbg n f env L).
  - eapply has_sub; [|exact H]. apply sem_le. lia.
Qed.

(** ** Deciding for all functions and all arguments *)
Definition all_calls (dbg : bool) (test : fn -> list val -> outs -> bool) : bool :=
  forallb (fun x => forallb (fun e => test x e (sem dbg depth (fname x) e)) (envs (fkinds x))) library.

Lemma all_calls_ok dbg test : all_calls dbg test = true -> forall x env, In x library ->
  test x (pad (fkinds x) env) (sem dbg depth (fname x) env) = true.
Proof.
  intros H x env I. unfold all_calls in H. rewrite forallb_forall in H. specialize (H x I).
  rewrite forallb_forall in H. specialize (H _ (pad_in (fkinds x) env)).
  now rewrite (sem_pad dbg depth (fname x) x env (names_find x I)) in H.
Qed.

Lemma nth_pad_null ks : forall env i, i < List.length ks -> nth_error env i = Some Null -> nth_error (pad ks env) i = Some Null.
Proof.
  induction ks as [|k r IH]; intros env i L H; [inversion L|].
  destruct env as [|v w]; [destruct i; discriminate|]. destruct i as [|i]; cbn [nth_error pad] in *.
  - injection H as ->. now destruct k.
  - apply IH; [cbn in L; lia | exact H].
Qed.

(** A NULL in the cut list of values was there before. *)
Lemma nth_pad_null_inv ks : forall env i, nth_error (pad ks env) i = Some Null -> nth_error env i = Some Null.
Proof.
  induction ks as [|k r IH]; intros env i H; [destruct i; discriminate|].
  destruct env as [|v w], i as [|i]; cbn [nth_error pad] in *; try discriminate.
  - exfalso. apply IH in H. destruct i; discriminate.
  - destruct k, v; cbn in H; congruence || discriminate.
  - now apply IH.
Qed.

Lemma nth_pad_hollow_inv ks : forall env i, nth_error (pad ks env) i = Some Hollow -> nth_error env i = Some Hollow.
Proof.
  induction ks as [|k r IH]; intros env i H; [destruct i; discriminate|].
  destruct env as [|v w], i as [|i]; cbn [nth_error pad] in *; try discriminate.
  - exfalso. apply IH in H. destruct i; discriminate.
  - destruct k, v; cbn in H; congruence || discriminate.
  - now apply IH.
Qed.

Fixpoint anyi (i : nat) (p : nat -> val -> bool) (e : list val) : bool :=
  match e with [] => false | v :: w => p i v || anyi (S i) p w end.

Lemma anyi_false p : forall e i, anyi i p e = false <-> forall j v, nth_error e j = Some v -> p (i + j) v = false.
Proof.
  induction e as [|v w IH]; intros i; cbn [anyi].
  - split; [intros _ [|j] v H; discriminate | reflexivity].
  - rewrite orb_false_iff, IH. split.
    + intros [A B] [|j] u H; cbn in H; [injection H as <-; now rewrite Nat.add_0_r|].
      replace (i + S j) with (S i + j) by lia. now apply B.
    + intros H. split; [specialize (H 0 v eq_refl); now rewrite Nat.add_0_r in H|].
      intros j u E. replace (S i + j) with (i + S j) by lia. now apply H.
Qed.
