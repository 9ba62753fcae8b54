(** C177: threads. *)
From Verif Require Import Base BaseFacts NumModel DtModel ThreadModel.
From Coq Require Import Lia.

(** A call by itself: other properties are about these results. *)
Definition alone (off now : Z) (seed : option Z) (c : call) : option Z * answer :=
  match c with
  | CDate secs => (seed, ADate (from_secs off secs))
  | CRandom => (fst (random_u64 seed now), ARandom (snd (random_u64 seed now)))
  end.
(** Whole calls in the order of a schedule: thread [i] makes its next call. *)
Fixpoint calls (off now : Z) (seed : option Z) (ps : list (list call * list answer)) (sched : list nat) : option Z * list (list call * list answer) :=
  match sched with
  | [] => (seed, ps)
  | i :: sched =>
      match nth_error ps i with
      | Some (c :: rest, out) => let r := alone off now seed c in calls off now (fst r) (update ps i (rest, out ++ [snd r])) sched
      | _ => calls off now seed ps sched
      end
  end.
Definition twice (sched : list nat) : list nat := flat_map (fun i => [i; i]) sched.
Definition idle (p : list call * list answer) : thread := mk_thread (fst p) None (snd p).

Lemma nth_update {A} (l : list A) i x y : nth_error l i = Some y -> nth_error (update l i x) i = Some x.
Proof. revert i. induction l as [|z l IH]; intros [|i] H; cbn in *; try discriminate; auto. Qed.
Lemma update_twice {A} (l : list A) i x y : update (update l i x) i y = update l i y.
Proof. revert i. induction l as [|z l IH]; intros [|i]; cbn; auto. now rewrite IH. Qed.
Lemma update_same {A} (l : list A) i x : nth_error l i = Some x -> update l i x = l.
Proof. revert i. induction l as [|z l IH]; intros [|i] H; cbn in *; try discriminate; [now injection H as ->|]. now rewrite IH. Qed.
Lemma map_update {A B} (f : A -> B) l i x : map f (update l i x) = update (map f l) i (f x).
Proof. revert i. induction l as [|z l IH]; intros [|i]; cbn; auto. now rewrite IH. Qed.

Lemma random_seed seed now : random_u64 (Some match seed with Some x => x | None => now end) now = random_u64 seed now.
Proof. destruct seed; reflexivity. Qed.

Lemma run_serial off now sched : forall s ps, exists m,
  run off now s (map idle ps) (twice sched) = (mk_shared m (fst (calls off now (sh_seed s) ps sched)), map idle (snd (calls off now (sh_seed s) ps sched))).
Proof.
  induction sched as [|i sched IH]; intros s ps; [exists (sh_tm s); destruct s; reflexivity|].
  cbn [twice flat_map app]. fold (twice sched). cbn [run calls]. rewrite nth_error_map.
  destruct (nth_error ps i) as [(todo, out)|] eqn:E; cbn [option_map].
  2:{ exact (IH s ps). }
  assert (nth_error (map idle ps) i = Some (idle (todo, out))) as E' by (rewrite nth_error_map, E; reflexivity).
  destruct todo as [|[secs|] rest].
  - cbn [step idle fst snd th_todo th_mid th_out] in *. rewrite (update_same _ _ _ E'), E'. cbn [step idle fst snd th_todo th_mid th_out].
    rewrite (update_same _ _ _ E'). exact (IH s ps).
  - cbn [step idle fst snd th_todo th_mid th_out] in *. rewrite (nth_update _ _ _ _ E'). cbn [step idle fst snd th_todo th_mid th_out sh_tm sh_seed].
    rewrite update_twice. change (mk_thread rest None (out ++ [ADate (tm_to_vdt (localtime off secs))])) with (idle (rest, out ++ [ADate (from_secs off secs)])).
    rewrite <- map_update. cbn [alone fst snd].
    destruct (IH (mk_shared (localtime off secs) (sh_seed s)) (update ps i (rest, out ++ [ADate (from_secs off secs)]))) as (m & Em). exists m. exact Em.
  - cbn [step idle fst snd th_todo th_mid th_out] in *. rewrite (nth_update _ _ _ _ E'). cbn [step idle fst snd th_todo th_mid th_out sh_tm sh_seed].
    rewrite random_seed, update_twice. 
    change (mk_thread rest None (out ++ [ARandom (snd (random_u64 (sh_seed s) now))])) with (idle (rest, out ++ [ARandom (snd (random_u64 (sh_seed s) now))])).
    rewrite <- map_update. cbn [alone fst snd].
    destruct (IH (mk_shared (sh_tm s) (fst (random_u64 (sh_seed s) now))) (update ps i (rest, out ++ [ARandom (snd (random_u64 (sh_seed s) now))]))) as (m & Em). exists m. exact Em.
Qed.

(** ** C177 Threads do not disturb each other *)
(** Full statement: in every order of the steps of several threads each thread gets from
    vt_datetime_from_secs (and the functions that ask for the time, among them every log record) the
    date of its own time, and from vt_math_random_u64 a number of its own.  False: a thread gets the
    date another one asked for ... *)
Theorem C177_date_refuted : forall off now s t1 t2,
  map th_out (snd (run off now s [start [CDate t1]; start [CDate t2]] [0%nat; 1%nat; 0%nat; 1%nat])) =
    [[ADate (from_secs off t2)]; [ADate (from_secs off t2)]].
Proof. reflexivity. Qed.
Print Assumptions C177_date_refuted.
(** ... and two threads get the same number and the seed advances only once. *)
Theorem C177_random_refuted : forall off now s,
  let r := run off now s [start [CRandom]; start [CRandom]] [0%nat; 1%nat; 0%nat; 1%nat] in
  let u := random_u64 (sh_seed s) now in
  map th_out (snd r) = [[ARandom (snd u)]; [ARandom (snd u)]] /\ sh_seed (fst r) = fst u.
Proof. intros off now (m, [x|]); split; reflexivity. Qed.
Print Assumptions C177_random_refuted.

(** What holds: if calls do not overlap (a lock around them), every call gives what it gives by
    itself, ... *)
Theorem C177_serial_partial : forall off now s todos sched,
  let r := run off now s (map start todos) (twice sched) in
  let q := calls off now (sh_seed s) (map (fun todo => (todo, [])) todos) sched in
  map th_out (snd r) = map snd (snd q) /\ sh_seed (fst r) = fst q.
Proof.
  intros off now s todos sched r q.
  destruct (run_serial off now sched s (map (fun todo => (todo, [])) todos)) as (m & E). rewrite map_map in E.
  change (fun x => idle (x, [])) with start in E. unfold r, q. rewrite E. cbn [fst snd sh_seed]. split; [|reflexivity].
  rewrite map_map. reflexivity.
Qed.
Print Assumptions C177_serial_partial.
(** ... and in every order a date comes from a time that some thread asked for. *)
Definition asked (todos : list (list call)) (v : vdt) (off : Z) : Prop := exists todo secs, In todo todos /\ In (CDate secs) todo /\ v = from_secs off secs.
Definition busy (t : thread) : Prop := th_mid t <> None /\ exists secs rest, th_todo t = CDate secs :: rest.
Definition okthread (off : Z) (todos : list (list call)) (t : thread) : Prop :=
  (exists todo, In todo todos /\ incl (th_todo t) todo) /\ Forall (fun a => match a with ADate v => asked todos v off | _ => True end) (th_out t).
Definition inv (off : Z) (todos : list (list call)) (s : shared) (ts : list thread) : Prop :=
  Forall (okthread off todos) ts /\ (Exists busy ts -> asked todos (tm_to_vdt (sh_tm s)) off).

Lemma Forall_update {A} (P : A -> Prop) l i x : Forall P l -> P x -> Forall P (update l i x).
Proof. intros F Px. revert i. induction F as [|y l Py F IH]; intros [|i]; cbn; constructor; auto. Qed.
Lemma Exists_update {A} (P : A -> Prop) l i x : Exists P (update l i x) -> P x \/ Exists P l.
Proof.
  revert i. induction l as [|y l IH]; intros [|i] H; cbn in H; try (now inversion H).
  - inversion H; subst; [now left|right; now right].
  - inversion H as [? ? Hy|? ? Hl]; subst; [right; now left|]. destruct (IH i Hl); [now left|right; now right].
Qed.

Lemma inv_step off now todos s ts i t : inv off todos s ts -> nth_error ts i = Some t ->
  inv off todos (fst (step off now s t)) (update ts i (snd (step off now s t))).
Proof.
  intros (F & B) E. pose proof (nth_error_In _ _ E) as I. pose proof (proj1 (Forall_forall _ _) F t I) as ((todo & I1 & I2) & O).
  unfold step. destruct (th_todo t) as [|[secs|] rest] eqn:Et; cbn [fst snd].
  - rewrite (update_same _ _ _ E). now split.
  - destruct (th_mid t) as [m|] eqn:Em; cbn [fst snd].
    + assert (asked todos (tm_to_vdt (sh_tm s)) off) as A. { apply B, Exists_exists. exists t. split; [exact I|]. split; [congruence|eauto]. }
      split; [|intros H; exact A]. apply Forall_update; [exact F|]. split; cbn [th_todo th_out].
      * exists todo. split; [exact I1|]. intros x Hx. apply I2. now right.
      * apply Forall_app. split; [exact O|]. constructor; [exact A|constructor].
    + assert (asked todos (tm_to_vdt (localtime off secs)) off) as A. { exists todo, secs. split; [exact I1|]. split; [apply I2; now left|reflexivity]. }
      split; [|intros _; exact A]. apply Forall_update; [exact F|]. split; cbn [th_todo th_out]; [|exact O]. exists todo. now split.
  - destruct (th_mid t) as [m|] eqn:Em; cbn [fst snd].
    + split.
      * apply Forall_update; [exact F|]. split; cbn [th_todo th_out].
        -- exists todo. split; [exact I1|]. intros x Hx. apply I2. now right.
        -- apply Forall_app. split; [exact O|]. now constructor.
      * intros H. cbn [sh_tm]. apply Exists_update in H as [(H & _)|H]; [now cbn in H|now apply B].
    + split.
      * apply Forall_update; [exact F|]. split; cbn [th_todo th_out]; [|exact O]. exists todo. now split.
      * intros H. cbn [sh_tm]. apply Exists_update in H as [(_ & secs & r & H)|H]; [cbn in H; discriminate|now apply B].
Qed.
Lemma inv_run off now todos sched : forall s ts, inv off todos s ts -> inv off todos (fst (run off now s ts sched)) (snd (run off now s ts sched)).
Proof.
  induction sched as [|i sched IH]; intros s ts H; [exact H|]. cbn [run].
  destruct (nth_error ts i) as [t|] eqn:E; [|now apply IH]. apply IH. now apply inv_step.
Qed.
Theorem C177_date_of_someone : forall off now s todos sched out v,
  In out (map th_out (snd (run off now s (map start todos) sched))) -> In (ADate v) out ->
  exists todo secs, In todo todos /\ In (CDate secs) todo /\ v = from_secs off secs.
Proof.
  intros off now s todos sched out v H Hv.
  assert (inv off todos s (map start todos)) as K.
  { split.
    - apply Forall_forall. intros t Ht. apply in_map_iff in Ht as (todo & <- & Ht). split; [exists todo; split; [exact Ht|apply incl_refl]|constructor].
    - intros H0. apply Exists_exists in H0 as (t & Ht & (N & _)). apply in_map_iff in Ht as (todo & <- & Ht). now cbn in N. }
  apply (inv_run off now todos sched) in K as (F & _). apply in_map_iff in H as (t & <- & Ht).
  pose proof (proj1 (Forall_forall _ _) F t Ht) as (_ & O). exact (proj1 (Forall_forall _ _) O _ Hv).
Qed.
Print Assumptions C177_date_of_someone.
(** One thread alone is not disturbed, whenever it runs. *)
Lemma run_one off now sched : forall s todo out, length sched = (2 * length todo)%nat -> Forall (fun i => i = 0%nat) sched ->
  run off now s [mk_thread todo None out] sched = run off now s [mk_thread todo None out] (twice (repeat 0%nat (length todo))).
Proof.
  intros s todo out L F. f_equal. clear - L F. revert sched L F. induction todo as [|c todo IH]; intros sched L F; [destruct sched; [reflexivity|discriminate]|].
  destruct sched as [|a [|b sched]]; try (cbn in L; lia). inversion F as [|x l -> F1]; subst. inversion F1 as [|x l -> F2]; subst.
  cbn [length repeat twice flat_map app]. f_equal. f_equal. apply IH; [cbn in L; lia|exact F2].
Qed.
Fixpoint answers (off now : Z) (seed : option Z) (todo : list call) : list answer :=
  match todo with [] => [] | c :: todo => snd (alone off now seed c) :: answers off now (fst (alone off now seed c)) todo end.
Theorem C177_one_thread : forall off now s todo sched, length sched = (2 * length todo)%nat -> Forall (fun i => i = 0%nat) sched ->
  map th_out (snd (run off now s [start todo] sched)) = [answers off now (sh_seed s) todo].
Proof.
  intros off now s todo sched L F. unfold start. rewrite (run_one off now sched s todo [] L F).
  destruct (run_serial off now (repeat 0%nat (length todo)) s [(todo, [])]) as (m & E). cbn [map] in E. change (idle (todo, [])) with (mk_thread todo None []) in E. rewrite E. cbn [snd]. rewrite map_map.
  enough (forall seed out, map snd (snd (calls off now seed [(todo, out)] (repeat 0%nat (length todo)))) = [out ++ answers off now seed todo]) as K by exact (K (sh_seed s) []).
  clear. induction todo as [|c todo IH]; intros seed out; [cbn; now rewrite app_nil_r|].
  cbn [length repeat calls nth_error update fst snd answers]. rewrite IH. now rewrite <- app_assoc.
Qed.
Print Assumptions C177_one_thread.
Example C177_example :
  map th_out (snd (run 0 1700000000 (mk_shared (localtime 0 0) None) [start [CDate 86400; CRandom]; start [CDate 0]] [0; 0; 1; 0; 1; 0]%nat)) =
    [[ADate (mk_vdt 1970 1 2 0 0 0 5 2); ARandom (snd (random_u64 None 1700000000))]; [ADate (mk_vdt 1970 1 1 0 0 0 4 1)]].
Proof. vm_compute. reflexivity. Qed.
