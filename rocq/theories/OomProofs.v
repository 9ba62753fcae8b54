(** Refused requests for memory: what any program does when the C library returns NULL. *)
From Coq Require Import List ZArith Bool Lia.
From Verif Require Import Base BaseFacts HeapModel AllocModel AllocSpec AllocProofs AllocMain VecModel PlistModel StrModel StrSpec
  ContModel ContSpec ContProofs ContMain DbgProofs.
Import ListNotations.
Open Scope Z_scope.

(** [p], but the requests with the numbers in [f] are refused. *)
Definition refusing (f : nat -> bool) (p : policy) : policy :=
  mk_policy (fun n l => if f n then 0 else choose p n l) (fun n => negb (f n) && stay p n).
(** Some request with a number from [c] up to [d] is refused. *)
Definition refused (f : nat -> bool) (c d : nat) : bool := existsb f (seq c (d - c)).

Lemma refused_same f c : refused f c c = false.
Proof. unfold refused. now rewrite Nat.sub_diag. Qed.
Lemma refused_one f c : refused f c (S c) = f c.
Proof. unfold refused. replace (S c - c)%nat with 1%nat by lia. cbn. now rewrite orb_false_r. Qed.
Lemma refused_split f c d e : (c <= d <= e)%nat -> refused f c e = refused f c d || refused f d e.
Proof.
  intros H. unfold refused. replace (e - c)%nat with ((d - c) + (e - d))%nat by lia. rewrite seq_app, existsb_app. now replace (c + (d - c))%nat with d by lia.
Qed.

(** [r] is what happens without refusals, [rf] with; [ck] counts the requests made so far. *)
Definition sched {A} (f : nat -> bool) (ck : A -> nat) (c : nat) (r rf : res A) : Prop :=
  match r with
  | Ok x => (c <= ck x)%nat /\ rf = (if refused f c (ck x) then Abort else Ok x)
  | _ => rf = Abort \/ rf = r
  end.
Lemma sched_bind {A B} f (ck1 : A -> nat) (ck2 : B -> nat) c r rf k kf :
  sched f ck1 c r rf -> (forall x, sched f ck2 (ck1 x) (k x) (kf x)) -> sched f ck2 c (bind r k) (bind rf kf).
Proof.
  intros H K. destruct r as [x| | |]; cbn [sched] in H; cbn [bind]; try (destruct H as [-> | ->]; cbn; auto).
  destruct H as [L ->]. specialize (K x). destruct (k x) as [y| | |]; cbn [sched] in *.
  - destruct K as [L2 E]. split; [lia|]. rewrite (refused_split f c (ck1 x) (ck2 y)) by lia. destruct (refused f c (ck1 x)); [reflexivity|]. cbn [bind orb]. exact E.
  - destruct (refused f c (ck1 x)); [now left|exact K].
  - destruct (refused f c (ck1 x)); [now left|exact K].
  - destruct (refused f c (ck1 x)); [now left|exact K].
Qed.
Lemma sched_pure {A B} f (ck : B -> nat) c (r : res A) k kf :
  (forall x, sched f ck c (k x) (kf x)) -> sched f ck c (bind r k) (bind r kf).
Proof. intros K. destruct r; cbn [bind]; [apply K|right; reflexivity..]. Qed.
Lemma sched_ok {A} f (ck : A -> nat) c x : ck x = c -> sched f ck c (Ok x) (Ok x).
Proof. intros <-. cbn. rewrite refused_same. auto. Qed.
Lemma sched_ub {A} f (ck : A -> nat) c : sched f ck c UB UB.
Proof. right. reflexivity. Qed.

Definition ck_s {A} (r : sys * A) : nat := s_clock (fst r).
Definition ck_sa {A} (r : sys * alc * A) : nat := s_clock (fst (fst r)).
Definition ck_m {A} (r : mem * A) : nat := s_clock (m_sys (fst r)).
Definition ck_w {A} (r : world * A) : nat := s_clock (m_sys (w_mem (fst r))).

Section Sched.
Variables (dbg : bool) (f : nat -> bool) (p : policy).
Hypothesis V : valid_policy p.
Let pf := refusing f p.

Lemma sd_calloc s n : sched f ck_s (s_clock s) (sys_calloc dbg p s n) (sys_calloc dbg pf s n).
Proof.
  unfold sys_calloc. apply sched_pure. intros b. cbn [pf refusing choose]. destruct (V (s_clock s) (addrs (s_heap s))) as [V0 _].
  rewrite (enforce_true (negb (choose p (s_clock s) (addrs (s_heap s)) =? 0))) by now apply nonzero. cbn [bind sched ck_s fst s_clock]. split; [lia|]. rewrite refused_one.
  destruct (f (s_clock s)); [reflexivity|]. rewrite enforce_true by now apply nonzero. reflexivity.
Qed.
Lemma sd_realloc s ptr n : sched f ck_s (s_clock s) (sys_realloc dbg p s ptr n) (sys_realloc dbg pf s ptr n).
Proof.
  unfold sys_realloc. apply sched_pure. intros _. destruct (hlookup (s_heap s) ptr) as [b|]; [|apply sched_ub]. apply sched_pure. intros b'. cbn [pf refusing choose stay]. destruct (V (s_clock s) (addrs (s_heap s))) as [V0 _].
  set (a := if stay p (s_clock s) then ptr else _). destruct (Z.eq_dec a 0) as [A0|A0].
  - rewrite A0. cbn [enforce negb Z.eqb bind sched]. left. destruct (f (s_clock s)); [reflexivity|]. cbn [negb andb]. fold a. now rewrite A0.
  - rewrite (enforce_true (negb (a =? 0))) by now apply nonzero.
    cbn [bind sched ck_s fst s_clock]. split; [lia|]. rewrite refused_one. destruct (f (s_clock s)); [reflexivity|]. cbn [negb andb]. fold a.
    rewrite enforce_true by now apply nonzero. reflexivity.
Qed.

Lemma sd_resize s a n : sched f ck_s (s_clock s) (obj_list_resize dbg p s a n) (obj_list_resize dbg pf s a n).
Proof. unfold obj_list_resize. apply sched_pure. intros _. eapply sched_bind; [apply sd_realloc|]. intros r. now apply sched_ok. Qed.
Lemma sd_add s a e : sched f ck_s (s_clock s) (obj_list_add dbg p s a e) (obj_list_add dbg pf s a e).
Proof.
  unfold obj_list_add. apply sched_pure. intros _. eapply sched_bind; [destruct (negb (obj_list_has_space a)); [apply sd_resize|now apply sched_ok]|].
  intros r. apply sched_pure. intros t. now apply sched_ok.
Qed.
Lemma sd_alloc s a n : sched f ck_sa (s_clock s) (mallocator_alloc dbg p s a n) (mallocator_alloc dbg pf s a n).
Proof.
  unfold mallocator_alloc. apply sched_pure. intros _. eapply sched_bind; [apply sd_calloc|]. intros r. eapply sched_bind; [apply sd_add|]. intros r'. now apply sched_ok.
Qed.
Lemma sd_mrealloc s a ptr n : sched f ck_sa (s_clock s) (mallocator_realloc dbg p s a ptr n) (mallocator_realloc dbg pf s a ptr n).
Proof.
  unfold mallocator_realloc. do 3 (apply sched_pure; intros ?). eapply sched_bind; [apply sd_realloc|]. intros r. eapply sched_bind; [apply sd_add|]. intros r'. now apply sched_ok.
Qed.
Lemma sd_create s : sched f ck_s (s_clock s) (mallocator_create dbg p s) (mallocator_create dbg pf s).
Proof. unfold mallocator_create. eapply sched_bind; [apply sd_calloc|]. intros r. eapply sched_bind; [apply sd_calloc|]. intros r'. now apply sched_ok. Qed.

Lemma free_clock s ptr s' : sys_free s ptr = Ok s' -> s_clock s' = s_clock s.
Proof. unfold sys_free. destruct (ptr =? 0); [congruence|]. destruct (hlookup _ _); [|discriminate]. now intros [= <-]. Qed.
Lemma mfree_clock s a ptr r : mallocator_free dbg s a ptr = Ok r -> s_clock (fst r) = s_clock s.
Proof.
  unfold mallocator_free. destruct (dassert _ _); try discriminate. destruct (obj_list_remove _ _ _) as [ro| | |]; try discriminate. cbn [bind].
  destruct (sys_free s ptr) as [s'| | |] eqn:E; try discriminate. cbn [bind]. intros [= <-]. cbn. now apply free_clock in E.
Qed.
Lemma sched_free {A B} (r : res A) (ck : A -> nat) (ck2 : B -> nat) c k kf : (forall x, r = Ok x -> ck x = c) ->
  (forall x, sched f ck2 (ck x) (k x) (kf x)) -> sched f ck2 c (bind r k) (bind r kf).
Proof. intros H K. destruct r as [x| | |]; cbn [bind]; [|right; reflexivity..]. rewrite <- (H x eq_refl). apply K. Qed.

(** The allocator's interface. *)
Lemma sd_client_step st o : sched f ck_sa (ck_sa st) (client_step dbg p st o) (client_step dbg pf st o).
Proof.
  destruct st as [[s a] c]. unfold ck_sa at 2. cbn [fst]. destruct o as [n|k n|k]; cbn [client_step].
  - destruct (sane n); [|now apply sched_ok]. eapply sched_bind; [apply sd_alloc|]. intros [[s' a'] q]. now apply sched_ok.
  - destruct (nth_error (blocks c) k) as [[ptr old]|]; [|now apply sched_ok]. destruct (sane n); [|now apply sched_ok]. eapply sched_bind; [apply sd_mrealloc|]. intros [[s' a'] q]. now apply sched_ok.
  - destruct (nth_error (blocks c) k) as [[ptr old]|]; [|now apply sched_ok].
    eapply (sched_free _ (fun r => s_clock (fst r))); [intros x E; exact (mfree_clock _ _ _ _ E)|]. intros x. now apply sched_ok.
Qed.
Lemma sd_client_run ops : forall st, sched f ck_sa (ck_sa st) (client_run dbg p st ops) (client_run dbg pf st ops).
Proof. induction ops as [|o ops IH]; intros st; cbn [client_run]; [now apply sched_ok|]. eapply sched_bind; [apply sd_client_step|]. intros x. apply IH. Qed.
Lemma sd_session h0 ops : sched f ck_sa 0 (session dbg p h0 ops) (session dbg pf h0 ops).
Proof. unfold session. eapply sched_bind; [exact (sd_create (mk_sys h0 0))|]. intros r. exact (sd_client_run ops (fst r, snd r, client0)). Qed.

(** Containers. *)
Lemma sd_m_alloc m u n : sched f ck_m (s_clock (m_sys m)) (m_alloc dbg p m u n) (m_alloc dbg pf m u n).
Proof.
  unfold m_alloc. destruct u; [eapply sched_bind; [apply sd_alloc|]; intros [[s a] q]; now apply sched_ok|]. eapply sched_bind; [apply sd_calloc|]. intros r. now apply sched_ok.
Qed.
Lemma sd_m_realloc m u ptr n : sched f ck_m (s_clock (m_sys m)) (m_realloc dbg p m u ptr n) (m_realloc dbg pf m u ptr n).
Proof.
  unfold m_realloc. destruct u; [eapply sched_bind; [apply sd_mrealloc|]; intros [[s a] q]; now apply sched_ok|]. eapply sched_bind; [apply sd_realloc|]. intros r. now apply sched_ok.
Qed.
Lemma m_free_clock m u ptr m' : m_free dbg m u ptr = Ok m' -> s_clock (m_sys m') = s_clock (m_sys m).
Proof.
  unfold m_free. destruct u.
  - destruct (mallocator_free _ _ _ _) as [r| | |] eqn:E; try discriminate. cbn [bind]. intros [= <-]. exact (mfree_clock _ _ _ _ E).
  - destruct (sys_free _ _) as [r| | |] eqn:E; try discriminate. cbn [bind]. intros [= <-]. exact (free_clock _ _ _ E).
Qed.
Lemma destroy_clock m c m' : c_destroy dbg m c = Ok m' -> s_clock (m_sys m') = s_clock (m_sys m).
Proof.
  unfold c_destroy. destruct (m_free dbg m (h_use c) (h_ptr c)) as [m1| | |] eqn:E; try discriminate. cbn [bind]. intros E2. apply m_free_clock in E, E2. congruence.
Qed.
Lemma sd_place m u x : sched f ck_m (s_clock (m_sys m)) (c_place dbg p m u x) (c_place dbg pf m u x).
Proof. unfold c_place. eapply sched_bind; [apply sd_m_alloc|]. intros r. eapply sched_bind; [apply sd_m_alloc|]. intros r'. now apply sched_ok. Qed.
Lemma sd_put m c x al : sched f ck_m (s_clock (m_sys m)) (c_put dbg p m c x al) (c_put dbg pf m c x al).
Proof.
  unfold c_put. destruct (hlookup (m_heap m) (h_ptr c)) as [b|]; [|apply sched_ub]. eapply sched_bind; [destruct (al || _); [apply sd_m_realloc|now apply sched_ok]|]. intros r. now apply sched_ok.
Qed.
Lemma sd_insertf m c i z : sched f ck_m (s_clock (m_sys m)) (c_insertf dbg p m c i z) (c_insertf dbg pf m c i z).
Proof.
  unfold c_insertf. apply sched_pure. intros t. eapply sched_bind; [apply sd_place|]. intros r. apply sched_pure. intros t'. eapply sched_bind; [apply sd_put|]. intros r'.
  apply sched_pure. intros z'. apply sched_pure. intros x. destruct x as [|?|s]; try apply sched_ub. apply sched_pure. intros s'. eapply sched_bind; [apply sd_put|]. intros r2.
  eapply (sched_free _ (fun m' => s_clock (m_sys m'))); [intros x E; exact (destroy_clock _ _ _ E)|]. intros x. now apply sched_ok.
Qed.
Lemma sd_new w c r rf : sched f ck_m c r rf -> sched f ck_w c (w_new w r) (w_new w rf).
Proof. intros H. unfold w_new. eapply sched_bind; [exact H|]. intros x. now apply sched_ok. Qed.
Lemma sd_upd w i c r rf q : sched f ck_m c r rf -> sched f ck_w c (w_upd w i r q) (w_upd w i rf q).
Proof. intros H. unfold w_upd. eapply sched_bind; [exact H|]. intros x. now apply sched_ok. Qed.

Lemma sd_step w o : sched f ck_w (s_clock (m_sys (w_mem w))) (wstep dbg p w o) (wstep dbg pf w o).
Proof.
  unfold wstep. destruct o.
  - apply sched_pure. intros v. apply sd_new, sd_place.
  - apply sched_pure. intros v. apply sd_new, sd_place.
  - apply sched_pure. intros v. apply sd_new, sd_place.
  - apply sched_pure. intros v. apply sd_new, sd_place.
  - apply sched_pure. intros v. apply sd_new, sd_place.
  - eapply sched_bind; [apply sd_m_alloc|]. intros r. apply sched_pure. intros s. eapply sched_bind; [exact (sd_m_alloc (m_store (fst r) (snd r) _) use array_size)|]. intros h. apply sd_new. now apply sched_ok.
  - apply sched_pure. intros c. apply sched_pure. intros x. destruct x; apply sched_pure; intros y; apply sd_new, sd_place.
  - apply sched_pure. intros c. eapply (sched_free _ (fun m' => s_clock (m_sys m'))); [intros x E; exact (destroy_clock _ _ _ E)|]. intros x. now apply sched_ok.
  - apply sched_pure. intros c. apply sched_pure. intros x. destruct x; try apply sched_ub. apply sched_pure. intros r. apply sd_upd, sd_put.
  - apply sched_pure. intros c. apply sched_pure. intros x. destruct x; try apply sched_ub. apply sched_pure. intros r. apply sd_upd, sd_put.
  - apply sched_pure. intros c. destruct (long_insert o) as [[at_ txt]|]; [apply sd_upd, sd_insertf|]. apply sched_pure. intros x. destruct x; try apply sched_ub. apply sched_pure. intros r. apply sd_upd, sd_put.
  - do 4 (apply sched_pure; intros ?). destruct x2, x0; try apply sched_ub. do 4 (apply sched_pure; intros ?). apply sd_upd, sd_put.
  - do 4 (apply sched_pure; intros ?). destruct x2, x0; try apply sched_ub. destruct (Nat.eqb i j); [apply sched_ub|]. do 2 (apply sched_pure; intros ?). apply sd_upd, sd_put.
Qed.
Lemma sd_run ops : forall w, sched f ck_w (s_clock (m_sys (w_mem w))) (wrun dbg p w ops) (wrun dbg pf w ops).
Proof.
  induction ops as [|o ops IH]; intros w; cbn [wrun]; [now apply sched_ok|]. eapply sched_bind; [apply sd_step|]. intros x. eapply sched_bind; [apply (IH (fst x))|]. intros y. now apply sched_ok.
Qed.
Lemma sd_program h0 ops : sched f ck_w 0 (program dbg p h0 ops) (program dbg pf h0 ops).
Proof.
  unfold program, wstart. eapply (sched_bind f (fun w => s_clock (m_sys (w_mem w)))); [eapply sched_bind; [exact (sd_create (mk_sys h0 0))|]; intros r; now apply sched_ok|]. intros w. apply sd_run.
Qed.
End Sched.

(** Any allocator that may refuse requests. *)
Definition may_refuse (p : policy) : Prop := forall n l, choose p n l = 0 \/ ~ In (choose p n l) l.
(** The same, but never refusing. *)
Definition rescue (p : policy) : policy :=
  mk_policy (fun n l => if choose p n l =? 0 then 1 + fold_right Z.max 0 l else choose p n l) (stay p).

Lemma above l x : In x l -> x <= fold_right Z.max 0 l.
Proof. induction l as [|y l IH]; [contradiction|]. intros [->|H]; cbn [fold_right]; [lia|]. specialize (IH H). lia. Qed.
Lemma max_pos l : 0 <= fold_right Z.max 0 l.
Proof. induction l; cbn [fold_right]; lia. Qed.
Lemma rescue_valid p : may_refuse p -> valid_policy (rescue p).
Proof.
  intros M n l. cbn [rescue choose]. destruct (Z.eqb_spec (choose p n l) 0) as [E|E].
  - pose proof (max_pos l). split; [lia|]. intros H1. apply above in H1. lia.
  - split; [exact E|]. destruct (M n l); [contradiction|assumption].
Qed.

Section Stops.
Variables (dbg : bool) (p : policy).
Let q := rescue p.
Create HintDb oom.
Ltac so := repeat (first [solve [auto 3 with oom nocore] | st1 | progress cbv beta zeta iota | progress cbn [fst snd]]).

Lemma so_calloc s n : stops (sys_calloc dbg p s n) (sys_calloc dbg q s n).
Proof.
  unfold sys_calloc. apply stops_bind; [apply stops_refl|]. intros b. cbn [q rescue choose]. destruct (choose p (s_clock s) (addrs (s_heap s)) =? 0) eqn:E; [left|right]; [reflexivity|now rewrite E].
Qed.
Lemma so_realloc s ptr n : stops (sys_realloc dbg p s ptr n) (sys_realloc dbg q s ptr n).
Proof.
  unfold sys_realloc. apply stops_bind; [apply stops_refl|]. intros _. destruct (hlookup _ _); [|apply stops_refl]. apply stops_bind; [apply stops_refl|]. intros b'. cbn [q rescue choose stay].
  destruct (stay p (s_clock s)); [apply stops_refl|]. destruct (choose p (s_clock s) (addrs (s_heap s)) =? 0) eqn:E; [left|right]; [reflexivity|now rewrite E].
Qed.
Hint Resolve so_calloc so_realloc : oom.
Lemma so_resize s a n : stops (obj_list_resize dbg p s a n) (obj_list_resize dbg q s a n).
Proof. unfold obj_list_resize. so. Qed.
Hint Resolve so_resize : oom.
Lemma so_add s a e : stops (obj_list_add dbg p s a e) (obj_list_add dbg q s a e).
Proof. unfold obj_list_add. so. Qed.
Hint Resolve so_add : oom.
Lemma so_alloc s a n : stops (mallocator_alloc dbg p s a n) (mallocator_alloc dbg q s a n).
Proof. unfold mallocator_alloc. so. Qed.
Lemma so_mrealloc s a ptr n : stops (mallocator_realloc dbg p s a ptr n) (mallocator_realloc dbg q s a ptr n).
Proof. unfold mallocator_realloc. so. Qed.
Lemma so_create s : stops (mallocator_create dbg p s) (mallocator_create dbg q s).
Proof. unfold mallocator_create. so. Qed.
Hint Resolve so_alloc so_mrealloc so_create : oom.
Lemma so_client_step st o : stops (client_step dbg p st o) (client_step dbg q st o).
Proof. unfold client_step. so. Qed.
Hint Resolve so_client_step : oom.
Lemma so_client_run ops : forall st, stops (client_run dbg p st ops) (client_run dbg q st ops).
Proof. induction ops as [|o ops IH]; intros st; cbn [client_run]; so. Qed.
Hint Resolve so_client_run : oom.
Lemma so_session h0 ops : stops (session dbg p h0 ops) (session dbg q h0 ops).
Proof. unfold session. so. Qed.
Lemma so_m_alloc m u n : stops (m_alloc dbg p m u n) (m_alloc dbg q m u n).
Proof. unfold m_alloc. so. Qed.
Lemma so_m_realloc m u ptr n : stops (m_realloc dbg p m u ptr n) (m_realloc dbg q m u ptr n).
Proof. unfold m_realloc. so. Qed.
Hint Resolve so_m_alloc so_m_realloc : oom.
Lemma so_place m u x : stops (c_place dbg p m u x) (c_place dbg q m u x).
Proof. unfold c_place. so. Qed.
Lemma so_put m c x al : stops (c_put dbg p m c x al) (c_put dbg q m c x al).
Proof. unfold c_put. so. Qed.
Hint Resolve so_place so_put : oom.
Lemma so_insertf m c i z : stops (c_insertf dbg p m c i z) (c_insertf dbg q m c i z).
Proof. unfold c_insertf. so. Qed.
Hint Resolve so_insertf : oom.
Lemma so_new w r rf : stops r rf -> stops (w_new w r) (w_new w rf).
Proof. intros H. unfold w_new. apply stops_bind; [exact H|]. intros. apply stops_refl. Qed.
Lemma so_upd w i r rf o : stops r rf -> stops (w_upd w i r o) (w_upd w i rf o).
Proof. intros H. unfold w_upd. apply stops_bind; [exact H|]. intros. apply stops_refl. Qed.
Hint Resolve so_new so_upd : oom.
Lemma so_step w o : stops (wstep dbg p w o) (wstep dbg q w o).
Proof. unfold wstep. so. Qed.
Hint Resolve so_step : oom.
Lemma so_run ops : forall w, stops (wrun dbg p w ops) (wrun dbg q w ops).
Proof. induction ops as [|o ops IH]; intros w; cbn [wrun]; so. Qed.
Hint Resolve so_run : oom.
Lemma so_program h0 ops : stops (program dbg p h0 ops) (program dbg q h0 ops).
Proof. unfold program, wstart. so. Qed.
End Stops.

(** [p] and what it does when it does not refuse, seen by anyone that may refuse. *)
Lemma oom_program dbg p h0 ops st outs : may_refuse p -> start_heap h0 -> zlen ops <= op_limit -> arun [] ops = Some (st, outs) ->
  program dbg p h0 ops = Abort \/ exists w, program dbg p h0 ops = Ok (w, outs) /\ program dbg (rescue p) h0 ops = Ok (w, outs).
Proof.
  intros M S L R. destruct (program_exact dbg (rescue p) h0 ops st outs (rescue_valid p M) S L R) as (w & E & _).
  destruct (so_program dbg p h0 ops) as [H|H]; [now left|]. right. exists w. rewrite H. auto.
Qed.
