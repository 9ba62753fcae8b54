(** Properties of programs when the C library refuses requests for memory.  Statements
    only.  A policy says which addresses the C allocator returns, NULL for a refusal, and
    when realloc stays in place. *)
From Coq Require Import Lia.
From Verif Require Import Base BaseFacts HeapModel AllocModel AllocSpec AllocProofs AllocMain VecModel PlistModel StrModel StrSpec
  ContModel ContSpec ContProofs ContMain OomProofs PropsAlloc PropsHeap.

(** ** C181 Running out of memory *)
(** [refusing f p]: as [p], but the requests numbered in [f] are refused (a refused realloc
    neither moves nor stays).  [s_clock] counts the requests.  The program ends exactly if a
    request it makes is refused; else it does what it does with [p]. *)
Theorem C181_out_of_memory : forall dbg p f h0 ops st outs, valid_policy p -> start_heap h0 -> zlen ops <= op_limit ->
  arun [] ops = Some (st, outs) ->
  exists w, program dbg p h0 ops = Ok (w, outs) /\ let n := s_clock (m_sys (w_mem w)) in
    ((exists k, (k < n)%nat /\ f k = true) -> program dbg (refusing f p) h0 ops = Abort) /\
    ((forall k, (k < n)%nat -> f k = false) -> program dbg (refusing f p) h0 ops = Ok (w, outs)).
Proof.
  intros dbg p f h0 ops st outs V S L R. destruct (program_exact dbg p h0 ops st outs V S L R) as (w & E & _). exists w. split; [exact E|].
  pose proof (sd_program dbg f p V h0 ops) as H. rewrite E in H. cbn [sched] in H. destruct H as [_ H]. unfold ck_w in H. cbn [fst] in H. cbn zeta. unfold refused in H. rewrite Nat.sub_0_r in H.
  rewrite H. destruct (existsb f (seq 0 (s_clock (m_sys (w_mem w))))) eqn:X.
  - split; [reflexivity|]. intros F. apply existsb_exists in X as (k & K & T). apply in_seq in K. rewrite (F k) in T by lia. discriminate.
  - split; [|reflexivity]. intros (k & K & T). enough (existsb f (seq 0 (s_clock (m_sys (w_mem w)))) = true) by congruence. apply existsb_exists. exists k. split; [apply in_seq; lia|exact T].
Qed.
Print Assumptions C181_out_of_memory.

(** Whatever the allocator does: the program ends, or every container has the value and
    every call the result it would have in a world of unlimited memory.  In no case is a
    refused block used. *)
Theorem C181_any_allocator : forall dbg p h0 ops st outs, may_refuse p -> start_heap h0 -> zlen ops <= op_limit ->
  arun [] ops = Some (st, outs) ->
  program dbg p h0 ops = Abort \/
  exists w, program dbg p h0 ops = Ok (w, outs) /\ length (w_objs w) = length st /\
    forall i, match get st i with
              | Some (u, v) => exists c x, w_get w i = Ok c /\ h_use c = u /\ c_load (w_mem w) c = Ok x /\ displays dbg v x
              | None => w_get w i = UB
              end.
Proof.
  intros dbg p h0 ops st outs M S L R. destruct (oom_program dbg p h0 ops st outs M S L R) as [H|(w & H & E)]; [now left|]. right. exists w. split; [exact H|].
  destruct (C101_independent_values dbg (rescue p) h0 ops st outs (rescue_valid p M) S L R) as (w' & E' & Q). rewrite E in E'. injection E' as <-. exact Q.
Qed.
Print Assumptions C181_any_allocator.

(** The allocator's interface alone (alloc, realloc, free in any order). *)
Theorem C181_allocator_calls : forall dbg p f h0 ops, valid_policy p -> start_heap h0 -> zlen ops <= call_limit ->
  exists s a c, session dbg p h0 ops = Ok (s, a, c) /\
    ((exists k, (k < s_clock s)%nat /\ f k = true) -> session dbg (refusing f p) h0 ops = Abort) /\
    ((forall k, (k < s_clock s)%nat -> f k = false) -> session dbg (refusing f p) h0 ops = Ok (s, a, c)).
Proof.
  intros dbg p f h0 ops V S L. destruct (session_good dbg p h0 ops V S L) as (s & a & c & T & E & _). exists s, a, c. split; [exact E|].
  pose proof (sd_session dbg f p V h0 ops) as H. rewrite E in H. cbn [sched] in H. destruct H as [_ H]. unfold ck_sa in H. cbn [fst] in H. unfold refused in H. rewrite Nat.sub_0_r in H.
  rewrite H. destruct (existsb f (seq 0 (s_clock s))) eqn:X.
  - split; [reflexivity|]. intros F. apply existsb_exists in X as (k & K & W). apply in_seq in K. rewrite (F k) in W by lia. discriminate.
  - split; [|reflexivity]. intros (k & K & W). enough (existsb f (seq 0 (s_clock s)) = true) by congruence. apply existsb_exists. exists k. split; [apply in_seq; lia|exact W].
Qed.
Print Assumptions C181_allocator_calls.

(** The program makes 23 requests; refusing any one of them ends the program, refusing
    later ones changes nothing. *)
Example C181_example :
  (exists w outs, program true bump ex_heap ex_prog = Ok (w, outs) /\ s_clock (m_sys (w_mem w)) = 23%nat) /\
  forallb (fun k => match program true (refusing (Nat.eqb k) bump) ex_heap ex_prog with Abort => true | _ => false end) (seq 0 23) = true /\
  (exists w outs, program true (refusing (Nat.leb 23) bump) ex_heap ex_prog = Ok (w, outs)).
Proof. split; [do 2 eexists; split; vm_compute; reflexivity|]. split; [vm_compute; reflexivity|]. do 2 eexists. vm_compute. reflexivity. Qed.
