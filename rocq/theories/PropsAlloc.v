(** Properties of the tracking allocator.  Statements only. *)
From Coq Require Import Permutation.
From Verif Require Import Base BaseFacts HeapModel AllocModel AllocSpec AllocProofs AllocMain.

(** A policy for the examples: the address after the largest live one; every second
    realloc moves. *)
Definition bump : policy :=
  mk_policy (fun _ l => 1 + fold_right Z.max 0 l) (fun n => Nat.even n).
(** One that reuses the smallest free address. *)
Fixpoint smallest (k : nat) (a : Z) (l : list Z) : Z :=
  match k with O => 1 + fold_right Z.max 0 l | S k' => if in_dec Z.eq_dec a l then smallest k' (a + 1) l else a end.
Definition reuse : policy := mk_policy (fun _ l => smallest 100 1 l) (fun n => false).

Lemma max_ge l x : In x l -> x <= fold_right Z.max 0 l.
Proof. induction l as [|y l IH]; cbn; [tauto|]. intros [->|H]; [lia|]. apply IH in H. lia. Qed.
Lemma max_nonneg l : 0 <= fold_right Z.max 0 l.
Proof. induction l; cbn; lia. Qed.
Lemma bump_valid : valid_policy bump.
Proof.
  intros n l. cbn [choose bump]. pose proof (max_nonneg l). split; [lia|].
  intros H1. apply max_ge in H1. lia.
Qed.
Lemma smallest_ok k : forall a l, 0 < a -> smallest k a l <> 0 /\ ~ In (smallest k a l) l.
Proof.
  induction k as [|k IH]; intros a l A; cbn [smallest].
  - apply (bump_valid 0%nat l).
  - destruct (in_dec Z.eq_dec a l); [apply IH; lia|]. split; [lia|auto].
Qed.
Lemma reuse_valid : valid_policy reuse.
Proof. intros n l. cbn [choose reuse]. apply smallest_ok. lia. Qed.

Definition ex_heap : heap := [(5, [Some 1; Some 2])].
Lemma ex_heap_ok : start_heap ex_heap.
Proof. split; [repeat constructor; intros []|]. cbn. lia. Qed.

(** 17 blocks, so that the object list grows; some are freed and reallocated. *)
Definition ex_ops : list aop :=
  repeat (AAlloc 10) 17 ++ [AFree 3; ARealloc 0 25; ARealloc 2 4; AAlloc 7; AFree 0].

(** C19 (bytes currently allocated, bytes released and the three counters, modulo
    2^64, for every number of calls up to 2^40). *)
Theorem C19_statistics_exact :
  forall dbg p h0 ops, valid_policy p -> start_heap h0 -> zlen ops <= call_limit ->
    exists s a c, session dbg p h0 ops = Ok (s, a, c) /\
      c_allocs a = w64 (n_allocs c) /\ c_reallocs a = w64 (n_reallocs c) /\ c_frees a = w64 (n_frees c) /\
      c_bytes a = w64 (total (blocks c)) /\ c_freed a = w64 (released c).
Proof. exact stats_exact. Qed.
Print Assumptions C19_statistics_exact.
Example C19_example :
  valid_policy bump /\ valid_policy reuse /\ start_heap ex_heap /\ zlen ex_ops <= call_limit /\
  (exists s a c, session true bump ex_heap ex_ops = Ok (s, a, c) /\
    (c_allocs a, c_reallocs a, c_frees a, c_bytes a, c_freed a) = (18, 2, 2, 169, 23)) /\
  (exists s a c, session true reuse ex_heap ex_ops = Ok (s, a, c) /\
    (c_allocs a, c_reallocs a, c_frees a, c_bytes a, c_freed a) = (18, 2, 2, 169, 23)).
Proof.
  split; [exact bump_valid|]. split; [exact reuse_valid|]. split; [exact ex_heap_ok|].
  split; [vm_compute; congruence|]. split.
  - do 3 eexists. run_steps.
  - do 3 eexists. run_steps.
Qed.

(** C20: the object list holds exactly the client's live blocks, each once, with its
    current size, within its table; every block of the client is live with that
    size; blocks of others are untouched. *)
Theorem C20_tracks_live_blocks :
  forall dbg p h0 ops, valid_policy p -> start_heap h0 -> zlen ops <= call_limit ->
    exists s a c T, session dbg p h0 ops = Ok (s, a, c) /\
      tracked a = map Some T /\ Permutation T (blocks c) /\ NoDup (map fst (blocks c)) /\
      tlen a <= tcap a /\ (exists tb, hlookup (s_heap s) (tptr a) = Some tb /\ zlen tb = tcap a * obj_size) /\
      (forall q n, In (q, n) (blocks c) -> q <> 0 /\ hlookup h0 q = None /\
         exists b, hlookup (s_heap s) q = Some b /\ zlen b = n) /\
      (forall x, hlookup h0 x <> None -> hlookup (s_heap s) x = hlookup h0 x).
Proof. exact tracked_exact. Qed.
Print Assumptions C20_tracks_live_blocks.
Example C20_example :
  exists s a c, session false reuse ex_heap [AAlloc 3; AAlloc 4; AAlloc 5; ARealloc 2 6; AFree 1; AAlloc 9] = Ok (s, a, c) /\
    tracked a = [Some (7, 6); Some (4, 4); Some (3, 9)] /\ blocks c = [(3, 9); (7, 6); (4, 4)].
Proof. do 3 eexists. run_steps. Qed.

(** C21: destroying the allocator after any calls succeeds (every free is of a live
    block, so none is freed twice) and leaves exactly the heap from before its
    creation. *)
Theorem C21_destroy_releases_everything :
  forall dbg p h0 ops, valid_policy p -> start_heap h0 -> zlen ops <= call_limit ->
    exists s a c s', session dbg p h0 ops = Ok (s, a, c) /\ mallocator_destroy s a = Ok s' /\
      forall x, hlookup (s_heap s') x = hlookup h0 x.
Proof. exact destroy_exact. Qed.
Print Assumptions C21_destroy_releases_everything.
Example C21_example :
  exists s a c s', session true bump ex_heap ex_ops = Ok (s, a, c) /\ zlen (blocks c) = 16 /\
    mallocator_destroy s a = Ok s' /\ s_heap s' = ex_heap.
Proof. do 4 eexists. run_steps. Qed.

(** C77: new blocks are zeroed, realloc keeps the common prefix, freed blocks are
    gone, and no call changes the contents of another block. *)
Theorem C77_allocator_contents :
  forall dbg p h0 ops o, valid_policy p -> start_heap h0 -> zlen ops < call_limit ->
    exists s a c s' a' c', session dbg p h0 ops = Ok (s, a, c) /\
      client_step dbg p (s, a, c) o = Ok (s', a', c') /\
      contents_ok (s_heap s) (s_heap s') c o c'.
Proof. exact contents_kept. Qed.
Print Assumptions C77_allocator_contents.
Example C77_example :
  exists s a c, session true reuse [] [AAlloc 2; AAlloc 3; ARealloc 1 4] = Ok (s, a, c) /\
    blocks c = [(5, 4); (4, 3)] /\ hlookup (s_heap s) 5 = Some [Some 0; Some 0; None; None] /\
    hlookup (s_heap s) 3 = None.
Proof. do 3 eexists. run_steps. Qed.

(** C78: freeing a block that did not come from the allocator releases that block
    and leaves records and statistics as they were. *)
Theorem C78_foreign_free_not_counted :
  forall dbg p h0 ops q b, valid_policy p -> start_heap h0 -> zlen ops <= call_limit ->
    hlookup h0 q = Some b ->
    exists s a c s', session dbg p h0 ops = Ok (s, a, c) /\ mallocator_free dbg s a q = Ok (s', a) /\
      hlookup (s_heap s') q = None /\ forall x, x <> q -> hlookup (s_heap s') x = hlookup (s_heap s) x.
Proof. exact free_foreign. Qed.
Print Assumptions C78_foreign_free_not_counted.
Example C78_example :
  exists s a c s', session true bump ex_heap [AAlloc 3] = Ok (s, a, c) /\ mallocator_free true s a 5 = Ok (s', a) /\
    c_frees a = 0 /\ hlookup (s_heap s') 5 = None.
Proof. do 4 eexists. run_steps. Qed.
