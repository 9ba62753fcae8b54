(** Properties of programs with several containers and the tracking allocator on one
    heap.  Statements only.  A policy says which addresses the C allocator returns and
    when realloc moves; every valid policy is covered. *)
From Coq Require Import Permutation.
From Verif Require Import Base BaseFacts HeapModel AllocModel AllocSpec AllocProofs AllocMain VecModel PlistModel StrModel StrSpec
  ContModel ContSpec ContProofs ContMain.
From Verif Require Import PropsAlloc.

(** A program for the examples.  0: vector (allocator), 1: list (allocator),
    2: string (allocator), 3: string (plain), 4: duplicate of 0, 5: adopted block. *)
Definition ex_prog : list wop :=
  [WVec true 1 2; WVecOp 0 (PushBack [1; 2]); WVecOp 0 (PushBack [3; 4]); WList true 1; WListOp 1 (LPushBack 77);
   WListOp 1 (LPushBack 88); WStr true [104; 105]; WStr false [97; 98; 99]; WStrOp 2 (SAppend [33]); WAppendFrom 2 3;
   WDup 0 false; WPushFrom 4 0 1; WVecOp 0 (PushFront [9; 9]); WOwn true [120] [Some 7; Some 7];
   WStrOp 2 (SInsertf 1 (repeat 65 1100))].
Definition ex_late : list wop :=
  [WVecOp 4 Pop; WStrOp 2 SClear; WDestroy 1; WVecOp 4 (PushBack [5; 5]); WDestroy 5; WDestroy 2].

Definition ex_state : state :=
  match arun [] ex_prog with Some (st, _) => st | None => [] end.

(** C101: every container has, after every program, the value an independent container
    would have; calls return the same results; using a destroyed one is the only
    undefined behaviour. *)
Theorem C101_independent_values :
  forall dbg p h0 ops st outs, valid_policy p -> start_heap h0 -> zlen ops <= op_limit ->
    arun [] ops = Some (st, outs) ->
    exists w, program dbg p h0 ops = Ok (w, outs) /\ length (w_objs w) = length st /\
      forall i, match get st i with
                | Some (u, v) => exists c x, w_get w i = Ok c /\ h_use c = u /\ c_load (w_mem w) c = Ok x /\ displays dbg v x
                | None => w_get w i = UB
                end.
Proof.
  intros dbg p h0 ops st outs V S L R. destruct (program_exact dbg p h0 ops st outs V S L R) as (w & E & [L1 H] & _).
  exists w. auto.
Qed.
Print Assumptions C101_independent_values.
Example C101_example :
  zlen ex_prog <= op_limit /\ length ex_state = 6%nat /\
  (exists w outs, program true bump ex_heap ex_prog = Ok (w, outs) /\ arun [] ex_prog = Some (ex_state, outs)) /\
  (exists w outs, program true reuse ex_heap ex_prog = Ok (w, outs) /\ arun [] ex_prog = Some (ex_state, outs)) /\
  get ex_state 0 = Some (true, VSeq 2 [[9; 9]; [1; 2]; [3; 4]] 3) /\
  get ex_state 4 = Some (false, VSeq 2 [[1; 2]; [3; 4]; [3; 4]] 6) /\
  get ex_state 2 = Some (true, VText (104 :: repeat 65 1100 ++ [105; 33; 97; 98; 99]) 1106).
Proof.
  split; [vm_compute; discriminate|]. split; [vm_compute; reflexivity|]. split; [do 2 eexists; run_steps|].
  split; [do 2 eexists; run_steps|]. run_steps.
Qed.

(** C10 (the independence part, for every kind of container and every later calls that
    do not name it): the header and every byte of the storage are unchanged. *)
Theorem C10_independence :
  forall dbg p h0 ops later st outs st' outs' j u v, valid_policy p -> start_heap h0 ->
    zlen ops + zlen later <= op_limit ->
    arun [] ops = Some (st, outs) -> arun st later = Some (st', outs') ->
    (forall o, In o later -> target o <> Some j) -> get st j = Some (u, v) ->
    exists w w' c x, program dbg p h0 ops = Ok (w, outs) /\ wrun dbg p w later = Ok (w', outs') /\
      w_get w j = Ok c /\ w_get w' j = Ok c /\ c_load (w_mem w) c = Ok x /\ c_load (w_mem w') c = Ok x /\ displays dbg v x.
Proof. exact independent. Qed.
Print Assumptions C10_independence.

(** C10: a duplicate has the same elements in storage of its own. *)
Theorem C10_vec_dup_separate :
  forall dbg p h0 ops st outs i u us es xs cap, valid_policy p -> start_heap h0 -> zlen ops < op_limit ->
    arun [] ops = Some (st, outs) -> get st i = Some (us, VSeq es xs cap) -> xs <> [] ->
    exists w w' c d a b, program dbg p h0 ops = Ok (w, outs) /\ wstep dbg p w (WDup i u) = Ok (w', QNone) /\
      w_get w' i = Ok c /\ w_get w' (length st) = Ok d /\ h_ptr c <> h_ptr d /\
      c_load (w_mem w') c = Ok (BVec a) /\ c_load (w_mem w') d = Ok (BVec b) /\
      displays dbg (VSeq es xs cap) (BVec a) /\ displays dbg (VSeq es xs (zlen xs)) (BVec b).
Proof. exact dup_equal. Qed.
Print Assumptions C10_vec_dup_separate.
Example C10_heap_example :
  (exists st outs, arun ex_state ex_late = Some (st, outs) /\
     get st 0 = Some (true, VSeq 2 [[9; 9]; [1; 2]; [3; 4]] 3) /\ get st 4 = Some (false, VSeq 2 [[1; 2]; [3; 4]; [5; 5]] 6)) /\
  forallb (fun o => match target o with Some 0%nat => false | _ => true end) ex_late = true /\
  (exists w outs, program false reuse ex_heap (ex_prog ++ ex_late) = Ok (w, outs)).
Proof.
  split; [do 2 eexists; run_steps|]. split; [vm_compute; reflexivity|]. do 2 eexists. vm_compute. reflexivity.
Qed.

(** C22: once the containers made with the allocator are destroyed it tracks nothing and
    counts no byte; besides its own two blocks and the containers made without it the
    heap is as before.  A double free would be UB. *)
Theorem C22_no_leak :
  forall dbg p h0 ops st outs, valid_policy p -> start_heap h0 -> zlen ops <= op_limit ->
    arun [] ops = Some (st, outs) -> (forall v, ~ In (Some (true, v)) st) ->
    exists w, program dbg p h0 ops = Ok (w, outs) /\ tracked (m_alc (w_mem w)) = [] /\ c_bytes (m_alc (w_mem w)) = 0 /\
      (forall x, hlookup (m_heap (w_mem w)) x = hlookup h0 x \/ x = self (m_alc (w_mem w)) \/ x = tptr (m_alc (w_mem w))
                 \/ In x (blocks_of false (w_objs w))).
Proof. exact no_leak. Qed.
Print Assumptions C22_no_leak.

(** C22, at any point of any program: the allocator tracks exactly the headers and
    storage blocks of the live containers made with it, each with its size; its byte
    count is their sum; nothing but these, the allocator's own two blocks and the blocks
    of plain containers is live. *)
Theorem C22_tracked_blocks :
  forall dbg p h0 ops st outs, valid_policy p -> start_heap h0 -> zlen ops <= op_limit ->
    arun [] ops = Some (st, outs) ->
    exists w, program dbg p h0 ops = Ok (w, outs) /\
      let a := m_alc (w_mem w) in let h := m_heap (w_mem w) in
      let ours := self a :: tptr a :: blocks_of true (w_objs w) ++ blocks_of false (w_objs w) in
      exists T, tracked a = map Some T /\ Permutation (map fst T) (blocks_of true (w_objs w)) /\
        (forall q n, In (q, n) T -> exists b, hlookup h q = Some b /\ zlen b = n) /\
        c_bytes a = w64 (total T) /\ NoDup ours /\
        (forall x, hlookup h x = hlookup h0 x \/ In x ours) /\
        (forall x, In x ours -> hlookup h0 x = None /\ hlookup h x <> None).
Proof.
  intros dbg p h0 ops st outs V S L R. destruct (program_exact dbg p h0 ops st outs V S L R) as (w & E & _ & A).
  exists w. auto.
Qed.
Print Assumptions C22_tracked_blocks.
Example C22_example :
  (exists w outs, program true reuse ex_heap ex_prog = Ok (w, outs) /\ zlen (tracked (m_alc (w_mem w))) = 8 /\
     zlen (blocks_of true (w_objs w)) = 8 /\ zlen (m_heap (w_mem w)) = 15) /\
  (exists st outs, arun [] (ex_prog ++ ex_late ++ [WDestroy 0]) = Some (st, outs) /\
     forallb (fun o => match o with Some (true, _) => false | _ => true end) st = true) /\
  (exists w outs, program true reuse ex_heap (ex_prog ++ ex_late ++ [WDestroy 0]) = Ok (w, outs) /\
     zlen (m_heap (w_mem w)) = 7).
Proof.
  split; [do 2 eexists; run_steps|]. split; do 2 eexists; run_steps.
Qed.

(** C102: destroying the allocator at any point frees what is left of its containers
    and nothing else. *)
Theorem C102_allocator_destroy :
  forall dbg p h0 ops st outs, valid_policy p -> start_heap h0 -> zlen ops <= op_limit ->
    arun [] ops = Some (st, outs) ->
    exists w s, program dbg p h0 ops = Ok (w, outs) /\ mallocator_destroy (m_sys (w_mem w)) (m_alc (w_mem w)) = Ok s /\
      (forall x, ~ In x (blocks_of false (w_objs w)) -> hlookup (s_heap s) x = hlookup h0 x) /\
      (forall x, In x (blocks_of false (w_objs w)) -> hlookup (s_heap s) x = hlookup (m_heap (w_mem w)) x
                                                      /\ hlookup (s_heap s) x <> None).
Proof. exact allocator_destroyed. Qed.
Print Assumptions C102_allocator_destroy.
Example C102_example :
  exists w outs s, program true bump ex_heap ex_prog = Ok (w, outs) /\
    mallocator_destroy (m_sys (w_mem w)) (m_alc (w_mem w)) = Ok s /\ zlen (s_heap s) = 5 /\
    zlen (blocks_of false (w_objs w)) = 4.
Proof. do 3 eexists. run_steps. Qed.
