(** Memory safety of strings and pointer lists in debug builds, for arbitrary calls. *)
From Verif Require Import Base StrModel StrModel2 StrSpec PlistModel PlistSpec StrSafe PlistSafe.

(** ** C130 String memory safety in debug builds *)
(** Full statement: whatever calls are made on a string in a debug build, they are stopped by
    a check or access valid memory and leave a string in order.  False: no check covers the
    position in vt_str_insert_n, the absent text in vt_str_replace_last, or the sum in
    vt_str_reserve, which wraps, so that the next append writes behind the storage. *)
Theorem C130_str_safe_refuted :
  exists s, str_create true [97; 98] = Ok s /\
    srun true s [SInsertN [99] 9 1] = UB /\
    srun true s [SReplaceLast [120] [121]] = UB /\
    srun true s [SReserve (two64 - 1); SAppend [99]] = UB.
Proof. eexists. split; [vm_compute; reflexivity|]. repeat split; vm_compute; reflexivity. Qed.
Print Assumptions C130_str_safe_refuted.
(** What holds: it is true of all calls with C strings and size_t numbers (room to reserve
    below 2^63) except the unguarded ones: those above, the count of the _n functions
    exceeding the argument, stripping when nothing remains, and the empty arguments with which
    vt_str_remove_all, vt_str_can_find and vt_str_strip_c do not end.  Missing: those. *)
Theorem C130_str_safe_partial :
  forall i ops, iargs i -> (forall s, smake true i = Ok s -> careful s ops) ->
  (let* s := smake true i in srun true s ops) = Abort \/
  exists s outs z, (let* s := smake true i in srun true s ops) = Ok (s, outs) /\
    str_z s = Ok z /\ zlen z = str_len s /\ str_len s <= str_capacity s /\ str_capacity s + 1 <= zlen (sb s).
Proof. exact session_safe. Qed.
Print Assumptions C130_str_safe_partial.
(** Each call for itself. *)
Theorem C130_str_call_partial :
  forall t cap s o, srep t cap s -> sargs o -> ~ unguarded t o ->
  sstep true s o = Abort \/ exists s' out t' cap', sstep true s o = Ok (s', out) /\ srep t' cap' s'.
Proof. exact step_safe. Qed.
Print Assumptions C130_str_call_partial.
(** Careful calls that go wrong and are stopped: a removal behind the end; and some that
    are carried out. *)
Example C130_example :
  exists s, smake true (ICreate [97; 98; 99]) = Ok s /\
    careful s [SUpper; SRemove 7 2] /\ srun true s [SUpper; SRemove 7 2] = Abort /\
    careful s [SInsertBefore [] [100]; SReplaceLast [99] [120; 121]] /\
    exists r, srun true s [SInsertBefore [] [100]; SReplaceLast [99] [120; 121]] = Ok r.
Proof.
  eexists. split; [vm_compute; reflexivity|]. split.
  { cbn [careful sargs unguarded]. split; [exact I|]. split; [intros t _ []|]. intros s' out _. split; [split; split; vm_compute; congruence|].
    split; [intros t _ []|]. intros; exact I. }
  split; [vm_compute; reflexivity|]. split.
  { cbn [careful sargs]. split; [split; split; [repeat constructor; vm_compute; congruence|vm_compute; congruence|repeat constructor; vm_compute; congruence|vm_compute; congruence]|].
    split; [intros t _ []|]. intros s' out E. vm_compute in E. injection E as <- <-.
    split; [split; split; [repeat constructor; vm_compute; congruence|vm_compute; congruence|repeat constructor; vm_compute; congruence|vm_compute; congruence]|].
    split; [|intros; exact I]. intros t E. vm_compute in E. injection E as <-. intros (_ & _ & H). vm_compute in H. discriminate. }
  eexists. vm_compute. reflexivity.
Qed.

(** ** C131 Pointer list memory safety in debug builds *)
(** Full statement: whatever calls are made on a pointer list in a debug build, they are
    stopped by a check or access valid memory and leave a list in order.  False: the size in
    bytes wraps in vt_plist_reserve (and create and resize), which then succeeds without
    getting the memory; and vt_plist_resize exposes slots nothing was stored in. *)
Theorem C131_plist_safe_refuted :
  exists p, plist_create true 1 = Ok p /\
    plrun true p [LReserve (2 ^ 61); LPushBack 7; LPushBack 8] = UB /\
    plrun true p [LResize 4; LGet 3] = UB.
Proof. eexists. split; [vm_compute; reflexivity|]. split; vm_compute; reflexivity. Qed.
Print Assumptions C131_plist_safe_refuted.
(** What holds: it is true of all calls whose counts are below 2^60 and that do not resize to
    a greater length.  Missing: those. *)
Theorem C131_plist_safe_partial :
  forall n ops, pcount n -> (forall p, plist_create true n = Ok p -> pcareful p ops) ->
  (let* p := plist_create true n in plrun true p ops) = Abort \/
  exists p outs, (let* p := plist_create true n in plrun true p ops) = Ok (p, outs) /\
    plist_len p <= plist_capacity p /\ zlen (p_blk p) = plist_capacity p /\
    forall i, 0 <= i < plist_len p -> exists x, plist_get true p i = Ok x.
Proof. exact plist_safe. Qed.
Print Assumptions C131_plist_safe_partial.
Example C131_example :
  exists p, plist_create true 2 = Ok p /\
    pcareful p [LPushBack 5; LPushFront 6; LRemove 9 1] /\ plrun true p [LPushBack 5; LPushFront 6; LRemove 9 1] = Abort /\
    pcareful p [LPushBack 5; LResize 1] /\ exists r, plrun true p [LPushBack 5; LResize 1] = Ok r.
Proof.
  eexists. split; [vm_compute; reflexivity|]. split.
  { cbn [pcareful pargs exposes]. unfold pnum. split; [split; vm_compute; congruence|]. split; [intros []|]. intros. split; [split; vm_compute; congruence|].
    split; [intros []|]. intros. split; [split; split; vm_compute; congruence|]. split; [intros []|]. intros; exact I. }
  split; [vm_compute; reflexivity|]. split.
  { cbn [pcareful pargs]. unfold pnum, pcount. split; [split; vm_compute; congruence|]. split; [intros []|]. intros q out E. vm_compute in E. injection E as <- <-.
    split; [split; vm_compute; congruence|]. split; [cbn; lia|]. intros; exact I. }
  eexists. vm_compute. reflexivity.
Qed.
