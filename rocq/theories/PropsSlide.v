(** C174: loops that change what they slide over. *)
From Verif Require Import Base BaseFacts PlistModel PlistSpec PlistProofs VecModel VecSpec VecProofs VecProofs2 SlideProofs.
From Coq Require Import Lia.

(** ** C174 Changing a container while sliding over it *)
(** The exact rule, for every sequence of calls mixed with slides and resets: sliding answers the
    element that is now at the place of the cursor and moves the cursor on; at the end it answers
    NULL and the cursor starts again; no other call moves the cursor.  [cstep]: SlideProofs.v. *)
Theorem C174_cursor_list : forall dbg n l xs cap k os, pfits n = true ->
  lcrun ([], n, 0%nat) l = Some (xs, cap, k, os) ->
  exists p0 p, plist_create dbg n = Ok p0 /\ lmrun dbg p0 l = Ok (p, os) /\ prep xs cap p.
Proof.
  intros dbg n l xs cap k os F E. unfold pfits in F. destruct (plist_create_rep dbg n ltac:(lia) ltac:(lia)) as (p0 & Ec & H0 & S0).
  destruct (lmrun_rep dbg l [] n 0 p0 xs cap k os H0 ltac:(rewrite S0; reflexivity) E) as (p & Er & H & _). now exists p0, p.
Qed.
Print Assumptions C174_cursor_list.
Theorem C174_cursor_vector : forall dbg es xs0 cap0 v l xs cap k os, vrep es xs0 cap0 v -> a_slider v = 0 ->
  vcrun es (xs0, cap0, 0%nat) l = Some (xs, cap, k, os) ->
  exists v', vmrun dbg v l = Ok (v', os) /\ vrep es xs cap v'.
Proof.
  intros dbg es xs0 cap0 v l xs cap k os H S E. destruct (vmrun_rep dbg es l xs0 cap0 0 v xs cap k os H S E) as (v' & Er & H' & _). now exists v'.
Qed.
Print Assumptions C174_cursor_vector.

(** Full statement: a loop (slide until NULL) visits every pointer that is in the list from its
    beginning to its end exactly once, whatever else it does with the list.  False: if the pointer
    just visited is removed the next one is left out, ... *)
Theorem C174_skip_refuted : forall dbg,
  exists p0 p, plist_create dbg 4 = Ok p0 /\
  lmrun dbg p0 [Do (LPushBack 10); Do (LPushBack 20); Do (LPushBack 30); Next; Do (LRemove 0 0); Next; Next] =
  Ok (p, [Did None; Did None; Did None; Item 10; Did None; Item 30; Item 0]).
Proof. intros [|]; eexists; eexists; (split; [vm_compute; reflexivity|]); vm_compute; reflexivity. Qed.
Print Assumptions C174_skip_refuted.
(** ... and if something is pushed to the front the pointer just visited is visited again. *)
Theorem C174_twice_refuted : forall dbg,
  exists p0 p, plist_create dbg 4 = Ok p0 /\
  lmrun dbg p0 [Do (LPushBack 10); Do (LPushBack 20); Next; Do (LPushFront 5); Next; Next; Next] =
  Ok (p, [Did None; Did None; Item 10; Did None; Item 10; Item 20; Item 0]).
Proof. intros [|]; eexists; eexists; (split; [vm_compute; reflexivity|]); vm_compute; reflexivity. Qed.
Print Assumptions C174_twice_refuted.

(** What holds: if every change leaves the visited part as it is ([ahead]: pushing to the back,
    inserting and removing behind the cursor, reserving ...) the loop visits exactly the pointers
    that are in the list when it ends, each at its place. *)
Theorem C174_ahead_partial : forall dbg xs cap p l p' os, prep xs cap p -> p_slider p = 0 -> Forall (fun x => x <> 0) xs ->
  ahead lstep xs cap 0 l -> lmrun dbg p (l ++ [Next]) = Ok (p', os ++ [Item 0]) ->
  exists cap', prep (items os) cap' p'.
Proof.
  intros dbg xs cap p l p' os H S N A E.
  destruct (ahead_run lstep (fun x : Z => x) 0 l xs cap 0 ltac:(lia) A) as (xs1 & cap1 & k1 & os1 & R1 & L1 & _).
  assert (exists xs2 k2 o, lcrun (xs, cap, 0%nat) (l ++ [Next]) = Some (xs2, cap1, k2, os1 ++ [o])) as (xs2 & k2 & o & R2).
  { unfold lcrun. rewrite crun_app, R1. cbn [crun cstep]. destruct (nth_error xs1 k1); do 3 eexists; reflexivity. }
  destruct (lmrun_rep dbg _ xs cap 0 p _ _ _ _ H S R2) as (q & Eq & Hq & _). rewrite E in Eq. injection Eq as <- Eo.
  unfold lcrun in R2. rewrite <- Eo in R2. destruct (until_null lstep (fun x : Z => x) 0 l xs cap _ os lstep_nonnull N A R2) as (xs' & cap' & X & I).
  injection X as -> -> _. exists cap'. rewrite I, map_id. exact Hq.
Qed.
Print Assumptions C174_ahead_partial.
Theorem C174_ahead_vector_partial : forall dbg es xs cap v l v' os, vrep es xs cap v -> a_slider v = 0 ->
  ahead (sstep es) xs cap 0 l -> vmrun dbg v (l ++ [Next]) = Ok (v', os ++ [Item None]) ->
  exists xs' cap', vrep es xs' cap' v' /\ items os = map (fun x => Some (map Some x)) xs'.
Proof.
  intros dbg es xs cap v l v' os H S A E.
  destruct (ahead_run (sstep es) shown None l xs cap 0 ltac:(lia) A) as (xs1 & cap1 & k1 & os1 & R1 & L1 & _).
  assert (exists xs2 k2 o, vcrun es (xs, cap, 0%nat) (l ++ [Next]) = Some (xs2, cap1, k2, os1 ++ [o])) as (xs2 & k2 & o & R2).
  { unfold vcrun. rewrite crun_app, R1. cbn [crun cstep]. destruct (nth_error xs1 k1); do 3 eexists; reflexivity. }
  destruct (vmrun_rep dbg es _ xs cap 0 v _ _ _ _ H S R2) as (q & Eq & Hq & _). rewrite E in Eq. injection Eq as <- Eo.
  unfold vcrun in R2. rewrite <- Eo in R2.
  assert (forall l, Forall (fun x => shown x <> None) l) as F by (intros l'; apply Forall_forall; discriminate).
  destruct (until_null (sstep es) shown None l xs cap _ os (fun _ _ _ _ _ _ _ => F _) (F _) A R2) as (xs' & cap' & X & I).
  injection X as -> -> _. exists xs', cap'. split; [exact Hq|exact I].
Qed.
Print Assumptions C174_ahead_vector_partial.
(** A loop that removes the next pointer, pushes a new one and sets a later one: it visits 10, 30, 9. *)
Example C174_example :
  let l := [Next; Do (LRemove 1 0); Do (LPushBack 40); Do (LSet 9 2); Next; Next] in
  ahead lstep [10; 20; 30] 4 0 l /\
  match plist_create true 4 with
  | Ok p0 => match lmrun true p0 ([Do (LPushBack 10); Do (LPushBack 20); Do (LPushBack 30)] ++ l ++ [Next]) with
             | Ok (p, os) => items os = [10; 30; 9; 0] /\ plist_len p = 3
             | _ => False
             end
  | _ => False
  end.
Proof. split; [|vm_compute; split; reflexivity]. vm_compute. repeat split; lia. Qed.
