(** Proofs: building a path and taking it apart. *)
From Verif Require Import Base BaseFacts StrModel StrModel2 StrSpec StrProofs StrProofs2 StrProofs3 StrMain NumProofs FsModel PathModel PathProofs.

Lemma join_last sep x l b : join_with sep (x :: l ++ [b]) = join_with sep (x :: l) ++ sep ++ b.
Proof.
  revert x. induction l as [|y l IH]; intros x; [reflexivity|].
  change (x ++ sep ++ join_with sep (y :: l ++ [b]) = (x ++ sep ++ join_with sep (y :: l)) ++ sep ++ b). now rewrite IH, <- !app_assoc.
Qed.

Lemma build_apart dbg x l b : okpieces (x :: l ++ [b]) -> ~ In 47 b -> zlen (join_with [47] (x :: l ++ [b])) + 1 <= alloc_max ->
  exists s st capb blk s', path_build dbg None (x :: l ++ [b]) = Ok s /\ str_z s = Ok (join_with [47] (x :: l ++ [b])) /\
    path_basename dbg None (join_with [47] (x :: l ++ [b])) = Ok (Some st) /\ srep b capb st /\
    path_pop (sb s) = Ok blk /\ cstr blk = Ok (join_with [47] (x :: l)) /\
    path_build dbg None [join_with [47] (x :: l); b] = Ok s' /\ str_equals s s' = Ok true.
Proof.
  intros O N A. destruct (build_new_ok dbg x (l ++ [b]) O A) as (s & E & R).
  pose proof O as O'. rewrite app_comm_cons in O'. apply Forall_app in O' as [O1 O2]. inversion O2 as [|? ? [Ob Lb] _]; subst.
  set (d := join_with [47] (x :: l)).
  assert (oks (d ++ [47] ++ b)) as Od by (unfold d; rewrite <- join_last; exact (r_ok _ _ _ R)).
  assert (0 < zlen d) as Ld.
  { unfold d. inversion O1 as [|? ? [Ox Lx] _]; subst. destruct l as [|y l]; [exact Lx|]. change (0 < zlen (x ++ [47] ++ join_with [47] (y :: l))). rewrite zlen_app. pose proof (zlen_nonneg ([47] ++ join_with [47] (y :: l))). lia. }
  rewrite join_last in *. fold d in A, R |- *.
  destruct (basename_ok dbg None d b Od Ld Lb N A) as (st & capb & Eb & Rb); [intros r Hr; discriminate|].
  destruct (r_pre _ _ _ R) as [q Q]. unfold zblk in Q. rewrite <- app_assoc in Q. cbn [app] in Q.
  destruct (build_new_ok dbg d [b]) as (s' & E' & R').
  { constructor; [|exact O2]. split; [|exact Ld]. apply Forall_app in Od. tauto. }
  { exact A. }
  destruct (equals_ok _ _ _ _ _ _ R R') as (e & Ee & He). assert (e = true) as -> by (now apply He).
  exists s, st, capb, (map Some d ++ Some 0 :: map Some b ++ Some 0 :: q), s'.
  split; [exact E|]. split; [exact (z_ok _ _ _ R)|]. split; [exact Eb|]. split; [exact Rb|]. split.
  { rewrite Q. apply pop_ok; assumption. }
  split.
  { change (map Some d ++ Some 0 :: map Some b ++ Some 0 :: q) with (map Some d ++ [Some 0] ++ map Some b ++ Some 0 :: q). rewrite app_assoc. apply cstr_zblk. apply Forall_app in Od. tauto. }
  split; [exact E'|exact Ee].
Qed.
