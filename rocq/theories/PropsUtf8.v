(** Texts in UTF-8.  Statements only. *)
From Coq Require Import String Ascii Lia.
From Verif Require Import Base BaseFacts StrModel StrModel2 StrSpec StrProofs StrProofs2 StrProofs3 StrMain PropsStr Utf8Proofs.
Local Open Scope list_scope.
Local Open Scope Z_scope.

(** C189.  [utf8 t]: t is well-formed UTF-8 (RFC 3629, without the byte 0).  [at_char t i]: i is the end of t or the
    first byte of a character of t.  Refuted: the calls count in bytes, and sets of characters are sets of bytes.
    Removing the first byte of "é" leaves half a character; so does removing the characters "é" from "è". *)
Theorem C189_refuted : utf8 [195; 169] /\ utf8 [195; 168] /\
  txt (let* s := str_create true [195; 169] in str_remove true s 0 1) = Ok [169] /\ ~ utf8 [169] /\
  txt (let* s := str_create true [195; 168] in str_remove_c s [195; 169]) = Ok [168] /\ ~ utf8 [168] /\
  txt (let* s := str_create true [195; 169; 98] in str_set_c true s 97 0) = Ok [97; 169; 98] /\ ~ utf8 [97; 169; 98].
Proof.
  assert (U : forall b, 128 <= b <= 191 -> utf8 [195; b]) by (intros b B; change [195; b] with ([195; b] ++ []); constructor; [constructor; [lia|exact B]|constructor]).
  assert (V : forall b l, 128 <= b <= 191 -> ~ utf8 (b :: l)) by (intros b l B H; apply utf8_head in H; now apply H).
  assert (W : ~ utf8 [97; 169; 98]) by (intros H; apply (utf8_app_inv [97]) in H; [revert H; apply V; lia|apply utf8_ascii; repeat constructor; lia]).
  split; [apply U; lia|]. split; [apply U; lia|]. split; [vm_compute; reflexivity|]. split; [apply V; lia|]. split; [vm_compute; reflexivity|]. split; [apply V; lia|].
  split; [vm_compute; reflexivity|exact W].
Qed.
Print Assumptions C189_refuted.
(** What holds: the text stays well-formed if the texts given are, positions and lengths fall between characters, and
    sets of characters and single characters are ASCII ([uop]).  Searching, replacing, removing and inserting before or
    after a text need nothing more. *)
Theorem C189_calls_partial : forall dbg t cap s o t' cap' out, srep t cap s -> utf8 t -> uop t o -> tstep (t, cap) o = Some (t', cap', out) ->
  exists s', sstep dbg s o = Ok (s', out) /\ srep t' cap' s' /\ utf8 t'.
Proof. exact utf8_call. Qed.
Print Assumptions C189_calls_partial.
Theorem C189_sequences_partial : forall dbg ops t cap s t' cap' outs, srep t cap s -> utf8 t -> uops (t, cap) ops -> trun (t, cap) ops = Some (t', cap', outs) ->
  exists s', srun dbg s ops = Ok (s', outs) /\ srep t' cap' s' /\ utf8 t'.
Proof. exact utf8_calls. Qed.
Print Assumptions C189_sequences_partial.
(** A text is found between characters only: the index is one that the calls above accept. *)
Theorem C189_found : forall t cap s z i, srep t cap s -> utf8 t -> utf8 z -> z <> [] -> str_index_find s z = Ok i -> i <> -1 ->
  at_char t i /\ at_char t (i + zlen z) /\ utf8 (firstn (Z.to_nat i) t) /\ utf8 (skipn (Z.to_nat (i + zlen z)) t).
Proof. exact utf8_found. Qed.
Print Assumptions C189_found.
(** The parts of a text around a separator are well-formed. *)
Theorem C189_split_partial : forall dbg t cap s sep ps l, srep t cap s -> utf8 t -> utf8 sep -> 0 < zlen sep <= zlen t -> scan sep t ps -> (forall l, ps <> l ++ [[]; []]) ->
  str_split dbg (lf s) s sep = Ok (Some l) -> Forall (fun x => exists p, srep p (zlen p) x /\ utf8 p) l.
Proof. exact utf8_parts. Qed.
Print Assumptions C189_split_partial.
Theorem C189_pop : forall dbg sr t cap s sep, srep t cap s -> utf8 t -> utf8 sep -> 0 < zlen sep ->
  (forall a b, cut sep t = Some (a, b) -> 0 < zlen a -> target_ok sr (zlen a) ->
   exists r s' capr, str_pop_get_first dbg sr s sep = Ok (Some r, s') /\ srep a capr r /\ srep b cap s' /\ utf8 a /\ utf8 b) /\
  (forall a b, last_cut (List.length t) sep t = Some (a, b) -> 0 < zlen b -> target_ok sr (zlen b) ->
   exists r s' capr, str_pop_get_last dbg (lf s) sr s sep = Ok (Some r, s') /\ srep b capr r /\ srep a cap s' /\ utf8 a /\ utf8 b).
Proof. exact utf8_pop. Qed.
Print Assumptions C189_pop.
(** A text between two markers, and texts joined. *)
Theorem C189_between_partial : forall dbg a zl_ m zr b, utf8 (a ++ zl_ ++ m ++ zr ++ b) -> utf8 zl_ -> zl_ <> [] -> utf8 zr -> zr <> [] ->
  oks (a ++ zl_ ++ m ++ zr ++ b) -> 0 < zlen m -> zlen (a ++ zl_ ++ m ++ zr ++ b) + 1 <= alloc_max ->
  cut zl_ (a ++ zl_ ++ m ++ zr ++ b) = Some (a, m ++ zr ++ b) -> cut zr (a ++ zl_ ++ m ++ zr ++ b) = Some (a ++ zl_ ++ m, b) ->
  exists s', str_split_between dbg None (a ++ zl_ ++ m ++ zr ++ b) zl_ zr = Ok (Some s', None) /\ srep m (zlen m) s' /\ utf8 m.
Proof.
  intros dbg a zl_ m zr b U L NL R NR O P F C1 C2. destruct (between_new_ok dbg a zl_ m zr b O P F C1 C2) as (s' & E & Rm).
  exists s'. split; [exact E|]. split; [exact Rm|]. now apply (utf8_between a zl_ m zr b).
Qed.
Print Assumptions C189_between_partial.
Theorem C189_join : forall dbg t cap st sep x l, srep t cap st -> utf8 t -> utf8 sep -> Forall utf8 (x :: l) -> oks sep -> 0 < zlen sep -> okpieces (x :: l) ->
  Z.max cap (zlen (t ++ join_with sep (x :: l))) + 1 <= alloc_max ->
  exists s', str_join dbg (Some st) sep (x :: l) = Ok s' /\ srep (t ++ join_with sep (x :: l)) (Z.max cap (zlen (t ++ join_with sep (x :: l)))) s' /\ utf8 (t ++ join_with sep (x :: l)).
Proof.
  intros dbg t cap st sep x l R T S F O P K M. destruct (join_ok dbg t cap st sep x l R O P K M) as (s' & E & R'). exists s'. split; [exact E|]. split; [exact R'|].
  apply utf8_app; [exact T|]. now apply utf8_join.
Qed.
Print Assumptions C189_join.
(** "née": the "é" replaced, the first and last byte stripped, the "e" inserted at a character. *)
Example C189_example : utf8 [110; 195; 169; 101] /\ at_char [110; 195; 169; 101] 1 /\ at_char [110; 195; 169; 101] 3 /\ ~ at_char [110; 195; 169; 101] 2 /\
  uops ([110; 195; 169; 101], 4) [SReplace [195; 169] [226; 130; 172]; SInsert [195; 168] 1; SStripC [110; 101]; SUpper] /\
  txt (let* s := str_create true [110; 195; 169; 101] in
       let* r := srun true s [SReplace [195; 169] [226; 130; 172]; SInsert [195; 168] 1; SStripC [110; 101]; SUpper] in Ok (fst r)) = Ok [195; 168; 226; 130; 172].
Proof.
  assert (A : forall a, 0 < a < 128 -> uchar [a]) by (intros; now constructor).
  assert (B : forall b, 128 <= b <= 191 -> uchar [195; b]) by (intros; constructor; [lia|assumption]).
  assert (C : uchar [226; 130; 172]) by (constructor; unfold cont; lia).
  assert (C' : utf8 [226; 130; 172]) by (rewrite <- (app_nil_r [226; 130; 172]); now constructor; [|constructor]).
  assert (B' : forall b, 128 <= b <= 191 -> utf8 [195; b]) by (intros b Hb; rewrite <- (app_nil_r [195; b]); constructor; [now apply B|constructor]).
  split. { change [110; 195; 169; 101] with ([110] ++ [195; 169] ++ [101] ++ []). repeat constructor; unfold cont; lia. }
  unfold at_char. split; [intros c H; injection H as <-; unfold cont; lia|]. split; [intros c H; injection H as <-; unfold cont; lia|].
  split; [intros H; apply (H 169 eq_refl); unfold cont; lia|]. split; [|vm_compute; reflexivity].
  cbn [uops uop fst]. split; [split; [apply B'; lia|exact C']|].
  match goal with |- context [tstep ?a ?b] => let r := eval vm_compute in (tstep a b) in change (tstep a b) with r end. cbv iota beta. cbn [fst].
  split; [split; [apply B'; lia|intros c H; injection H as <-; unfold cont; lia]|].
  match goal with |- context [tstep ?a ?b] => let r := eval vm_compute in (tstep a b) in change (tstep a b) with r end. cbv iota beta. cbn [fst].
  split; [repeat constructor|].
  match goal with |- context [tstep ?a ?b] => let r := eval vm_compute in (tstep a b) in change (tstep a b) with r end. cbv iota beta. cbn [fst].
  split; [exact Logic.I|].
  match goal with |- context [tstep ?a ?b] => let r := eval vm_compute in (tstep a b) in change (tstep a b) with r end. exact Logic.I.
Qed.
