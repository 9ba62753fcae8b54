(** Properties of the order of texts of dates (C199). *)
From Verif Require Import Base BaseFacts NumModel DtModel DtProofs DtProofs2 PropsDt DtOrder.

(** ** C199 Texts of dates sort in the order of time *)
(** Full statement: for every two dates.  False for years not of four digits: the year is written without leading zeros. *)
Theorem C199_order_refuted :
  exists a b ba bb ta tb, valid a /\ valid b /\ to_secs 0 a < to_secs 0 b /\
    to_text true Plain a (repeat None 26) 26 = Ok ba /\ cstr ba = Ok ta /\ to_text true Plain b (repeat None 26) 26 = Ok bb /\ cstr bb = Ok tb /\
    text_before tb ta = true.
Proof.
  exists (mk_vdt 999 12 31 0 0 0 1 1), (mk_vdt 1000 1 1 0 0 0 1 1). do 4 eexists. unfold valid.
  repeat (split; [vm_compute; repeat split; congruence|]). repeat (split; [vm_compute; reflexivity|]). vm_compute. reflexivity.
Qed.
Print Assumptions C199_order_refuted.
(** Missing: years below 1000 and above 9999.  [text_before]: strcmp. *)
Theorem C199_order_partial :
  forall dbg f off a b bufa bufb len, valid a -> valid b -> 1000 <= year a <= 9999 -> 1000 <= year b <= 9999 ->
  26 <= len -> len <= zlen bufa -> len <= zlen bufb ->
  exists ba bb ta tb, to_text dbg f a bufa len = Ok ba /\ cstr ba = Ok ta /\ to_text dbg f b bufb len = Ok bb /\ cstr bb = Ok tb /\
    (text_before ta tb = true <-> to_secs off a < to_secs off b) /\ (ta = tb <-> to_secs off a = to_secs off b).
Proof.
  intros dbg f off a b bufa bufb len A B Ya Yb L La Lb.
  assert (text_ok a) as Ta by (apply valid_text; [assumption|lia|lia]). assert (text_ok b) as Tb by (apply valid_text; [assumption|lia|lia]).
  destruct (C54_text_roundtrip dbg f a bufa len Ta L La) as (ba & Ea & Ca & _). destruct (C54_text_roundtrip dbg f b bufb len Tb L Lb) as (bb & Eb & Cb & _).
  exists ba, bb, (doc_text f a), (doc_text f b). destruct (text_order f a b Ta Tb) as [O1 O2].
  split; [exact Ea|]. split; [exact Ca|]. split; [exact Eb|]. split; [exact Cb|].
  pose proof (C57_order off a b A B) as S1. pose proof (C57_order off b a B A) as S2.
  split; [now rewrite O1, S1|]. rewrite O2. destruct (before_total a b) as [T|[T|T]].
  - split; intros E; [|apply S1 in T; lia]. exfalso. apply S1 in T. apply (same_secs off a b A B) in E. lia.
  - split; [|intros _; exact T]. intros _. now apply same_secs.
  - split; intros E; [|apply S2 in T; lia]. exfalso. apply S2 in T. apply (same_secs off a b A B) in E. lia.
Qed.
Print Assumptions C199_order_partial.
Example C199_example :
  (let* x := to_text true Iso feb29 (repeat None 26) 26 in let* y := to_text true Iso (mk_vdt 2024 10 1 0 0 0 1 1) (repeat None 26) 26 in
   let* tx := cstr x in let* ty := cstr y in Ok (text_before tx ty, text_before ty tx)) = Ok (true, false).
Proof. vm_compute. reflexivity. Qed.
