(** Proofs of the longer statements in PropsContainers.v. *)
From Verif Require Import Base BaseFacts VecModel VecSpec SpanModel SpanProofs.
From Coq Require Import ZifyBool.
Local Open Scope list_scope.

Lemma c14_span_reads_buffer_proof :
  forall dbg es pre xs post i, uniform es xs -> 0 < es -> zlen xs * es < two64 -> 0 <= i < zlen xs ->
    span_from dbg (zlen pre) (zlen xs) es = Ok (mk_span (zlen pre) (zlen xs) es) /\
    exists x, nth_error xs (Z.to_nat i) = Some x /\
      span_get dbg (pre ++ map Some (concat xs) ++ post) (mk_span (zlen pre) (zlen xs) es) i = Ok (map Some x).
Proof.
  intros dbg es pre xs post i Hu He Hm Hi. split; [apply span_from_ok; lia|].
  exact (span_get_rep dbg es pre xs post i Hu He Hm Hi).
Qed.

