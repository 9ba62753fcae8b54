(** Properties of vt_math_random_f32_normal.  Statements only.  The sine and the logarithm of
    the C library are any functions with the stated ranges. *)
From Coq Require Import ZArith Bool Reals Lra Lia.
From Flocq Require Import Core IEEE754.BinarySingleNaN IEEE754.Binary IEEE754.Bits.
From Verif Require Import Base NumModel FloatModel FloatFacts RandModel RandProofs.
From Verif Require Import NormModel NormProofs.
Open Scope R_scope.

(** ** C134 Normal samples stay near the mean *)
(** Every value returned by any sequence of calls (from the start of the program) is finite
    and at most 9 standard deviations, up to the rounding of the sum, from the mean given in
    that call.  The logarithm may be too small by 1/1024 at most and is not positive up to 1.
    Nothing is said about how often the loop runs. *)
Theorem C134_normal_range :
  forall fuel sn lg now ps s rs,
  (forall n, is_finite 53 1024 (sn n) = true /\ Rabs (B2R 53 1024 (sn n)) <= 1) ->
  (forall x, is_finite 53 1024 x = true -> 0 < B2R 53 1024 x <= 1 ->
     is_finite 53 1024 (lg x) = true /\ ln (B2R 53 1024 x) - / 1024 <= B2R 53 1024 (lg x) <= 0) ->
  Forall (fun p => is_finite 24 128 (fst p) = true /\ is_finite 24 128 (snd p) = true /\
                   Rabs (B2R 24 128 (fst p)) + 9 * Rabs (B2R 24 128 (snd p)) <= bpow radix2 127) ps ->
  normal_run fuel sn lg n_init now ps = Ok (s, rs) ->
  Forall2 (fun p r => is_finite 24 128 r = true /\
                      Rabs (B2R 24 128 r - B2R 24 128 (fst p)) <=
                      9 * Rabs (B2R 24 128 (snd p)) + bpow radix2 (-24) * Rabs (B2R 24 128 (fst p)) + bpow radix2 (-148)) ps rs.
Proof. exact (fun fuel sn lg now ps s rs S L P => normal_run_near fuel sn lg now ps s rs S L P). Qed.
Print Assumptions C134_normal_range.

(** A logarithm within the contract that answers -0.69314718 for 1/2 and 0 otherwise. *)
Definition three4 : binary64 := b64_of_bits 0x3fe8000000000000.
Definition lg_half (x : binary64) : binary64 :=
  if (bits_of_b64 x =? 0x3fe0000000000000)%Z then b64_of_bits 0xbfe62e42fefa39ef else b64_of_bits 0.
Definition f32 (z : Z) : binary32 := binary_normalize 24 128 eq_refl eq_refl mode_NE z 0 false.
Example C134_contract :
  (forall n : Z, is_finite 53 1024 three4 = true /\ Rabs (B2R 53 1024 three4) <= 1) /\
  (forall x, is_finite 53 1024 x = true -> 0 < B2R 53 1024 x <= 1 ->
     is_finite 53 1024 (lg_half x) = true /\ ln (B2R 53 1024 x) - / 1024 <= B2R 53 1024 (lg_half x) <= 0).
Proof.
  split; [intros n; split; [reflexivity|]; change (B2R 53 1024 three4) with (6755399441055744 * bpow radix2 (-53));
          change (bpow radix2 (-53)) with (/ 9007199254740992); rewrite Rabs_pos_eq; lra|].
  intros x F [X0 X1]. unfold lg_half. destruct (Z.eqb_spec (bits_of_b64 x) 0x3fe0000000000000) as [E|_].
  - assert (B2R 53 1024 x = / 2) as ->.
    { pose proof (binary_float_of_bits_of_binary_float 52 11 eq_refl eq_refl eq_refl x) as X. fold bits_of_b64 in X. fold b64_of_bits in X.
      change (b64_of_bits (bits_of_b64 x) = x) in X. rewrite E in X. rewrite <- X. change (B2R 53 1024 (b64_of_bits 0x3fe0000000000000)) with (4503599627370496 * bpow radix2 (-53)).
      change (bpow radix2 (-53)) with (/ 9007199254740992). lra. }
    split; [reflexivity|]. change (B2R 53 1024 (b64_of_bits 0xbfe62e42fefa39ef)) with (-6243314768165359 * bpow radix2 (-53)).
    change (bpow radix2 (-53)) with (/ 9007199254740992). rewrite ln_Rinv by lra. pose proof ln2_gt. lra.
  - split; [reflexivity|]. change (B2R 53 1024 (b64_of_bits 0)) with 0.
    assert (ln (B2R 53 1024 x) <= 0); [|lra]. rewrite <- ln_1. destruct X1 as [X1| ->]; [left; now apply ln_increasing|lra].
Qed.
(** Mean 100 and deviation 10, then 0 and 1: 100 + 8.3255 and 0.83255. *)
Example C134_example :
  match normal_run 1 (fun _ => three4) lg_half n_init 1700000000 [(f32 100, f32 10); (f32 0, f32 1)] with
  | Ok (s, rs) => (map bits_of_b32 rs, n_call s)
  | _ => ([], true)
  end = ([0x42d8a6ae; 0x3f55224d]%Z, false).
Proof. vm_compute. reflexivity. Qed.

(** ** C135 The samples do not depend on the parameters *)
(** One sequence of standard samples serves all calls: for any means and deviations the i-th
    call returns mean + deviation * sample, rounded twice.  In particular the second call of a
    pair uses its own parameters, not those of the call that made the sample. *)
Theorem C135_samples :
  forall fuel sn lg now ps s s' rs, normal_run fuel sn lg s now ps = Ok (s', rs) ->
  exists xs, length xs = length ps /\
  forall qs, length qs = length ps ->
  normal_run fuel sn lg s now qs =
    Ok (s', map (fun q => match q with ((mu, std), x) => b32_plus mode_NE mu (b32_mult mode_NE std x) end) (combine qs xs)).
Proof.
  intros fuel sn lg now ps s s' rs N. destruct (normal_run_seq _ _ _ _ _ _ _ _ N) as (xs & L & Q & _).
  exists xs. split; [exact L|]. intros qs H. rewrite (Q qs H). f_equal. f_equal. apply map_ext. intros [[mu std] x]. reflexivity.
Qed.
Print Assumptions C135_samples.
(** With deviation 0 every call returns the mean. *)
Theorem C135_no_deviation :
  forall fuel sn lg now ps s rs,
  (forall n, is_finite 53 1024 (sn n) = true /\ Rabs (B2R 53 1024 (sn n)) <= 1) ->
  (forall x, is_finite 53 1024 x = true -> 0 < B2R 53 1024 x <= 1 ->
     is_finite 53 1024 (lg x) = true /\ ln (B2R 53 1024 x) - / 1024 <= B2R 53 1024 (lg x) <= 0) ->
  Forall (fun p => is_finite 24 128 (fst p) = true /\ is_finite 24 128 (snd p) = true /\ B2R 24 128 (snd p) = 0) ps ->
  normal_run fuel sn lg n_init now ps = Ok (s, rs) ->
  map (B2R 24 128) rs = map (fun p => B2R 24 128 (fst p)) ps.
Proof.
  intros fuel sn lg now ps s rs SL LL FP N. destruct (normal_run_seq _ _ _ _ _ _ _ _ N) as (xs & L & Q & G).
  specialize (Q ps eq_refl). rewrite N in Q. injection Q as ->. specialize (G SL LL ltac:(discriminate)). clear N.
  revert xs L G. induction FP as [|[mu std] ps (F1 & F2 & Z) FP IH]; intros [|x xs] L G; try discriminate; [reflexivity|].
  inversion G as [|? ? [Fx _] G']; subst. cbn [combine map]. f_equal; [now apply no_deviation|]. apply IH; auto.
Qed.
Print Assumptions C135_no_deviation.
(** The second call of a pair draws no random number. *)
Theorem C135_pairs :
  forall fuel sn lg now s mu std s' r, random_normal fuel sn lg s now mu std = Ok (s', r) ->
  n_call s' = negb (n_call s) /\ (n_call s = true -> n_rand s' = n_rand s).
Proof.
  intros fuel sn lg now s mu std s' r. unfold random_normal. destruct (n_call s).
  - intros E. injection E as <- _. auto.
  - destruct (draw _ _ _ _) as [[st [[u1 u2] w]]| | |]; try discriminate. cbn [bind]. intros E. injection E as <- _. split; [reflexivity|discriminate].
Qed.
Print Assumptions C135_pairs.
(** Two calls that make a pair: their samples are the two coordinates, drawn one after the other,
    of one point inside the unit circle, times the same factor sqrt(-2 log w / w). *)
Theorem C135_two :
  forall fuel sn lg now s m1 d1 m2 d2 s' r1 r2, n_call s = false ->
  normal_run fuel sn lg s now [(m1, d1); (m2, d2)] = Ok (s', [r1; r2]) ->
  exists st st1 x1 x2 u1 u2 w k,
    random_f32 sn st now 2147483647 = (st1, x1) /\ random_f32 sn st1 now 2147483647 = (n_rand s', x2) /\
    u1 = b32_plus mode_NE (b32_of_bits 0xbf800000) (b32_mult mode_NE (b32_div mode_NE x1 (b32_of_bits 0x4f000000)) (b32_of_bits 0x40000000)) /\
    u2 = b32_plus mode_NE (b32_of_bits 0xbf800000) (b32_mult mode_NE (b32_div mode_NE x2 (b32_of_bits 0x4f000000)) (b32_of_bits 0x40000000)) /\
    w = f32_of_f64 (b64_plus mode_NE (b64_mult mode_NE (f64_of_f32 u1) (f64_of_f32 u1)) (b64_mult mode_NE (f64_of_f32 u2) (f64_of_f32 u2))) /\
    b32_compare w (b32_of_bits 0x3f800000) <> Some Gt /\ b32_compare w (b32_of_bits 0x3f800000) <> Some Eq /\
    b32_compare w (b32_of_bits 0) <> Some Eq /\
    k = f32_of_f64 (b64_sqrt mode_NE (b64_div mode_NE (b64_mult mode_NE (b64_of_bits 0xc000000000000000) (lg (f64_of_f32 w))) (f64_of_f32 w))) /\
    r1 = b32_plus mode_NE m1 (b32_mult mode_NE d1 (b32_mult mode_NE u1 k)) /\
    r2 = b32_plus mode_NE m2 (b32_mult mode_NE d2 (b32_mult mode_NE u2 k)).
Proof.
  intros fuel sn lg now s m1 d1 m2 d2 s' r1 r2 C. cbn [normal_run]. unfold random_normal at 1. rewrite C.
  destruct (draw fuel sn (n_rand s) now) as [[st' [[u1 u2] w]]| | |] eqn:D; try discriminate. cbn [bind fst snd].
  unfold random_normal. cbn [bind fst snd n_call n_rand n_x2]. intros E. injection E as <- <- <-.
  destruct (draw_pair _ _ _ _ _ _ _ _ D) as (sa & sb & A & B & W & G1 & G2). unfold coordinate in A, B.
  destruct (random_f32 sn sa now rand_max) as [ta xa] eqn:EA. injection A as -> A.
  destruct (random_f32 sn sb now rand_max) as [tb xb] eqn:EB. injection B as -> B.
  exists sa, sb, xa, xb, u1, u2, w, (factor_of lg w).
  split; [exact EA|]. split; [exact EB|]. split; [symmetry; exact A|]. split; [symmetry; exact B|]. split; [exact W|].
  split; [unfold f_ge, f32_1 in G1; intros X; now rewrite X in G1|].
  split; [unfold f_ge, f32_1 in G1; intros X; now rewrite X in G1|].
  split; [unfold f_eq in G2; intros X; change (b32_of_bits 0) with (B754_zero 24 128 false) in X; now rewrite X in G2|].
  repeat split.
Qed.
Print Assumptions C135_two.
(** The same state with other parameters: 0.83255 * 10 + 100 as the second value. *)
Example C135_example :
  match normal_run 1 (fun _ => three4) lg_half n_init 1700000000 [(f32 0, f32 1); (f32 100, f32 10); (f32 7, f32 0)] with
  | Ok (s, rs) => (map bits_of_b32 rs, n_call s)
  | _ => ([], true)
  end = ([0x3f55224d; 0x42d8a6ae; 0x40e00000]%Z, true).
Proof. vm_compute. reflexivity. Qed.
