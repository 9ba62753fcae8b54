(** Floating point command line options: C68 and C111 together. *)
From Coq Require Import ZArith Bool Reals Lra Lia List.
From Flocq Require Import Core IEEE754.BinarySingleNaN IEEE754.Binary IEEE754.Bits.
From Verif Require Import Base BaseFacts StrModel StrModel2 StrSpec NumModel NumProofs ArgModel ArgSpec ArgProofs PropsArg FtextModel FtextProofs PropsFtext.
From Coq Require Import String.
Import ListNotations.
Local Open Scope string_scope.
Local Open Scope list_scope.
Local Open Scope Z_scope.

(** The number in the variable of an option of type float, double or real, argopt.c:177-185:
    what vt_conv_str_to_f / vt_conv_str_to_d / vt_conv_str_to_r make of the text it stands for. *)
Definition float_of (v : value) : res binary32 := match v with VReal t => conv_str_to_f t | _ => UB end.
Definition double_of (v : value) : res binary64 := match v with VReal t => conv_str_to_d t | _ => UB end.
Definition real_of (v : value) : res binary80 := match v with VReal t => conv_str_to_r t | _ => UB end.
Definition nth_value (r : res (Z * list value)) (i : nat) : res value :=
  let* p := r in match nth_error (snd p) i with Some v => Ok v | None => UB end.

(** ** C123 Floating point options *)
(** Full statement: after a successful parse a float, double or real option holds the number nearest
    to the decimal number given.  False: negative numbers and exponents are accepted and
    stored as 0. *)
Definition fopts : list opt := [mk "--x" "-x" TReal].
Theorem C123_float_option_refuted :
  (let* v := nth_value (argopt_parse true fopts [VReal (T "7")] [T "--x=-1.5"]) 0 in let* x := float_of v in Ok (bits_of_b32 x)) = Ok 0 /\
  (let* v := nth_value (argopt_parse true fopts [VReal (T "7")] [T "-x"; T "2e3"]) 0 in let* x := double_of v in Ok (bits_of_b64 x)) = Ok 0 /\
  (let* r := argopt_parse true fopts [VReal (T "7")] [T "--x=-1.5"] in Ok (fst r)) = Ok 0.
Proof. repeat split; vm_compute; reflexivity. Qed.
Print Assumptions C123_float_option_refuted.

Lemma real_value t : let v := VReal (if forallb numch t then t else [48]) in float_of v = conv_str_to_f t /\ double_of v = conv_str_to_d t /\
  real_of v = conv_str_to_r t.
Proof.
  cbn zeta. destruct (forallb numch t) eqn:E; cbn [float_of double_of real_of]; [auto|].
  unfold conv_str_to_f, conv_str_to_d, conv_str_to_r. rewrite !(read_other _ _ t E). repeat split; vm_compute; reflexivity.
Qed.

(** The variable holds what the conversion makes of the text given last, and so (C111) for
    digits with or without a dot the number nearest to them.  Missing: other texts, and what
    C68_parse_partial leaves out. *)
Theorem C123_float_option_partial :
  forall dbg opts vals args l i o l1 t l2,
  good_table opts -> ~ asks_help args -> given opts args l [] ->
  (forall i o t, nth_error opts i = Some o -> In (i, t) l -> exists v, nth_error vals i = Some v /\ ready (o_type o) v) ->
  assignable opts l -> Forall oks args -> total args + 17 <= alloc_max ->
  nth_error opts i = Some o -> o_type o = TReal -> l = l1 ++ (i, t) :: l2 -> (forall t', ~ In (i, t') l2) ->
  exists vals' v, argopt_parse dbg opts vals args = Ok (0, vals') /\ nth_error vals' i = Some v /\
    float_of v = conv_str_to_f t /\ double_of v = conv_str_to_d t /\ real_of v = conv_str_to_r t /\
    (forall a b, t = a ++ 46 :: b -> Forall digit a -> Forall digit b ->
       exists x y w, float_of v = Ok x /\ double_of v = Ok y /\ real_of v = Ok w /\
       let q := (IZR (dval 0 (a ++ b)) / IZR (10 ^ zlen b))%R in
       (if Rlt_bool (rnd32 q) (bpow radix2 128) then B2R 24 128 x = rnd32 q /\ is_finite 24 128 x = true /\ Bsign 24 128 x = false
        else x = B754_infinity 24 128 false) /\
       (if Rlt_bool (rnd64 q) (bpow radix2 1024) then B2R 53 1024 y = rnd64 q /\ is_finite 53 1024 y = true /\ Bsign 53 1024 y = false
        else y = B754_infinity 53 1024 false) /\
       (if Rlt_bool (rnd80 q) (bpow radix2 16384) then B2R 64 16384 w = rnd80 q /\ is_finite 64 16384 w = true /\ Bsign 64 16384 w = false
        else w = B754_infinity 64 16384 false)).
Proof.
  intros dbg opts vals args l i o l1 t l2 G NH GV RD AS OK TO No Ty El Last.
  destruct (C68_parse_partial dbg opts vals args l G NH GV RD AS OK TO) as (vals' & E & _ & A & _).
  destruct (A i o l1 t l2 No El Last) as (v & Nv & Hv). rewrite Ty in Hv. cbn [holds] in Hv.
  destruct (real_value t) as (F & D & R). rewrite <- Hv in F, D, R.
  exists vals', v. do 5 (split; [assumption|]). intros a b -> Fa Fb. rewrite F, D, R.
  destruct (C111_read_float a b [] Fa Fb (or_introl eq_refl) eq_refl) as (x & Ex & Hx).
  destruct (C111_read_double a b [] Fa Fb (or_introl eq_refl) eq_refl) as (y & Ey & Hy).
  destruct (C111_read_long_double a b [] Fa Fb (or_introl eq_refl) eq_refl) as (w & Ew & Hw).
  rewrite app_nil_r in Ex, Ey, Ew. exists x, y, w. repeat (split; [assumption|]). assumption.
Qed.
Print Assumptions C123_float_option_partial.
Example C123_example :
  (let* v := nth_value (argopt_parse true fopts [VReal (T "7")] [T "--x=0.1"]) 0 in let* x := float_of v in Ok (bits_of_b32 x)) = Ok 0x3dcccccd /\
  (let* v := nth_value (argopt_parse false fopts [VReal (T "7")] [T "-x"; T "2"; T "--x"; T "0.1"]) 0 in let* x := double_of v in Ok (bits_of_b64 x))
    = Ok 0x3fb999999999999a.
Proof. split; vm_compute; reflexivity. Qed.
