(** What the C standard says of the conversions of printf for integers, characters and texts (7.21.6.1), said without the
    reader and the writer of FmtModel.v.  No proofs in this file. *)
From Verif Require Import Base FmtModel.

(** A width or precision: not given, given by decimal digits, or by an argument (an asterisk). *)
Inductive count := CNo | CDig (ds : list Z) | CArg (n : Z).
Definition dec_value (ds : list Z) : Z := fold_left (fun a c => 10 * a + (c - 48)) ds 0.
Definition count_text (c : count) : list Z := match c with CNo => [] | CDig ds => ds | CArg _ => [42] end.
Definition prec_text (c : count) : list Z := match c with CNo => [] | _ => 46 :: count_text c end.
Definition count_args (c : count) : list arg := match c with CArg n => [A32 n] | _ => [] end.
Definition dec_digits (ds : list Z) : Prop := Forall (fun c => 48 <= c <= 57) ds.
(** A width does not begin with 0, which is a flag; arguments are ints. *)
Definition width_ok (c : count) : Prop :=
  match c with CNo => True | CDig ds => dec_digits ds /\ exists d ds', ds = d :: ds' /\ d <> 48 | CArg n => - 2 ^ 31 <= n < 2 ^ 31 end.
Definition prec_ok (c : count) : Prop := match c with CNo => True | CDig ds => dec_digits ds | CArg n => - 2 ^ 31 <= n < 2 ^ 31 end.
(** The flags - 0 + and space, in any order and number. *)
Definition flags_ok (fl : list Z) : Prop := Forall (fun c => c = 45 \/ c = 48 \/ c = 43 \/ c = 32) fl.

(** Sizes: hh, h, none, l, ll, z, j. *)
Inductive isize := Ihh | Ih | Inone | Il | Ill | Iz | Ij.
Definition size_text (s : isize) : list Z := match s with Ihh => [104; 104] | Ih => [104] | Inone => [] | Il => [108] | Ill => [108; 108] | Iz => [122] | Ij => [106] end.
Definition bits (s : isize) : Z := match s with Ihh => 8 | Ih => 16 | Inone => 32 | _ => 64 end.
(** Conversions: d, i, u, x, X. *)
Inductive iconv := Id | Ii | Iu | Ix | IX.
Definition conv_char (k : iconv) : Z := match k with Id => 100 | Ii => 105 | Iu => 117 | Ix => 120 | IX => 88 end.
Definition base_of (k : iconv) : Z := match k with Ix | IX => 16 | _ => 10 end.
Definition signed_conv (k : iconv) : bool := match k with Id | Ii => true | _ => false end.
(** The argument, of the type the conversion asks for (small types are passed as int). *)
Definition int_arg (s : isize) (n : Z) : arg := if bits s =? 64 then A64 n else A32 n.
Definition arg_ok (s : isize) (k : iconv) (n : Z) : Prop :=
  if signed_conv k || (bits s <? 32) then - 2 ^ (Z.max 32 (bits s) - 1) <= n < 2 ^ (Z.max 32 (bits s) - 1) else 0 <= n < 2 ^ bits s.
(** The value [v] written: [n] converted to the type. *)
Definition converted (s : isize) (k : iconv) (n v : Z) : Prop :=
  (exists q, n = v + q * 2 ^ bits s) /\ if signed_conv k then - 2 ^ (bits s - 1) <= v < 2 ^ (bits s - 1) else 0 <= v < 2 ^ bits s.

(** [ds] is the number [n >= 0] in the given base, without leading zeros. *)
Definition digit_value (upper : bool) (c d : Z) : Prop := 0 <= d < 10 /\ c = 48 + d \/ 10 <= d < 16 /\ c = (if upper then 65 else 97) + (d - 10).
Definition numeral (base : Z) (upper : bool) (n : Z) (ds : list Z) : Prop :=
  exists vs, Forall2 (digit_value upper) ds vs /\ Forall (fun d => d < base) vs /\ fold_left (fun a d => base * a + d) vs 0 = n /\ (vs = [0] \/ exists d vs', vs = d :: vs' /\ d <> 0).
(** At least as many digits as the precision says; no digit for 0 with precision 0. *)
Definition with_prec (p : option Z) (n : Z) (ds body : list Z) : Prop :=
  match p with
  | None => body = ds
  | Some p => if (p =? 0) && (n =? 0) then body = [] else exists k, Z.of_nat k = Z.max 0 (p - zlen ds) /\ body = repeat 48 k ++ ds
  end.
Definition sign_text (fl : list Z) (signed : bool) (v : Z) (t : list Z) : Prop :=
  (v < 0 -> t = [45]) /\
  (0 <= v -> (signed = true -> In 43 fl -> t = [43]) /\ (signed = true -> ~ In 43 fl -> In 32 fl -> t = [32]) /\ (signed = false \/ ~ In 43 fl /\ ~ In 32 fl -> t = [])).
(** Filled up to the width: spaces on the right, zeros between the sign and the rest, or spaces on the left. *)
Definition filled (left zero : Prop) (w : Z) (sign body t : list Z) : Prop :=
  exists k, Z.of_nat k = Z.max 0 (w - zlen sign - zlen body) /\
    (left -> t = sign ++ body ++ repeat 32 k) /\ (~ left -> zero -> t = sign ++ repeat 48 k ++ body) /\ (~ left -> ~ zero -> t = repeat 32 k ++ sign ++ body).
(** A negative width argument is the flag - with a positive width; a negative precision is none. *)
Definition width_of (c : count) : Z := match c with CNo => 0 | CDig ds => dec_value ds | CArg n => Z.abs n end.
Definition left_of (fl : list Z) (c : count) : Prop := In 45 fl \/ exists n, c = CArg n /\ n < 0.
Definition prec_of (c : count) : option Z := match c with CNo => None | CDig ds => Some (dec_value ds) | CArg n => if n <? 0 then None else Some n end.
(** The format of one conversion: % flags width precision size letter. *)
Definition dir_fmt (fl : list Z) (w p : count) (s : isize) (c : Z) : list Z := 37 :: fl ++ count_text w ++ prec_text p ++ size_text s ++ [c].
