(** Model of src/vita/core/conv.c (integer instances), src/vita/math/math.c (integer
    functions) and src/vita/algorithm/comparison.c (integer instances).
    The floating point functions are in FloatModel.v. *)
From Verif Require Import Base StrModel StrModel2.

(** * comparison.c *)

(** vt_cmp_min / max / clamp, comparison.c:4-7, 22-25, 40-43: no arithmetic, so one
    definition covers every integer type. *)
Definition cmp_min (x y : Z) : Z := if x <? y then x else y.
Definition cmp_max (x y : Z) : Z := if y <? x then x else y.
Definition cmp_clamp (x l h : Z) : Z := cmp_max l (cmp_min x h).

(** * conv.c *)

(** snprintf("%u" / "%d"): the decimal text of an integer.  [dec_loop k n acc] puts the
    digits of [n] in front of [acc]; 20 digits are enough for 64 bits. *)
Fixpoint dec_loop (k : nat) (n : Z) (acc : list Z) : list Z :=
  match k with
  | O => acc
  | S k' => let acc := (48 + n mod 10) :: acc in
            if n / 10 =? 0 then acc else dec_loop k' (n / 10) acc
  end.
Definition fmt_int (v : Z) : list Z := if v <? 0 then 45 :: dec_loop 20 (- v) [] else dec_loop 20 v [].

(** vt_conv_<int>_to_str, conv.c:36-53.  [buf] is the caller's block and [buf_len] the
    size passed along with it. *)
Definition conv_to_str (buf : blk) (buf_len v : Z) : res blk :=
  let z := fmt_int v in
  let required_len := zlen z + 1 in
  let* _ := enforce (required_len <=? buf_len) in
  let* buf := bwrite buf 0 (zblk z) in
  let* _ := enforce (zlen z =? required_len - 1) in
  Ok buf.

(** strtol / strtoll / strtoul / strtoull in base 10 (C 7.22.1.4) on the text [z]: leading
    white space, an optional sign, the longest run of digits; clamped to the range of the
    64-bit result type. *)
Fixpoint skip_space (z : list Z) : list Z :=
  match z with
  | c :: z' => if is_space c then skip_space z' else z
  | [] => []
  end.
Fixpoint digit_run (z : list Z) (acc : Z) : Z :=
  match z with
  | c :: z' => if is_digit c then digit_run z' (10 * acc + (c - 48)) else acc
  | [] => acc
  end.
Definition strto (z : list Z) : Z * bool :=
  match skip_space z with
  | 45 :: z' => (digit_run z' 0, true)
  | 43 :: z' => (digit_run z' 0, false)
  | z' => (digit_run z' 0, false)
  end.
Definition strtol (z : list Z) : Z :=
  let '(v, neg) := strto z in
  if neg then Z.max (- 9223372036854775808) (- v) else Z.min 9223372036854775807 v.
Definition strtoul (z : list Z) : Z :=
  let '(v, neg) := strto z in
  if two64 <=? v then two64 - 1 else if neg then w64 (- v) else v.

(** Conversion to a [w]-bit unsigned / signed type (gcc and clang wrap signed ones). *)
Definition to_unsigned (w v : Z) : Z := v mod 2 ^ w.
Definition to_signed (w v : Z) : Z := let u := v mod 2 ^ w in if u <? 2 ^ (w - 1) then u else u - 2 ^ w.

(** vt_conv_str_to_u8/u16/u32/u64, conv.c:7-22, 24, 26, 28, 30. *)
Definition conv_str_to_u (w : Z) (z : list Z) : res Z :=
  let* ok := str_is_numeric (str_create_static z) in
  if negb ok then Ok 0 else Ok (to_unsigned w (strtoul z)).
(** vt_conv_str_to_i8/i16/i32/i64, conv.c:7-22, 23, 25, 27, 29. *)
Definition conv_str_to_i (w : Z) (z : list Z) : res Z :=
  let* ok := str_is_numeric (str_create_static z) in
  if negb ok then Ok 0 else Ok (to_signed w (strtol z)).

(** * math.c *)

(** vt_math_is_palindrome, math.c:3-13. *)
Fixpoint reverse_loop (k : nat) (temp reversed : Z) : res Z :=
  match k with
  | O => NoFuel
  | S k' => if temp <=? 0 then Ok reversed
            else reverse_loop k' (temp / 10) (w64 (w64 (reversed * 10) + temp mod 10))
  end.
Definition is_palindrome (num : Z) : res bool :=
  let* r := reverse_loop 21 num 0 in Ok (r =? num).

Definition int64_min : Z := - 9223372036854775808.
Definition int64_max : Z := 9223372036854775807.
Definition in_i64 (z : Z) : bool := (int64_min <=? z) && (z <=? int64_max).

(** C's / and % on int64_t: division by zero and INT64_MIN / -1 are undefined. *)
Definition c_rem (a b : Z) : res Z := if (b =? 0) || ((a =? int64_min) && (b =? -1)) then UB else Ok (Z.rem a b).
Definition c_quot (a b : Z) : res Z := if (b =? 0) || ((a =? int64_min) && (b =? -1)) then UB else Ok (Z.quot a b).
Definition c_mul (a b : Z) : res Z := if in_i64 (a * b) then Ok (a * b) else UB.

(** vt_math_gcd, math.c:99-112. *)
Fixpoint gcd_loop (k : nat) (high low : Z) : res Z :=
  match k with
  | O => NoFuel
  | S k' => let* rem := c_rem high low in
            if rem =? 0 then Ok low else gcd_loop k' low rem
  end.
Definition math_gcd (a b : Z) : res Z :=
  gcd_loop 140 (if b <=? a then a else b) (if b <=? a then b else a).

(** vt_math_lcm, math.c:114-116. *)
Definition math_lcm (a b : Z) : res Z :=
  let* g := math_gcd a b in
  let* q := c_quot a g in
  c_mul q b.

(** vt_math_random_u64, math.c:47-57: the static state is [None] before the first call,
    which seeds it from the clock [now]. *)
Definition random_u64 (st : option Z) (now : Z) : option Z * Z :=
  let t := match st with Some t => t | None => now end in
  let t := w64 (w64 (214013 * w64 t) + 2531011) mod 4294967295 in
  (Some t, Z.shiftr (Z.land t 1073709056) 15).
Fixpoint random_run (st : option Z) (nows : list Z) : list Z :=
  match nows with
  | [] => []
  | now :: nows' => let '(st, r) := random_u64 st now in r :: random_run st nows'
  end.
