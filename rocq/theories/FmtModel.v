(** The part of printf the library and its users rely on: vt_str_appendf and the like
    (src/vita/container/str.c:324-450, 1385-1462), vt_file_writef (src/vita/system/fileio.c:198-280),
    the messages of src/vita/util/log.c and debug.c, vt_argopt_print_help, the numbers of
    src/vita/core/conv.c:36-47.  No proofs in this file.

    Conversions d i u x X c s f F %, flags - 0 + space, width and precision as digits or *, sizes hh h l
    ll z j, and L for f and F.  Others (lf, e, g, p, n, # ...) count as undefined here.  f and F round to the
    nearest, ties to even, as glibc does; a float is passed as the double of the same value.  An argument that is missing or not
    of the type the conversion asks for is undefined (C11 7.21.6.1); int32_t is int, int64_t is long,
    size_t is unsigned long.  No text is longer than INT_MAX. *)
From Flocq Require Import IEEE754.BinarySingleNaN IEEE754.Binary IEEE754.Bits.
From Verif Require Import Base NumModel FtextModel.

(** An argument: an int or unsigned int, a 64-bit integer, a C string, a double, a long double. *)
Inductive arg := A32 (n : Z) | A64 (n : Z) | AS (z : list Z) | AF (x : binary64) | AL (x : binary80).
(** What a conversion asks for. *)
Inductive aty := TInt32 | TUint32 | TInt64 | TUint64 | TText | TDouble | TLong.
Definition of_type (a : arg) (t : aty) : bool :=
  match a, t with
  | A32 n, TInt32 => (- 2 ^ 31 <=? n) && (n <? 2 ^ 31)
  | A32 n, TUint32 => (0 <=? n) && (n <? 2 ^ 32)
  | A64 n, TInt64 => (- 2 ^ 63 <=? n) && (n <? 2 ^ 63)
  | A64 n, TUint64 => (0 <=? n) && (n <? 2 ^ 64)
  | AS _, TText => true
  | AF _, TDouble => true
  | AL _, TLong => true
  | _, _ => false
  end.

Inductive num := NNone | NNum (n : Z) | NStar.
Inductive conv := CDec | CUns | CHex (upper : bool) | CChar | CStr | CFix (upper : bool).
Record spec := mk_spec { sp_minus : bool; sp_zero : bool; sp_plus : bool; sp_space : bool; sp_width : num; sp_prec : num; sp_size : Z }.
Definition spec0 : spec := mk_spec false false false false NNone NNone 32.
(** A format is a sequence of characters and conversions. *)
Inductive item := Chr (c : Z) | Dir (sp : spec) (k : conv).

(** Where the reader is: outside, or in a conversion at: the flags, the width, after the width, after
    the point, in the precision, after the precision, in the size. *)
Inductive place := Out | AtFlags | InWidth | PastWidth | AtPrec | InPrec | PastPrec | InSize.
Definition is_dig (c : Z) : bool := (48 <=? c) && (c <=? 57).
Definition set_flag (sp : spec) (c : Z) : option spec :=
  if c =? 45 then Some (mk_spec true (sp_zero sp) (sp_plus sp) (sp_space sp) (sp_width sp) (sp_prec sp) (sp_size sp)) else
  if c =? 48 then Some (mk_spec (sp_minus sp) true (sp_plus sp) (sp_space sp) (sp_width sp) (sp_prec sp) (sp_size sp)) else
  if c =? 43 then Some (mk_spec (sp_minus sp) (sp_zero sp) true (sp_space sp) (sp_width sp) (sp_prec sp) (sp_size sp)) else
  if c =? 32 then Some (mk_spec (sp_minus sp) (sp_zero sp) (sp_plus sp) true (sp_width sp) (sp_prec sp) (sp_size sp)) else None.
Definition set_width (sp : spec) (n : num) : spec := mk_spec (sp_minus sp) (sp_zero sp) (sp_plus sp) (sp_space sp) n (sp_prec sp) (sp_size sp).
Definition set_prec (sp : spec) (n : num) : spec := mk_spec (sp_minus sp) (sp_zero sp) (sp_plus sp) (sp_space sp) (sp_width sp) n (sp_size sp).
Definition set_size (sp : spec) (n : Z) : spec := mk_spec (sp_minus sp) (sp_zero sp) (sp_plus sp) (sp_space sp) (sp_width sp) (sp_prec sp) n.
Definition more (n : num) (c : Z) : num := match n with NNum m => NNum (10 * m + (c - 48)) | _ => NNum (c - 48) end.

(** One character inside a conversion: a new place, or the end of the conversion. *)
Definition inside (p : place) (sp : spec) (c : Z) : option ((place * spec) + item) :=
  let conv k := if sp_size sp =? 80 then None else Some (inr (Dir sp k)) in
  let size n := match p with InSize => if (sp_size sp =? n) && (n =? 64) || (sp_size sp =? 16) && (n =? 16)
                                       then Some (inl (InSize, set_size sp (if n =? 16 then 8 else 64))) else None
                           | _ => Some (inl (InSize, set_size sp n)) end in
  let flag := match p with AtFlags => set_flag sp c | _ => None end in
  match flag with
  | Some sp => Some (inl (AtFlags, sp))
  | None =>
      if is_dig c then
        match p with
        | AtFlags | InWidth => Some (inl (InWidth, set_width sp (more (sp_width sp) c)))
        | AtPrec | InPrec => Some (inl (InPrec, set_prec sp (more (sp_prec sp) c)))
        | _ => None
        end else
      if c =? 42 then                                                  (* * *)
        match p with
        | AtFlags => Some (inl (PastWidth, set_width sp NStar))
        | AtPrec => Some (inl (PastPrec, set_prec sp NStar))
        | _ => None
        end else
      if c =? 46 then                                                  (* . *)
        match p with
        | AtFlags | InWidth | PastWidth => Some (inl (AtPrec, set_prec sp (NNum 0)))
        | _ => None
        end else
      if c =? 104 then size 16 else                                    (* h *)
      if (c =? 108) then size 64 else                                  (* l *)
      if (c =? 122) || (c =? 106) then match p with InSize => None | _ => size 64 end else   (* z j *)
      if (c =? 100) || (c =? 105) then conv CDec else                  (* d i *)
      if c =? 117 then conv CUns else                                  (* u *)
      if c =? 120 then conv (CHex false) else                          (* x *)
      if c =? 88 then conv (CHex true) else                            (* X *)
      if c =? 76 then match p with InSize => None | _ => size 80 end else    (* L *)
      if (c =? 102) || (c =? 70) then                                  (* f F *)
        (if (sp_size sp =? 32) || (sp_size sp =? 80) then Some (inr (Dir sp (CFix (c =? 70)))) else None) else
      if c =? 99 then (if sp_size sp =? 32 then conv CChar else None) else    (* c *)
      if c =? 115 then (if sp_size sp =? 32 then conv CStr else None) else    (* s *)
      if c =? 37 then match p, sp with AtFlags, mk_spec false false false false NNone NNone 32 => Some (inr (Chr 37)) | _, _ => None end
      else None
  end.

Fixpoint parse_at (p : place) (sp : spec) (f : list Z) : option (list item) :=
  match f with
  | [] => match p with Out => Some [] | _ => None end
  | c :: f =>
      match p with
      | Out => if c =? 37 then parse_at AtFlags spec0 f else option_map (cons (Chr c)) (parse_at Out sp f)
      | _ =>
          match inside p sp c with
          | None => None
          | Some (inl (p, sp)) => parse_at p sp f
          | Some (inr i) => option_map (cons i) (parse_at Out spec0 f)
          end
      end
  end.
Definition parse (f : list Z) : option (list item) := parse_at Out spec0 f.

(** The arguments a conversion takes. *)
Definition wants (i : item) : list aty :=
  match i with
  | Chr _ => []
  | Dir sp k =>
      match sp_width sp with NStar => [TInt32] | _ => [] end ++ match sp_prec sp with NStar => [TInt32] | _ => [] end ++
      [match k with
       | CDec => if sp_size sp =? 64 then TInt64 else TInt32
       | CUns | CHex _ => if sp_size sp =? 64 then TUint64 else if sp_size sp =? 32 then TUint32 else TInt32
       | CChar => TInt32
       | CStr => TText
       | CFix _ => if sp_size sp =? 80 then TLong else TDouble
       end]
  end.

Fixpoint digits_of (fuel : nat) (base : Z) (upper : bool) (n : Z) (acc : list Z) : list Z :=
  match fuel with
  | O => acc
  | S k =>
      let d := n mod base in
      let c := if d <? 10 then 48 + d else (if upper then 55 else 87) + d in
      if n / base =? 0 then c :: acc else digits_of k base upper (n / base) (c :: acc)
  end.
Definition pad (minus : bool) (fill : Z) (w : Z) (t : list Z) : list Z :=
  let n := (Z.to_nat w - length t)%nat in
  if minus then t ++ repeat 32 n else repeat fill n ++ t.
(** An integer: [neg] its sign, [n] its absolute value. *)
Definition int_text (sp : spec) (w : Z) (minus : bool) (prec : option Z) (signed neg : bool) (base : Z) (upper : bool) (n : Z) : list Z :=
  let sign := if neg then [45] else if signed && sp_plus sp then [43] else if signed && sp_space sp then [32] else [] in
  let ds := match prec with Some 0 => if n =? 0 then [] else digits_of 64 base upper n [] | _ => digits_of 64 base upper n [] end in
  let ds := match prec with Some p => repeat 48 (Z.to_nat p - length ds) ++ ds | None => ds end in
  if sp_zero sp && negb minus && match prec with None => true | Some _ => false end
  then sign ++ repeat 48 (Z.to_nat w - length sign - length ds) ++ ds
  else pad minus 32 w (sign ++ ds).
(** hh and h convert the argument to the small type. *)
Definition small (size n : Z) (signed : bool) : Z :=
  if (size =? 8) || (size =? 16) then (if signed then (n + 2 ^ (size - 1)) mod 2 ^ size - 2 ^ (size - 1) else n mod 2 ^ size) else n.

(** m * 2^e times 10^p, rounded. *)
Definition scaled (p m e : Z) : Z := if 0 <=? e then m * 2 ^ e * 10 ^ p else near_div (m * 10 ^ p) (2 ^ (- e)).
Fixpoint places (k : nat) (r : Z) (acc : list Z) : list Z :=
  match k with O => acc | S k' => places k' (r / 10) (48 + r mod 10 :: acc) end.
Definition fixed_text (p n : Z) : list Z :=
  digits_of (S (Z.to_nat (Z.log2 n))) 10 false (n / 10 ^ p) [] ++ (if p =? 0 then [] else 46 :: places (Z.to_nat p) (n mod 10 ^ p) []).
(** A floating point number: the sign, then inf, nan or the digits; 6 places unless told otherwise. *)
Definition body_text {prec emax} (upper : bool) (p : Z) (x : binary_float prec emax) : list Z :=
  match x with
  | B754_zero _ _ _ => fixed_text p 0
  | B754_infinity _ _ _ => if upper then [73; 78; 70] else [105; 110; 102]
  | B754_nan _ _ _ _ _ => if upper then [78; 65; 78] else [110; 97; 110]
  | B754_finite _ _ _ m e _ => fixed_text p (scaled p (Zpos m) e)
  end.
Definition float_text {prec emax} (sp : spec) (w : Z) (minus : bool) (pr : option Z) (upper : bool) (x : binary_float prec emax) : list Z :=
  let sign := if Bsign prec emax x then [45] else if sp_plus sp then [43] else if sp_space sp then [32] else [] in
  let ds := body_text upper (match pr with Some p => p | None => 6 end) x in
  if sp_zero sp && negb minus && is_finite prec emax x
  then sign ++ repeat 48 (Z.to_nat w - length sign - length ds) ++ ds
  else pad minus 32 w (sign ++ ds).

Definition as_z (a : arg) : Z := match a with A32 n | A64 n => n | _ => 0 end.
Definition as_t (a : arg) : list Z := match a with AS z => z | _ => [] end.

(** The text of a conversion, for arguments of the right types. *)
Definition dir_text (sp : spec) (k : conv) (args : list arg) : list Z :=
  let wa := match sp_width sp with NStar => (as_z (hd (A32 0) args), tl args) | NNum n => (n, args) | NNone => (0, args) end in
  let pa := match sp_prec sp with
            | NStar => ((if as_z (hd (A32 0) (snd wa)) <? 0 then None else Some (as_z (hd (A32 0) (snd wa)))), tl (snd wa))
            | NNum n => (Some n, snd wa) | NNone => (None, snd wa) end in
  let minus := sp_minus sp || (fst wa <? 0) in
  let w := Z.abs (fst wa) in
  let a := hd (A32 0) (snd pa) in
  match k with
  | CDec => let n := small (sp_size sp) (as_z a) true in int_text sp w minus (fst pa) true (n <? 0) 10 false (Z.abs n)
  | CUns => int_text sp w minus (fst pa) false false 10 false (small (sp_size sp) (as_z a) false)
  | CHex up => int_text sp w minus (fst pa) false false 16 up (small (sp_size sp) (as_z a) false)
  | CChar => pad minus 32 w [as_z a mod 256]
  | CFix up => match a with AF x => float_text sp w minus (fst pa) up x | AL x => float_text sp w minus (fst pa) up x | _ => [] end
  | CStr => pad minus 32 w (match fst pa with Some p => firstn (Z.to_nat p) (as_t a) | None => as_t a end)
  end.

Fixpoint all_of (args : list arg) (tys : list aty) : bool :=
  match args, tys with
  | _, [] => true
  | a :: args, t :: tys => of_type a t && all_of args tys
  | [], _ :: _ => false
  end.
(** The items with the arguments one after the other; arguments left over are ignored. *)
Fixpoint eval (items : list item) (args : list arg) : res (list Z) :=
  match items with
  | [] => Ok []
  | Chr c :: items => let* t := eval items args in Ok (c :: t)
  | Dir sp k :: items =>
      let tys := wants (Dir sp k) in
      if all_of args tys then let* t := eval items (skipn (length tys) args) in Ok (dir_text sp k (firstn (length tys) args) ++ t) else UB
  end.
Definition format (f : list Z) (args : list arg) : res (list Z) :=
  match parse f with Some items => eval items args | None => UB end.
