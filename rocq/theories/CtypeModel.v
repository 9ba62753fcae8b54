(** The character classes of <ctype.h> with the argument the code passes: a plain char, which may be signed.
    No proofs in this file. *)
From Verif Require Import Base StrModel StrModel2.
Local Open Scope list_scope.

(** [CharUnsigned]: plain char is unsigned.  [CharSigned]: it is signed, and the functions are defined as in the
    standard, for 0..255 and EOF (-1) only (C17 7.4).  [CharSignedTable]: it is signed, and the functions accept
    -128..-1 for the bytes 128..255 too (glibc). *)
Inductive lib := CharUnsigned | CharSigned | CharSignedTable.
(** The int a byte of a string is converted to. *)
Definition char_value (l : lib) (c : Z) : Z := match l with CharUnsigned => c | _ => if c <? 128 then c else c - 256 end.
(** isspace, ispunct, isdigit; [f] is the class. *)
Definition ctype_class (l : lib) (f : Z -> bool) (c : Z) : res bool :=
  let v := char_value l c in
  if (0 <=? v) && (v <=? 255) then Ok (f v) else
  if v =? -1 then Ok false else
  match l with CharSignedTable => Ok (f (v + 256)) | _ => UB end.
(** toupper, tolower, and the conversion of the result to char. *)
Definition ctype_map (l : lib) (g : Z -> Z) (c : Z) : res Z :=
  let v := char_value l c in
  if (0 <=? v) && (v <=? 255) then Ok (g v mod 256) else
  if v =? -1 then Ok (v mod 256) else
  match l with CharSignedTable => Ok (g (v + 256) mod 256) | _ => UB end.

(** while (isspace( *curr)) of vt_str_strip, str.c:781-784, and with || ispunct, 815-818; [f] is the condition. *)
Fixpoint k_lead (fuel : nat) (f : Z -> res bool) (b : blk) (offset : Z) : res Z :=
  match fuel with
  | O => NoFuel
  | S k => let* c := bbyte b offset in
           let* y := f c in
           if y : bool then k_lead k f b (offset + 1) else Ok offset
  end.
(** str.c:790-794 and 824-828. *)
Fixpoint k_tail (fuel : nat) (f : Z -> res bool) (b : blk) (offset len : Z) : res Z :=
  match fuel with
  | O => NoFuel
  | S k => let* c := bbyte b (w64 (len + offset - 1)) in
           let* y := f c in
           if y : bool then k_tail k f b offset (w64 (len - 1)) else Ok len
  end.
Definition k_strip_by (fuel : nat) (f : Z -> res bool) (s : str) : res str :=
  let* offset := k_lead fuel f (sb s) 0 in
  let* n := k_tail fuel f (sb s) offset (w64 (sl s - offset)) in
  let s := set_len s n in
  let* s := smove s 0 offset n in
  sput s n 0.
(** vt_str_strip, str.c:768-800; vt_str_strip_punct, str.c:802-834. *)
Definition k_strip (l : lib) (fuel : nat) (s : str) : res str := k_strip_by fuel (ctype_class l is_space) s.
Definition k_strip_punct (l : lib) (fuel : nat) (s : str) : res str :=
  k_strip_by fuel (fun c => let* y := ctype_class l is_space c in if y : bool then Ok true else ctype_class l is_punct c) s.

(** vt_str_is_numeric, str.c:1266-1281. *)
Fixpoint k_numeric_loop (l : lib) (k : nat) (b : blk) (i : Z) : res bool :=
  match k with
  | O => Ok true
  | S k' => let* c := bbyte b i in
            let* y := ctype_class l is_digit c in
            if negb y && negb (c =? 46) then Ok false else k_numeric_loop l k' b (i + 1)
  end.
Definition k_is_numeric (l : lib) (s : str) : res bool := k_numeric_loop l (Z.to_nat (sl s)) (sb s) 0.

(** vt_str_to_uppercase, str.c:1298-1309; vt_str_to_lowercase, str.c:1311-1322. *)
Fixpoint k_map_loop (f : Z -> res Z) (k : nat) (s : str) (i : Z) : res str :=
  match k with
  | O => Ok s
  | S k' => let* c := bbyte (sb s) i in
            let* d := f c in
            let* s := sput s i d in
            k_map_loop f k' s (i + 1)
  end.
Definition k_uppercase (l : lib) (s : str) : res str := k_map_loop (ctype_map l to_upper) (Z.to_nat (sl s)) s 0.
Definition k_lowercase (l : lib) (s : str) : res str := k_map_loop (ctype_map l to_lower) (Z.to_nat (sl s)) s 0.
