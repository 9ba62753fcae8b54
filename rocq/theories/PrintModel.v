(** Models of the functions that print a table: vt_argopt_print_help
    (src/vita/util/argopt.c) and vt_mallocator_print_stats
    (src/vita/allocator/mallocator.c).  The result is the sequence of bytes written to
    stdout; writing always succeeds.  No proofs in this file. *)
From Verif Require Import Base NumModel AllocModel.
From Coq Require Import String Ascii.
Local Open Scope list_scope.

(** The bytes of a C string literal. *)
Definition txt (s : string) : list Z := map (fun a => Z.of_N (N_of_ascii a)) (list_ascii_of_string s).

(** printf("%*s", w, z): padded on the left to at least [w] characters; a negative width
    pads on the right. *)
Definition pad_s (w : Z) (z : list Z) : list Z :=
  if w <? 0 then z ++ repeat 32 (Z.to_nat (- w) - List.length z) else repeat 32 (Z.to_nat w - List.length z) ++ z.

(** (int32_t) of a size_t *)
Definition s32 (n : Z) : Z := (n + 2 ^ 31) mod 2 ^ 32 - 2 ^ 31.

(** The texts of an option, inc/vita/util/argopt.h:24-29; [None] = NULL. *)
Record hopt := mk_hopt { h_long : option (list Z); h_short : option (list Z); h_desc : option (list Z) }.

(** strlen or %s of a NULL pointer: undefined. *)
Definition given (z : option (list Z)) : res (list Z) := match z with Some z => Ok z | None => UB end.

(** The paddings, argopt.c:98-103. *)
Fixpoint paddings (opts : list hopt) (ol os : Z) : res (Z * Z) :=
  match opts with
  | [] => Ok (ol, os)
  | o :: opts' =>
      let* l := given (h_long o) in
      let* s := given (h_short o) in
      paddings opts' (cmp_max (s32 (zlen l)) ol) (cmp_max (s32 (zlen s)) os)
  end.

(** One line, argopt.c:112 and 114. *)
Definition help_line (os ol : Z) (short long desc : list Z) : list Z :=
  pad_s os short ++ [32] ++ pad_s ol long ++ [32] ++ desc ++ [10].

(** argopt.c:111-113 *)
Fixpoint help_lines (os ol : Z) (opts : list hopt) : res (list Z) :=
  match opts with
  | [] => Ok []
  | o :: opts' =>
      let* l := given (h_long o) in
      let* s := given (h_short o) in
      let* d := given (h_desc o) in
      let* r := help_lines os ol opts' in
      Ok (help_line os ol s l d ++ r)
  end.

(** argopt.c:106-108 and 117-119 *)
Definition opt_line (z : option (list Z)) : list Z := match z with Some z => z ++ [10] | None => [] end.

(** vt_argopt_print_help, argopt.c:92-120; optv not NULL. *)
Definition print_help (header footer : option (list Z)) (opts : list hopt) : res (list Z) :=
  let* _ := enforce (1 <=? zlen opts) in
  let* p := paddings opts 6 2 in
  let* lines := help_lines (snd p) (fst p) opts in
  Ok (opt_line header ++ lines ++ help_line (snd p) (fst p) (txt "-h") (txt "--help") (txt "This help information.") ++ opt_line footer).

(** A row of the statistics: "%*zu" with width 10. *)
Definition stat_row (label : string) (n : Z) : list Z := txt label ++ pad_s 10 (fmt_int n) ++ txt " |" ++ [10].
Definition rule : list Z := txt "|-------------------------|" ++ [10].

(** vt_mallocator_print_stats, mallocator.c:139-169, on the statistics of [a]. *)
Definition print_stats (a : alc) : list Z :=
  rule ++ txt "|    MALLOCATOR STATS     |" ++ [10] ++ rule ++
  stat_row "| N   ALLOCS | " (c_allocs a) ++
  stat_row "| N REALLOCS | " (c_reallocs a) ++
  stat_row "| N    FREES | " (c_frees a) ++
  rule ++
  stat_row "| B T.ALLOCD | " (w64 (c_bytes a + c_freed a)) ++
  stat_row "| B C.ALLOCD | " (c_bytes a) ++
  stat_row "| B    FREED | " (c_freed a) ++
  rule ++
  txt "| (N) - COUNT             |" ++ [10] ++
  txt "| (B) - BYTES             |" ++ [10] ++
  txt "| (T) - TOTAL             |" ++ [10] ++
  txt "| (C) - CURRENT           |" ++ [10] ++ rule.
