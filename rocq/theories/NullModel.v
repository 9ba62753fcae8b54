(** What becomes of NULL arguments: every function of the library that takes pointers, reduced to
    what it does with them.

    A function body is a tree of pointer actions, transcribed in the order of the C text.
    What is not about pointers given by the caller is left open: a check of something else may or
    may not stop the program ([May]), a branch on data may go either way ([Alt]), a loop runs its
    body or not.  So the outcomes computed here contain all those of the C function that come from
    its pointer arguments, and the theorems are about all of them.

    Values of pointer arguments: [Null]; [Hollow], an object (vt_str_t, vt_vec_t, vt_plist_t, or an
    allocator) whose storage pointer (->ptr, ->ptr2, ->obj_list) is NULL, like a zero-initialised
    structure; [Full], a valid pointer.

    Simplifications: an allocator that is not NULL has its functions set; a NULL or hollow argument
    given to a function of the C library that reads or writes through it is undefined behaviour
    (C11 7.1.4), also when the operating system would answer with an error; formatted output with
    "%s" and NULL is undefined behaviour; the arguments behind a format, the members of vt_argopt_t
    and the entries of argv are taken to be valid; texts given in a variable argument list or held
    by a list (vt_str_join, vt_str_join_n, vt_path_build, vt_path_build_n) are represented by one
    of them. *)
From Coq Require Import List String Bool Arith Lia.
Import ListNotations.
Local Open Scope string_scope.
Local Open Scope list_scope.

Inductive val := Null | Hollow | Full.

(** What a call passes on: parameter [i] of the caller, a valid object made on the way, the
    literal NULL, or the storage pointer of parameter [i]. *)
Inductive arg := P (i : nat) | New | Nul | Sto (i : nat).

Inductive act :=
| Skip
| Seq (a b : act)
| Chk (i : nat)       (* VT_DEBUG_ASSERT(p != NULL, ...) or assert(p != NULL): debug builds only *)
| ChkP (i : nat)      (* VT_DEBUG_ASSERT(p->ptr != NULL, ...): debug builds only *)
| Enf (i : nat)       (* VT_ENFORCE(p != NULL, ...): every build *)
| Rd (i : nat)        (* reads or writes *p *)
| RdP (i : nat)       (* reads or writes the storage of p *)
| May                 (* a check of something else *)
| Exit                (* ends the program *)
| Ret                 (* return *)
| Alt (a b : act)     (* a branch on something else *)
| IfNull (i : nat) (a b : act)  (* if (p == NULL) a else b *)
| InDbg (a : act)     (* VT_DEBUG_PRINTF(...): debug builds only *)
| Call (f : string) (l : list arg).

Declare Scope act_scope.
Notation "a ;; b" := (Seq a b) (at level 61, right associativity) : act_scope.
Local Open Scope act_scope.

(** Which outcomes are possible: going on with the next statement, returning, being stopped by a
    check of a NULL argument, being stopped by something else, undefined behaviour. *)
Record outs := mkO { o_fall : bool; o_ret : bool; o_stop : bool; o_other : bool; o_undef : bool }.

Definition none : outs := mkO false false false false false.
Definition fall : outs := mkO true false false false false.
Definition stop : outs := mkO false false true false false.
Definition undef : outs := mkO false false false false true.

Definition join (a b : outs) : outs :=
  mkO (o_fall a || o_fall b) (o_ret a || o_ret b) (o_stop a || o_stop b)
      (o_other a || o_other b) (o_undef a || o_undef b).

(** [a] and, where it goes on, [b]. *)
Definition andthen (a b : outs) : outs :=
  if o_fall a
  then mkO (o_fall b) (o_ret a || o_ret b) (o_stop a || o_stop b) (o_other a || o_other b)
           (o_undef a || o_undef b)
  else a.

Definition getv (env : list val) (i : nat) : val := nth i env Full.

(** The value passed; the storage pointer of NULL cannot be read. *)
Definition argv (env : list val) (a : arg) : option val :=
  match a with
  | P i => Some (getv env i)
  | New => Some Full
  | Nul => Some Null
  | Sto i => match getv env i with Null => None | Hollow => Some Null | Full => Some Full end
  end.

Fixpoint argvs (env : list val) (l : list arg) : option (list val) :=
  match l with
  | [] => Some []
  | a :: k => match argv env a, argvs env k with Some v, Some w => Some (v :: w) | _, _ => None end
  end.

Fixpoint exec (dbg : bool) (call : string -> list val -> outs) (env : list val) (a : act) : outs :=
  match a with
  | Skip => fall
  | Seq a b => andthen (exec dbg call env a) (exec dbg call env b)
  | Chk i => match getv env i with Null => if dbg then stop else fall | _ => fall end
  | ChkP i => if dbg then match getv env i with Null => undef | Hollow => stop | Full => fall end
              else fall
  | Enf i => match getv env i with Null => stop | _ => fall end
  | Rd i => match getv env i with Null => undef | _ => fall end
  | RdP i => match getv env i with Full => fall | _ => undef end
  | May => mkO true false false true false
  | Exit => mkO false false false true false
  | Ret => mkO false true false false false
  | Alt a b => join (exec dbg call env a) (exec dbg call env b)
  | IfNull i a b => match getv env i with Null => exec dbg call env a | _ => exec dbg call env b end
  | InDbg a => if dbg then exec dbg call env a else fall
  | Call f l => match argvs env l with Some w => call f w | None => undef end
  end.

(** Parameters: a text, a buffer, a function (T); an object or allocator with storage (O). *)
Inductive kind := T | O.

Record fn := mkfn { fname : string; fkinds : list kind; fbody : act }.

(** ** Abbreviations *)

(** The usual head of a function on an object (e.g. src/vita/container/str.c:68-69). *)
Definition ob (i : nat) : act := Chk i ;; ChkP i.
(** VT_CALLOC: inc/vita/core/core.h, the macro passes __SOURCE_FILENAME__ and __func__ *)
Definition calloc_ : act := Call "vt_calloc" [New; New].
(** [alloctr ? VT_ALLOCATOR_ALLOC(alloctr, ...) : VT_CALLOC(...)], e.g. str.c:43 *)
Definition alloc_ (a : nat) : act :=
  IfNull a calloc_ (Rd a ;; Call "vt_mallocator_alloc" [P a; New; New]).
(** [s->alloctr ? VT_ALLOCATOR_REALLOC(s->alloctr, s->ptr, ...) : VT_REALLOC(s->ptr, ...)],
    e.g. str.c:168-170 *)
Definition realloc_ (i : nat) : act :=
  Rd i ;; Alt (Call "vt_mallocator_realloc" [New; Sto i; New; New]) (Call "vt_realloc" [Sto i; New; New]).
(** [if (s->alloctr) VT_ALLOCATOR_FREE(s->alloctr, s->ptr) else VT_FREE(s->ptr)], e.g. str.c:77-81 *)
Definition free_ (i : nat) : act :=
  Rd i ;; Alt (Call "vt_mallocator_free" [New; Sto i; New; New]) (Call "vt_free" [Sto i]).
Definition opt (a : act) : act := Alt a Skip.
Definition early : act := Alt Ret Skip.

(** ** src/vita/core/core.c *)
Definition core_c : list fn :=
  [ (* 12-23: file, func *)
    mkfn "vt_malloc" [T; T] (May ;; opt (Rd 0 ;; Rd 1 ;; Exit));
    (* 25-36 *)
    mkfn "vt_calloc" [T; T] (May ;; opt (Rd 0 ;; Rd 1 ;; Exit));
    (* 38-49: ptr, file, func *)
    mkfn "vt_realloc" [T; T; T] (May ;; opt (Rd 1 ;; Rd 2 ;; Exit));
    (* 51-57 *)
    mkfn "vt_free" [T] (IfNull 0 Ret Skip);
    (* 59-72: dest, src *)
    mkfn "vt_memmove" [T; T] (Chk 1 ;; Chk 0 ;; early ;; Rd 1 ;; Rd 0);
    (* 74-87 *)
    mkfn "vt_memcopy" [T; T] (Chk 1 ;; Chk 0 ;; early ;; Rd 1 ;; Rd 0);
    (* 89-101 *)
    mkfn "vt_memset" [T] (Chk 0 ;; early ;; Rd 0);
    (* 103-112 *)
    mkfn "vt_memcmp" [T; T] (Chk 0 ;; Chk 1 ;; early ;; Rd 0 ;; Rd 1);
    (* 116-131 *)
    mkfn "vt_gswap" [T; T] (Chk 0 ;; Chk 1 ;; May ;; calloc_ ;; Rd 0 ;; Rd 1 ;; Call "vt_free" [New]);
    (* 133-141 *)
    mkfn "vt_pswap" [T; T] (Chk 0 ;; Chk 1 ;; Rd 0 ;; Rd 1) ].

(** ** src/vita/core/conv.c: one instance stands for each of the eleven types *)
Definition conv_c : list fn :=
  [ (* 7-22 *)
    mkfn "vt_conv_str_to_i32" [T]
      (Chk 0 ;; Call "vt_str_create_static" [P 0] ;; Call "vt_str_is_numeric" [New] ;;
       Alt (InDbg (opt (Rd 0)) ;; Ret) Skip ;; Rd 0);
    (* 36-45 *)
    mkfn "vt_conv_i32_to_str" [T] (Chk 0 ;; May ;; Rd 0 ;; May) ].

(** ** src/vita/allocator/mallocator.c *)
Definition mallocator_c : list fn :=
  [ (* 9-25 *)
    mkfn "vt_mallocator_create" [] (calloc_ ;; calloc_);
    (* 27-55 *)
    mkfn "vt_mallocator_destroy" [O]
      (ob 0 ;; Rd 0 ;; opt (RdP 0 ;; Call "vt_free" [New] ;; RdP 0) ;; Call "vt_free" [Sto 0] ;;
       Call "vt_free" [P 0]);
    (* 57-80: alloctr, file, func *)
    mkfn "vt_mallocator_alloc" [O; T; T]
      (ob 0 ;; May ;; Call "vt_calloc" [P 1; P 2] ;; Call "vt_mallocator_obj_list_add" [P 0; New] ;;
       Rd 0 ;; InDbg (opt (Rd 1 ;; Rd 2)));
    (* 82-111: alloctr, ptr, file, func *)
    mkfn "vt_mallocator_realloc" [O; T; T; T]
      (ob 0 ;; Chk 1 ;; May ;; Call "vt_mallocator_obj_list_remove" [P 0; P 1] ;;
       Call "vt_realloc" [P 1; P 2; P 3] ;; Call "vt_mallocator_obj_list_add" [P 0; New] ;; Rd 0 ;;
       InDbg (opt (Rd 2 ;; Rd 3)));
    (* 113-137: alloctr, ptr, file, func *)
    mkfn "vt_mallocator_free" [O; T; T; T]
      (ob 0 ;; Chk 1 ;; Call "vt_mallocator_obj_list_remove" [P 0; P 1] ;;
       opt (Rd 0 ;; InDbg (opt (Rd 2 ;; Rd 3))) ;; Call "vt_free" [P 1]);
    (* 177-190 *)
    mkfn "vt_mallocator_obj_list_add" [O; T]
      (ob 0 ;; Chk 1 ;; Call "vt_mallocator_obj_list_has_space" [P 0] ;;
       opt (Call "vt_mallocator_obj_list_resize" [P 0]) ;; RdP 0);
    (* 198-224 *)
    mkfn "vt_mallocator_obj_list_remove" [O; T]
      (ob 0 ;; Chk 1 ;; Rd 0 ;;
       opt (Call "vt_mallocator_obj_list_find" [P 0; P 1] ;; early ;; RdP 0));
    (* 230-239 *)
    mkfn "vt_mallocator_obj_list_resize" [O] (ob 0 ;; May ;; Rd 0 ;; Call "vt_realloc" [Sto 0; New; New]);
    (* 245-251 *)
    mkfn "vt_mallocator_obj_list_has_space" [O] (ob 0 ;; Rd 0);
    (* 259-274 *)
    mkfn "vt_mallocator_obj_list_find" [O; T] (ob 0 ;; Chk 1 ;; Rd 0 ;; opt (RdP 0)) ].

(** ** src/vita/container/common.c *)
Definition common_c : list fn :=
  [ mkfn "vt_array_new" [O] (alloc_ 0);  (* 3-11 *)
    (* 13-26 *)
    mkfn "vt_array_free" [O]
      (Chk 0 ;; Rd 0 ;; Alt (Call "vt_mallocator_free" [New; P 0; New; New]) (Call "vt_free" [P 0]));
    mkfn "vt_array_head" [O] (ob 0 ;; Rd 0);  (* 28-34 *)
    mkfn "vt_array_len" [O] (ob 0 ;; Rd 0);  (* 36-42 *)
    mkfn "vt_array_capacity" [O] (ob 0 ;; Rd 0);  (* 44-50 *)
    mkfn "vt_array_has_space" [O] (ob 0 ;; Rd 0);  (* 52-58 *)
    mkfn "vt_array_elsize" [O] (ob 0 ;; Rd 0);  (* 60-66 *)
    mkfn "vt_array_has_alloctr" [O] (ob 0 ;; Rd 0);  (* 68-73 *)
    mkfn "vt_array_get" [O] (ob 0 ;; May ;; Rd 0);  (* 75-88 *)
    mkfn "vt_array_set" [O; T] (ob 0 ;; Chk 1 ;; May ;; RdP 0 ;; Rd 1);  (* 90-105 *)
    mkfn "vt_array_slide_front" [O] (ob 0 ;; Rd 0 ;; early ;; Call "vt_array_slide_reset" [P 0]);  (* 107-122 *)
    mkfn "vt_array_slide_back" [O] (ob 0 ;; Rd 0 ;; early ;; Call "vt_array_slide_reset" [P 0]);  (* 124-139 *)
    mkfn "vt_array_slide_reset" [O] (ob 0 ;; Rd 0);  (* 141-147 *)
    mkfn "vt_index_1d_to_2d" [T; T] (Chk 0 ;; Chk 1 ;; Rd 0 ;; Rd 1);  (* 153-160 *)
    mkfn "vt_index_1d_to_3d" [T; T; T] (Chk 0 ;; Chk 1 ;; Chk 2 ;; Rd 2 ;; Rd 0 ;; Rd 1) ].  (* 166-177 *)

(** ** src/vita/container/span.c: the span itself is passed by value *)
Definition span_c : list fn :=
  [ mkfn "vt_span_from" [T] (Chk 0 ;; May);  (* 3-14 *)
    mkfn "vt_span_from_to" [T] (Chk 0 ;; May);  (* 16-28 *)
    (* 34-44: the span's array *)
    mkfn "vt_span_get" [O] (May ;; Call "vt_array_get" [P 0]);
    (* 63-75: the span's array, val *)
    mkfn "vt_span_set" [O; T] (Chk 1 ;; May ;; Call "vt_array_set" [P 0; P 1]) ].

(** ** src/vita/container/vec.c; the typed variants pass the address of their own parameter *)
Definition vec_c : list fn :=
  [ mkfn "vt_vec_create" [O] (May ;; Call "vt_array_new" [P 0] ;; alloc_ 0);  (* 3-19 *)
    mkfn "vt_vec_destroy" [O] (ob 0 ;; free_ 0 ;; Call "vt_array_free" [P 0]);  (* 21-38 *)
    mkfn "vt_vec_dup" [O; O] (ob 0 ;; Rd 0 ;; Call "vt_vec_create" [P 1] ;; RdP 0);  (* 40-53 *)
    mkfn "vt_vec_len" [O] (Call "vt_array_len" [P 0]);  (* 55-57 *)
    mkfn "vt_vec_capacity" [O] (Call "vt_array_capacity" [P 0]);  (* 59-61 *)
    mkfn "vt_vec_has_space" [O] (Call "vt_array_has_space" [P 0]);  (* 63-65 *)
    mkfn "vt_vec_is_empty" [O] (Call "vt_array_len" [P 0]);  (* 67-69 *)
    mkfn "vt_vec_shrink" [O] (ob 0 ;; Rd 0 ;; early ;; realloc_ 0);  (* 71-88 *)
    mkfn "vt_vec_clear" [O] (ob 0 ;; Rd 0);  (* 90-97 *)
    mkfn "vt_vec_reserve" [O] (ob 0 ;; May ;; realloc_ 0);  (* 99-112 *)
    mkfn "vt_vec_resize" [O] (ob 0 ;; May ;; Rd 0 ;; early ;; realloc_ 0);  (* 114-132 *)
    (* 134-143 *)
    mkfn "vt_vec_push_front" [O; T]
      (ob 0 ;; Chk 1 ;; Call "vt_vec_len" [P 0] ;;
       Alt (Call "vt_vec_insert" [P 0; P 1]) (Call "vt_vec_push_back" [P 0; P 1]));
    mkfn "vt_vec_push_fronti32" [O] (Call "vt_vec_push_front" [P 0; New]);  (* 145-160 *)
    (* 162-175 *)
    mkfn "vt_vec_push_back" [O; T]
      (ob 0 ;; Chk 1 ;; Call "vt_vec_has_space" [P 0] ;; opt (Rd 0 ;; Call "vt_vec_reserve" [P 0]) ;;
       RdP 0 ;; Rd 1);
    mkfn "vt_vec_push_backi32" [O] (Call "vt_vec_push_back" [P 0; New]);  (* 177-192 *)
    mkfn "vt_vec_pop" [O] (ob 0 ;; Rd 0);  (* 194-203 *)
    mkfn "vt_vec_pop_get" [O] (ob 0 ;; Rd 0);  (* 205-216 *)
    (* 218-234: reads the element if there is one *)
    mkfn "vt_vec_pop_geti32" [O] (Call "vt_vec_pop_get" [P 0] ;; opt (RdP 0));
    mkfn "vt_vec_set" [O; T] (ob 0 ;; Chk 1 ;; May ;; Call "vt_array_set" [P 0; P 1]);  (* 236-251 *)
    mkfn "vt_vec_seti32" [O] (Call "vt_vec_set" [P 0; New]);  (* 253-268 *)
    mkfn "vt_vec_get" [O] (ob 0 ;; May ;; Call "vt_array_get" [P 0]);  (* 270-283 *)
    mkfn "vt_vec_geti32" [O] (Call "vt_vec_get" [P 0] ;; RdP 0);  (* 285-300 *)
    (* 302-328 *)
    mkfn "vt_vec_insert" [O; T]
      (ob 0 ;; Chk 1 ;; May ;; Call "vt_vec_has_space" [P 0] ;; opt (Rd 0 ;; Call "vt_vec_reserve" [P 0]) ;;
       Call "vt_memmove" [Sto 0; Sto 0] ;; RdP 0 ;; Rd 1);
    mkfn "vt_vec_inserti32" [O] (Call "vt_vec_insert" [P 0; New]);  (* 330-345 *)
    (* 347-369 *)
    mkfn "vt_vec_remove" [O]
      (ob 0 ;; May ;; Alt (Call "vt_memmove" [Sto 0; Sto 0]) (Call "vt_gswap" [Sto 0; Sto 0]) ;; Rd 0);
    mkfn "vt_vec_can_find" [O; T] (ob 0 ;; Chk 1 ;; Rd 0 ;; opt (RdP 0 ;; Rd 1));  (* 371-385 *)
    mkfn "vt_vec_can_findi32" [O] (Call "vt_vec_can_find" [P 0; New]);  (* 387-402 *)
    mkfn "vt_vec_slide_front" [O] (ob 0 ;; Call "vt_array_slide_front" [P 0]);  (* 404-410 *)
    mkfn "vt_vec_slide_back" [O] (ob 0 ;; Call "vt_array_slide_back" [P 0]);  (* 412-418 *)
    mkfn "vt_vec_slide_reset" [O] (ob 0 ;; Call "vt_array_slide_reset" [P 0]);  (* 420-426 *)
    mkfn "vt_vec_apply" [O; T] (ob 0 ;; Chk 1 ;; Rd 0 ;; opt (Rd 1)) ].  (* 429-439 *)

(** ** src/vita/container/plist.c *)
Definition plist_c : list fn :=
  [ mkfn "vt_plist_create" [O] (May ;; Call "vt_array_new" [P 0] ;; alloc_ 0);  (* 3-18 *)
    mkfn "vt_plist_destroy" [O] (ob 0 ;; free_ 0 ;; Call "vt_array_free" [P 0]);  (* 20-37 *)
    mkfn "vt_plist_dup" [O; O] (ob 0 ;; Rd 0 ;; Call "vt_plist_create" [P 1] ;; RdP 0);  (* 39-52 *)
    mkfn "vt_plist_len" [O] (Call "vt_array_len" [P 0]);  (* 54-56 *)
    mkfn "vt_plist_capacity" [O] (Call "vt_array_capacity" [P 0]);  (* 58-60 *)
    mkfn "vt_plist_has_space" [O] (Call "vt_array_has_space" [P 0]);  (* 62-64 *)
    mkfn "vt_plist_is_empty" [O] (Call "vt_array_len" [P 0]);  (* 66-68 *)
    mkfn "vt_plist_reserve" [O] (ob 0 ;; May ;; realloc_ 0);  (* 70-83 *)
    mkfn "vt_plist_shrink" [O] (ob 0 ;; Rd 0 ;; early ;; realloc_ 0);  (* 85-103 *)
    (* 105-123: p->ptr and p->ptr2 are one member of a union *)
    mkfn "vt_plist_resize" [O] (ob 0 ;; May ;; Rd 0 ;; early ;; realloc_ 0);
    (* 125-151: the pointer is stored, not followed *)
    mkfn "vt_plist_insert" [O; T]
      (ob 0 ;; Chk 1 ;; May ;; Call "vt_plist_has_space" [P 0] ;;
       opt (Rd 0 ;; Call "vt_plist_reserve" [P 0]) ;; Call "vt_memmove" [Sto 0; Sto 0] ;; RdP 0);
    mkfn "vt_plist_clear" [O] (ob 0 ;; Rd 0);  (* 153-160 *)
    mkfn "vt_plist_set" [O; T] (ob 0 ;; Chk 1 ;; May ;; RdP 0);  (* 162-177 *)
    mkfn "vt_plist_get" [O] (ob 0 ;; May ;; RdP 0);  (* 179-192 *)
    (* 194-203 *)
    mkfn "vt_plist_push_front" [O; T]
      (ob 0 ;; Chk 1 ;; Call "vt_plist_len" [P 0] ;;
       Alt (Call "vt_plist_insert" [P 0; P 1]) (Call "vt_plist_push_back" [P 0; P 1]));
    (* 205-218 *)
    mkfn "vt_plist_push_back" [O; T]
      (ob 0 ;; Chk 1 ;; Call "vt_plist_has_space" [P 0] ;;
       opt (Rd 0 ;; Call "vt_plist_reserve" [P 0]) ;; RdP 0);
    mkfn "vt_plist_pop" [O] (ob 0 ;; Rd 0);  (* 220-229 *)
    mkfn "vt_plist_pop_get" [O] (ob 0 ;; Rd 0 ;; opt (RdP 0));  (* 231-242 *)
    (* 244-266 *)
    mkfn "vt_plist_remove" [O]
      (ob 0 ;; May ;; Alt (Call "vt_memmove" [Sto 0; Sto 0]) (Call "vt_pswap" [Sto 0; Sto 0]) ;; Rd 0);
    (* 268-278 *)
    mkfn "vt_plist_remove_element" [O; T]
      (ob 0 ;; Chk 1 ;; May ;; Call "vt_plist_can_find" [P 0; P 1] ;; opt (Call "vt_plist_remove" [P 0]));
    mkfn "vt_plist_can_find" [O; T] (ob 0 ;; Chk 1 ;; Rd 0 ;; opt (RdP 0));  (* 280-294 *)
    mkfn "vt_plist_slide_front" [O] (ob 0 ;; Rd 0 ;; Alt (RdP 0 ;; Ret) Skip ;; Call "vt_plist_slide_reset" [P 0]);  (* 296-311 *)
    mkfn "vt_plist_slide_back" [O] (ob 0 ;; Rd 0 ;; Alt (RdP 0 ;; Ret) Skip ;; Call "vt_plist_slide_reset" [P 0]);  (* 313-328 *)
    mkfn "vt_plist_slide_reset" [O] (ob 0 ;; Call "vt_array_slide_reset" [P 0]);  (* 330-336 *)
    mkfn "vt_plist_apply" [O; T] (ob 0 ;; Chk 1 ;; Call "vt_plist_len" [P 0] ;; opt (RdP 0 ;; Rd 1)) ].  (* 338-349 *)

(** ** src/vita/container/str.c *)
(** str.c:661-670, 694-703, 728-737: one replacement. *)
Definition subst_ (i z : nat) : act :=
  Call "vt_str_z" [P i] ;;
  Alt (Call "vt_memcopy" [New; P z])
      (Call "vt_str_remove" [P i] ;; Call "vt_str_len" [P i] ;;
       Alt (Call "vt_str_insert" [P i; P z]) (Call "vt_str_append" [P i; P z])).

(** str.c:1041-1048: the texts of the list are represented by parameter 3. *)
Definition join_ (st : arg) : act :=
  Call "vt_plist_get" [P 2] ;;
  Alt (Call "vt_str_append" [st; P 3] ;; Call "vt_plist_len" [P 2])
      (Call "vt_str_append" [st; New] ;; Call "vt_plist_len" [P 2] ;; Call "vt_str_append" [st; P 1] ;;
       Call "vt_plist_get" [P 2] ;; Call "vt_str_append" [st; P 3]).

(** str.c:955-986 *)
Definition split_ (p : arg) : act :=
  Call "vt_plist_clear" [p] ;; Rd 2 ;; RdP 1 ;;
  opt (Alt (Call "vt_str_create_len" [Nul]) (Call "vt_str_create_len" [New]) ;;
       Call "vt_str_set_n" [New; New] ;; Call "vt_plist_push_back" [p; New]).

(** str.c:1013-1026 *)
Definition between_ (st : arg) : act :=
  Call "vt_str_clear" [st] ;;
  opt (Rd 2 ;; Call "vt_str_resize" [st] ;; Call "vt_str_append_n" [st; New]).

(** str.c:1114-1125, 1172-1183 *)
Definition pop_ (sp : arg) : act :=
  Call "vt_str_len" [sp] ;; opt (Call "vt_str_reserve" [sp]) ;; Call "vt_str_clear" [sp] ;;
  Call "vt_str_append_n" [sp; Sto 1] ;; Call "vt_str_remove" [P 1].

Definition str_c : list fn :=
  [ mkfn "vt_str_create_static" [T] (Chk 0 ;; Rd 0);  (* 6-19 *)
    (* 21-33 *)
    mkfn "vt_str_create" [T; O]
      (Chk 0 ;; Rd 0 ;; Call "vt_str_create_len" [P 1] ;; Call "vt_str_set_n" [New; P 0]);
    mkfn "vt_str_create_len" [O] (May ;; Call "vt_array_new" [P 0] ;; alloc_ 0 ;; Call "vt_memset" [New]);  (* 35-53 *)
    mkfn "vt_str_create_capacity" [O] (May ;; Call "vt_str_create_len" [P 0] ;; Call "vt_str_clear" [New]);  (* 55-64 *)
    mkfn "vt_str_destroy" [O] (ob 0 ;; Rd 0 ;; early ;; free_ 0 ;; Call "vt_array_free" [P 0]);  (* 66-87 *)
    (* 89-95 *)
    mkfn "vt_str_dup" [O]
      (ob 0 ;; Rd 0 ;; Alt (Call "vt_str_create" [Sto 0; Nul]) (Call "vt_str_create" [Sto 0; New]));
    mkfn "vt_str_take_ownership" [T; O] (Chk 0 ;; Call "vt_array_new" [P 1] ;; Rd 0);  (* 97-115 *)
    mkfn "vt_str_z" [O] (ob 0 ;; Rd 0);  (* 117-123 *)
    mkfn "vt_str_len" [O] (Call "vt_array_len" [P 0]);  (* 125-127 *)
    mkfn "vt_str_capacity" [O] (Call "vt_array_capacity" [P 0]);  (* 129-131 *)
    mkfn "vt_str_has_space" [O] (Call "vt_array_has_space" [P 0]);  (* 133-135 *)
    mkfn "vt_str_is_empty" [O] (Call "vt_array_len" [P 0]);  (* 137-139 *)
    mkfn "vt_str_validate_len" [O] (ob 0 ;; RdP 0);  (* 141-154 *)
    mkfn "vt_str_shrink" [O] (ob 0 ;; Rd 0 ;; May ;; early ;; realloc_ 0);  (* 156-177 *)
    mkfn "vt_str_clear" [O] (ob 0 ;; RdP 0);  (* 179-189 *)
    mkfn "vt_str_reserve" [O] (ob 0 ;; May ;; Rd 0 ;; May ;; realloc_ 0);  (* 191-208 *)
    mkfn "vt_str_resize" [O] (ob 0 ;; May ;; Rd 0 ;; May ;; realloc_ 0);  (* 210-228 *)
    mkfn "vt_str_set" [O; T] (ob 0 ;; Chk 1 ;; Rd 1 ;; Call "vt_str_set_n" [P 0; P 1]);  (* 230-237 *)
    (* 239-269 *)
    mkfn "vt_str_set_at" [O; T]
      (ob 0 ;; Chk 1 ;; May ;; Rd 1 ;; Rd 0 ;; May ;; Call "vt_str_remove" [P 0] ;;
       Call "vt_str_append_n" [P 0; P 1]);
    mkfn "vt_str_set_c" [O] (ob 0 ;; May ;; RdP 0);  (* 271-287 *)
    (* 289-313 *)
    mkfn "vt_str_set_n" [O; T]
      (ob 0 ;; Chk 1 ;; May ;; Rd 0 ;; May ;; Call "vt_memmove" [Sto 0; P 1] ;; RdP 0);
    mkfn "vt_str_append" [O; T] (ob 0 ;; Chk 1 ;; Rd 1 ;; Call "vt_str_append_n" [P 0; P 1]);  (* 315-322 *)
    mkfn "vt_str_appendf" [O; T] (ob 0 ;; Chk 1 ;; Call "vt_str_vfmt_append" [P 0; P 1]);  (* 324-340 *)
    (* 342-362 *)
    mkfn "vt_str_append_n" [O; T]
      (ob 0 ;; Chk 1 ;; May ;; Call "vt_str_has_space" [P 0] ;;
       opt (Call "vt_str_has_space" [P 0] ;; Call "vt_str_reserve" [P 0]) ;;
       Call "vt_memmove" [Sto 0; P 1] ;; RdP 0);
    (* 364-395 *)
    mkfn "vt_str_insert" [O; T]
      (ob 0 ;; Chk 1 ;; May ;; Rd 1 ;; Call "vt_str_has_space" [P 0] ;; opt (Call "vt_str_reserve" [P 0]) ;;
       Call "vt_memmove" [Sto 0; Sto 0] ;; Call "vt_memmove" [Sto 0; P 1] ;; RdP 0);
    (* 397-447 *)
    mkfn "vt_str_insertf" [O; T]
      (ob 0 ;; Chk 1 ;; Rd 1 ;; early ;;
       Alt (Call "vt_str_insert" [P 0; New])
           (Rd 0 ;; Alt (Call "vt_str_create_len" [Nul]) (Call "vt_str_create_len" [New]) ;;
            Call "vt_str_vfmt_set" [New; P 1] ;; early ;; Call "vt_str_z" [New] ;;
            Call "vt_str_insert" [P 0; New] ;; Call "vt_str_destroy" [New]));
    (* 449-473 *)
    mkfn "vt_str_insert_n" [O; T]
      (ob 0 ;; Chk 1 ;; May ;; Call "vt_str_has_space" [P 0] ;; opt (Call "vt_str_reserve" [P 0]) ;;
       Call "vt_memmove" [Sto 0; Sto 0] ;; Call "vt_memmove" [Sto 0; P 1] ;; RdP 0);
    (* 475-490: s, sub, z *)
    mkfn "vt_str_insert_before" [O; T; T]
      (ob 0 ;; Chk 1 ;; Chk 2 ;; Call "vt_str_index_find" [P 0; P 1] ;; early ;;
       Call "vt_str_insert" [P 0; P 2]);
    (* 492-507 *)
    mkfn "vt_str_insert_after" [O; T; T]
      (ob 0 ;; Chk 1 ;; Chk 2 ;; Call "vt_str_index_find" [P 0; P 1] ;; early ;; Rd 1 ;;
       Call "vt_str_insert" [P 0; P 2]);
    mkfn "vt_str_remove" [O] (ob 0 ;; May ;; Rd 0 ;; Call "vt_memmove" [Sto 0; Sto 0] ;; RdP 0);  (* 509-535 *)
    (* 537-564 *)
    mkfn "vt_str_remove_first" [O; T]
      (ob 0 ;; Chk 1 ;; RdP 0 ;; Rd 1 ;; early ;; Rd 1 ;; Call "vt_memmove" [New; New] ;; RdP 0);
    mkfn "vt_str_remove_last" [O; T] (ob 0 ;; Chk 1 ;; Rd 1 ;; RdP 0 ;; early ;; Call "vt_str_remove" [P 0]);  (* 566-592 *)
    mkfn "vt_str_remove_all" [O; T] (ob 0 ;; Chk 1 ;; Call "vt_str_remove_first" [P 0; P 1]);  (* 594-604 *)
    mkfn "vt_str_remove_c" [O; T] (ob 0 ;; Chk 1 ;; Rd 0 ;; Rd 1 ;; RdP 0);  (* 606-644 *)
    (* 646-677: s, sub, rsub *)
    mkfn "vt_str_replace" [O; T; T]
      (ob 0 ;; Chk 1 ;; Chk 2 ;; Rd 1 ;; Rd 2 ;; early ;; Call "vt_str_z" [P 0] ;; RdP 0 ;;
       opt (subst_ 0 2 ;; Call "vt_str_z" [P 0]));
    (* 679-705 *)
    mkfn "vt_str_replace_first" [O; T; T]
      (ob 0 ;; Chk 1 ;; Chk 2 ;; Rd 1 ;; Rd 2 ;; early ;; Call "vt_str_find" [P 0; P 1] ;; opt (subst_ 0 2));
    (* 707-739 *)
    mkfn "vt_str_replace_last" [O; T; T]
      (ob 0 ;; Chk 1 ;; Chk 2 ;; Rd 1 ;; Rd 2 ;; early ;; RdP 0 ;; opt (subst_ 0 2));
    (* 741-767: s, c, r *)
    mkfn "vt_str_replace_c" [O; T; T]
      (ob 0 ;; Chk 1 ;; Chk 2 ;; Rd 2 ;; Rd 1 ;; May ;; early ;; Call "vt_str_len" [P 0] ;; opt (RdP 0));
    mkfn "vt_str_strip" [O] (ob 0 ;; RdP 0 ;; Call "vt_memmove" [Sto 0; Sto 0] ;; RdP 0);  (* 769-801 *)
    mkfn "vt_str_strip_punct" [O] (ob 0 ;; RdP 0 ;; Call "vt_memmove" [Sto 0; Sto 0] ;; RdP 0);  (* 803-835 *)
    mkfn "vt_str_strip_c" [O; T] (ob 0 ;; Chk 1 ;; Rd 1 ;; RdP 0 ;; Call "vt_memmove" [Sto 0; Sto 0] ;; RdP 0);  (* 837-895 *)
    (* 897-905 *)
    mkfn "vt_str_find" [O; T]
      (ob 0 ;; Chk 1 ;; Rd 1 ;; Call "vt_str_len" [P 0] ;; May ;; Call "vt_str_z" [P 0] ;; RdP 0);
    (* 907-925 *)
    mkfn "vt_str_can_find" [O; T]
      (ob 0 ;; Chk 1 ;; Rd 1 ;; Call "vt_str_len" [P 0] ;; May ;; Call "vt_str_z" [P 0] ;; RdP 0);
    (* 927-989: ps, s, sep *)
    mkfn "vt_str_split" [O; O; T]
      (ob 1 ;; Chk 2 ;; Call "vt_str_can_find" [P 1; P 2] ;; early ;;
       IfNull 0 (Call "vt_plist_create" [Nul] ;; early ;; split_ New)
                (Call "vt_plist_has_space" [P 0] ;;
                 opt (Call "vt_plist_has_space" [P 0] ;; Call "vt_plist_reserve" [P 0]) ;; split_ (P 0)));
    (* 991-1027: s, z, zl, zr *)
    mkfn "vt_str_split_between" [O; T; T; T]
      (Chk 1 ;; Chk 2 ;; Chk 3 ;; Rd 1 ;; Rd 2 ;; early ;; Rd 1 ;; Rd 3 ;; early ;;
       IfNull 0 (Call "vt_str_create_capacity" [Nul] ;; between_ New) (between_ (P 0)));
    (* 1029-1051: s, sep, p, a text of p *)
    mkfn "vt_str_join" [O; T; O; T]
      (ob 2 ;; Chk 1 ;; IfNull 0 (Call "vt_str_create_capacity" [Nul] ;; join_ New) (join_ (P 0)));
    (* 1053-1082: s, sep, a text *)
    mkfn "vt_str_join_n" [O; T; T]
      (Chk 1 ;; May ;;
       IfNull 0 (Call "vt_str_create_capacity" [Nul] ;; Call "vt_str_append" [New; P 2] ;;
                 opt (Call "vt_str_append" [New; P 1]))
                (Call "vt_str_append" [P 0; P 2] ;; opt (Call "vt_str_append" [P 0; P 1])));
    (* 1084-1128: sr, s, sep *)
    mkfn "vt_str_pop_get_first" [O; O; T]
      (ob 1 ;; Chk 2 ;; Rd 2 ;; Call "vt_str_len" [P 1] ;; early ;; RdP 1 ;; early ;;
       Call "vt_str_len" [P 1] ;; early ;;
       IfNull 0 (Call "vt_str_create_len" [Nul] ;; pop_ New) (pop_ (P 0)));
    (* 1130-1186 *)
    mkfn "vt_str_pop_get_last" [O; O; T]
      (ob 1 ;; Chk 2 ;; Rd 2 ;; Call "vt_str_len" [P 1] ;; early ;; RdP 1 ;; early ;;
       IfNull 0 (Call "vt_str_create_len" [Nul] ;; pop_ New) (pop_ (P 0)));
    mkfn "vt_str_equals_z" [T; T] (Chk 0 ;; Chk 1 ;; Rd 0 ;; Rd 1);  (* 1188-1199 *)
    mkfn "vt_str_equals_n" [T; T] (Chk 0 ;; Chk 1 ;; May ;; Rd 0 ;; May ;; Rd 1 ;; May);  (* 1201-1210 *)
    (* 1212-1223 *)
    mkfn "vt_str_equals" [O; O]
      (Chk 0 ;; Chk 1 ;; Call "vt_str_len" [P 0] ;; Call "vt_str_len" [P 1] ;; early ;;
       Call "vt_str_z" [P 0] ;; Call "vt_str_z" [P 1] ;; RdP 0 ;; RdP 1);
    (* 1225-1237 *)
    mkfn "vt_str_starts_with" [O; T]
      (ob 0 ;; Chk 1 ;; Rd 1 ;; Call "vt_str_len" [P 0] ;; early ;; Call "vt_str_z" [P 0] ;; RdP 0);
    (* 1239-1252 *)
    mkfn "vt_str_ends_with" [O; T]
      (ob 0 ;; Chk 1 ;; Call "vt_str_len" [P 0] ;; Rd 1 ;; early ;; Call "vt_str_z" [P 0] ;; RdP 0);
    mkfn "vt_str_apply" [O; T] (ob 0 ;; Chk 1 ;; Call "vt_str_len" [P 0] ;; opt (Rd 1));  (* 1254-1264 *)
    mkfn "vt_str_is_numeric" [O] (ob 0 ;; Call "vt_str_z" [P 0] ;; Call "vt_str_len" [P 0] ;; opt (RdP 0));  (* 1266-1281 *)
    mkfn "vt_str_is_numeric_z" [T] (Chk 0 ;; May ;; Rd 0);  (* 1283-1296 *)
    mkfn "vt_str_to_uppercase" [O] (ob 0 ;; Rd 0 ;; Call "vt_str_len" [P 0] ;; opt (RdP 0));  (* 1298-1309 *)
    mkfn "vt_str_to_lowercase" [O] (ob 0 ;; Rd 0 ;; Call "vt_str_len" [P 0] ;; opt (RdP 0));  (* 1311-1322 *)
    mkfn "vt_str_index_of" [O] (ob 0 ;; Call "vt_str_z" [P 0] ;; RdP 0);  (* 1324-1335 *)
    (* 1337-1350 *)
    mkfn "vt_str_index_find" [O; T]
      (ob 0 ;; Chk 1 ;; Call "vt_str_find" [P 0; P 1] ;; early ;; Call "vt_str_z" [P 0]);
    mkfn "vt_str_slide_front" [O] (ob 0 ;; Call "vt_array_slide_front" [P 0]);  (* 1352-1358 *)
    mkfn "vt_str_slide_back" [O] (ob 0 ;; Call "vt_array_slide_back" [P 0]);  (* 1360-1366 *)
    mkfn "vt_str_slide_reset" [O] (ob 0 ;; Call "vt_array_slide_reset" [P 0]);  (* 1368-1374 *)
    (* 1385-1419 *)
    mkfn "vt_str_vfmt_set" [O; T]
      (ob 0 ;; Chk 1 ;; Rd 1 ;; early ;; Call "vt_str_has_space" [P 0] ;; opt (Call "vt_str_reserve" [P 0]) ;; RdP 0);
    (* 1428-1462 *)
    mkfn "vt_str_vfmt_append" [O; T]
      (ob 0 ;; Chk 1 ;; Rd 1 ;; early ;; Call "vt_str_has_space" [P 0] ;; opt (Call "vt_str_reserve" [P 0]) ;; RdP 0) ].

(** ** src/vita/system/path.c *)
(** path.c:110-133 *)
Definition list_ (pl : arg) : act :=
  Call "vt_plist_clear" [pl] ;;
  opt (Call "vt_str_equals_z" [New; New] ;;
       Alt (Call "vt_str_create" [New; Nul]) (Call "vt_str_create" [New; New]) ;;
       Call "vt_plist_push_back" [pl; New]).
(** path.c:162-196 *)
Definition rlist_ (pl : arg) : act :=
  Alt (Call "vt_str_create_capacity" [Nul]) (Call "vt_str_create_capacity" [New]) ;;
  opt (Call "vt_str_equals_z" [New; New] ;; Call "vt_str_append" [New; P 1] ;;
       Call "vt_str_append" [New; New] ;; Call "vt_str_z" [New] ;; Call "vt_path_is_dir" [New] ;;
       opt (Call "vt_path_dir_list_recurse" [pl; New]) ;;
       opt (Call "vt_str_dup" [New] ;; Call "vt_plist_push_back" [pl; New] ;; Call "vt_str_clear" [New])) ;;
  Call "vt_str_destroy" [New].
(** path.c:237-258 *)
Definition base_ (st : arg) : act :=
  Rd 1 ;; Call "vt_str_len" [st] ;; opt (Call "vt_str_reserve" [st]) ;;
  opt (Call "vt_str_clear" [st] ;; Call "vt_str_append" [st; New]).
(** a message naming the path, then return: e.g. path.c:94-97 *)
Definition fails_ (i : nat) : act := Alt (InDbg (opt (Rd i)) ;; Ret) Skip.

Definition path_c : list fn :=
  [ (* 3-5: s, p, a text of p *)
    mkfn "vt_path_build" [O; O; T] (Call "vt_str_join" [P 0; New; P 1; P 2]);
    (* 7-25: s, a text *)
    mkfn "vt_path_build_n" [O; T]
      (IfNull 0 (Call "vt_plist_create" [Nul])
                (Rd 0 ;; Alt (Call "vt_plist_create" [Nul]) (Call "vt_plist_create" [New])) ;;
       Call "vt_plist_push_back" [New; P 1] ;; Call "vt_str_join" [P 0; New; New; P 1] ;;
       Call "vt_plist_destroy" [New]);
    (* 27-29, where getcwd gives a text (its failure: LocModel.v) *)
    mkfn "vt_path_get_cwd" [O] (Call "vt_str_take_ownership" [New; P 0]);
    mkfn "vt_path_exists" [T] (Chk 0 ;; Rd 0);  (* 31-37 *)
    mkfn "vt_path_is_dir" [T] (Chk 0 ;; Rd 0);  (* 39-46 *)
    mkfn "vt_path_is_file" [T] (Chk 0 ;; Rd 0);  (* 48-55 *)
    mkfn "vt_path_get_file_size" [T] (Chk 0 ;; Call "vt_path_exists" [P 0] ;; early ;; Rd 0);  (* 57-87 *)
    (* 89-137: p, z *)
    mkfn "vt_path_dir_list" [O; T]
      (Chk 1 ;; Call "vt_path_exists" [P 1] ;; fails_ 1 ;; Rd 1 ;; fails_ 1 ;;
       IfNull 0 (Call "vt_plist_create" [Nul] ;; list_ New) (list_ (P 0)) ;; InDbg (opt (Rd 1)));
    (* 139-203 *)
    mkfn "vt_path_dir_list_recurse" [O; T]
      (Chk 1 ;; Call "vt_path_exists" [P 1] ;; fails_ 1 ;; Rd 1 ;; fails_ 1 ;;
       IfNull 0 (Call "vt_plist_create" [Nul] ;; rlist_ New) (rlist_ (P 0)) ;; InDbg (opt (Rd 1)));
    (* 205-219 *)
    mkfn "vt_path_dir_free" [O]
      (Chk 0 ;; Call "vt_plist_len" [P 0] ;;
       opt (Call "vt_plist_slide_front" [P 0] ;; opt (Call "vt_str_destroy" [New])) ;;
       Call "vt_plist_destroy" [P 0]);
    (* 221-259: s, z *)
    mkfn "vt_path_basename" [O; T]
      (Chk 1 ;; Call "vt_str_create_static" [P 1] ;; Call "vt_str_can_find" [New; New] ;; early ;;
       IfNull 0 (Rd 1 ;; Call "vt_str_create_len" [Nul] ;; base_ New) (base_ (P 0)));
    mkfn "vt_path_mkdir" [T] (Chk 0 ;; Call "vt_path_exists" [P 0] ;; early ;; Rd 0);  (* 261-283 *)
    (* 285-364 *)
    mkfn "vt_path_mkdir_parents" [T]
      (Chk 0 ;; Call "vt_path_exists" [P 0] ;; early ;; Call "vt_str_create" [P 0; Nul] ;;
       Call "vt_str_len" [New] ;; Call "vt_str_create_capacity" [Nul] ;; Rd 0 ;;
       opt (Call "vt_str_append" [New; New]) ;; Call "vt_str_split" [Nul; New; New] ;;
       opt (Call "vt_plist_len" [New] ;; Call "vt_plist_get" [New] ;; Call "vt_str_z" [New] ;;
            Call "vt_str_append" [New; New] ;; Call "vt_path_mkdir" [New]) ;;
       Call "vt_str_destroy" [New] ;;
       opt (Call "vt_plist_len" [New] ;; Call "vt_plist_get" [New] ;; Call "vt_str_destroy" [New] ;;
            Call "vt_plist_destroy" [New]));
    mkfn "vt_path_rmdir" [T] (Chk 0 ;; Call "vt_path_exists" [P 0] ;; fails_ 0 ;; Rd 0);  (* 366-383 *)
    (* 385-435 *)
    mkfn "vt_path_rmdir_recurse" [T]
      (Chk 0 ;; Call "vt_path_exists" [P 0] ;; fails_ 0 ;;
       Call "vt_path_dir_list_recurse" [Nul; P 0] ;; opt (Call "vt_plist_len" [New]) ;;
       Alt (Call "vt_path_rmdir" [P 0])
           (Call "vt_plist_slide_front" [New] ;; Call "vt_str_z" [New] ;; Call "vt_path_is_dir" [New] ;;
            Alt (Call "vt_path_rmdir" [New]) (Call "vt_path_remove" [New]) ;;
            opt (Call "vt_path_rmdir" [P 0])) ;;
       opt (Call "vt_plist_len" [New] ;; Call "vt_plist_get" [New] ;; Call "vt_str_destroy" [New] ;;
            Call "vt_plist_destroy" [New]));
    mkfn "vt_path_remove" [T] (Chk 0 ;; Call "vt_path_exists" [P 0] ;; fails_ 0 ;; Rd 0);  (* 437-448 *)
    mkfn "vt_path_rename" [T; T] (Chk 0 ;; Chk 1 ;; Call "vt_path_exists" [P 0] ;; fails_ 0 ;; Rd 0 ;; Rd 1);  (* 450-466 *)
    (* 468-498: z, alloctr *)
    mkfn "vt_path_expand_tilda" [T; O]
      (Chk 0 ;; Call "vt_str_create" [P 0; P 1] ;; Call "vt_str_index_of" [New] ;; Call "vt_str_len" [New] ;;
       early ;; Call "vt_str_remove" [New] ;; Call "vt_str_insert" [New; New]);
    (* 500-527 *)
    mkfn "vt_path_get_this_exe_location" [O]
      (Call "vt_str_create_capacity" [P 0] ;; early ;; opt (Call "vt_str_destroy" [New]));
    (* 529-556 *)
    mkfn "vt_path_pop" [T]
      (Chk 0 ;; Call "vt_str_create_static" [P 0] ;; Call "vt_str_len" [New] ;; Rd 0 ;; early ;;
       Call "vt_str_find" [New; New] ;; early ;; Rd 0);
    mkfn "vt_path_validate" [T] (Chk 0 ;; Rd 0) ].  (* 558-583 *)

(** ** src/vita/system/fileio.c *)
Definition put_ : act := Chk 1 ;; Call "vt_file_writefc" [P 0; New] ;; opt (Rd 1).

Definition fileio_c : list fn :=
  [ (* 3-54: filename, alloctr *)
    mkfn "vt_file_read" [T; O]
      (Chk 0 ;; Rd 0 ;; fails_ 0 ;; Call "vt_path_get_file_size" [P 0] ;; early ;;
       Call "vt_str_create_len" [P 1] ;; early ;; opt (Call "vt_str_destroy" [New]));
    (* 56-102 *)
    mkfn "vt_file_readb" [T; O]
      (Chk 0 ;; Rd 0 ;; fails_ 0 ;; Call "vt_path_get_file_size" [P 0] ;; early ;;
       Call "vt_str_create_len" [P 1] ;; early ;; opt (Call "vt_str_destroy" [New]));
    (* 104-148: filename, buffer *)
    mkfn "vt_file_read_to_buffer" [T; T]
      (Chk 0 ;; Chk 1 ;; May ;; Rd 0 ;; fails_ 0 ;; Call "vt_path_get_file_size" [P 0] ;; early ;; Rd 1);
    mkfn "vt_file_write" [T; T] put_;      (* 150-154: filename, buffer *)
    mkfn "vt_file_writeln" [T; T] put_;    (* 156-160 *)
    mkfn "vt_file_writeb" [T; T] put_;     (* 162-166 *)
    mkfn "vt_file_writebln" [T; T] put_;   (* 168-172 *)
    mkfn "vt_file_append" [T; T] put_;     (* 174-178 *)
    mkfn "vt_file_appendln" [T; T] put_;   (* 180-184 *)
    mkfn "vt_file_appendb" [T; T] put_;    (* 186-190 *)
    mkfn "vt_file_appendbln" [T; T] put_;  (* 192-196 *)
    mkfn "vt_file_writef" [T; T] (Chk 0 ;; Chk 1 ;; Rd 0 ;; fails_ 0 ;; Rd 1);    (* 198-220: filename, fmt *)
    mkfn "vt_file_writefln" [T; T] (Chk 0 ;; Chk 1 ;; Rd 0 ;; fails_ 0 ;; Rd 1);  (* 222-247 *)
    mkfn "vt_file_writefc" [T; T] (Chk 0 ;; Chk 1 ;; Rd 0 ;; fails_ 0 ;; Rd 1) ]. (* 249-276 *)

(** ** src/vita/time/datetime.c *)
Definition datetime_c : list fn :=
  [ mkfn "vt_datetime_get_now_as_text" [T] (Chk 0 ;; May ;; Rd 0);  (* 14-23 *)
    (* 25-35 *)
    mkfn "vt_datetime_get_now_as_text_pretty" [T] (Chk 0 ;; May ;; Call "vt_datetime_to_text_pretty" [P 0]);
    mkfn "vt_datetime_to_text" [T] (Chk 0 ;; May ;; Call "vt_datetime_to_text_fmt" [P 0; New]);  (* 69-74 *)
    mkfn "vt_datetime_to_text_iso" [T] (Chk 0 ;; May ;; Call "vt_datetime_to_text_fmt" [P 0; New]);  (* 76-81 *)
    mkfn "vt_datetime_to_text_iso_ext" [T] (Chk 0 ;; May ;; Call "vt_datetime_to_text_fmt" [P 0; New]);  (* 83-88 *)
    mkfn "vt_datetime_to_text_pretty" [T] (Chk 0 ;; May ;; Rd 0);  (* 90-111 *)
    (* 113-124 *)
    mkfn "vt_datetime_from_text" [T]
      (Chk 0 ;; Call "vt_datetime_is_valid_text" [P 0] ;; May ;; Call "vt_datetime_from_text_fmt" [P 0; New]);
    (* 126-137 *)
    mkfn "vt_datetime_from_text_iso" [T]
      (Chk 0 ;; Call "vt_datetime_is_valid_text_iso" [P 0] ;; May ;; Call "vt_datetime_from_text_fmt" [P 0; New]);
    (* 139-150 *)
    mkfn "vt_datetime_from_text_iso_ext" [T]
      (Chk 0 ;; Call "vt_datetime_is_valid_text_iso_ext" [P 0] ;; May ;; Call "vt_datetime_from_text_fmt" [P 0; New]);
    mkfn "vt_datetime_is_valid_text" [T] (Chk 0 ;; Call "vt_datetime_is_valid_fmt" [P 0; New]);  (* 205-211 *)
    mkfn "vt_datetime_is_valid_text_iso" [T] (Chk 0 ;; Call "vt_datetime_is_valid_fmt" [P 0; New]);  (* 213-219 *)
    mkfn "vt_datetime_is_valid_text_iso_ext" [T] (Chk 0 ;; Call "vt_datetime_is_valid_fmt" [P 0; New]);  (* 221-227 *)
    mkfn "vt_datetime_to_text_fmt" [T; T] (Chk 0 ;; May ;; Chk 1 ;; Rd 1 ;; Rd 0);  (* 348-357 *)
    mkfn "vt_datetime_from_text_fmt" [T; T] (Chk 0 ;; Chk 1 ;; Rd 0 ;; Rd 1);  (* 365-383 *)
    mkfn "vt_datetime_is_valid_fmt" [T; T] (Chk 0 ;; Chk 1 ;; Rd 1 ;; Rd 0) ].  (* 391-404 *)

(** ** src/vita/util/argopt.c, log.c, debug.c *)
Definition util_c : list fn :=
  [ (* argopt.c:6-90: argv, optv, alloctr *)
    mkfn "vt_argopt_parse" [T; T; O]
      (Enf 1 ;; May ;; Enf 0 ;; May ;; Call "vt_argopt_validate" [P 1] ;; early ;; opt (Rd 0) ;; early ;;
       Call "vt_str_create_capacity" [P 2] ;; Call "vt_str_create_capacity" [P 2] ;;
       opt (Rd 0 ;; Call "vt_str_append" [New; New] ;; Call "vt_str_pop_get_first" [New; New; New] ;;
            Rd 1 ;; Call "vt_str_len" [New] ;; Call "vt_str_z" [New] ;; Call "vt_str_equals_z" [New; New] ;;
            opt (Call "vt_argopt_assign_value" [P 1; New; P 2]) ;; Call "vt_str_clear" [New]) ;;
       Call "vt_str_destroy" [New]);
    (* argopt.c:92-120: header, footer, optv *)
    mkfn "vt_argopt_print_help" [T; T; T]
      (Enf 2 ;; May ;; Rd 2 ;; IfNull 0 Skip (Rd 0) ;; IfNull 1 Skip (Rd 1));
    mkfn "vt_argopt_validate" [T] (Rd 0);  (* argopt.c:124-138 *)
    (* argopt.c:140-262: opt, value, alloctr *)
    mkfn "vt_argopt_assign_value" [T; T; O]
      (IfNull 0 Ret Skip ;; IfNull 1 Ret Skip ;; Rd 0 ;;
       Alt (Call "vt_conv_str_to_i32" [P 1])
           (Alt (Call "vt_str_create" [P 1; P 2]) (Rd 1)));
    mkfn "vt_log_redirect_level_output" [T] (May ;; IfNull 0 Skip (Rd 0));  (* log.c:13-19 *)
    mkfn "vt_log_redirect_all_output" [T] (IfNull 0 Skip (Rd 0));  (* log.c:21-25 *)
    (* log.c:34-77: zfilename, zexpr, file, zfmt *)
    mkfn "vt_log" [T; T; T; T]
      (May ;; early ;; Call "vt_datetime_get_now_as_text" [New] ;; IfNull 0 Skip (Rd 0) ;;
       Alt (InDbg (opt (Rd 2)) ;; Ret) Skip ;; IfNull 1 (Rd 2) (Rd 1 ;; Rd 2) ;; Rd 3 ;; May);
    (* debug.c:7-45: zexpr, subject, file, func, zfmt *)
    mkfn "vt_debug_assert" [T; T; T; T; T]
      (early ;; Call "vt_datetime_get_now_as_text" [New] ;;
       opt (Rd 1 ;; Rd 0 ;; Rd 2 ;; Rd 3 ;; Rd 4) ;; May);
    (* debug.c:47-72: subject, zfmt *)
    mkfn "vt_debug_printf" [T; T]
      (Chk 1 ;; Call "vt_datetime_get_now_as_text" [New] ;; opt (Rd 0 ;; Rd 1));
    mkfn "vt_debug_redirect_output" [T] Skip ].  (* debug.c:74-76 *)

(** ** src/vita/network/sockets.c *)
Definition sockets_c : list fn :=
  [ mkfn "vt_socket_make_address" [T] (Chk 0 ;; Rd 0);  (* 26-33 *)
    mkfn "vt_socket_send" [T] (Rd 0);  (* 127-138 *)
    mkfn "vt_socket_send_to" [T] (Rd 0);  (* 140-157 *)
    mkfn "vt_socket_receive" [T] (Rd 0);  (* 159-170 *)
    mkfn "vt_socket_receive_from" [T; T] (Rd 1 ;; early ;; Rd 0);  (* 172-191: address, data_buf *)
    mkfn "vt_socket_poll" [T] (Rd 0);  (* 193-204 *)
    (* 206-223 *)
    mkfn "vt_socket_receive_timed" [T]
      (Call "vt_socket_poll" [New] ;; early ;; opt (Call "vt_socket_receive" [P 0]));
    (* 225-243: address, data_buf *)
    mkfn "vt_socket_receive_timed_from" [T; T]
      (Call "vt_socket_poll" [New] ;; early ;; opt (Call "vt_socket_receive_from" [P 0; P 1])) ].

Definition library : list fn :=
  core_c ++ conv_c ++ mallocator_c ++ common_c ++ span_c ++ vec_c ++ plist_c ++ str_c ++ path_c ++
  fileio_c ++ datetime_c ++ util_c ++ sockets_c.

(** ** Running a function *)
Definition find_fn (f : string) : option fn :=
  find (fun x => String.eqb (fname x) f) library.

(** Missing arguments do not happen; the values are cut to the number of parameters. *)
Fixpoint pad (ks : list kind) (env : list val) : list val :=
  match ks with
  | [] => []
  | k :: r =>
      match env with
      | [] => Full :: pad r []
      | v :: w => (match k, v with T, Hollow => Full | _, _ => v end) :: pad r w
      end
  end.

(** A call returns where the body returns or comes to its end; it goes on in the caller. *)
Definition finish (o : outs) : outs :=
  mkO (o_fall o || o_ret o) false (o_stop o) (o_other o) (o_undef o).

(** [sem n]: calls nested at most [n] deep. *)
Fixpoint sem (dbg : bool) (n : nat) (f : string) (env : list val) : outs :=
  match n with
  | 0 => none
  | S m =>
      match find_fn f with
      | None => undef
      | Some x => finish (exec dbg (sem dbg m) (pad (fkinds x) env) (fbody x))
      end
  end.

(** ** Possible outcomes of a call *)
Inductive outcome := Returned | Stopped | StoppedOther | Undefined.

Definition has (o : outs) (x : outcome) : bool :=
  match x with
  | Returned => o_fall o
  | Stopped => o_stop o
  | StoppedOther => o_other o
  | Undefined => o_undef o
  end.

Definition may (dbg : bool) (f : string) (env : list val) (x : outcome) : Prop :=
  exists n, has (sem dbg n f env) x = true.
