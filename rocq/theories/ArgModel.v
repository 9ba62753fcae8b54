(** Model of src/vita/util/argopt.c.  No proofs in this file.

    vt_argopt_print_help is in PrintModel.v.  Not modelled: the messages, allocation through an
    allocator instance instead of calloc/realloc (same sizes and contents). *)
From Verif Require Import Base StrModel StrModel2 NumModel.

(** enum VitaTypeInfo, inc/vita/core/core.h:74-104; [w] is the width in bits.
    [TOther]: VT_TYPE_VEC .. VT_TYPE_UNKNOWN; [TInvalid]: VT_TYPE_COUNT and above. *)
Inductive otype :=
| TInt (w : Z) | TUint (w : Z) | TReal | TBool | TChar | TStr | TCstr | TOther | TInvalid.

(** struct VitaArgOpt, inc/vita/util/argopt.h:24-33.  [None] = NULL.  [o_ptr]: optionValue
    is not NULL; the variable it points to is kept apart (list of values in the order of
    the options), simplification: no two options share a variable. *)
Record opt := mk_opt { o_long : option (list Z); o_short : option (list Z); o_ptr : bool; o_type : otype }.

(** The variable of an option.  [VReal t]: the number strtof/strtod/strtold read from [t]. *)
Inductive value :=
| VNum (n : Z) | VReal (t : list Z) | VBool (b : bool) | VChar (c : Z)
| VStr (s : option str) | VCstr (b : option blk).

(** vt_argopt_validate, argopt.c:123-138 (strnlen(short, 4) > 3). *)
Definition opt_valid (o : opt) : bool :=
  match o_long o, o_short o with
  | Some _, Some s => o_ptr o && (zlen s <=? 3) && match o_type o with TInvalid => false | _ => true end
  | _, _ => false
  end.
Definition argopt_validate (opts : list opt) : bool := forallb opt_valid opts.

Definition first_byte (t : list Z) : Z := match t with c :: _ => c | [] => 0 end.
Definition z_true : list Z := [116; 114; 117; 101].

(** vt_argopt_assign_value, argopt.c:140-244.  A variable not of the declared type: UB. *)
Definition assign_value (dbg : bool) (ty : otype) (old : value) (t : list Z) : res value :=
  match ty with
  | TInt w => let* n := conv_str_to_i w t in Ok (VNum n)
  | TUint w => let* n := conv_str_to_u w t in Ok (VNum n)
  | TReal => let* ok := str_is_numeric (str_create_static t) in Ok (VReal (if ok : bool then t else [48]))
  | TBool => Ok (VBool ((first_byte t =? 49) || str_equals_z t z_true))
  | TChar => Ok (VChar (first_byte t))
  | TStr =>
      match old with
      | VStr None => let* s := str_create dbg t in Ok (VStr (Some s))
      | VStr (Some s) => let* s := str_clear s in let* s := str_append dbg s t in Ok (VStr (Some s))
      | _ => UB
      end
  | TCstr =>
      match old with
      | VCstr None =>
          let* b := c_calloc dbg (zlen t + 1) in
          let* b := bwrite b 0 (zblk t) in                            (* strncat to "" *)
          Ok (VCstr (Some b))
      | VCstr (Some b) =>
          let* z := cstr b in
          let* b := if zlen z <? zlen t then c_realloc dbg b (zlen t - zlen z) else Ok b in
          let* b := bwrite b 0 (map Some t) in                        (* memcpy of strlen bytes *)
          Ok (VCstr (Some b))
      | _ => UB
      end
  | TOther | TInvalid => Ok old
  end.

(** The search over the options, argopt.c:40-67: the first option with that name. *)
Definition is_named (o : opt) (key : list Z) : bool :=
  match o_long o, o_short o with
  | Some l, Some s => str_equals_z key l || str_equals_z key s
  | _, _ => false
  end.
Fixpoint find_opt (key : list Z) (opts : list opt) (j : nat) : option nat :=
  match opts with
  | [] => None
  | o :: opts' => if is_named o key then Some j else find_opt key opts' (S j)
  end.

Fixpoint set_nth {A} (l : list A) (j : nat) (x : A) : list A :=
  match l, j with
  | [], _ => []
  | _ :: l', O => x :: l'
  | y :: l', S j' => y :: set_nth l' j' x
  end.

(** Assignment to option number [j]. *)
Definition assign_nth (dbg : bool) (opts : list opt) (vals : list value) (j : nat) (t : list Z) : res (list value) :=
  match nth_error opts j, nth_error vals j with
  | Some o, Some v => let* v := assign_value dbg (o_type o) v t in Ok (set_nth vals j v)
  | _, _ => UB
  end.

Definition SUCCESS : Z := 0.
Definition HELP_WANTED : Z := 1.
Definition ERROR : Z := -1.

(** The main loop, argopt.c:31-81, on the arguments still to come.  [sarg], [ssplit]:
    s_arg_value and s_opt_split, empty at the start of each round. *)
Fixpoint parse_loop (dbg : bool) (opts : list opt) (vals : list value) (sarg ssplit : str) (args : list (list Z)) : res (Z * list value) :=
  match args with
  | [] => Ok (SUCCESS, vals)
  | a :: rest =>
      let* sarg := str_append dbg sarg a in
      let* p := str_pop_get_first dbg (Some ssplit) sarg [61] in
      match p with
      | (None, _) => UB                                               (* not reached: NULL target only *)
      | (Some ssplit, sarg) =>
          let split := negb (str_len ssplit =? 0) in
          let* key := str_z (if split then ssplit else sarg) in
          match find_opt key opts 0 with
          | None => Ok (ERROR, vals)
          | Some j =>
              let* t := str_z sarg in
              let next := match rest with v :: _ => negb (first_byte v =? 45) | [] => false end in
              let* vals := assign_nth dbg opts vals j
                             (if split then t else match rest with v :: _ => if next then v else [49] | [] => [49] end) in
              let* sarg := str_clear sarg in
              let* ssplit := str_clear ssplit in
              if split then parse_loop dbg opts vals sarg ssplit rest else
              match rest with
              | [] => parse_loop dbg opts vals sarg ssplit rest
              | _ :: rest' => if next then parse_loop dbg opts vals sarg ssplit rest' else parse_loop dbg opts vals sarg ssplit rest
              end
          end
      end
  end.

(** argv[1] asks for help, argopt.c:22. *)
Definition help_arg (a : list Z) : bool :=
  (first_byte a =? 63) || str_equals_z a [45; 104] || str_equals_z a [45; 45; 104; 101; 108; 112].

(** vt_argopt_parse, argopt.c:6-89; [args] = argv[1..argc-1] (argc >= 1), optv not NULL.
    Result: the status and the variables afterwards. *)
Definition argopt_parse (dbg : bool) (opts : list opt) (vals : list value) (args : list (list Z)) : res (Z * list value) :=
  let* _ := enforce (1 <=? zlen opts) in
  if negb (argopt_validate opts) then Ok (ERROR, vals) else
  if match args with [a] => help_arg a | _ => false end then Ok (HELP_WANTED, vals) else
  let* sarg := str_create_capacity dbg 16 in
  let* ssplit := str_create_capacity dbg 16 in
  parse_loop dbg opts vals sarg ssplit args.
