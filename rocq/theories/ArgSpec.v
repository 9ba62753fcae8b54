(** Vocabulary for the command line properties: no model functions besides the types, the
    number conversions of conv.c (PropsNum.v) and the texts held by strings (StrSpec.v). *)
From Verif Require Import Base StrModel StrModel2 StrSpec NumModel NumProofs ArgModel.

(** [n] names option [i]: its long or short name, and no earlier option has that name. *)
Definition has_name (o : opt) (n : text) : Prop := o_long o = Some n \/ o_short o = Some n.
Definition named (opts : list opt) (n : text) (i : nat) : Prop :=
  (exists o, nth_error opts i = Some o /\ has_name o n) /\
  (forall j o, (j < i)%nat -> nth_error opts j = Some o -> ~ has_name o n).

(** [given opts args l rest]: the arguments [args] start with the assignments [l] (option
    number, text), in order, and [rest] is left. *)
Inductive given (opts : list opt) : list text -> list (nat * text) -> list text -> Prop :=
| g_done args : given opts args [] args
| g_eq n i v args l rest :                                            (* n=v *)
    named opts n i -> n <> [] -> ~ In 61 n -> given opts args l rest -> given opts ((n ++ [61] ++ v) :: args) ((i, v) :: l) rest
| g_val n i v args l rest :                                           (* n v *)
    named opts n i -> n <> [] -> ~ In 61 n -> (forall r, v <> 45 :: r) -> given opts args l rest -> given opts (n :: v :: args) ((i, v) :: l) rest
| g_flag n i args l rest :                                            (* n, at the end or before -... *)
    named opts n i -> n <> [] -> ~ In 61 n -> (forall v args', args = v :: args' -> exists r, v = 45 :: r) ->
    given opts args l rest -> given opts (n :: args) ((i, [49]) :: l) rest.

(** [a] names no option: neither itself nor, if it is n=v, its part n. *)
Definition unknown (opts : list opt) (a : text) : Prop :=
  (forall n v, a = n ++ [61] ++ v -> n <> [] -> ~ In 61 n -> forall o, In o opts -> ~ has_name o n) /\
  (~ In 61 a \/ (exists v, a = 61 :: v) -> forall o, In o opts -> ~ has_name o a).

(** A table the parser accepts. *)
Definition good_opt (o : opt) : Prop :=
  (exists l s, o_long o = Some l /\ o_short o = Some s /\ zlen s <= 3) /\ o_ptr o = true /\ o_type o <> TInvalid.
Definition good_table (opts : list opt) : Prop := opts <> [] /\ forall o, In o opts -> good_opt o.

(** A help request. *)
Definition asks_help (args : list text) : Prop :=
  exists a, args = [a] /\ ((exists r, a = 63 :: r) \/ a = [45; 104] \/ a = [45; 45; 104; 101; 108; 112]).

(** The variable [v] of an option of type [ty] holds what [t] says. *)
Definition holds (ty : otype) (v : value) (t : text) : Prop :=
  match ty with
  | TInt w => exists n, v = VNum n /\ conv_str_to_i w t = Ok n /\
                (Forall digit t -> dval 0 t < 2 ^ (w - 1) -> n = dval 0 t) /\ (forallb numch t = false -> n = 0)
  | TUint w => exists n, v = VNum n /\ conv_str_to_u w t = Ok n /\
                (Forall digit t -> dval 0 t < 2 ^ w -> n = dval 0 t) /\ (forallb numch t = false -> n = 0)
  | TReal => v = VReal (if forallb numch t then t else [48])
  | TBool => exists b, v = VBool b /\ (b = true <-> (exists r, t = 49 :: r) \/ t = z_true)
  | TChar => v = VChar (match t with c :: _ => c | [] => 0 end)
  | TStr => exists s cap, v = VStr (Some s) /\ srep t cap s
  | TCstr => v = VCstr (Some (zblk t))
  | _ => False
  end.

(** The variable before parsing: of the declared type; a string holds some text. *)
Definition ready (ty : otype) (v : value) : Prop :=
  match ty with
  | TInt w | TUint w => width w
  | TReal | TBool | TChar => True
  | TStr => v = VStr None \/ exists s t cap, v = VStr (Some s) /\ srep t cap s
  | TCstr => v = VCstr None
  | _ => False
  end.

(** Assignments in scope: a vt_str_t option is not given an empty text, a char* option is
    given at most once. *)
Definition assignable (opts : list opt) (l : list (nat * text)) : Prop :=
  forall i o l1 t l2, nth_error opts i = Some o -> l = l1 ++ (i, t) :: l2 ->
  (o_type o = TStr -> t <> []) /\ (o_type o = TCstr -> forall t', ~ In (i, t') l2).

(** [vals'] are the variables after the assignments [l]: the last one of each option. *)
Definition assigned (opts : list opt) (vals : list value) (l : list (nat * text)) (vals' : list value) : Prop :=
  length vals' = length vals /\
  (forall i o l1 t l2, nth_error opts i = Some o -> l = l1 ++ (i, t) :: l2 -> (forall t', ~ In (i, t') l2) ->
     exists v, nth_error vals' i = Some v /\ holds (o_type o) v t) /\
  (forall i, (forall t, ~ In (i, t) l) -> nth_error vals' i = nth_error vals i).

Definition total (args : list text) : Z := fold_right (fun a n => zlen a + n) 0 args.
