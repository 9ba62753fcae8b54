(** Properties of argopt.c.  Statements only; each theorem is followed by a non-vacuity
    example.  [given], [unknown], [assigned], [holds], ...: ArgSpec.v. *)
From Verif Require Import Base BaseFacts StrModel StrModel2 StrSpec NumModel NumProofs ArgModel ArgSpec ArgProofs.
From Coq Require Import String Ascii.
Local Open Scope list_scope.

Definition T (s : string) : list Z := map (fun a => Z.of_N (N_of_ascii a)) (list_ascii_of_string s).
Definition mk (l s : string) (ty : otype) : opt := mk_opt (Some (T l)) (Some (T s)) true ty.

Definition opts0 : list opt := [mk "--num" "-n" (TInt 32); mk "--name" "-s" TStr; mk "--verbose" "-v" TBool; mk "--out" "-o" TCstr].
Definition vals0 : list value := [VNum 7; VStr None; VBool false; VCstr None].
Definition show (r : res (Z * list value)) : res (Z * list (list Z)) :=
  let* p := r in
  Ok (fst p, map (fun v => match v with
                           | VNum n => [n] | VBool b => [if b then 1 else 0] | VChar c => [c] | VReal t => t
                           | VStr (Some s) => match str_z s with Ok z => z | _ => [-1] end
                           | VCstr (Some b) => match cstr b with Ok z => z | _ => [-1] end
                           | _ => [] end) (snd p)).

(** ** C68 Command line parsing is faithful *)
(** Full statement: for all tables and argument vectors.  False: a value starting with '-'
    given as a separate argument is not taken (the option gets 1 and the value counts as an
    unknown option); an empty value for a string option stops a debug build; options of the
    types VT_TYPE_VEC .. VT_TYPE_UNKNOWN are accepted and their value is dropped. *)
Theorem C68_parse_refuted :
  show (argopt_parse true opts0 vals0 [T "--num"; T "-5"]) = Ok (-1, [[1]; []; [0]; []]) /\
  argopt_parse true opts0 vals0 [T "--name="] = Abort /\ argopt_parse true opts0 vals0 [T "-s"; []] = Abort /\
  argopt_parse true [mk "--vec" "-x" TOther] [VNum 0] [T "--vec=5"] = Ok (0, [VNum 0]).
Proof. repeat split; vm_compute; reflexivity. Qed.
Print Assumptions C68_parse_refuted.

(** Missing: values starting with '-' as separate arguments (by definition of [given]), empty
    values of vt_str_t options, char* options given twice or not NULL before (C70), option
    names containing '='. *)
Theorem C68_parse_partial :
  forall dbg opts vals args l,
  good_table opts -> ~ asks_help args -> given opts args l [] ->
  (forall i o t, nth_error opts i = Some o -> In (i, t) l -> exists v, nth_error vals i = Some v /\ ready (o_type o) v) ->
  assignable opts l -> Forall oks args -> total args + 17 <= alloc_max ->
  exists vals', argopt_parse dbg opts vals args = Ok (0, vals') /\ assigned opts vals l vals'.
Proof. exact parse_success. Qed.
Print Assumptions C68_parse_partial.

Theorem C68_unknown_partial :
  forall dbg opts vals args l bad rest,
  good_table opts -> ~ asks_help args -> given opts args l (bad :: rest) -> bad <> [] -> unknown opts bad ->
  (forall i o t, nth_error opts i = Some o -> In (i, t) l -> exists v, nth_error vals i = Some v /\ ready (o_type o) v) ->
  assignable opts l -> Forall oks args -> total args + 17 <= alloc_max ->
  exists vals', argopt_parse dbg opts vals args = Ok (-1, vals') /\ assigned opts vals l vals'.
Proof. exact parse_error. Qed.
Print Assumptions C68_unknown_partial.

(** The two theorems cover all argument vectors without empty arguments. *)
Theorem C68_cases :
  forall opts, (forall o, In o opts -> good_opt o) -> (forall o n, In o opts -> has_name o n -> ~ In 61 n) ->
  forall args, Forall (fun a => a <> []) args ->
  exists l rest, given opts args l rest /\ (rest = [] \/ exists bad r, rest = bad :: r /\ bad <> [] /\ unknown opts bad).
Proof. exact given_total. Qed.
Print Assumptions C68_cases.

Example C68_example :
  show (argopt_parse true opts0 vals0 [T "--num=5"; T "-v"; T "-s"; T "bob"; T "-n"; T "42"; T "--out=a=b"; T "--name=al"]) =
    Ok (0, [[42]; T "al"; [1]; T "a=b"]) /\
  show (argopt_parse true opts0 vals0 [T "-n"; T "42"; T "bob"; T "-v"]) = Ok (-1, [[42]; []; [0]; []]).
Proof. split; vm_compute; reflexivity. Qed.

Example C68_given_example :
  given opts0 [T "--num=5"; T "-s"; T "bob"; T "-v"; T "--num=6"] [(0%nat, T "5"); (1%nat, T "bob"); (2%nat, T "1"); (0%nat, T "6")] [] /\
  good_table opts0 /\
  assignable opts0 [(0%nat, T "5"); (1%nat, T "bob"); (2%nat, T "1"); (0%nat, T "6")].
Proof.
  assert (named opts0 (T "--num") 0) as N0 by (split; [eexists; split; [reflexivity|now left]|intros; lia]).
  assert (named opts0 (T "-s") 1) as N1.
  { split; [eexists; split; [reflexivity|now right]|]. intros [|j] o Hj E; [|lia]. injection E as <-. intros [H|H]; discriminate. }
  assert (named opts0 (T "-v") 2) as N2.
  { split; [eexists; split; [reflexivity|now right]|]. intros [|[|j]] o Hj E; [| |lia]; injection E as <-; intros [H|H]; discriminate. }
  split; [|split].
  - apply (g_eq opts0 (T "--num") 0 (T "5")); [exact N0|discriminate|cbn; intuition discriminate|].
    apply (g_val opts0 (T "-s") 1 (T "bob")); [exact N1|discriminate|cbn; intuition discriminate|intros r; discriminate|].
    apply (g_flag opts0 (T "-v") 2); [exact N2|discriminate|cbn; intuition discriminate| |].
    { intros v args E. injection E as <- _. eexists. reflexivity. }
    apply (g_eq opts0 (T "--num") 0 (T "6")); [exact N0|discriminate|cbn; intuition discriminate|constructor].
  - split; [discriminate|]. intros o H. apply valid_good. cbn [opts0 In] in H.
    repeat (destruct H as [<-|H]; [reflexivity|]). contradiction.
  - intros i o l1 t l2 Eo El. repeat (destruct l1 as [|? l1]; [injection El as <- <- <-; cbn in Eo; injection Eo as <-; split; [intros _ H; discriminate H|intros H; discriminate H]|injection El as _ El]).
    destruct l1; discriminate.
Qed.

(** ** C69 Help detection *)
Theorem C69_help :
  forall dbg opts vals args vals', opts <> [] ->
  (argopt_parse dbg opts vals args = Ok (1, vals') <-> (good_table opts /\ asks_help args /\ vals' = vals)).
Proof. exact parse_help. Qed.
Print Assumptions C69_help.

Example C69_example :
  argopt_parse true opts0 vals0 [T "--help"] = Ok (1, vals0) /\ argopt_parse true opts0 vals0 [T "?"] = Ok (1, vals0) /\
  argopt_parse true opts0 vals0 [T "-v"; T "--help"] <> Ok (1, vals0).
Proof. repeat split; vm_compute; try reflexivity. discriminate. Qed.

(** ** C70 Re-assigning a C-string option is safe *)
(** Full statement: for all old and new values.  False in all cases but equal lengths: a
    longer value is written beyond the block (or left unterminated), a shorter one keeps the
    tail of the old value. *)
Theorem C70_reassign_refuted :
  (forall dbg z t q, oks z -> 0 < zlen z -> zlen z < zlen t -> zlen t <= alloc_max ->
     assign_value dbg TCstr (VCstr (Some (map Some z ++ Some 0 :: q))) t = UB) /\
  (forall dbg a b t q, oks a -> oks b -> zlen t = zlen a ->
     assign_value dbg TCstr (VCstr (Some (map Some (a ++ b) ++ Some 0 :: q))) t = Ok (VCstr (Some (map Some (t ++ b) ++ Some 0 :: q)))) /\
  (forall dbg t q, oks t -> 0 < zlen t -> zlen t <= alloc_max -> zlen (Some 0 :: q) <= zlen t ->
     exists b, assign_value dbg TCstr (VCstr (Some (Some 0 :: q))) t = Ok (VCstr (Some b)) /\ b = map Some t /\ cstr b = UB).
Proof. exact (conj cstr_longer (conj cstr_shorter cstr_from_empty)). Qed.
Print Assumptions C70_reassign_refuted.

Theorem C70_reassign_witness_refuted :
  argopt_parse true opts0 [VNum 7; VStr None; VBool false; VCstr (Some (zblk (T "ab")))] [T "-o"; T "xyz"] = UB /\
  show (argopt_parse true opts0 [VNum 7; VStr None; VBool false; VCstr (Some (zblk (T "abc")))] [T "-o"; T "x"]) = Ok (0, [[7]; []; [0]; T "xbc"]).
Proof. split; vm_compute; reflexivity. Qed.
Print Assumptions C70_reassign_witness_refuted.

(** Missing: old values of another length. *)
Theorem C70_reassign_partial :
  (forall dbg t, oks t -> zlen t + 1 <= alloc_max -> assign_value dbg TCstr (VCstr None) t = Ok (VCstr (Some (zblk t)))) /\
  (forall dbg a t q, oks a -> zlen t = zlen a ->
     assign_value dbg TCstr (VCstr (Some (map Some a ++ Some 0 :: q))) t = Ok (VCstr (Some (map Some t ++ Some 0 :: q)))).
Proof. exact (conj cstr_null cstr_same). Qed.
Print Assumptions C70_reassign_partial.

(** ** C90 Bad option tables *)
Theorem C90_bad_table :
  forall dbg opts vals args, opts <> [] -> ~ (forall o, In o opts -> good_opt o) -> argopt_parse dbg opts vals args = Ok (-1, vals).
Proof. exact bad_table. Qed.
Print Assumptions C90_bad_table.

Example C90_example :
  argopt_parse true [mk "--num" "-num" (TInt 8)] [VNum 1] [T "--help"] = Ok (-1, [VNum 1]) /\
  argopt_parse true [mk_opt (Some (T "-a")) None true TBool] [VBool true] [T "-a"] = Ok (-1, [VBool true]).
Proof. split; vm_compute; reflexivity. Qed.
