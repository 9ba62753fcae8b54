(** C179: the messages of the library.  Table of the messages: MsgModel.v. *)
From Coq Require Import String Lia.
From Verif Require Import Base BaseFacts NumModel NumProofs AllocModel PrintModel FmtModel FmtProofs PropsFmt MsgModel.
Local Open Scope list_scope.

(** The arguments have the C types of the call. *)
Definition passed (args : list arg) (tys : list aty) : Prop := Forall2 (fun a t => of_type a t = true) args tys.

Lemma passed_all args tys : passed args tys -> all_of args tys = true.
Proof. induction 1 as [|a t args tys H _ IH]; [reflexivity|]. cbn [all_of]. now rewrite H. Qed.
Lemma passed_length args tys : passed args tys -> List.length args = List.length tys.
Proof. induction 1; cbn [List.length]; congruence. Qed.
Definition aty_eqb (a b : aty) : bool := match a, b with TInt32, TInt32 | TUint32, TUint32 | TInt64, TInt64 | TUint64, TUint64 | TText, TText => true | _, _ => false end.
Fixpoint fits (tys want : list aty) : bool :=
  match tys, want with [], [] => true | a :: tys, b :: want => aty_eqb a b && fits tys want | _, _ => false end.
Lemma fits_eq tys : forall w, fits tys w = true -> tys = w.
Proof. induction tys as [|a tys IH]; intros [|b w] H; try discriminate; [reflexivity|]. cbn [fits] in H. apply andb_prop in H as (E & H). rewrite (IH w H). destruct a, b; try discriminate; reflexivity. Qed.
Definition good (m : message) : bool := match parse (m_format m) with Some items => fits (m_args m) (want items) | None => false end.
(** A 64-bit number where an int is asked for, or no argument. *)
Fixpoint clash (tys want : list aty) : bool :=
  match want with
  | [] => false
  | b :: want => match tys with [] => true | a :: tys => match a, b with TUint64, TInt32 => true | _, _ => clash tys want end end
  end.
Lemma clash_bad tys : forall w args, clash tys w = true -> passed args tys -> all_of args w = false.
Proof.
  induction tys as [|a tys IH]; intros [|b w] args C P; try discriminate.
  - inversion P. reflexivity.
  - inversion P as [|x y args' tys' Hx Hr]; subst. cbn [all_of].
    destruct (of_type x b) eqn:E; [|reflexivity]. cbn [andb]. cbn [clash] in C.
    assert (clash tys w = true) as C'. { destruct a, b; try exact C. exfalso. destruct x; discriminate. }
    exact (IH w args' C' Hr).
Qed.
Definition bad (m : message) : bool := match parse (m_format m) with Some items => clash (m_args m) (want items) | None => true end.
Definition is_faulty (m : message) : bool := existsb (fun f => (if list_eq_dec Z.eq_dec (m_format f) (m_format m) then true else false)) faulty.

Lemma table : forallb (fun m => good m || is_faulty m) messages = true.
Proof. vm_compute. reflexivity. Qed.
Lemma table_bad : forallb bad faulty = true.
Proof. vm_compute. reflexivity. Qed.
Lemma aty_dec (a b : aty) : {a = b} + {a <> b}.
Proof. decide equality. Defined.
Lemma message_dec (a b : message) : {a = b} + {a <> b}.
Proof. decide equality; [apply list_eq_dec, aty_dec|apply list_eq_dec, Z.eq_dec]. Defined.
Lemma table_in : forallb (fun m => if in_dec message_dec m messages then true else false) faulty = true.
Proof. vm_compute. reflexivity. Qed.
Lemma table_faulty : forallb (fun m => negb (is_faulty m) || if in_dec message_dec m faulty then true else false) messages = true.
Proof. vm_compute. reflexivity. Qed.

(** ** C179 Every message the library prints is well defined *)
(** False: five messages pass a size_t for %d or %i or nothing for %s.  Whatever the values, printing
    them is undefined: all three debug messages of the allocator, the complaint of the logger that its
    file cannot be opened, and the complaint about a date. *)
Theorem C179_refuted : forall m, In m faulty -> In m messages /\ forall args, passed args (m_args m) -> format (m_format m) args = UB.
Proof.
  intros m I. split.
  - pose proof (proj1 (forallb_forall _ _) table_in m I) as H. cbv beta in H. destruct (in_dec message_dec m messages); [assumption|discriminate].
  - intros args P. pose proof (proj1 (forallb_forall _ _) table_bad m I) as H. unfold bad in H. unfold format.
    destruct (parse (m_format m)) as [items|]; [|reflexivity].
    destruct (eval_defined items args) as [(_ & A)|(E & _)]; [|exact E]. now rewrite (clash_bad _ _ _ H P) in A.
Qed.
Print Assumptions C179_refuted.
(** Every other message is well defined, whatever the values of the arguments. *)
Theorem C179_partial : forall m, In m messages -> ~ In m faulty -> forall args, passed args (m_args m) -> exists t, format (m_format m) args = Ok t.
Proof.
  intros m I N args P. pose proof (proj1 (forallb_forall _ _) table m I) as G. pose proof (proj1 (forallb_forall _ _) table_faulty m I) as F. cbv beta in G, F.
  destruct (is_faulty m).
  - cbn [negb orb] in F. destruct (in_dec message_dec m faulty); [contradiction|discriminate].
  - rewrite Bool.orb_false_r in G. unfold good in G. unfold format. destruct (parse (m_format m)) as [items|]; [|discriminate].
    apply fits_eq in G. destruct (eval_defined items args) as [(E & _)|(_ & A)]; [exact E|]. rewrite <- G, (passed_all _ _ P) in A. discriminate.
Qed.
Print Assumptions C179_partial.

(** And it tells what it is given: each text argument stands in it unchanged. *)
Lemma dir_tells sp k args z : sp_prec sp = NNone -> k = CStr -> nth_error args (match sp_width sp with NStar => 1 | _ => 0 end) = Some (AS z) ->
  exists a b, dir_text sp k args = a ++ z ++ b.
Proof.
  intros P -> N. unfold dir_text. rewrite P.
  assert (forall m w, exists a b, pad m 32 w z = a ++ z ++ b) as K.
  { intros m w. unfold pad. destruct m; [exists [], (repeat 32 (Z.to_nat w - List.length z)); reflexivity|exists (repeat 32 (Z.to_nat w - List.length z)), []; now rewrite app_nil_r]. }
  destruct (sp_width sp); cbn [fst snd].
  - destruct args; [discriminate|]. injection N as ->. apply K.
  - destruct args; [discriminate|]. injection N as ->. apply K.
  - destruct args as [|x args]; [discriminate|]. destruct args; [discriminate|]. injection N as ->. apply K.
Qed.
Lemma Ok_eq {A} (x y : A) : Ok x = Ok y -> x = y.
Proof. congruence. Qed.
Definition no_prec (i : item) : bool := match i with Dir sp _ => match sp_prec sp with NNone => true | _ => false end | _ => true end.
Lemma eval_tells items : forall args t n z, forallb no_prec items = true -> eval items args = Ok t ->
  nth_error args n = Some (AS z) -> (n < List.length (want items))%nat -> exists a b, t = a ++ z ++ b.
Proof.
  induction items as [|i items IH]; intros args t n z NP E N L; [cbn in L; lia|].
  cbn [forallb] in NP. apply andb_prop in NP as (NP1 & NP). unfold want in L. cbn [flat_map] in L. fold (want items) in L. destruct i as [c|sp k]; cbn [eval] in E.
  - destruct (eval items args) as [t'| | |] eqn:E'; try discriminate. injection E as <-. destruct (IH _ _ _ _ NP E' N L) as (a & b & ->). exists (c :: a), b. reflexivity.
  - destruct (all_of args (wants (Dir sp k))) eqn:A; [|discriminate].
    destruct (eval items (skipn (List.length (wants (Dir sp k))) args)) as [t'| | |] eqn:E'; try discriminate. cbn [bind] in E. apply Ok_eq in E. rewrite app_length in L.
    destruct (Nat.lt_ge_cases n (List.length (wants (Dir sp k)))) as [Ln|Ln].
    + assert (exists a b, dir_text sp k (firstn (List.length (wants (Dir sp k))) args) = a ++ z ++ b) as (a & b & X); [|exists a, (b ++ t'); rewrite <- E, X; now rewrite <- !app_assoc].
      cbn [no_prec] in NP1. destruct (sp_prec sp) eqn:Ep; try discriminate.
      assert (nth_error (firstn (List.length (wants (Dir sp k))) args) n = Some (AS z)) as N'.
      { clear - N Ln. revert n args N Ln. generalize (List.length (wants (Dir sp k))). induction n as [|m IH]; intros [|n] [|x args] N L; try lia; try discriminate; try exact N. cbn [firstn nth_error] in *. apply IH; [exact N|lia]. }
      cbn [wants] in *. rewrite Ep in *. cbn [app] in *.
      destruct (sp_width sp) eqn:Ew; cbn [app List.length] in *; destruct args as [|x args]; cbn [all_of] in A; try discriminate; cbn [firstn] in *.
      * assert (n = O) as -> by lia. injection N as ->. destruct k; try (exfalso; destruct (sp_size sp =? 80), (sp_size sp =? 64), (sp_size sp =? 32); discriminate); try discriminate.
        apply dir_tells; [exact Ep|reflexivity|now rewrite Ew].
      * assert (n = O) as -> by lia. injection N as ->. destruct k; try (exfalso; destruct (sp_size sp =? 80), (sp_size sp =? 64), (sp_size sp =? 32); discriminate); try discriminate.
        apply dir_tells; [exact Ep|reflexivity|now rewrite Ew].
      * destruct args as [|y args]; [destruct x; cbn in A; rewrite ?Bool.andb_false_r in A; discriminate|]. cbn [firstn] in *. apply andb_prop in A as (A1 & A2).
        destruct n as [|n]; [injection N as ->; discriminate|]. assert (n = O) as -> by lia. injection N as ->.
        destruct k; try (exfalso; destruct (sp_size sp =? 80), (sp_size sp =? 64), (sp_size sp =? 32); discriminate); try discriminate.
        apply dir_tells; [exact Ep|reflexivity|now rewrite Ew].
    + assert (nth_error (skipn (List.length (wants (Dir sp k))) args) (n - List.length (wants (Dir sp k))) = Some (AS z)) as N'.
      { clear - N Ln. revert n args N Ln. generalize (List.length (wants (Dir sp k))). induction n as [|m IH]; intros n args N L; [now rewrite Nat.sub_0_r|].
        destruct n as [|n]; [lia|]. destruct args; [discriminate|]. cbn [skipn Nat.sub nth_error] in *. apply IH; [exact N|lia]. }
      destruct (IH _ _ _ _ NP E' N' ltac:(lia)) as (a & b & ->). exists (dir_text sp k (firstn (List.length (wants (Dir sp k))) args) ++ a), b. rewrite <- E. now rewrite <- app_assoc.
Qed.
Lemma table_prec : forallb (fun m => match parse (m_format m) with Some items => forallb no_prec items | None => false end) messages = true.
Proof. vm_compute. reflexivity. Qed.
Theorem C179_tells : forall m, In m messages -> ~ In m faulty -> forall args t, passed args (m_args m) -> format (m_format m) args = Ok t ->
  forall z, In (AS z) args -> exists a b, t = a ++ z ++ b.
Proof.
  intros m I N args t P E z Iz. pose proof (proj1 (forallb_forall _ _) table m I) as G. pose proof (proj1 (forallb_forall _ _) table_faulty m I) as F.
  pose proof (proj1 (forallb_forall _ _) table_prec m I) as Q. cbv beta in G, F, Q.
  destruct (is_faulty m); [cbn [negb orb] in F; destruct (in_dec message_dec m faulty); [contradiction|discriminate]|].
  rewrite Bool.orb_false_r in G. unfold good in G. unfold format in E. destruct (parse (m_format m)) as [items|]; [|discriminate].
  apply fits_eq in G. destruct (In_nth_error _ _ Iz) as (n & Hn). apply (eval_tells items args t n z Q E Hn).
  rewrite <- G, <- (passed_length _ _ P). apply nth_error_Some. now rewrite Hn.
Qed.
Print Assumptions C179_tells.

(** The table of vt_mallocator_print_stats (C-model: PrintModel.print_stats) is what its format gives for
    the statistics. *)
Lemma row_text n : 0 <= n < two64 -> int_text (mk_spec false false false false NStar NNone 64) 10 false None false false 10 false n = pad_s 10 (fmt_int n).
Proof. intros H. unfold int_text. cbn [sp_zero sp_plus sp_space andb negb]. rewrite digits_fmt by exact H. reflexivity. Qed.
Theorem C179_stats : forall a, 0 <= c_allocs a < two64 -> 0 <= c_reallocs a < two64 -> 0 <= c_frees a < two64 -> 0 <= c_bytes a < two64 -> 0 <= c_freed a < two64 ->
  format stats_format [A32 10; A64 (c_allocs a); A32 10; A64 (c_reallocs a); A32 10; A64 (c_frees a);
                       A32 10; A64 (w64 (c_bytes a + c_freed a)); A32 10; A64 (c_bytes a); A32 10; A64 (c_freed a)] = Ok (print_stats a).
Proof.
  intros a H1 H2 H3 H4 H5. assert (0 <= w64 (c_bytes a + c_freed a) < two64) as H6 by (unfold w64; apply Z.mod_pos_bound; reflexivity).
  unfold print_stats, stat_row. generalize dependent (w64 (c_bytes a + c_freed a)). generalize dependent (c_allocs a). generalize dependent (c_reallocs a). generalize dependent (c_frees a). generalize dependent (c_bytes a). generalize dependent (c_freed a).
  intros n5 H5 n4 H4 n3 H3 n2 H2 n1 H1 n6 H6.
  assert (forall n, 0 <= n < two64 -> (0 <=? n) && (n <? 2 ^ 64) = true) as K by (unfold two64; lia).
  assert ((-2 ^ 31 <=? 10) && (10 <? 2 ^ 31) = true) as K0 by reflexivity.
  assert (forall n, 0 <= n < two64 -> dir_text (mk_spec false false false false NStar NNone 64) CUns [A32 10; A64 n] = pad_s 10 (fmt_int n)) as D.
  { intros n H. unfold dir_text. cbn [sp_width sp_prec sp_minus sp_size fst snd hd tl as_z as_t orb small Z.eqb Pos.eqb Z.abs Z.ltb Z.compare]. now apply row_text. }
  form. repeat progress (cbn [eval wants sp_width sp_prec sp_size Z.eqb Pos.eqb app all_of of_type andb bind List.length firstn skipn]; rewrite ?(K _ H1), ?(K _ H2), ?(K _ H3), ?(K _ H4), ?(K _ H5), ?(K _ H6), ?K0).
  rewrite !D by assumption. f_equal. cbn -[pad_s fmt_int]. repeat (rewrite <- ?app_assoc; cbn [app]). reflexivity.
Qed.
Print Assumptions C179_stats.

Example C179_example :
  format (m_format (msg "%s: Failed to open <%s>!" true [])) [AS (T "file.read.error"); AS (T "a.txt")] = Ok (T "file.read.error: Failed to open <a.txt>!" ++ [10]) /\
  format (m_format (msg "%s:%s:%d: %zu bytes allocated" true [])) [AS (T "a.c"); AS (T "main"); A64 7; A64 100] = UB /\
  List.length messages = 46%nat /\ List.length faulty = 5%nat.
Proof. repeat split; vm_compute; reflexivity. Qed.
