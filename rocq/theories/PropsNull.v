(** C191: NULL arguments. *)
From Coq Require Import List String Bool Arith Lia.
From Verif Require Import NullModel NullProofs.
Import ListNotations.
Local Open Scope string_scope.
Local Open Scope list_scope.

(** Functions that are [static] in the C files: nobody outside can call them. *)
Definition private : list string :=
  [ "vt_mallocator_obj_list_add"; "vt_mallocator_obj_list_remove"; "vt_mallocator_obj_list_resize";
    "vt_mallocator_obj_list_has_space"; "vt_mallocator_obj_list_find"; "vt_str_vfmt_set";
    "vt_str_vfmt_append"; "vt_datetime_to_text_fmt"; "vt_datetime_from_text_fmt";
    "vt_datetime_is_valid_fmt"; "vt_argopt_validate"; "vt_argopt_assign_value" ].

Definition public (x : fn) : Prop := In x library /\ ~ In (fname x) private.

(** Parameters documented to accept NULL: allocators (every header: "if NULL is specified, then
    vt_calloc/realloc/free is used"), results that are then allocated (str.h:397-435, path.h:61-140),
    file names that then mean stderr (log.h:73-101, debug.h:89), vt_free (core.h:183) and, by the
    code, the header and footer of the help text (argopt.h:49-50) and the expression of vt_log. *)
Definition optional : list (string * nat) :=
  [ ("vt_array_new", 0); ("vt_vec_create", 0); ("vt_vec_dup", 1); ("vt_plist_create", 0);
    ("vt_plist_dup", 1); ("vt_str_create", 1); ("vt_str_create_len", 0); ("vt_str_create_capacity", 0);
    ("vt_str_take_ownership", 1); ("vt_path_get_cwd", 0); ("vt_path_expand_tilda", 1);
    ("vt_path_get_this_exe_location", 0); ("vt_file_read", 1); ("vt_file_readb", 1);
    ("vt_argopt_parse", 2);
    ("vt_str_split", 0); ("vt_str_split_between", 0); ("vt_str_join", 0); ("vt_str_join_n", 0);
    ("vt_str_pop_get_first", 0); ("vt_str_pop_get_last", 0); ("vt_path_build", 0);
    ("vt_path_build_n", 0); ("vt_path_dir_list", 0); ("vt_path_dir_list_recurse", 0);
    ("vt_path_basename", 0);
    ("vt_log_redirect_level_output", 0); ("vt_log_redirect_all_output", 0); ("vt_log", 0); ("vt_log", 1);
    ("vt_debug_redirect_output", 0); ("vt_argopt_print_help", 0); ("vt_argopt_print_help", 1);
    ("vt_free", 0); ("vt_realloc", 0) ].

(** Parameters that must not be NULL and are not checked even in debug builds: names of source
    files and functions, texts of messages, buffers and addresses of the socket calls. *)
Definition unguarded : list (string * nat) :=
  [ ("vt_malloc", 0); ("vt_malloc", 1); ("vt_calloc", 0); ("vt_calloc", 1); ("vt_realloc", 1);
    ("vt_realloc", 2); ("vt_mallocator_alloc", 1); ("vt_mallocator_alloc", 2);
    ("vt_mallocator_realloc", 2); ("vt_mallocator_realloc", 3); ("vt_mallocator_free", 2);
    ("vt_mallocator_free", 3); ("vt_log", 2); ("vt_log", 3); ("vt_debug_assert", 0);
    ("vt_debug_assert", 1); ("vt_debug_assert", 2); ("vt_debug_assert", 3); ("vt_debug_assert", 4);
    ("vt_debug_printf", 0); ("vt_socket_send", 0); ("vt_socket_send_to", 0); ("vt_socket_receive", 0);
    ("vt_socket_receive_from", 0); ("vt_socket_receive_from", 1); ("vt_socket_poll", 0);
    ("vt_socket_receive_timed", 0); ("vt_socket_receive_timed_from", 0);
    ("vt_socket_receive_timed_from", 1) ].

(** Required parameters for which NULL does no harm in release builds: they are stored or
    compared, not followed. *)
Definition harmless : list (string * nat) :=
  [ ("vt_mallocator_realloc", 1); ("vt_mallocator_free", 1); ("vt_mallocator_free", 2);
    ("vt_mallocator_free", 3); ("vt_span_from", 0); ("vt_span_from_to", 0); ("vt_plist_insert", 1);
    ("vt_plist_set", 1); ("vt_plist_push_front", 1); ("vt_plist_push_back", 1);
    ("vt_plist_remove_element", 1); ("vt_plist_can_find", 1) ].

(** Required parameters checked in every build. *)
Definition enforced : list (string * nat) :=
  [ ("vt_argopt_parse", 0); ("vt_argopt_parse", 1); ("vt_argopt_print_help", 2) ].

Definition mem (f : string) (i : nat) (l : list (string * nat)) : bool :=
  existsb (fun p => String.eqb (fst p) f && Nat.eqb (snd p) i) l.

Lemma mem_in f i l : mem f i l = true <-> In (f, i) l.
Proof.
  unfold mem. rewrite existsb_exists. split.
  - intros ([g j] & I & E). cbn in E. apply andb_true_iff in E as [A B].
    apply String.eqb_eq in A. apply Nat.eqb_eq in B. now subst.
  - intros I. exists (f, i). split; [exact I|]. cbn. now rewrite String.eqb_refl, Nat.eqb_refl.
Qed.

Lemma mem_not_in f i l : mem f i l = false <-> ~ In (f, i) l.
Proof. rewrite <- mem_in. destruct (mem f i l); intuition congruence. Qed.

Definition isnull (v : val) : bool := match v with Null => true | _ => false end.
Definition isfull (v : val) : bool := match v with Full => true | _ => false end.

Definition pub (x : fn) : bool := negb (existsb (String.eqb (fname x)) private).

Lemma pub_ok x : ~ In (fname x) private -> pub x = true.
Proof.
  intros H. unfold pub. apply negb_true_iff. destruct (existsb (String.eqb (fname x)) private) eqn:E; [|reflexivity].
  apply existsb_exists in E as (y & I & E). apply String.eqb_eq in E. subst. contradiction.
Qed.

(** *** Debug builds: a required pointer that is NULL stops the program. *)
Definition t_required (x : fn) (e : list val) (o : outs) : bool :=
  negb (pub x) ||
  negb (anyi 0 (fun i v => isnull v && negb (mem (fname x) i optional) && negb (mem (fname x) i unguarded)) e) ||
  (negb (o_fall o) && (negb (o_undef o) || anyi 0 (fun i v => isnull v && mem (fname x) i unguarded) e)).

Lemma required_ok : all_calls true t_required = true.
Proof. vm_compute. reflexivity. Qed.

Definition t_debug (x : fn) (e : list val) (o : outs) : bool :=
  negb (pub x) || anyi 0 (fun i v => isnull v && mem (fname x) i unguarded) e || negb (o_undef o).

Lemma debug_ok : all_calls true t_debug = true.
Proof. vm_compute. reflexivity. Qed.

Lemma any_null p (x : fn) env i : i < List.length (fkinds x) -> nth_error env i = Some Null -> p i Null = true ->
  anyi 0 p (pad (fkinds x) env) = true.
Proof.
  intros L N H. destruct (anyi 0 p (pad (fkinds x) env)) eqn:E; [reflexivity|].
  rewrite anyi_false in E. specialize (E i Null (nth_pad_null _ _ _ L N)). cbn in E. congruence.
Qed.

Lemma no_null (f : string) l (x : fn) env : (forall i, In (f, i) l -> nth_error env i <> Some Null) ->
  anyi 0 (fun i v => isnull v && mem f i l) (pad (fkinds x) env) = false.
Proof.
  intros H. rewrite anyi_false. intros j v N. destruct v; try reflexivity. cbn [isnull andb Nat.add].
  apply nth_pad_null_inv in N. apply mem_not_in. intros I. exact (H j I N).
Qed.

(** In debug builds, whatever the values of the pointers given to a function of the library (NULL,
    an object without storage, or valid): as long as none of the unguarded parameters is NULL,
    nothing undefined happens. *)
Theorem C191_debug_partial : forall x env, public x ->
  (forall i, In (fname x, i) unguarded -> nth_error env i <> Some Null) ->
  ~ may true (fname x) env Undefined.
Proof.
  intros x env [I P] U M. apply may_depth in M. cbn [has] in M.
  pose proof (all_calls_ok _ _ debug_ok x env I) as H. unfold t_debug in H.
  rewrite (pub_ok x P), (no_null (fname x) unguarded x env U), M in H. discriminate.
Qed.
Print Assumptions C191_debug_partial.

Example C191_debug_example :
  may true "vt_str_append" [Hollow; Null] Stopped /\ may true "vt_str_append" [Full; Full] Returned /\
  may true "vt_path_dir_list_recurse" [Hollow; Full] Returned.
Proof. repeat split; apply may_depth; vm_compute; reflexivity. Qed.

(** ... and if one of the other required pointers is NULL, the program is stopped: the function
    does not return. *)
Theorem C191_required : forall x env i, public x -> i < List.length (fkinds x) ->
  nth_error env i = Some Null -> ~ In (fname x, i) optional -> ~ In (fname x, i) unguarded ->
  ~ may true (fname x) env Returned /\
  ((forall j, In (fname x, j) unguarded -> nth_error env j <> Some Null) -> ~ may true (fname x) env Undefined).
Proof.
  intros x env i [I P] L N NO NU.
  pose proof (all_calls_ok _ _ required_ok x env I) as H. unfold t_required in H.
  rewrite (pub_ok x P) in H.
  rewrite (any_null _ x env i L N) in H by (cbn [isnull andb]; now rewrite (proj2 (mem_not_in _ _ _) NO), (proj2 (mem_not_in _ _ _) NU)).
  cbn [negb orb] in H. apply andb_true_iff in H as [H1 H2]. split.
  - intros M. apply may_depth in M. cbn [has] in M. rewrite M in H1. discriminate.
  - intros U M. apply may_depth in M. cbn [has] in M.
    rewrite M, (no_null (fname x) unguarded x env U) in H2. discriminate.
Qed.
Print Assumptions C191_required.

Example C191_required_example :
  may true "vt_path_build_n" [Null; Null] Stopped /\ ~ may true "vt_path_build_n" [Null; Null] Returned /\
  ~ may true "vt_str_split_between" [Null; Full; Full; Null] Returned.
Proof. repeat split; rewrite ?may_depth; vm_compute; try reflexivity; discriminate. Qed.

(** *** Debug builds: an object without storage stops the program. *)
(** But for these, which make their own storage, look at it only if there is something to do, or free whatever there is. *)
Definition unlooked : list (string * nat) :=
  [ ("vt_array_free", 0); ("vt_str_split", 0); ("vt_str_split_between", 0); ("vt_str_pop_get_first", 0); ("vt_str_pop_get_last", 0);
    ("vt_path_dir_list", 0); ("vt_path_dir_list_recurse", 0); ("vt_path_basename", 0); ("vt_file_read", 1); ("vt_file_readb", 1); ("vt_argopt_parse", 2) ].
Definition ishollow (v : val) : bool := match v with Hollow => true | _ => false end.
Definition t_storage (x : fn) (e : list val) (o : outs) : bool :=
  negb (pub x) || negb (anyi 0 (fun i v => ishollow v && negb (mem (fname x) i unlooked)) e) || negb (o_fall o).
Lemma storage_ok : all_calls true t_storage = true.
Proof. vm_compute. reflexivity. Qed.
Lemma nth_pad_hollow ks : forall env i, nth_error ks i = Some O -> nth_error env i = Some Hollow -> nth_error (pad ks env) i = Some Hollow.
Proof.
  induction ks as [|k r IH]; intros env i L H; [destruct i; discriminate|].
  destruct env as [|v w]; [destruct i; discriminate|]. destruct i as [|i]; cbn [nth_error pad] in *.
  - injection H as ->. now injection L as ->.
  - now apply IH.
Qed.
Definition only_hollow (x : fn) (i : nat) : list val :=
  List.map (fun j => if Nat.eqb i j then Hollow else Full) (seq 0 (List.length (fkinds x))).
Theorem C191_storage : forall x i, public x -> nth_error (fkinds x) i = Some O ->
  (~ In (fname x, i) unlooked -> forall env, nth_error env i = Some Hollow -> ~ may true (fname x) env Returned) /\
  (In (fname x, i) unlooked -> may true (fname x) (only_hollow x i) Returned).
Proof.
  intros x i [I P] K. split.
  - intros U env N M. apply may_depth in M. cbn [has] in M.
    pose proof (all_calls_ok _ _ storage_ok x env I) as H. unfold t_storage in H. rewrite (pub_ok x P), M in H.
    destruct (anyi 0 (fun i v => ishollow v && negb (mem (fname x) i unlooked)) (pad (fkinds x) env)) eqn:E; [discriminate|].
    rewrite anyi_false in E. specialize (E i Hollow (nth_pad_hollow _ _ _ K N)). cbn [Nat.add ishollow andb] in E.
    now rewrite (proj2 (mem_not_in _ _ _) U) in E.
  - intros U. apply may_depth. cbn [has].
    assert (forallb (fun y => forallb (fun j => negb (mem (fname y) j unlooked) || o_fall (sem true depth (fname y) (only_hollow y j))) (seq 0 (List.length (fkinds y)))) library = true) as H by (vm_compute; reflexivity).
    rewrite forallb_forall in H. specialize (H x I). rewrite forallb_forall in H. specialize (H i). rewrite (proj2 (mem_in _ _ _) U) in H. cbn [negb orb] in H. apply H.
    apply in_seq. split; [lia|]. cbn. apply nth_error_Some. congruence.
Qed.
Print Assumptions C191_storage.

Example C191_storage_example :
  ~ may true "vt_vec_shrink" [Hollow] Returned /\ may true "vt_vec_shrink" [Hollow] Stopped /\ may false "vt_vec_shrink" [Hollow] Returned /\
  ~ may true "vt_str_append" [Hollow; Full] Returned /\ may true "vt_array_free" [Hollow] Returned.
Proof. repeat split; rewrite ?may_depth; vm_compute; try reflexivity; discriminate. Qed.

(** The unguarded parameters really are: NULL there, everything else valid, may be undefined
    behaviour in a debug build, and is not caught by a check of that parameter. *)
Definition only_null (x : fn) (i : nat) : list val :=
  List.map (fun j => if Nat.eqb i j then Null else Full) (seq 0 (List.length (fkinds x))).

Definition t_unguarded (p : string * nat) : bool :=
  match find_fn (fst p) with
  | Some x => o_undef (sem true depth (fst p) (only_null x (snd p))) && negb (o_stop (sem true depth (fst p) (only_null x (snd p))))
  | None => false
  end.

Theorem C191_debug_refuted : forall f i, In (f, i) unguarded ->
  exists x, find_fn f = Some x /\ may true f (only_null x i) Undefined /\ ~ may true f (only_null x i) Stopped.
Proof.
  assert (H : forallb t_unguarded unguarded = true) by (vm_compute; reflexivity).
  intros f i I. rewrite forallb_forall in H. specialize (H _ I). unfold t_unguarded in H. cbn [fst snd] in H.
  destruct (find_fn f) as [x|]; [|discriminate]. apply andb_true_iff in H as [A B]. exists x.
  split; [reflexivity|]. rewrite !may_depth. cbn [has]. split; [exact A|]. intros C. rewrite C in B. discriminate.
Qed.
Print Assumptions C191_debug_refuted.

Example C191_debug_refuted_example :
  may true "vt_mallocator_alloc" [Full; Null; Full] Undefined /\
  may true "vt_socket_receive_from" [Null; Full] Undefined /\
  may true "vt_log" [Null; Null; Full; Null] Undefined.
Proof. repeat split; apply may_depth; vm_compute; reflexivity. Qed.

(** *** Every build: NULL where it is allowed. *)
Definition t_optional (x : fn) (e : list val) (o : outs) : bool :=
  negb (pub x) || anyi 0 (fun i v => negb (isfull v) && negb (isnull v && mem (fname x) i optional)) e ||
  (negb (o_undef o) && negb (o_stop o) && o_fall o).

Lemma optional_ok : forall dbg, all_calls dbg t_optional = true.
Proof. intros []; vm_compute; reflexivity. Qed.

(** With valid pointers, and NULL for any of the parameters documented to allow it, no check of
    a pointer stops the program, nothing undefined comes from the pointers, and the function can
    return, in every build. *)
Theorem C191_optional : forall dbg x env, public x ->
  (forall i v, nth_error env i = Some v -> v = Full \/ v = Null /\ In (fname x, i) optional) ->
  may dbg (fname x) env Returned /\ ~ may dbg (fname x) env Stopped /\ ~ may dbg (fname x) env Undefined.
Proof.
  intros dbg x env [I P] A. pose proof (all_calls_ok _ _ (optional_ok dbg) x env I) as H.
  unfold t_optional in H. rewrite (pub_ok x P) in H.
  replace (anyi 0 _ (pad (fkinds x) env)) with false in H.
  - cbn [negb orb] in H. apply andb_true_iff in H as [H C]. apply andb_true_iff in H as [D E].
    rewrite !may_depth. cbn [has]. rewrite C. destruct (o_stop _); [discriminate|]. destruct (o_undef _); [discriminate|].
    repeat split; discriminate.
  - symmetry. rewrite anyi_false. intros j v N. cbn [Nat.add]. destruct v; try reflexivity.
    + apply nth_pad_null_inv in N. destruct (A j Null N) as [B|[_ B]]; [discriminate|].
      cbn [isfull isnull negb andb]. now rewrite (proj2 (mem_in _ _ _) B).
    + apply nth_pad_hollow_inv in N. destruct (A j Hollow N) as [B|[B _]]; discriminate.
Qed.
Print Assumptions C191_optional.

Example C191_optional_example :
  may false "vt_str_split" [Null; Full; Full] Returned /\ ~ may false "vt_str_split" [Null; Full; Full] Undefined /\
  may false "vt_log" [Null; Null; Full; Full] Returned.
Proof. repeat split; rewrite ?may_depth; vm_compute; try reflexivity; discriminate. Qed.

(** *** Release builds: nothing is checked. *)
Definition t_release (x : fn) (i : nat) : bool :=
  let o := sem false depth (fname x) (only_null x i) in
  negb (pub x) || mem (fname x) i optional ||
  (if mem (fname x) i enforced then o_stop o && negb (o_fall o) && negb (o_undef o)
   else negb (o_stop o) && Bool.eqb (o_undef o) (negb (mem (fname x) i harmless))).

(** One required pointer NULL, all others valid: undefined behaviour is possible, except for the
    pointers a list or a span only stores, and no check stops the program, except in the parser of
    command lines, which checks in every build. *)
Theorem C191_release : forall x i, public x -> i < List.length (fkinds x) -> ~ In (fname x, i) optional ->
  (In (fname x, i) enforced -> may false (fname x) (only_null x i) Stopped /\
     ~ may false (fname x) (only_null x i) Returned /\ ~ may false (fname x) (only_null x i) Undefined) /\
  (~ In (fname x, i) enforced -> ~ may false (fname x) (only_null x i) Stopped /\
     (may false (fname x) (only_null x i) Undefined <-> ~ In (fname x, i) harmless)).
Proof.
  assert (H : forallb (fun x => forallb (t_release x) (seq 0 (List.length (fkinds x)))) library = true)
    by (vm_compute; reflexivity).
  intros x i [I P] L NO. rewrite forallb_forall in H. specialize (H x I). rewrite forallb_forall in H.
  specialize (H i ltac:(apply in_seq; lia)). unfold t_release in H.
  rewrite (pub_ok x P), (proj2 (mem_not_in _ _ _) NO) in H. cbn [negb orb] in H. rewrite !may_depth. cbn [has].
  split; intros E.
  - rewrite (proj2 (mem_in _ _ _) E) in H. apply andb_true_iff in H as [H C]. apply andb_true_iff in H as [A B].
    rewrite A. destruct (o_fall _); [discriminate|]. destruct (o_undef _); [discriminate|]. repeat split; discriminate.
  - rewrite (proj2 (mem_not_in _ _ _) E) in H. apply andb_true_iff in H as [A B].
    destruct (o_stop _); [discriminate|]. split; [discriminate|].
    apply Bool.eqb_prop in B. rewrite B, negb_true_iff. apply mem_not_in.
Qed.
Print Assumptions C191_release.

Example C191_release_example :
  may false "vt_str_append" [Full; Null] Undefined /\ ~ may false "vt_plist_push_back" [Full; Null] Undefined /\
  may false "vt_path_build_n" [Full; Null] Undefined /\ may false "vt_argopt_parse" [Null; Full; Full] Stopped.
Proof. repeat split; rewrite ?may_depth; vm_compute; try reflexivity; discriminate. Qed.

(** The claims are about 219 functions that take pointers. *)
Example C191_functions :
  List.length library = 231 /\ List.length private = 12 /\
  forallb (fun p => existsb (fun x => String.eqb (fname x) p) library) private = true /\
  forallb (fun p => match find_fn (fst p) with Some x => Nat.ltb (snd p) (List.length (fkinds x)) | None => false end)
    (optional ++ unguarded ++ harmless ++ enforced) = true.
Proof. repeat split; vm_compute; reflexivity. Qed.
