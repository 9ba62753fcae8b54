(** Properties of debug builds against release builds.  Statements only. *)
From Coq Require Import List ZArith Bool Lia.
From Verif Require Import Base VecModel PlistModel SpanModel TypedModel StrModel StrModel2 StrSpec StrAlias HeapModel AllocModel AllocSpec AllocMain ContModel ArgModel DtModel FsModel LogModel PathModel LocModel DbgProofs.
Import ListNotations.
Open Scope Z_scope.

(** The debug build stops at a failed check or does exactly what the release build does:
    same results, same bytes, same undefined behaviour. *)
Definition only_stops {A} (f : bool -> res A) : Prop := f true = Abort \/ f true = f false.

(** ** C128 The checks of a debug build can only stop the program *)
(** Whatever calls are made, sensible or not, in whatever state. *)
Theorem C128_vec : forall n es v ops, only_stops (fun dbg => vec_create dbg n es) /\ only_stops (fun dbg => vrun dbg v ops).
Proof. intros. split; [apply st_vec_create|apply st_vrun]. Qed.
Print Assumptions C128_vec.
Theorem C128_plist : forall n p ops, only_stops (fun dbg => plist_create dbg n) /\ only_stops (fun dbg => plrun dbg p ops).
Proof. intros. split; [apply st_plist_create|apply st_plrun]. Qed.
Print Assumptions C128_plist.
Theorem C128_typed : forall t v ops, only_stops (fun dbg => TypedModel.trun dbg t v ops).
Proof. intros. apply st_trun. Qed.
Print Assumptions C128_typed.
Theorem C128_span : forall off len from to es b s d i,
  only_stops (fun dbg => span_from dbg off len es) /\ only_stops (fun dbg => span_from_to dbg off from to es) /\
  only_stops (fun dbg => span_get dbg b s i) /\ only_stops (fun dbg => span_set dbg b s d i).
Proof. intros. repeat split; [apply st_span_from|apply st_span_from_to|apply st_span_get|apply st_span_set]. Qed.
Print Assumptions C128_span.
Theorem C128_str : forall i s ops, only_stops (fun dbg => smake dbg i) /\ only_stops (fun dbg => srun dbg s ops).
Proof. intros. split; [apply st_smake|apply st_srun]. Qed.
Print Assumptions C128_str.
(** string functions with several strings, and with the string itself as argument *)
Theorem C128_str_many : forall fuel o s z z1 z2 n at_ l,
  only_stops (fun dbg => str_split dbg fuel s z) /\
  only_stops (fun dbg => str_split_between dbg o z z1 z2) /\
  only_stops (fun dbg => str_join dbg o z l) /\
  only_stops (fun dbg => str_join_n dbg o z l) /\
  only_stops (fun dbg => str_pop_get_first dbg o s z) /\
  only_stops (fun dbg => str_pop_get_last dbg fuel o s z) /\
  only_stops (fun dbg => str_equals_n dbg z1 z2 n) /\
  only_stops (fun dbg => str_append_n_own dbg s at_ n) /\
  only_stops (fun dbg => str_insert_own dbg s at_ n) /\
  only_stops (fun dbg => str_set_at_own dbg s at_ n) /\
  only_stops (fun dbg => str_set_n_own dbg s at_ n).
Proof.
  intros. repeat split;
    [apply st_str_split|apply st_str_split_between|apply st_str_join|apply st_str_join_n|apply st_str_pop_get_first|apply st_str_pop_get_last
    |apply st_str_equals_n|apply st_str_append_n_own|apply st_str_insert_own|apply st_str_set_at_own|apply st_str_set_n_own].
Qed.
Print Assumptions C128_str_many.
(** the allocator, and containers with and without it in one heap *)
Theorem C128_heap : forall p h0 aops wops,
  only_stops (fun dbg => session dbg p h0 aops) /\ only_stops (fun dbg => program dbg p h0 wops).
Proof. intros. split; [apply st_session|apply st_program]. Qed.
Print Assumptions C128_heap.
(** command line, date texts, paths and files *)
Theorem C128_system : forall opts vals args f v buf len o l z home fs cwd link,
  only_stops (fun dbg => argopt_parse dbg opts vals args) /\
  only_stops (fun dbg => to_text dbg f v buf len) /\ only_stops (fun dbg => to_text_pretty dbg v buf len) /\
  only_stops (fun dbg => path_build dbg o l) /\ only_stops (fun dbg => path_build_n dbg o l) /\
  only_stops (fun dbg => path_basename dbg o z) /\ only_stops (fun dbg => path_expand_tilda dbg home z) /\
  only_stops (fun dbg => path_mkdir_parents dbg fs cwd z) /\ only_stops (fun dbg => file_read dbg fs cwd z) /\
  only_stops (fun dbg => file_read_to_buffer dbg fs cwd z buf len) /\
  only_stops (fun dbg => get_exe dbg link) /\ only_stops (fun dbg => get_cwd dbg fs cwd).
Proof.
  intros. repeat split;
    [apply st_argopt_parse|apply st_to_text|apply st_to_text_pretty|apply st_path_build|apply st_path_build_n|apply st_path_basename
    |apply st_path_expand_tilda|apply st_path_mkdir_parents|apply st_file_read|apply st_file_read_to_buffer|apply st_get_exe|apply st_get_cwd].
Qed.
Print Assumptions C128_system.
(** In particular, results of a debug build are results of the release build. *)
Theorem C128_same_results : forall v ops r s sops r', 
  (vrun true v ops = Ok r -> vrun false v ops = Ok r) /\ (srun true s sops = Ok r' -> srun false s sops = Ok r').
Proof.
  intros. split; intros H.
  - destruct (st_vrun v ops) as [E|E]; [congruence|]. rewrite <- E. exact H.
  - destruct (st_srun s sops) as [E|E]; [congruence|]. rewrite <- E. exact H.
Qed.
Print Assumptions C128_same_results.
(** A check that stops the debug build where the release build returns the element of an
    unused slot; one where it reads outside the block; a text both builds agree on. *)
Example C128_example :
  (exists v, vec_create true 4 2 = Ok v /\ vrun true v [PushBack [1; 2]; Get 2] = Abort /\
             (exists r, vrun false v [PushBack [1; 2]; Get 2] = Ok r) /\ vrun false v [Get 9] = UB /\ vrun true v [Get 9] = Abort) /\
  (exists s, smake true (ICreate [97; 98; 99]) = Ok s /\
             srun true s [SRemove 1 1; SAppend [100]; SFind [100]] = srun false s [SRemove 1 1; SAppend [100]; SFind [100]] /\
             (exists r, srun true s [SRemove 1 1; SAppend [100]; SFind [100]] = Ok r)).
Proof.
  split; eexists; (split; [vm_compute; reflexivity|]); repeat split; try (vm_compute; reflexivity);
    eexists; vm_compute; reflexivity.
Qed.

(** ** C129 Log records are the same in both builds *)
(** Full statement: the calls of the log and debug modules write the same records in both
    builds (unless a check stops the debug build).  False: when vt_log cannot open its file
    the debug build prints a message through vt_debug_printf.  With a debug output file that
    cannot be opened either, that message goes to stderr and closes it: the next record is
    undefined behaviour in the debug build, and written in the release build. *)
Definition C129_calls : list call :=
  [CDebugRedirect (Some [120]); CLog [84] (Some [121]) 0 false None (mk_place [102] [103] 1) [109] [101];
   CLog [84] None 0 false None (mk_place [102] [103] 2) [110] [101]].
Theorem C129_log_refuted :
  LogModel.run true (fun _ => false) init C129_calls = UB /\
  exists p, LogModel.run false (fun _ => false) init C129_calls = Ok (p, Returns) /\ List.length (p_out p) = 1%nat.
Proof. split; [vm_compute; reflexivity|]. eexists. split; vm_compute; reflexivity. Qed.
Print Assumptions C129_log_refuted.
(** What holds: it is true if every file can be opened, or as long as the messages of the
    debug module are disabled.  Missing: files that cannot be opened while they are enabled. *)
Theorem C129_log_partial :
  forall can_open p cs, (forall n, can_open n = true) \/ (p_on p = false /\ ~ In (CDebugDisable false) cs) ->
  only_stops (fun dbg => LogModel.run dbg can_open p cs).
Proof. intros can_open p cs [H|[H H']]; [apply st_log_run_open; exact H|apply st_log_run_off; assumption]. Qed.
Print Assumptions C129_log_partial.
Example C129_example :
  exists p, LogModel.run true (fun _ => true) init C129_calls = Ok (p, Returns) /\
            LogModel.run false (fun _ => true) init C129_calls = Ok (p, Returns) /\ List.length (p_out p) = 2%nat.
Proof. eexists. repeat split; vm_compute; reflexivity. Qed.
