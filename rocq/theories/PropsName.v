(** C162: redirecting keeps the name of the file. *)
From Coq Require Import String.
From Verif Require Import Base BaseFacts StrModel NumModel LogModel NameModel NameProofs.
Local Open Scope Z_scope. Local Open Scope list_scope.
Local Definition T (s : string) : list Z := map (fun c => Z.of_nat (Ascii.nat_of_ascii c)) (list_ascii_of_string s).

(** C162: the name of a file given to a redirection is the one at the time of the call, whatever the
    caller does with its buffer afterwards: the output of a program is that of the same calls with
    these texts.  Refuted for debug.c: writing the buffer moves the output to another file ... *)
Theorem C162_reused_refuted :
  ~ (forall dbg can_open l, valid (fun _ => None) l ->
     seen (fun s => p_out (n_proc s)) (nrun dbg can_open nstart l) = seen p_out (run dbg can_open init (calls (fun _ => None) l))).
Proof.
  intros H. specialize (H false (fun _ => true)
    [Write 1 (T "debug.txt"); DebugRedirect (Some 1); Write 1 (T "letter.txt"); Other (CPrintf (T "now") (T "INFO") (T "hello"))]).
  assert (Ok ([(File (T "letter.txt"), T "now INFO hello")], Returns) = @Ok (list (sink * list Z) * ending) ([(File (T "debug.txt"), T "now INFO hello")], Returns)) as E; [|discriminate].
  apply H. cbn. repeat split; discriminate.
Qed.
Print Assumptions C162_reused_refuted.
(** ... and after freeing the buffer the next message reads freed memory. *)
Theorem C162_freed_refuted :
  ~ (forall dbg can_open l, valid (fun _ => None) l -> nrun dbg can_open nstart l <> UB).
Proof.
  intros H. apply (H false (fun _ => true)
    [Write 1 (T "debug.txt"); DebugRedirect (Some 1); Free 1; Other (CPrintf (T "now") (T "INFO") (T "hello"))]); [cbn; repeat split; discriminate|reflexivity].
Qed.
Print Assumptions C162_freed_refuted.
(** It holds as long as the buffer last given to vt_debug_redirect_output is left alone. *)
Theorem C162_kept_partial : forall dbg can_open l,
  steady None l -> valid (fun _ => None) l ->
  seen (fun s => p_out (n_proc s)) (nrun dbg can_open nstart l) = seen p_out (run dbg can_open init (calls (fun _ => None) l)).
Proof. exact start_sim. Qed.
Print Assumptions C162_kept_partial.
(** Both redirections from the same buffer, written in between: the log keeps its name. *)
Example C162_example :
  let l := [Write 1 (T "a.log"); Redirect 0 (Some 1); Write 1 (T "debug.txt"); DebugRedirect (Some 1); Write 2 (T "x"); Free 2;
            Other (CPrintf (T "now") (T "INFO") (T "hello")); Other (CLog (T "now") None 0 false None (mk_place (T "m.c") (T "f") 3) (T "text") [])] in
  steady None l /\ valid (fun _ => None) l /\
  seen (fun s => p_out (n_proc s)) (nrun true (fun _ => true) nstart l) =
    Ok ([(File (T "debug.txt"), T "now INFO hello"); (File (T "a.log"), T "now  INFO m.c:3: text" ++ [10])], Returns).
Proof. cbv zeta. split; [cbn; repeat split; discriminate|]. split; [cbn; repeat split; discriminate|]. vm_compute. reflexivity. Qed.
(** Programs that redirect only the log: the buffers may be written and freed at any time. *)
Definition only_log (x : act) : Prop := match x with DebugRedirect _ => False | _ => True end.
Theorem C162_log : forall dbg can_open l,
  Forall only_log l -> valid (fun _ => None) l ->
  seen (fun s => p_out (n_proc s)) (nrun dbg can_open nstart l) = seen p_out (run dbg can_open init (calls (fun _ => None) l)).
Proof.
  intros dbg can_open l O. apply start_sim. induction O as [|x l Hx _ IH]; [exact I|]. destruct x; cbn [steady]; try assumption; try contradiction; (split; [discriminate|assumption]).
Qed.
Print Assumptions C162_log.
Example C162_log_example :
  let l := [Write 1 (T "a.log"); RedirectAll (Some 1); Free 1; Other (CLog (T "now") None 1 false None (mk_place (T "m.c") (T "f") 3) (T "text") [])] in
  valid (fun _ => None) l /\ seen (fun s => p_out (n_proc s)) (nrun false (fun _ => true) nstart l) = Ok ([(File (T "a.log"), T "now  WARN m.c:3: text" ++ [10])], Returns).
Proof. cbv zeta. split; [cbn; repeat split; discriminate|]. vm_compute. reflexivity. Qed.
