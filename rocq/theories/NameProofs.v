(** Proofs about file names given as pointers. *)
From Verif Require Import Base BaseFacts StrModel NumModel LogModel NameModel.

Definition redirects (c : call) : bool := match c with CRedirect _ _ | CRedirectAll _ | CDebugRedirect _ => true | _ => false end.
Definition text_of (b : bufs) (f : option Z) : option (list Z) := match f with Some a => b a | None => None end.
Definition live (b : bufs) (f : option Z) : Prop := match f with Some a => b a <> None | None => True end.
(** The calls of a program, the names being what the pointers lead to at the time of the call. *)
Fixpoint calls (b : bufs) (l : list act) : list call :=
  match l with
  | [] => []
  | Write a t :: l => calls (put b a (Some t)) l
  | Free a :: l => calls (put b a None) l
  | Redirect level f :: l => CRedirect level (text_of b f) :: calls b l
  | RedirectAll f :: l => CRedirectAll (text_of b f) :: calls b l
  | DebugRedirect f :: l => CDebugRedirect (text_of b f) :: calls b l
  | Other c :: l => c :: calls b l
  end.
(** Every pointer passed leads to a text at the time of the call. *)
Fixpoint valid (b : bufs) (l : list act) : Prop :=
  match l with
  | [] => True
  | Write a t :: l => valid (put b a (Some t)) l
  | Free a :: l => valid (put b a None) l
  | Redirect _ f :: l | RedirectAll f :: l | DebugRedirect f :: l => live b f /\ valid b l
  | Other c :: l => redirects c = false /\ valid b l
  end.
(** The buffer last given to vt_debug_redirect_output is not written or freed. *)
Fixpoint steady (ptr : option Z) (l : list act) : Prop :=
  match l with
  | [] => True
  | Write a _ :: l | Free a :: l => ptr <> Some a /\ steady ptr l
  | DebugRedirect f :: l => steady f l
  | _ :: l => steady ptr l
  end.
(** What a run leaves behind: the output and how it ended. *)
Definition seen {A} (out : A -> list (sink * list Z)) (r : res (A * ending)) : res (list (sink * list Z) * ending) :=
  let* x := r in Ok (out (fst x), snd x).

(** A call that does not write through debug.c does the same whatever the name. *)
Lemma unread dbg can_open p c d : redirects c = false -> writes_debug dbg can_open p c = false ->
  step dbg can_open (with_dest p None) c = (let* r := step dbg can_open (with_dest p d) c in Ok (with_dest (fst r) None, snd r)).
Proof.
  intros R W. destruct c as [| |tm f level expr zexpr pl msg errmsg| |off|tm expr zexpr subject quit pl msg|tm subject msg]; try discriminate; unfold writes_debug in W; cbn [step].
  - unfold vt_log. destruct (dassert dbg (level <? log_count)); cbn [bind]; try reflexivity. destruct expr; [reflexivity|]. cbn [p_names with_dest].
    destruct (nth_error (p_names p) (Z.to_nat level)) as [b|]; [|reflexivity]. destruct (match f with Some z => Ok z | None => cstr b end) as [[|x name]| | |]; cbn [bind]; try reflexivity.
    + unfold emit, with_dest. cbn [p_err]. now destruct (p_err p).
    + destruct (can_open (x :: name)) eqn:C; [reflexivity|]. destruct dbg; [|reflexivity]. cbn [andb negb] in W. rewrite andb_true_r in W. unfold debug_printf, debug_write. cbn [p_on with_dest]. now rewrite W.
  - reflexivity.
  - unfold debug_assert, debug_write. destruct expr; [reflexivity|]. cbn [negb] in W. rewrite andb_true_r in W. cbn [p_on with_dest]. now rewrite W.
  - rewrite andb_true_r in W. unfold debug_printf, debug_write. cbn [p_on with_dest]. now rewrite W.
Qed.
Lemma with_dest_same p : with_dest p (p_dest p) = p.
Proof. now destruct p. Qed.
Lemma emit_dest p s t p' : emit p s t = Ok p' -> p_dest p' = p_dest p.
Proof. unfold emit. destruct s; [destruct (p_err p); [|discriminate]|]; intros E; injection E as <-; reflexivity. Qed.
Lemma write_dest can_open p t p' : debug_write can_open p t = Ok p' -> p_dest p' = p_dest p.
Proof.
  unfold debug_write. destruct (negb (p_on p)); [intros E; now injection E as <-|]. destruct (emit p _ t) as [q| | |] eqn:E; cbn [bind]; try discriminate. apply emit_dest in E.
  destruct (p_dest q) eqn:D, (debug_sink can_open p); intros H; injection H as <-; cbn [close_stderr p_dest]; congruence.
Qed.
Lemma step_dest dbg can_open p c p' e : redirects c = false -> step dbg can_open p c = Ok (p', e) -> p_dest p' = p_dest p.
Proof.
  intros R. destruct c as [| |tm f level expr zexpr pl msg errmsg| |off|tm expr zexpr subject quit pl msg|tm subject msg]; try discriminate; cbn [step].
  - unfold vt_log. destruct (dassert dbg (level <? log_count)); cbn [bind]; try discriminate. destruct expr; [intros E; now injection E as <- _|].
    destruct (nth_error (p_names p) (Z.to_nat level)) as [b|]; [|discriminate]. destruct (match f with Some z => Ok z | None => cstr b end) as [[|x name]| | |]; cbn [bind]; try discriminate.
    + destruct (emit p _ _) as [q| | |] eqn:E; cbn [bind]; try discriminate. intros H. injection H as <- _. now apply emit_dest in E.
    + destruct (can_open (x :: name)).
      * destruct (emit p _ _) as [q| | |] eqn:E; cbn [bind]; try discriminate. intros H. injection H as <- _. now apply emit_dest in E.
      * destruct dbg; [|intros E; now injection E as <- _]. unfold debug_printf. destruct (debug_write _ _ _) as [q| | |] eqn:E; cbn [bind]; try discriminate. intros H. injection H as <- _. now apply write_dest in E.
  - intros E. now injection E as <- _.
  - unfold debug_assert. destruct expr; [intros E; now injection E as <- _|]. destruct (debug_write _ _ _) as [q| | |] eqn:E; cbn [bind]; try discriminate. intros H. injection H as <- _. now apply write_dest in E.
  - unfold debug_printf. destruct (debug_write _ _ _) as [q| | |] eqn:E; cbn [bind]; try discriminate. intros H. injection H as <- _. now apply write_dest in E.
Qed.
Lemma redirect_level_dest dbg p d level t : log_redirect_level dbg (with_dest p d) level t = (let* q := log_redirect_level dbg p level t in Ok (with_dest q d)).
Proof.
  unfold log_redirect_level. destruct (dassert dbg _); cbn [bind]; try reflexivity. cbn [p_names with_dest]. destruct (nth_error (p_names p) (Z.to_nat level)); [|reflexivity].
  now destruct (strncpy _ _ _).
Qed.
Lemma redirect_all_dest p d t : log_redirect_all (with_dest p d) t = (let* q := log_redirect_all p t in Ok (with_dest q d)).
Proof. unfold log_redirect_all. cbn [p_names with_dest]. now destruct (redirect_loop _ _ _ _). Qed.
Lemma deref_live b f : live b f -> deref b f = Ok (text_of b f).
Proof. destruct f as [a|]; [|reflexivity]. cbn. now destruct (b a). Qed.

Lemma sim dbg can_open l : forall s, live (n_bufs s) (n_ptr s) -> steady (n_ptr s) l -> valid (n_bufs s) l ->
  seen (fun s => p_out (n_proc s)) (nrun dbg can_open s l) = seen p_out (run dbg can_open (with_dest (n_proc s) (text_of (n_bufs s) (n_ptr s))) (calls (n_bufs s) l)).
Proof.
  induction l as [|x l IH]; intros s L S V; [reflexivity|]. destruct x as [a t|a|level f|f|f|c]; cbn [steady valid calls] in *; cbn [nrun nstep].
  - destruct S as [S1 S2]. cbn [bind]. rewrite IH; cbn [n_proc n_ptr n_bufs]; [|..|assumption|assumption].
    + f_equal. f_equal. f_equal. destruct (n_ptr s) as [b|]; [|reflexivity]. cbn. unfold put. destruct (b =? a) eqn:E; [|reflexivity]. apply Z.eqb_eq in E. congruence.
    + destruct (n_ptr s) as [b|]; [|exact I]. cbn in *. unfold put. destruct (b =? a) eqn:E; [|assumption]. discriminate.
  - destruct S as [S1 S2]. cbn [bind]. rewrite IH; cbn [n_proc n_ptr n_bufs]; [|..|assumption|assumption].
    + f_equal. f_equal. f_equal. destruct (n_ptr s) as [b|]; [|reflexivity]. cbn. unfold put. destruct (b =? a) eqn:E; [|reflexivity]. apply Z.eqb_eq in E. congruence.
    + destruct (n_ptr s) as [b|]; [|exact I]. cbn in *. unfold put. destruct (b =? a) eqn:E; [|assumption]. apply Z.eqb_eq in E. congruence.
  - destruct V as [V1 V2]. rewrite (deref_live _ _ V1). cbn [bind run step]. rewrite redirect_level_dest.
    destruct (log_redirect_level dbg (n_proc s) level _) as [q| | |]; cbn [bind]; try reflexivity. now rewrite IH.
  - destruct V as [V1 V2]. rewrite (deref_live _ _ V1). cbn [bind run step]. rewrite redirect_all_dest.
    destruct (log_redirect_all (n_proc s) _) as [q| | |]; cbn [bind]; try reflexivity. now rewrite IH.
  - destruct V as [V1 V2]. cbn [bind run step]. rewrite IH by assumption. reflexivity.
  - destruct V as [V1 V2]. cbn [run]. set (d := text_of (n_bufs s) (n_ptr s)). destruct (writes_debug dbg can_open (n_proc s) c) eqn:W.
    + rewrite deref_live by assumption. cbn [bind]. fold d. destruct (step dbg can_open (with_dest (n_proc s) d) c) as [[q e]| | |] eqn:E; cbn [bind]; try reflexivity.
      apply step_dest in E; [|assumption]. cbn [p_dest with_dest] in E. cbn [fst snd]. destruct e; [|reflexivity]. rewrite IH by assumption. cbn [n_proc n_ptr n_bufs]. fold d. rewrite <- E. now rewrite with_dest_same.
    + cbn [bind]. rewrite (unread dbg can_open (n_proc s) c d) by assumption. destruct (step dbg can_open (with_dest (n_proc s) d) c) as [[q e]| | |] eqn:E; cbn [bind]; try reflexivity.
      apply step_dest in E; [|assumption]. cbn [p_dest with_dest] in E. cbn [fst snd]. destruct e; [|reflexivity]. rewrite IH by assumption. cbn [n_proc n_ptr n_bufs]. fold d.
      replace (with_dest (with_dest q None) d) with q; [reflexivity|]. rewrite <- E. now destruct q.
Qed.
Lemma start_sim dbg can_open l : steady None l -> valid (fun _ => None) l ->
  seen (fun s => p_out (n_proc s)) (nrun dbg can_open nstart l) = seen p_out (run dbg can_open init (calls (fun _ => None) l)).
Proof. intros S V. rewrite (sim dbg can_open l nstart I S V). reflexivity. Qed.
