(** Model of src/vita/util/log.c and src/vita/util/debug.c.  No proofs in this file.

    Simplifications: formatting (vfprintf) is done by the caller, the formatted message is an
    argument; so is the time text.  Whether a file can be opened for appending depends only on
    its name ([can_open]).  vt_debug_redirect_output keeps the caller's pointer; the text it
    points to does not change.  Writing to a stream always succeeds; using a closed stream is
    undefined. *)
From Verif Require Import Base StrModel NumModel.

Definition path_max : Z := 4096.        (* PATH_MAX *)
Definition log_count : Z := 6.          (* vt_log_count, inc/vita/util/log.h:33-41 *)
Definition log_fatal : Z := 4.
Definition log_assert : Z := 5.

Inductive sink := Stderr | File (name : list Z).

(** The static variables of log.c:11 and debug.c:4-5 (name [None] = NULL), whether stderr is
    open, and everything written so far, with its destination. *)
Record proc := mk_proc { p_names : list blk; p_on : bool; p_dest : option (list Z); p_err : bool; p_out : list (sink * list Z) }.
Definition init : proc := mk_proc (repeat (repeat (Some 0) (Z.to_nat path_max)) (Z.to_nat log_count)) true None true [].

(** Where in the source a record comes from: __SOURCE_FILENAME__, __func__, __LINE__. *)
Record place := mk_place { pl_file : list Z; pl_func : list Z; pl_line : Z }.

Definition emit (p : proc) (s : sink) (t : list Z) : res proc :=
  match s with
  | Stderr => if p_err p then Ok (mk_proc (p_names p) (p_on p) (p_dest p) (p_err p) (p_out p ++ [(s, t)])) else UB
  | File _ => Ok (mk_proc (p_names p) (p_on p) (p_dest p) (p_err p) (p_out p ++ [(s, t)]))
  end.
Definition close_stderr (p : proc) : proc := mk_proc (p_names p) (p_on p) (p_dest p) false (p_out p).

(** The stream chosen in debug.c:28-29 and 60-61. *)
Definition debug_sink (can_open : list Z -> bool) (p : proc) : sink :=
  match p_dest p with
  | None => Stderr
  | Some f => if can_open f then File f else Stderr
  end.
(** Write, then close the stream unless no file name is set, debug.c:31-37 and 63-68. *)
Definition debug_write (can_open : list Z -> bool) (p : proc) (t : list Z) : res proc :=
  if negb (p_on p) then Ok p else
  let s := debug_sink can_open p in
  let* p := emit p s t in
  match p_dest p, s with
  | Some _, Stderr => Ok (close_stderr p)
  | _, _ => Ok p
  end.

(** How a call ends. *)
Inductive ending := Returns | Exits.

Definition debug_record (tm subject zexpr : list Z) (pl : place) (msg : list Z) : list Z :=
  tm ++ [32] ++ subject ++ [32; 91] ++ zexpr ++ [93; 32] ++ pl_file pl ++ [58] ++ pl_func pl ++ [58] ++ fmt_int (pl_line pl) ++ [58; 32] ++ msg ++ [10].

(** vt_debug_assert, debug.c:7-45: VT_ENFORCE, VT_DEBUG_ASSERT, VT_CHECK, VT_NOTE, ... *)
Definition debug_assert (can_open : list Z -> bool) (p : proc) (expr : bool) (tm zexpr subject : list Z) (quit : bool) (pl : place) (msg : list Z) : res (proc * ending) :=
  if expr then Ok (p, Returns) else
  let* p := debug_write can_open p (debug_record tm subject zexpr pl msg) in
  Ok (p, if quit then Exits else Returns).

(** vt_debug_printf, debug.c:47-73. *)
Definition debug_printf (can_open : list Z -> bool) (p : proc) (tm subject msg : list Z) : res proc :=
  debug_write can_open p (tm ++ [32] ++ subject ++ [32] ++ msg).

(** vt_debug_redirect_output, vt_debug_disable_output, debug.c:75-81. *)
Definition debug_redirect (p : proc) (f : option (list Z)) : proc := mk_proc (p_names p) (p_on p) f (p_err p) (p_out p).
Definition debug_disable (p : proc) (off : bool) : proc := mk_proc (p_names p) (negb off) (p_dest p) (p_err p) (p_out p).

(** strncpy(dst, src, n): the first n characters, filled up with NUL to n. *)
Definition strncpy (b : blk) (z : list Z) (n : Z) : res blk :=
  let d := firstn (Z.to_nat n) z in
  bwrite b 0 (map Some d ++ repeat (Some 0) (Z.to_nat n - length d)).

Definition name_text (f : option (list Z)) : list Z := match f with Some z => z | None => [] end.
Fixpoint set_at {A} (l : list A) (j : nat) (x : A) : list A :=
  match l, j with
  | [], _ => []
  | _ :: l', O => x :: l'
  | y :: l', S j' => y :: set_at l' j' x
  end.
Definition set_names (p : proc) (n : list blk) : proc := mk_proc n (p_on p) (p_dest p) (p_err p) (p_out p).

(** vt_log_redirect_level_output, log.c:13-19; an invalid level in a release build is an
    access outside the array. *)
Definition log_redirect_level (dbg : bool) (p : proc) (level : Z) (f : option (list Z)) : res proc :=
  let* _ := dassert dbg (level <? log_count) in
  match nth_error (p_names p) (Z.to_nat level) with
  | None => UB
  | Some b => let* b := strncpy b (name_text f) (path_max - 1) in Ok (set_names p (set_at (p_names p) (Z.to_nat level) b))
  end.
(** vt_log_redirect_all_output, log.c:21-25. *)
Fixpoint redirect_loop (k : nat) (l : list blk) (i : nat) (z : list Z) : res (list blk) :=
  match k with
  | O => Ok l
  | S k' =>
      match nth_error l i with
      | None => UB
      | Some b => let* b := strncpy b z (path_max - 1) in redirect_loop k' (set_at l i b) (S i) z
      end
  end.
Definition log_redirect_all (p : proc) (f : option (list Z)) : res proc :=
  let* l := redirect_loop (Z.to_nat log_count) (p_names p) 0 (name_text f) in
  Ok (set_names p l).

(** vt_log_level_strings, log.c:4-6: INFO WARN DEBUG ERROR FATAL ASSERT FAILURE. *)
Definition level_strings : list (list Z) :=
  [[73; 78; 70; 79]; [87; 65; 82; 78]; [68; 69; 66; 85; 71]; [69; 82; 82; 79; 82]; [70; 65; 84; 65; 76];
   [65; 83; 83; 69; 82; 84; 32; 70; 65; 73; 76; 85; 82; 69]].
(** %5s *)
Definition pad5 (t : list Z) : list Z := repeat 32 (5 - length t) ++ t.

Definition log_record (tm : list Z) (level : Z) (zexpr : option (list Z)) (pl : place) (msg : list Z) : list Z :=
  tm ++ [32] ++ pad5 (nth (Z.to_nat level) level_strings []) ++ [32] ++
  match zexpr with Some e => [91] ++ e ++ [93; 32] | None => [] end ++
  pl_file pl ++ [58] ++ fmt_int (pl_line pl) ++ [58; 32] ++ msg ++ [10].

(** vt_log, log.c:34-76; [errmsg]: the message of log.c:50, printed in debug builds only. *)
Definition vt_log (dbg : bool) (can_open : list Z -> bool) (p : proc) (tm : list Z) (f : option (list Z)) (level : Z) (expr : bool)
    (zexpr : option (list Z)) (pl : place) (msg errmsg : list Z) : res (proc * ending) :=
  let* _ := dassert dbg (level <? log_count) in
  if expr then Ok (p, Returns) else
  match nth_error (p_names p) (Z.to_nat level) with
  | None => UB
  | Some b =>
      let* name := match f with Some z => Ok z | None => cstr b end in
      match name with
      | [] => let* p := emit p Stderr (log_record tm level zexpr pl msg) in
              Ok (p, if (level =? log_fatal) || (level =? log_assert) then Exits else Returns)
      | _ => if can_open name
             then let* p := emit p (File name) (log_record tm level zexpr pl msg) in
                  Ok (p, if (level =? log_fatal) || (level =? log_assert) then Exits else Returns)
             else if dbg
                  then let* p := debug_printf can_open p tm [68; 69; 66; 85; 71; 32; 73; 78; 70; 79] errmsg in Ok (p, Returns)
                  else Ok (p, Returns)
      end
  end.

(** Calls to both modules. *)
Inductive call :=
| CRedirect (level : Z) (f : option (list Z))
| CRedirectAll (f : option (list Z))
| CLog (tm : list Z) (f : option (list Z)) (level : Z) (expr : bool) (zexpr : option (list Z)) (pl : place) (msg errmsg : list Z)
| CDebugRedirect (f : option (list Z))
| CDebugDisable (off : bool)
| CAssert (tm : list Z) (expr : bool) (zexpr subject : list Z) (quit : bool) (pl : place) (msg : list Z)
| CPrintf (tm subject msg : list Z).

Definition step (dbg : bool) (can_open : list Z -> bool) (p : proc) (c : call) : res (proc * ending) :=
  match c with
  | CRedirect level f => let* p := log_redirect_level dbg p level f in Ok (p, Returns)
  | CRedirectAll f => let* p := log_redirect_all p f in Ok (p, Returns)
  | CLog tm f level expr zexpr pl msg errmsg => vt_log dbg can_open p tm f level expr zexpr pl msg errmsg
  | CDebugRedirect f => Ok (debug_redirect p f, Returns)
  | CDebugDisable off => Ok (debug_disable p off, Returns)
  | CAssert tm expr zexpr subject quit pl msg => debug_assert can_open p expr tm zexpr subject quit pl msg
  | CPrintf tm subject msg => let* p := debug_printf can_open p tm subject msg in Ok (p, Returns)
  end.
(** Calls one after the other until one ends the program. *)
Fixpoint run (dbg : bool) (can_open : list Z -> bool) (p : proc) (cs : list call) : res (proc * ending) :=
  match cs with
  | [] => Ok (p, Returns)
  | c :: cs' =>
      let* r := step dbg can_open p c in
      match r with
      | (p, Exits) => Ok (p, Exits)
      | (p, Returns) => run dbg can_open p cs'
      end
  end.
