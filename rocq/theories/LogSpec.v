(** Vocabulary for the log and check properties. *)
From Verif Require Import Base StrModel StrSpec NumModel LogModel.

(** The file name in force for level [l] after the calls [h] (latest first): the one of the
    latest redirection of that level or of all levels; empty: stderr. *)
Definition text_or_empty (f : option text) : text := match f with Some z => z | None => [] end.
Fixpoint route (h : list call) (l : Z) : text :=
  match h with
  | [] => []
  | CRedirect l' f :: h' => if l' =? l then text_or_empty f else route h' l
  | CRedirectAll f :: _ => text_or_empty f
  | _ :: h' => route h' l
  end.
(** The destination of debug output, and whether it is on. *)
Fixpoint debug_dest (h : list call) : option text :=
  match h with
  | [] => None
  | CDebugRedirect f :: _ => f
  | _ :: h' => debug_dest h'
  end.
Fixpoint debug_on (h : list call) : bool :=
  match h with
  | [] => true
  | CDebugDisable off :: _ => negb off
  | _ :: h' => debug_on h'
  end.

(** The text of a log record: time, level (right-justified to 5), [expression], place, message. *)
Definition level_name (l : Z) : text :=
  if l =? 0 then [32; 73; 78; 70; 79] else                            (* " INFO" *)
  if l =? 1 then [32; 87; 65; 82; 78] else                            (* " WARN" *)
  if l =? 2 then [68; 69; 66; 85; 71] else                            (* "DEBUG" *)
  if l =? 3 then [69; 82; 82; 79; 82] else                            (* "ERROR" *)
  if l =? 4 then [70; 65; 84; 65; 76] else                            (* "FATAL" *)
  [65; 83; 83; 69; 82; 84; 32; 70; 65; 73; 76; 85; 82; 69].           (* "ASSERT FAILURE" *)
Definition log_text (tm : text) (l : Z) (zexpr : option text) (pl : place) (msg : text) : text :=
  tm ++ [32] ++ level_name l ++ [32] ++ match zexpr with Some e => [91] ++ e ++ [93; 32] | None => [] end ++
  pl_file pl ++ [58] ++ fmt_int (pl_line pl) ++ [58; 32] ++ msg ++ [10].
Definition check_text (tm subject zexpr : text) (pl : place) (msg : text) : text :=
  tm ++ [32] ++ subject ++ [32; 91] ++ zexpr ++ [93; 32] ++ pl_file pl ++ [58] ++ pl_func pl ++ [58] ++ fmt_int (pl_line pl) ++ [58; 32] ++ msg ++ [10].

Definition to_file (z : text) : sink := match z with [] => Stderr | _ => File z end.
Definition debug_out (h : list call) (t : text) : list (sink * text) :=
  if debug_on h then [(match debug_dest h with Some z => File z | None => Stderr end, t)] else [].

(** What the call [c] after the calls [h] writes, and where. *)
Definition said (h : list call) (c : call) : list (sink * text) :=
  match c with
  | CLog tm f l false zexpr pl msg _ => [(to_file (match f with Some z => z | None => route h l end), log_text tm l zexpr pl msg)]
  | CAssert tm false zexpr subject _ pl msg => debug_out h (check_text tm subject zexpr pl msg)
  | CPrintf tm subject msg => debug_out h (tm ++ [32] ++ subject ++ [32] ++ msg)
  | _ => []
  end.
(** Calls that end the program: fatal and failed-assert records, failed checks that quit. *)
Definition ends (c : call) : bool :=
  match c with
  | CLog _ _ l false _ _ _ _ => (l =? 4) || (l =? 5)
  | CAssert _ false _ _ quit _ _ => quit
  | _ => false
  end.
Fixpoint transcript (h : list call) (cs : list call) : list (sink * text) * ending :=
  match cs with
  | [] => ([], Returns)
  | c :: cs' => if ends c then (said h c, Exits) else
                let '(o, e) := transcript (c :: h) cs' in (said h c ++ o, e)
  end.

(** Calls in scope: valid levels, names of at most 4095 characters, of files that can be
    opened. *)
Definition fine_name (can_open : text -> bool) (f : option text) : Prop :=
  forall z, f = Some z -> oks z /\ zlen z <= 4095 /\ (z = [] \/ can_open z = true).
Definition fine (can_open : text -> bool) (c : call) : Prop :=
  match c with
  | CRedirect l f => 0 <= l < 6 /\ fine_name can_open f
  | CRedirectAll f => fine_name can_open f
  | CLog _ f l _ _ _ _ _ => 0 <= l < 6 /\ fine_name can_open f
  | CDebugRedirect f => forall z, f = Some z -> can_open z = true
  | _ => True
  end.
