(** Model of the loop macros and of __SOURCE_FILENAME__ (inc/vita/core/core.h:36-71).  No proofs in
    this file.  The body of a loop does not change the variable and does not leave the loop; [from],
    [to] and [step] are values of size_t (the macros compare them with a size_t). *)
From Verif Require Import Base.

(** VT_FOREACH_STEP, core.h:71: the values of the variable, in order; the loop goes on while
    there is fuel. *)
Fixpoint foreach_step (fuel : nat) (iter to step : Z) : res (list Z) :=
  match fuel with
  | O => NoFuel
  | S fuel => if iter <? to then let* l := foreach_step fuel (w64 (iter + step)) to step in Ok (iter :: l) else Ok []
  end.
(** VT_FOREACH, core.h:65. *)
Definition foreach (fuel : nat) (from to : Z) : res (list Z) := foreach_step fuel from to 1.
(** VT_FOREACH_R, core.h:68. *)
Fixpoint foreach_r (fuel : nat) (from iter : Z) : res (list Z) :=
  match fuel with
  | O => NoFuel
  | S fuel => if from <? iter then let* l := foreach_r fuel from (w64 (iter - 1)) in Ok (iter :: l) else Ok []
  end.

(** strrchr(z, c) + 1, or z if there is none: what follows the last [c]. *)
Fixpoint after_last (c : Z) (z : list Z) : option (list Z) :=
  match z with
  | [] => None
  | x :: z => match after_last c z with Some r => Some r | None => if x =? c then Some z else None end
  end.
(** __SOURCE_FILENAME__, core.h:36-43, with the separator of the build. *)
Definition source_filename (sepc : Z) (file : list Z) : list Z := match after_last sepc file with Some r => r | None => file end.
