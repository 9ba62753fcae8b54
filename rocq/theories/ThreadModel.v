(** Threads that call functions with static variables: vt_datetime_from_secs (localtime fills one
    struct tm of the C library, src/vita/time/datetime.c:234-237, the same in 9-38) and
    vt_math_random_u64 (src/vita/math/math.c:47-57).  No proofs in this file.

    Each call takes two steps, and the steps of different threads come in any order:
    localtime fills its static variable at once, then the caller copies it at once; the seed is
    loaded, then the new one is stored.  By the letter of the C standard such accesses are data races
    and undefined; the model takes the mildest reading. *)
From Verif Require Import Base NumModel DtModel.

(** The static variables. *)
Record shared := mk_shared { sh_tm : tm; sh_seed : option Z }.
Inductive call := CDate (secs : Z) | CRandom.
Inductive answer := ADate (v : vdt) | ARandom (n : Z).
(** A thread: the calls to come, what it loaded in the middle of a call, the results so far. *)
Record thread := mk_thread { th_todo : list call; th_mid : option Z; th_out : list answer }.

(** One step of a thread; [now]: the clock (read once, for the first seed). *)
Definition step (off now : Z) (s : shared) (t : thread) : shared * thread :=
  match th_todo t with
  | [] => (s, t)
  | CDate secs :: rest =>
      match th_mid t with
      | None => (mk_shared (localtime off secs) (sh_seed s), mk_thread (th_todo t) (Some 0) (th_out t))
      | Some _ => (s, mk_thread rest None (th_out t ++ [ADate (tm_to_vdt (sh_tm s))]))
      end
  | CRandom :: rest =>
      match th_mid t with
      | None =>
          let seed := match sh_seed s with Some x => x | None => now end in
          (mk_shared (sh_tm s) (Some seed), mk_thread (th_todo t) (Some seed) (th_out t))
      | Some x => let r := random_u64 (Some x) now in (mk_shared (sh_tm s) (fst r), mk_thread rest None (th_out t ++ [ARandom (snd r)]))
      end
  end.

Fixpoint update {A} (l : list A) (i : nat) (x : A) : list A :=
  match l, i with [], _ => [] | _ :: l, O => x :: l | y :: l, S i => y :: update l i x end.

(** The threads run in the order of the schedule, a step each time. *)
Fixpoint run (off now : Z) (s : shared) (ts : list thread) (sched : list nat) : shared * list thread :=
  match sched with
  | [] => (s, ts)
  | i :: sched =>
      match nth_error ts i with
      | None => run off now s ts sched
      | Some t => let r := step off now s t in run off now (fst r) (update ts i (snd r)) sched
      end
  end.
Definition start (todo : list call) : thread := mk_thread todo None [].
