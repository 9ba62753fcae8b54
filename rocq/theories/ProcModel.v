(** Several processes that write log records to the same file or the same terminal
    (src/vita/util/log.c:34-76, src/vita/util/debug.c:7-73).  No proofs in this file.

    A process makes system calls (write) through stdio; the system performs each write at once and
    appends it (files are opened with "a"; a terminal only appends); the writes of different
    processes come in any order.  No write fails or is cut short. *)
From Verif Require Import Base StrModel NumModel LogModel.

(** The texts passed to stdio one after the other for one record: fprintf, vfprintf, fprintf;
    log.c:55-63. *)
Definition log_parts (tm : list Z) (level : Z) (zexpr : option (list Z)) (pl : place) (msg : list Z) : list (list Z) :=
  [tm ++ [32] ++ pad5 (nth (Z.to_nat level) level_strings []) ++ [32] ++
     match zexpr with Some e => [91] ++ e ++ [93; 32] | None => [] end ++ pl_file pl ++ [58] ++ fmt_int (pl_line pl) ++ [58; 32];
   msg; [10]].
(** vt_debug_assert, debug.c:32-34. *)
Definition assert_parts (tm subject zexpr : list Z) (pl : place) (msg : list Z) : list (list Z) :=
  [tm ++ [32] ++ subject ++ [32; 91] ++ zexpr ++ [93; 32] ++ pl_file pl ++ [58] ++ pl_func pl ++ [58] ++ fmt_int (pl_line pl) ++ [58; 32];
   msg; [10]].
(** vt_debug_printf, debug.c:64-65. *)
Definition printf_parts (tm subject msg : list Z) : list (list Z) := [tm ++ [32] ++ subject ++ [32]; msg].

Definition nonempty (t : list Z) : bool := match t with [] => false | _ => true end.

(** stderr is not buffered: one write for each text that is not empty. *)
Definition err_writes (parts : list (list Z)) : list (list Z) := filter nonempty parts.

(** A file is fully buffered with [B] bytes and closed after the record (log.c:66, debug.c:37, 68):
    what does not fit in the buffer is written in some pieces, what fits in one piece. *)
Definition file_writes (B : Z) (parts ws : list (list Z)) : Prop :=
  concat ws = concat parts /\ Forall (fun w => w <> []) ws /\ (zlen (concat parts) <= B -> (length ws <= 1)%nat).

(** The writes of several processes in some order. *)
Inductive merge {A : Type} : list (list A) -> list A -> Prop :=
| merge_done ps : Forall (fun p => p = []) ps -> merge ps []
| merge_next l x p r w : merge (l ++ p :: r) w -> merge (l ++ (x :: p) :: r) (x :: w).

(** What is written by processes, each with its records, to a file ... *)
Definition file_contents (B : Z) (procs : list (list (list (list Z)))) (c : list Z) : Prop :=
  exists wss w, Forall2 (fun recs ws => exists dss, Forall2 (file_writes B) recs dss /\ ws = concat dss) procs wss /\
    merge wss w /\ c = concat w.
(** ... and to a terminal. *)
Definition term_contents (procs : list (list (list (list Z)))) (c : list Z) : Prop :=
  exists w, merge (map (fun recs => flat_map err_writes recs) procs) w /\ c = concat w.
