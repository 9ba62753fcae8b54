(** Vocabulary for the properties of OwnModel.v. *)
From Coq Require Import Permutation.
From Verif Require Import Base OwnModel.

(** A possible state: no object is listed twice and new ids are unused. *)
Definition wfl (L : led) : Prop := NoDup (live L) /\ Forall (fun x => x < nxt L) (live L).
(** The objects live in [L'] are those live in [L] and [new]; [L'] is again a possible
    state, so none of [new] was live in [L]. *)
Definition gains (L L' : led) (new : list Z) : Prop := wfl L' /\ Permutation (live L') (new ++ live L).
(** The list object [q] itself if the caller passed none. *)
Definition own_id (p : option slist) (q : slist) : list Z := match p with None => [sid q] | Some _ => [] end.
(** [q] holds the strings [keep] and then [ids]; it is the caller's list if one was passed. *)
Definition filled (p : option slist) (q : slist) (keep ids : list Z) : Prop :=
  items q = keep ++ ids /\ match p with Some p => sid q = sid p /\ slider q = slider p | None => slider q = 0 end.
