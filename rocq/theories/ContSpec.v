(** What a program with several containers should observe: each container is an
    independent value. *)
From Verif Require Import Base HeapModel AllocModel VecModel PlistModel StrModel StrSpec ContModel.
From Verif Require VecSpec PlistSpec.

Inductive value :=
| VSeq (es : Z) (xs : list (list Z)) (cap : Z)     (* vector: elements of es bytes *)
| VPtrs (xs : list Z) (cap : Z)                    (* list of pointers *)
| VText (t : text) (cap : Z).                      (* string *)

(** Per container (in order of creation): destroyed, or whether it was created with
    the allocator and its value. *)
Definition state := list (option (bool * value)).

Definition get (st : state) (i : nat) : option (bool * value) :=
  match nth_error st i with Some o => o | None => None end.
Definition add (st : state) (use : bool) (v : value) : option (state * wout) :=
  Some (st ++ [Some (use, v)], QNone).
Definition put (st : state) (i : nat) (use : bool) (v : value) (q : wout) : option (state * wout) :=
  Some (setn st i (Some (use, v)), q).

(** [None]: outside the contract of the call. *)
Definition vnew (st : state) (o : wop) : option (state * wout) :=
  match o with
  | WVec use n es => if (0 <? n) && (0 <? es) && VecSpec.fits es n then add st use (VSeq es [] n) else None
  | WList use n => if PlistSpec.pfits n then add st use (VPtrs [] n) else None
  | WStr use z => match tinit (ICreate z) with Some (t, cap) => add st use (VText t cap) | None => None end
  | WStrCap use n => match tinit (ICapacity n) with Some (t, cap) => add st use (VText t cap) | None => None end
  | WStrLen use n => match tinit (ILen n) with Some (t, cap) => add st use (VText t cap) | None => None end
  | WOwn use z rest =>
      if sfits (zlen z + zlen rest)
      then match tinit (IOwn z rest) with Some (t, cap) => add st use (VText t cap) | None => None end
      else None
  | WDup i use =>
      match get st i with
      | Some (_, VSeq es xs _) => if 0 <? zlen xs then add st use (VSeq es xs (zlen xs)) else None
      | Some (_, VPtrs xs _) => if 0 <? zlen xs then add st use (VPtrs xs (zlen xs)) else None
      | Some (u, VText t _) => if 0 <? zlen t then add st u (VText t (zlen t)) else None
      | None => None
      end
  | _ => None
  end.

Definition astep (st : state) (o : wop) : option (state * wout) :=
  match o with
  | WDestroy i => match get st i with Some _ => Some (setn st i None, QNone) | None => None end
  | WVecOp i o =>
      match get st i with
      | Some (u, VSeq es xs cap) =>
          match VecSpec.sstep es (xs, cap) o with
          | Some ((xs', cap'), q) => put st i u (VSeq es xs' cap') (QVec q) | None => None end
      | _ => None
      end
  | WListOp i o =>
      match get st i with
      | Some (u, VPtrs xs cap) =>
          match PlistSpec.lstep (xs, cap) o with
          | Some ((xs', cap'), q) => put st i u (VPtrs xs' cap') (QNum q) | None => None end
      | _ => None
      end
  | WStrOp i o =>
      match get st i with
      | Some (u, VText t cap) =>
          match tstep (t, cap) o with
          | Some (t', cap', q) => put st i u (VText t' cap') (QNum q) | None => None end
      | _ => None
      end
  | WPushFrom i j k =>
      match get st i, get st j with
      | Some (u, VSeq es xs cap), Some (_, VSeq _ ys _) =>
          match nth_error ys (Z.to_nat k) with
          | Some y =>
              if (0 <=? k) && negb (Nat.eqb i j) then
                match VecSpec.sstep es (xs, cap) (PushBack y) with
                | Some ((xs', cap'), _) => put st i u (VSeq es xs' cap') QNone | None => None end
              else None
          | None => None
          end
      | _, _ => None
      end
  | WAppendFrom i j =>
      match get st i, get st j with
      | Some (u, VText t cap), Some (_, VText z _) =>
          if negb (Nat.eqb i j) then
            match tstep (t, cap) (SAppend z) with
            | Some (t', cap', _) => put st i u (VText t' cap') QNone | None => None end
          else None
      | _, _ => None
      end
  | o => vnew st o
  end.

Fixpoint arun (st : state) (ops : list wop) : option (state * list wout) :=
  match ops with
  | [] => Some (st, [])
  | o :: ops' =>
      match astep st o with
      | Some (st', q) => match arun st' ops' with Some (st'', qs) => Some (st'', q :: qs) | None => None end
      | None => None
      end
  end.

(** What a caller can see of a container. *)
Definition displays (dbg : bool) (v : value) (x : body) : Prop :=
  match v, x with
  | VSeq es xs cap, BVec a =>
      a_es a = es /\ vec_len a = zlen xs /\ vec_capacity a = cap /\
      forall i e, 0 <= i -> nth_error xs (Z.to_nat i) = Some e -> vec_get dbg a i = Ok (map Some e)
  | VPtrs xs cap, BList l =>
      plist_len l = zlen xs /\ plist_capacity l = cap /\
      forall i e, 0 <= i -> nth_error xs (Z.to_nat i) = Some e -> plist_get dbg l i = Ok e
  | VText t cap, BStr s => str_len s = zlen t /\ str_capacity s = cap /\ str_z s = Ok t
  | _, _ => False
  end.

(** The blocks of the live containers that have ([true]) or do not have the
    allocator: storage and header of each. *)
Definition blocks_of (u : bool) (objs : list (option cont)) : list Z :=
  flat_map (fun o => match o with
                     | Some c => if Bool.eqb (h_use c) u then [h_ptr c; h_hdr c] else []
                     | None => []
                     end) objs.

(** The container a call changes or destroys. *)
Definition target (o : wop) : option nat :=
  match o with
  | WDestroy i | WVecOp i _ | WListOp i _ | WStrOp i _ | WPushFrom i _ _ | WAppendFrom i _ => Some i
  | _ => None
  end.
