(** What a user expects from a vector: a sequence of elements, each a string of
    [es] bytes, with a capacity.  Independent of VecModel except for the
    vocabulary of calls ([vop]) and observations ([vout]). *)
From Verif Require Import Base VecModel.

Notation elem := (list Z).

(** Edits of a sequence (indices as natural numbers). *)
Definition seq_insert (xs : list elem) (i : nat) (x : elem) : list elem :=
  firstn i xs ++ x :: skipn i xs.
Definition seq_delete (xs : list elem) (i : nat) : list elem :=
  firstn i xs ++ skipn (S i) xs.
Definition seq_update (xs : list elem) (i : nat) (x : elem) : list elem :=
  firstn i xs ++ x :: skipn (S i) xs.

(** Swap-with-last deletion: the last element takes the place of the deleted one. *)
Definition seq_delete_fast (xs : list elem) (i : nat) : list elem :=
  if (S i =? length xs)%nat then removelast xs
  else firstn i xs ++ last xs [] :: removelast (skipn (S i) xs).

Fixpoint seq_find (xs : list elem) (x : elem) : option nat :=
  match xs with
  | [] => None
  | y :: xs' => if list_eq_dec Z.eq_dec y x then Some O
                else match seq_find xs' x with Some n => Some (S n) | None => None end
  end.

(** Capacity needed for one more element: a full vector triples (it adds twice
    its capacity). *)
Definition grown (len cap : Z) : Z := if cap =? len then cap * 3 else cap.

(** The memory for [cap] elements can be obtained at all. *)
Definition fits (es cap : Z) : bool := (0 <? cap * es) && (cap * es <=? alloc_max).

Definition elem_ok (es : Z) (d : elem) : bool := zlen d =? es.

Definition in_range (i n : Z) : bool := (0 <=? i) && (i <? n).

(** One call on (sequence, capacity).  [None]: the call is outside the documented
    argument ranges (or needs more memory than can exist). *)
Definition sstep (es : Z) (st : list elem * Z) (o : vop) : option ((list elem * Z) * vout) :=
  let (xs, cap) := st in
  let n := zlen xs in
  match o with
  | PushBack d =>
      if elem_ok es d && fits es (grown n cap)
      then Some ((xs ++ [d], grown n cap), ONone) else None
  | PushFront d =>
      if elem_ok es d && fits es (grown n cap)
      then Some ((d :: xs, grown n cap), ONone) else None
  | Insert d i =>
      if elem_ok es d && in_range i n && fits es (grown n cap)
      then Some ((seq_insert xs (Z.to_nat i) d, grown n cap), ONone) else None
  | SetAt d i =>
      if elem_ok es d && in_range i n
      then Some ((seq_update xs (Z.to_nat i) d, cap), ONone) else None
  | Remove i rs =>
      if in_range i n && in_range rs 2
      then Some ((if rs =? 0 then seq_delete xs (Z.to_nat i) else seq_delete_fast xs (Z.to_nat i), cap), ONone)
      else None
  | Pop => Some ((removelast xs, cap), ONone)
  | PopGet => Some ((removelast xs, cap),
                    match xs with [] => ONull | _ => OElem (map Some (last xs [])) end)
  | Clear => Some (([], cap), ONone)
  | Reserve m =>
      if (0 <? m) && fits es (cap + m) then Some ((xs, cap + m), ONone) else None
  | Shrink => if (0 <? n) then Some ((xs, n), ONone) else None
  | Resize m =>
      if (0 <? m) && (m <=? n) then Some ((firstn (Z.to_nat m) xs, m), ONone) else None
  | Get i => match nth_error xs (Z.to_nat i) with
             | Some x => if 0 <=? i then Some ((xs, cap), OElem (map Some x)) else None
             | None => None
             end
  | Find d => if elem_ok es d
              then Some ((xs, cap), OInt (match seq_find xs d with Some k => Z.of_nat k | None => -1 end))
              else None
  | Len => Some ((xs, cap), OInt n)
  | Capacity => Some ((xs, cap), OInt cap)
  end.

Fixpoint srun (es : Z) (st : list elem * Z) (ops : list vop)
  : option ((list elem * Z) * list vout) :=
  match ops with
  | [] => Some (st, [])
  | o :: ops' =>
      match sstep es st o with
      | Some (st', out) =>
          match srun es st' ops' with
          | Some (st'', outs) => Some (st'', out :: outs)
          | None => None
          end
      | None => None
      end
  end.

(** * The abstraction relation between a vector and the sequence it holds *)

Definition uniform (es : Z) (xs : list elem) : Prop := Forall (fun x => zlen x = es) xs.

(** The vector [v] holds the sequence [xs] of [es]-byte elements. *)
Record vrep (es : Z) (xs : list elem) (cap : Z) (v : arr) : Prop := {
  vr_blk : exists tl, a_blk v = map Some (concat xs) ++ tl;
  vr_uni : uniform es xs;
  vr_len : a_len v = zlen xs;
  vr_cap : a_cap v = cap;
  vr_es : a_es v = es;
  vr_pos : 0 < es;
  vr_size : zlen (a_blk v) = cap * es;
  vr_max : cap * es <= alloc_max;
  vr_le : zlen xs <= cap;
  vr_cap_pos : 0 < cap
}.

(** The observations a caller can make of a vector are those of the sequence. *)
Definition shows (dbg : bool) (v : arr) (xs : list elem) : Prop :=
  vec_len v = zlen xs /\
  forall i x, 0 <= i -> nth_error xs (Z.to_nat i) = Some x -> vec_get dbg v i = Ok (map Some x).

(** ** Sweeps with a slider: outputs of [n] calls. *)
Fixpoint calls (f : arr -> arr * option Z) (n : nat) (v : arr) : arr * list (option Z) :=
  match n with
  | O => (v, [])
  | S n' => let (v1, o) := f v in
            let (v2, os) := calls f n' v1 in (v2, o :: os)
  end.

(** Offsets 0, es, 2 es, ... of [n] consecutive elements starting with element [i]. *)
Fixpoint offsets (es i : Z) (n : nat) : list (option Z) :=
  match n with
  | O => []
  | S n' => Some (i * es) :: offsets es (i + 1) n'
  end.

Fixpoint repeat_list {A} (n : nat) (l : list A) : list A :=
  match n with O => [] | S n' => l ++ repeat_list n' l end.

(** ** Pushing a list of elements, with the number of reallocations and of elements
    moved by them (a push reallocates exactly when there is no space left, and
    then moves all elements held). *)
Fixpoint push_all (dbg : bool) (v : arr) (ds : list elem) : res (arr * Z * Z) :=
  match ds with
  | [] => Ok (v, 0, 0)
  | d :: ds' =>
      let full := vec_has_space v =? 0 in
      let* v' := vec_push_back dbg v (Ext d) in
      let* r := push_all dbg v' ds' in
      let '(w, reallocs, moved) := r in
      Ok (w, reallocs + (if full then 1 else 0), moved + (if full then vec_len v else 0))
  end.
