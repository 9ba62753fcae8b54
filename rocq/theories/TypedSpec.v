(** What a user expects from a typed vector: a list of numbers of the type.
    Independent of the models but for the vocabulary of calls. *)
From Verif Require Import Base TypedModel.

(** [x] is a value of type [t] (floats: a bit pattern). *)
Definition typed (t : ctype) (x : Z) : Prop :=
  if signed t then - 2 ^ (8 * width t - 1) <= x < 2 ^ (8 * width t - 1)
  else 0 <= x < 2 ^ (8 * width t).

(** Index of the first element equal to [x]. *)
Fixpoint first_index (xs : list Z) (x : Z) : Z :=
  match xs with
  | [] => -1
  | y :: xs' => if y =? x then 0
                else let r := first_index xs' x in if r <? 0 then -1 else r + 1
  end.

(** One call on a list of numbers.  [None]: index or strategy out of range. *)
Definition lstep (xs : list Z) (o : top) : option (list Z * option Z) :=
  let ok i := (0 <=? i) && (i <? zlen xs) in
  let n := Z.to_nat in
  match o with
  | TPushBack x => Some (xs ++ [x], None)
  | TPushFront x => Some (x :: xs, None)
  | TInsert x i => if ok i then Some (firstn (n i) xs ++ x :: skipn (n i) xs, None) else None
  | TSet x i => if ok i then Some (firstn (n i) xs ++ x :: skipn (n (i + 1)) xs, None) else None
  | TGet i => if ok i then Some (xs, Some (nth (n i) xs 0)) else None
  | TPopGet => Some (removelast xs, Some (last xs 0))
  | TPop => Some (removelast xs, None)
  | TRemove i rs =>
      if ok i then
        if rs =? 0 then Some (firstn (n i) xs ++ skipn (n (i + 1)) xs, None)
        else if rs =? 1 then
          Some (removelast (firstn (n i) xs ++ last xs 0 :: skipn (n (i + 1)) xs), None)
        else None
      else None
  | TFind x => Some (xs, Some (first_index xs x))
  | TClear => Some ([], None)
  | TShrink => if 0 <? zlen xs then Some (xs, None) else None
  | TLen => Some (xs, Some (zlen xs))
  end.

Fixpoint lrun (xs : list Z) (ops : list top) : option (list Z * list (option Z)) :=
  match ops with
  | [] => Some (xs, [])
  | o :: ops' =>
      match lstep xs o with
      | Some (xs', out) =>
          match lrun xs' ops' with
          | Some (xs'', outs) => Some (xs'', out :: outs)
          | None => None
          end
      | None => None
      end
  end.

(** The numbers passed in a call are values of the type. *)
Definition args_typed (t : ctype) (o : top) : Prop :=
  match o with
  | TPushBack x | TPushFront x | TInsert x _ | TSet x _ | TFind x => typed t x
  | _ => True
  end.
