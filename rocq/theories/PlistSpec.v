(** What a user expects of a pointer list: a sequence of non-NULL addresses with a
    capacity.  Uses PlistModel only for the vocabulary of calls. *)
From Verif Require Import Base PlistModel.

Definition ins {A} (xs : list A) (i : nat) (x : A) : list A := firstn i xs ++ x :: skipn i xs.
Definition del {A} (xs : list A) (i : nat) : list A := firstn i xs ++ skipn (S i) xs.
Definition upd {A} (xs : list A) (i : nat) (x : A) : list A := firstn i xs ++ x :: skipn (S i) xs.

(** Deletion by moving the last element into the gap. *)
Definition del_swap (xs : list Z) (i : nat) : list Z :=
  if (S i =? length xs)%nat then removelast xs
  else firstn i xs ++ last xs 0 :: removelast (skipn (S i) xs).

Definition del_by (rs : Z) (xs : list Z) (i : nat) : list Z :=
  if rs =? 0 then del xs i else del_swap xs i.

Fixpoint first_index (xs : list Z) (x : Z) : option nat :=
  match xs with
  | [] => None
  | y :: xs' => if Z.eq_dec y x then Some O
                else match first_index xs' x with Some n => Some (S n) | None => None end
  end.

Definition pgrown (len cap : Z) : Z := if cap =? len then cap * 3 else cap.
Definition pfits (cap : Z) : bool := (0 <? cap) && (cap * 8 <=? alloc_max).
Definition between (lo i hi : Z) : bool := (lo <=? i) && (i <? hi).

Definition lstep (st : list Z * Z) (o : plop) : option ((list Z * Z) * option Z) :=
  let (xs, cap) := st in
  let n := zlen xs in
  match o with
  | LPushBack x => if negb (x =? 0) && pfits (pgrown n cap)
                   then Some ((xs ++ [x], pgrown n cap), None) else None
  | LPushFront x => if negb (x =? 0) && pfits (pgrown n cap)
                   then Some ((x :: xs, pgrown n cap), None) else None
  | LInsert x i => if negb (x =? 0) && between 0 i n && pfits (pgrown n cap)
                   then Some ((ins xs (Z.to_nat i) x, pgrown n cap), None) else None
  | LSet x i => if negb (x =? 0) && between 0 i n
                then Some ((upd xs (Z.to_nat i) x, cap), None) else None
  | LRemove i rs => if between 0 i n && between 0 rs 2
                    then Some ((del_by rs xs (Z.to_nat i), cap), None) else None
  | LRemoveElement x rs =>
      if negb (x =? 0) && between 0 rs 2
      then Some ((match first_index xs x with Some k => del_by rs xs k | None => xs end, cap), None)
      else None
  | LPop => Some ((removelast xs, cap), None)
  | LPopGet => Some ((removelast xs, cap), Some (last xs 0))
  | LClear => Some (([], cap), None)
  | LReserve m => if (0 <? m) && pfits (cap + m) then Some ((xs, cap + m), None) else None
  | LShrink => if 0 <? n then Some ((xs, n), None) else None
  | LResize m => if between 1 m (n + 1) then Some ((firstn (Z.to_nat m) xs, m), None) else None
  | LGet i => if between 0 i n then
                match nth_error xs (Z.to_nat i) with
                | Some x => Some ((xs, cap), Some x) | None => None end
              else None
  | LFind x => if negb (x =? 0)
               then Some ((xs, cap), Some (match first_index xs x with Some k => Z.of_nat k | None => -1 end))
               else None
  | LLen => Some ((xs, cap), Some n)
  | LCapacity => Some ((xs, cap), Some cap)
  end.

Fixpoint lrun (st : list Z * Z) (ops : list plop) : option ((list Z * Z) * list (option Z)) :=
  match ops with
  | [] => Some (st, [])
  | o :: ops' =>
      match lstep st o with
      | Some (st', out) =>
          match lrun st' ops' with
          | Some (st'', outs) => Some (st'', out :: outs)
          | None => None
          end
      | None => None
      end
  end.

(** The list [p] holds the pointers [xs]. *)
Record prep (xs : list Z) (cap : Z) (p : plist) : Prop := {
  pr_blk : exists tl, p_blk p = map Some xs ++ tl;
  pr_len : p_len p = zlen xs;
  pr_cap : p_cap p = cap;
  pr_size : zlen (p_blk p) = cap;
  pr_max : cap * 8 <= alloc_max;
  pr_le : zlen xs <= cap;
  pr_pos : 0 < cap
}.
