(** What the string operations should do, on plain texts (lists of non-NUL bytes).
    Independent of the model's buffers. *)
From Verif Require Import Base StrModel StrModel2.

Notation text := (list Z).

Definition okz (z : text) : bool := forallb (fun c => (0 <? c) && (c <? 256)) z.

(** The rest of [l] after the prefix [p]. *)
Fixpoint strip_prefix (p l : text) : option text :=
  match p, l with
  | [], _ => Some l
  | x :: p', y :: l' => if x =? y then strip_prefix p' l' else None
  | _, [] => None
  end.

(** Text before and after the leftmost occurrence of [sub]. *)
Fixpoint cut (sub t : text) : option (text * text) :=
  match strip_prefix sub t with
  | Some r => Some ([], r)
  | None => match t with
            | [] => None
            | c :: t' => match cut sub t' with Some (a, b) => Some (c :: a, b) | None => None end
            end
  end.

(** The texts between the occurrences met when scanning from left to right without
    overlap (one more than there are occurrences). *)
Fixpoint pieces (k : nat) (sub t : text) : list text :=
  match k with
  | O => [t]
  | S k' => match cut sub t with
            | None => [t]
            | Some (a, b) => a :: pieces k' sub b
            end
  end.
Definition split_on (sub t : text) : list text := pieces (length t) sub t.

(** The same by its defining property: [scan sub t ps] when [ps] are the pieces of [t]
    between the occurrences of [sub] met from left to right. *)
Inductive scan (sub : text) : text -> list text -> Prop :=
| scan_end t : (forall a b, t <> a ++ sub ++ b) -> scan sub t [t]
| scan_next a b ps : (forall a' b', a ++ sub ++ b = a' ++ sub ++ b' -> zlen a <= zlen a') ->
                     scan sub b ps -> scan sub (a ++ sub ++ b) (a :: ps).

(** Text before and after the last occurrence met by that scan. *)
Fixpoint last_cut (k : nat) (sub t : text) : option (text * text) :=
  match k with
  | O => None
  | S k' => match cut sub t with
            | None => None
            | Some (a, b) => match last_cut k' sub b with
                             | None => Some (a, b)
                             | Some (a', b') => Some (a ++ sub ++ a', b')
                             end
            end
  end.

Fixpoint join_with (sep : text) (l : list text) : text :=
  match l with
  | [] => []
  | [x] => x
  | x :: l' => x ++ sep ++ join_with sep l'
  end.

(** Deleting the leftmost occurrence until none is left. *)
Fixpoint delete_all (k : nat) (sub t : text) : text :=
  match k with
  | O => t
  | S k' => match cut sub t with
            | None => t
            | Some (a, b) => delete_all k' sub (a ++ b)
            end
  end.

Definition in_set (c : text) (x : Z) : bool := existsb (Z.eqb x) c.
Definition keep_out (c t : text) : text := filter (fun x => negb (in_set c x)) t.

(** Character classes of the C locale (by ASCII code): white space, punctuation,
    letters, and what a decimal number is written with. *)
Definition white (x : Z) : bool := in_set [9; 10; 11; 12; 13; 32] x.
Definition punct (x : Z) : bool :=
  in_set [33; 34; 35; 36; 37; 38; 39; 40; 41; 42; 43; 44; 45; 46; 47; 58; 59; 60; 61; 62; 63; 64;
          91; 92; 93; 94; 95; 96; 123; 124; 125; 126] x.
Definition upper (x : Z) : Z := if (97 <=? x) && (x <=? 122) then x - 32 else x.
Definition lower (x : Z) : Z := if (65 <=? x) && (x <=? 90) then x + 32 else x.
Definition numch (x : Z) : bool := in_set [46; 48; 49; 50; 51; 52; 53; 54; 55; 56; 57] x.

(** Character map of replace_c. *)
Fixpoint map_char (c r : text) (last x : Z) : Z :=
  match c with
  | [] => x
  | y :: c' => match r with
               | [] => if x =? y then last else map_char c' [] last x
               | z :: r' => if x =? y then z else map_char c' r' last x
               end
  end.

(** Dropping the maximal prefix / suffix of characters satisfying [f]. *)
Fixpoint drop_while (f : Z -> bool) (t : text) : text :=
  match t with
  | [] => []
  | c :: t' => if f c then drop_while f t' else t
  end.
Definition strip_text (f : Z -> bool) (t : text) : text :=
  rev (drop_while f (rev (drop_while f t))).

(** * Calls on one string *)
Inductive sop :=
| SAppend (z : text) | SAppendN (z : text) (n : Z) | SAppendf (z : text)
| SInsert (z : text) (at_ : Z) | SInsertN (z : text) (at_ n : Z) | SInsertf (at_ : Z) (z : text)
| SInsertBefore (sub z : text) | SInsertAfter (sub z : text)
| SRemove (from n : Z) | SClear
| SSet (z : text) | SSetN (z : text) (n : Z) | SSetAt (z : text) (at_ : Z) | SSetC (c at_ : Z)
| SReserve (n : Z) | SResize (n : Z) | SShrink
| SRemoveFirst (z : text) | SRemoveAll (z : text) | SRemoveC (c : text)
| SReplace (sub rsub : text) | SReplaceFirst (sub rsub : text) | SReplaceLast (sub rsub : text)
| SReplaceC (c r : text)
| SStrip | SStripPunct | SStripC (c : text)
| SUpper | SLower | SValidateLen
| SFind (z : text) | SCanFind (z : text) | SIndexOf (c : Z) | SIsNumeric | SLen | SCapacity.

(** Room: the storage (capacity + 1 bytes) can be allocated. *)
Definition sfits (cap : Z) : bool := cap + 1 <=? alloc_max.

Definition grow_to (st : text * Z) (t' : text) (out : option Z) : option (text * Z * option Z) :=
  let cap' := Z.max (snd st) (zlen t') in
  if sfits cap' then Some (t', cap', out) else None.

Definition b2z (b : bool) : Z := if b then 1 else 0.

Definition splice (t z : text) (i : Z) : text := firstn (Z.to_nat i) t ++ z ++ skipn (Z.to_nat i) t.

(** The expected effect of a call: new text, new capacity, result; [None] when the
    arguments are outside the contract. *)
Definition tstep (st : text * Z) (o : sop) : option (text * Z * option Z) :=
  let '(t, cap) := st in
  let n := zlen t in
  match o with
  | SAppend z => if okz z && (0 <? zlen z) then grow_to st (t ++ z) None else None
  | SAppendN z k => if okz z && (0 <? k) && (k <=? zlen z) then grow_to st (t ++ firstn (Z.to_nat k) z) None else None
  | SAppendf z => if okz z then grow_to st (t ++ z) None else None
  | SInsert z i => if okz z && (0 <=? i) && (i <? n) then grow_to st (splice t z i) None else None
  | SInsertf i z => if okz z && (0 <=? i) && (i <? n) && sfits (2 * zlen z + 1) then grow_to st (splice t z i) None else None
  | SInsertN z i k => if okz z && (0 <=? i) && (i <=? n) && (0 <? k) && (k <=? zlen z)
                      then grow_to st (splice t (firstn (Z.to_nat k) z) i) None else None
  | SInsertBefore sub z =>
      if okz z && (zlen sub <=? n) && (0 <? zlen sub) then
        match cut sub t with
        | None => Some (t, cap, None)
        | Some (a, b) => grow_to st (a ++ z ++ sub ++ b) None
        end else None
  | SInsertAfter sub z =>
      if okz z && (zlen sub <=? n) && (0 <? zlen sub) then
        match cut sub t with
        | None => Some (t, cap, None)
        | Some (a, []) => None
        | Some (a, b) => grow_to st (a ++ sub ++ z ++ b) None
        end else None
  | SRemove i k => if (0 <? k) && (k <? two64) && (0 <=? i) && (i <? n)
                   then Some (firstn (Z.to_nat i) t ++ skipn (Z.to_nat (i + k)) t, cap, None) else None
  | SClear => Some ([], cap, None)
  | SSet z => if okz z && (0 <? zlen z) && (zlen z <=? n) then Some (z, cap, None) else None
  | SSetN z k => if okz z && (0 <? k) && (k <=? zlen z) && (k <=? n)
                 then Some (firstn (Z.to_nat k) z, cap, None) else None
  | SSetAt z i => if okz z && (0 <? zlen z) && (0 <=? i) && (i <? n) && (zlen z <=? n - i)
                  then Some (firstn (Z.to_nat i) t ++ z, cap, None) else None
  | SSetC c i => if okz [c] && (0 <=? i) && (i <? n)
                 then Some (firstn (Z.to_nat i) t ++ c :: skipn (Z.to_nat (i + 1)) t, cap, None) else None
  | SReserve k => if (0 <? k) && sfits (cap + k) then Some (t, cap + k, None) else None
  | SResize k => if (0 <? k) && sfits k then Some (firstn (Z.to_nat k) t, k, None) else None
  | SShrink => Some (t, n, None)
  | SRemoveFirst z => match cut z t with
                      | None => Some (t, cap, Some 0)
                      | Some (a, b) => Some (a ++ b, cap, Some 1)
                      end
  | SRemoveAll z => if 0 <? zlen z then Some (delete_all (length t) z t, cap, Some 1) else None
  | SRemoveC c => Some (keep_out c t, cap, None)
  | SReplace sub rsub =>
      if okz rsub then
        if (0 <? zlen sub) && (0 <? zlen rsub)
        then grow_to st (join_with rsub (split_on sub t)) None
        else Some (t, cap, None)
      else None
  | SReplaceFirst sub rsub =>
      if okz rsub then
        if (0 <? zlen sub) && (0 <? zlen rsub)
        then if zlen sub <=? n then
               match cut sub t with
               | None => Some (t, cap, None)
               | Some (a, b) => grow_to st (a ++ rsub ++ b) None
               end
             else None
        else Some (t, cap, None)
      else None
  | SReplaceLast sub rsub =>
      if okz rsub then
        if (0 <? zlen sub) && (0 <? zlen rsub)
        then match last_cut (length t) sub t with
             | None => None
             | Some (a, b) => grow_to st (a ++ rsub ++ b) None
             end
        else Some (t, cap, None)
      else None
  | SReplaceC c r => if okz r && (zlen r <=? zlen c)
                     then Some (match r with [] => t | _ => map (map_char c r (last r 0)) t end, cap, None) else None
  | SStrip => if forallb white t then None else Some (strip_text white t, cap, None)
  | SStripPunct => if forallb (fun c => white c || punct c) t then None
                   else Some (strip_text (fun c => white c || punct c) t, cap, None)
  | SStripC c => if forallb (in_set c) t || negb (0 <? zlen c) then None
                 else Some (strip_text (in_set c) t, cap, None)
  | SUpper => Some (map upper t, cap, None)
  | SLower => Some (map lower t, cap, None)
  | SValidateLen => Some (t, cap, Some n)
  | SFind z => if zlen z <=? n
               then Some (t, cap, Some (match cut z t with Some (a, _) => zlen a | None => -1 end)) else None
  | SCanFind z => if (0 <? zlen z) && (zlen z <=? n) then Some (t, cap, Some (zlen (split_on z t) - 1)) else None
  | SIndexOf c => if okz [c] then Some (t, cap, Some (match cut [c] t with Some (a, _) => zlen a | None => -1 end)) else None
  | SIsNumeric => Some (t, cap, Some (b2z (forallb numch t)))
  | SLen => Some (t, cap, Some n)
  | SCapacity => Some (t, cap, Some cap)
  end.

Fixpoint trun (st : text * Z) (ops : list sop) : option (text * Z * list (option Z)) :=
  match ops with
  | [] => Some (fst st, snd st, [])
  | o :: ops' =>
      match tstep st o with
      | None => None
      | Some (t, cap, out) =>
          match trun (t, cap) ops' with
          | None => None
          | Some (t', cap', outs) => Some (t', cap', out :: outs)
          end
      end
  end.

(** * The same calls on the model *)

(** Enough iterations for every loop over the text. *)
Definition lf (s : str) : nat := S (length (sb s)).

Definition ok1 (r : res str) : res (str * option Z) := let* s := r in Ok (s, None).
Definition okq (s : str) (r : res Z) : res (str * option Z) := let* z := r in Ok (s, Some z).

Definition sstep (dbg : bool) (s : str) (o : sop) : res (str * option Z) :=
  match o with
  | SAppend z => ok1 (str_append dbg s z)
  | SAppendN z k => ok1 (str_append_n dbg s z k)
  | SAppendf z => ok1 (str_appendf dbg s z)
  | SInsert z i => ok1 (str_insert dbg s z i)
  | SInsertf i z => ok1 (str_insertf dbg s i z)
  | SInsertN z i k => ok1 (str_insert_n dbg s z i k)
  | SInsertBefore sub z => ok1 (str_insert_before dbg s sub z)
  | SInsertAfter sub z => ok1 (str_insert_after dbg s sub z)
  | SRemove i k => ok1 (str_remove dbg s i k)
  | SClear => ok1 (str_clear s)
  | SSet z => ok1 (str_set dbg s z)
  | SSetN z k => ok1 (str_set_n dbg s z k)
  | SSetAt z i => ok1 (str_set_at dbg s z i)
  | SSetC c i => ok1 (str_set_c dbg s c i)
  | SReserve k => ok1 (str_reserve dbg s k)
  | SResize k => ok1 (str_resize dbg s k)
  | SShrink => ok1 (str_shrink dbg s)
  | SRemoveFirst z => let* r := str_remove_first s z in Ok (fst r, Some (b2z (snd r)))
  | SRemoveAll z => let* s := str_remove_all (lf s) s z in Ok (s, Some 1)
  | SRemoveC c => ok1 (str_remove_c s c)
  | SReplace sub rsub => ok1 (str_replace dbg (lf s) s sub rsub)
  | SReplaceFirst sub rsub => ok1 (str_replace_first dbg s sub rsub)
  | SReplaceLast sub rsub => ok1 (str_replace_last dbg (lf s) s sub rsub)
  | SReplaceC c r => ok1 (str_replace_c s c r)
  | SStrip => ok1 (str_strip (lf s) s)
  | SStripPunct => ok1 (str_strip_punct (lf s) s)
  | SStripC c => ok1 (str_strip_c (lf s) s c)
  | SUpper => ok1 (str_to_uppercase s)
  | SLower => ok1 (str_to_lowercase s)
  | SValidateLen => let* r := str_validate_len s in Ok (fst r, Some (snd r))
  | SFind z => okq s (str_index_find s z)
  | SCanFind z => okq s (str_can_find (lf s) s z)
  | SIndexOf c => okq s (str_index_of s c)
  | SIsNumeric => let* b := str_is_numeric s in Ok (s, Some (b2z b))
  | SLen => Ok (s, Some (str_len s))
  | SCapacity => Ok (s, Some (str_capacity s))
  end.

Fixpoint srun (dbg : bool) (s : str) (ops : list sop) : res (str * list (option Z)) :=
  match ops with
  | [] => Ok (s, [])
  | o :: ops' =>
      let* r := sstep dbg s o in
      let* r' := srun dbg (fst r) ops' in
      Ok (fst r', snd r :: snd r')
  end.

(** * What a usable string is *)
Definition okc (c : Z) : Prop := 0 < c < 256.
Definition oks (t : text) : Prop := Forall okc t.
Definition pre {A} (l b : list A) : Prop := exists q, b = l ++ q.

(** [s] holds the text [t] with capacity [cap]: the storage starts with the text and a
    NUL, its recorded length is the text's, it fits the capacity, and the block has at
    least capacity + 1 bytes; it is not a view. *)
Record srep (t : text) (cap : Z) (s : str) : Prop := {
  r_pre : pre (zblk t) (sb s);
  r_ok : oks t;
  r_len : sl s = zlen t;
  r_cap : sc s = cap;
  r_le : zlen t <= cap;
  r_room : cap + 1 <= zlen (sb s);
  r_fit : cap + 1 <= alloc_max;
  r_view : sv s = false
}.

(** Ways to make a string: vt_str_create, create_capacity, create_len,
    take_ownership of a heap block holding a text, dup of a created string. *)
Inductive sinit :=
| ICreate (z : text) | ICapacity (n : Z) | ILen (n : Z) | IOwn (z : text) (rest : blk) | IDup (z : text).
Definition tinit (i : sinit) : option (text * Z) :=
  match i with
  | ICreate z | IDup z => if okz z && (0 <? zlen z) && sfits (zlen z) then Some (z, zlen z) else None
  | ICapacity n => if (0 <? n) && sfits n then Some ([], n) else None
  | ILen n => if (0 <? n) && sfits n then Some (repeat 63 (Z.to_nat n), n) else None
  | IOwn z rest => if okz z && sfits (zlen z) then Some (z, zlen z) else None
  end.
Definition smake (dbg : bool) (i : sinit) : res str :=
  match i with
  | ICreate z => str_create dbg z
  | ICapacity n => str_create_capacity dbg n
  | ILen n => str_create_len dbg n
  | IOwn z rest => str_take_ownership dbg (map Some z ++ Some 0 :: rest)
  | IDup z => let* s := str_create dbg z in str_dup dbg s
  end.

(** No proper suffix of [sub] is a prefix of it. *)
Definition no_overlap (sub : text) : Prop :=
  forall u v w, sub = u ++ v -> sub = v ++ w -> v = [] \/ u = [].

Definition nonempty (t : text) : bool := negb (zlen t =? 0).
Definition okpieces (l : list text) : Prop := Forall (fun x => oks x /\ 0 < zlen x) l.

(** In [x] followed by the separator, the first separator is that one. *)
Definition clear_of (sep x : text) : Prop := cut sep (x ++ sep) = Some (x, []).

(** The result argument of a pop: NULL or a string that can still grow. *)
Definition target_ok (sr : option str) (n : Z) : Prop :=
  forall r, sr = Some r -> exists t cap, srep t cap r /\ cap + n + 2 <= alloc_max.

(** vt_str_slide_front called until it returns NULL. *)
Fixpoint slide_all (k : nat) (s : str) : res (str * list Z) :=
  match k with
  | O => Ok (s, [])
  | S k' => let* r := str_slide_front s in
            match snd r with
            | None => Ok (fst r, [])
            | Some c => let* r' := slide_all k' (fst r) in Ok (fst r', c :: snd r')
            end
  end.

