(** Model of src/vita/container/str.c, part 2: searching, splitting, joining,
    comparing.  No proofs in this file. *)
From Verif Require Import Base StrModel.

(** vt_str_can_find, str.c:907-925. *)
Fixpoint count_loop (fuel : nat) (b : blk) (sub : list Z) (p count : Z) : res Z :=
  match fuel with
  | O => NoFuel
  | S f =>
      let* t := cstr_at b p in
      match strstr t sub with
      | None => Ok count
      | Some i => count_loop f b sub (p + i + zlen sub) (w64 (count + 1))
      end
  end.
Definition str_can_find (fuel : nat) (s : str) (sub : list Z) : res Z :=
  let* _ := enforce (zlen sub <=? sl s) in
  count_loop fuel (sb s) sub 0 0.

(** vt_str_split, str.c:927-989.  Result: [None] = NULL, otherwise the strings pushed
    to the list, in order.  Simplification: the list itself (created with room for
    all pieces, or the caller's list after reserving and clearing) is the plist of
    PlistModel.v; here it is the sequence of pushed strings.  head = current + sepLen
    is computed but not used when current is NULL. *)
Fixpoint split_loop (fuel : nat) (dbg : bool) (b : blk) (sep : list Z) (head : Z) (acc : list str) : res (list str) :=
  match fuel with
  | O => NoFuel
  | S f =>
      let* t := cstr_at b head in
      let cur := strstr t sep in
      let copyLen := match cur with Some i => i | None => zlen t end in
      if copyLen =? 0 then split_loop f dbg b sep (head + zlen sep) acc else
      let* piece := str_create_len dbg copyLen in
      let* piece := str_set_n dbg piece t copyLen in
      let acc := acc ++ [piece] in
      match cur with
      | None => Ok acc
      | Some i =>
          let* c := bbyte b (head + i + zlen sep) in
          if c =? 0 then Ok acc else split_loop f dbg b sep (head + i + zlen sep) acc
      end
  end.
Definition str_split (dbg : bool) (fuel : nat) (s : str) (sep : list Z) : res (option (list str)) :=
  let* n := str_can_find fuel s sep in
  if n =? 0 then Ok None else
  let* l := split_loop fuel dbg (sb s) sep 0 [] in
  Ok (Some l).

(** vt_str_split_between, str.c:991-1027.  [s = None]: a new string is made.
    Result: what is returned ([None] = NULL) and the caller's string afterwards. *)
Definition str_split_between (dbg : bool) (s : option str) (z zl zr : list Z) : res (option str * option str) :=
  match strstr z zl with
  | None => Ok (None, s)
  | Some l =>
      match strstr z zr with
      | None => Ok (None, s)
      | Some r =>
          let* st := match s with Some s => Ok s | None => str_create_capacity dbg 16 end in
          let* st := str_clear st in
          if l <? r then
            let n := w64 (r - l - zlen zl) in
            let* st := str_resize dbg st n in
            let* st := str_append_n dbg st (skipn (Z.to_nat (r - n)) z) n in
            Ok (Some st, match s with Some _ => Some st | None => None end)
          else Ok (None, match s with Some _ => Some st | None => None end)
      end
  end.

(** vt_str_join, str.c:1029-1051; the list holds C strings. *)
Fixpoint join_loop (dbg : bool) (st : str) (sep : list Z) (l : list (list Z)) : res str :=
  match l with
  | [] => Ok st
  | z :: l' =>
      let* st := str_append dbg st sep in
      let* st := str_append dbg st z in
      join_loop dbg st sep l'
  end.
Definition str_join (dbg : bool) (s : option str) (sep : list Z) (p : list (list Z)) : res str :=
  let* st := match s with Some s => Ok s | None => str_create_capacity dbg 16 end in
  match p with
  | [] => if dbg then Abort else UB   (* vt_plist_get(p, 0), plist.c: out of range *)
  | z :: p' => let* st := str_append dbg st z in join_loop dbg st sep p'
  end.

(** vt_str_join_n, str.c:1053-1082. *)
Fixpoint join_n_loop (dbg : bool) (st : str) (sep : list Z) (l : list (list Z)) : res str :=
  match l with
  | [] => Ok st
  | [z] => str_append dbg st z
  | z :: l' =>
      let* st := str_append dbg st z in
      let* st := str_append dbg st sep in
      join_n_loop dbg st sep l'
  end.
Definition str_join_n (dbg : bool) (s : option str) (sep : list Z) (l : list (list Z)) : res str :=
  let* _ := dassert dbg (0 <? zlen l) in
  let* st := match s with Some s => Ok s | None => str_create_capacity dbg 16 end in
  join_n_loop dbg st sep l.

(** vt_str_pop_get_first, str.c:1084-1128.  Result: (returned string, [None] = NULL,
    source afterwards).  Simplification: sr and s are different strings. *)
Definition str_pop_get_first (dbg : bool) (sr : option str) (s : str) (sep : list Z) : res (option str * str) :=
  if (sl s =? 0) || is_nil sep then Ok (sr, s) else
  let* t := str_z s in
  match strstr t sep with
  | None => Ok (sr, s)
  | Some i =>
      let copyLen := w64 (sl s - (zlen t - i)) in
      if copyLen =? 0 then Ok (sr, s) else
      let* sp := match sr with Some r => Ok r | None => str_create_len dbg copyLen end in
      let* sp := if sl sp <? copyLen then str_reserve dbg sp (w64 (copyLen - sl sp)) else Ok sp in
      let* sp := str_clear sp in
      let* sp := str_append_n dbg sp t copyLen in
      let* s := str_remove dbg s 0 (w64 (copyLen + zlen sep)) in
      Ok (Some sp, s)
  end.

(** vt_str_pop_get_last, str.c:1130-1186. *)
Definition str_pop_get_last (dbg : bool) (fuel : nat) (sr : option str) (s : str) (sep : list Z) : res (option str * str) :=
  if (sl s =? 0) || is_nil sep then Ok (sr, s) else
  let* t := str_z s in
  match strstr t sep with
  | None => Ok (sr, s)
  | Some i =>
      let* last := last_loop fuel (sb s) sep i in
      let copyLen := w64 (zlen t - last - zlen sep) in
      if copyLen =? 0 then Ok (sr, s) else
      let* sp := match sr with Some r => Ok r | None => str_create_len dbg copyLen end in
      let* sp := if sl sp <? copyLen then str_reserve dbg sp (w64 (copyLen - sl sp + 1)) else Ok sp in
      let* sp := str_clear sp in
      let* sp := str_append_n dbg sp (skipn (Z.to_nat (last + zlen sep)) t) copyLen in
      let* s := str_remove dbg s (w64 (sl s - copyLen - zlen sep)) (w64 (copyLen + zlen sep)) in
      Ok (Some sp, s)
  end.

(** strncmp(a, b, n) == 0 on C strings. *)
Definition strncmp_eq (a b : list Z) (n : Z) : bool := bytes_eqb (firstn (Z.to_nat n) a) (firstn (Z.to_nat n) b).

(** vt_str_equals_z, str.c:1188-1199. *)
Definition str_equals_z (z1 z2 : list Z) : bool :=
  if zlen z1 =? zlen z2 then strncmp_eq z1 z2 (zlen z1) else false.
(** vt_str_equals_n, str.c:1201-1210. *)
Definition str_equals_n (dbg : bool) (z1 z2 : list Z) (n : Z) : res bool :=
  let* _ := dassert dbg (0 <? n) in
  let* _ := enforce (n <=? zlen z1) in
  let* _ := enforce (n <=? zlen z2) in
  Ok (strncmp_eq z1 z2 n).
(** vt_str_equals, str.c:1212-1223. *)
Definition str_equals (s1 s2 : str) : res bool :=
  if sl s1 =? sl s2 then
    let* a := str_z s1 in
    let* b := str_z s2 in
    Ok (strncmp_eq a b (sl s1))
  else Ok false.
(** vt_str_starts_with, str.c:1225-1237. *)
Definition str_starts_with (s : str) (sub : list Z) : res bool :=
  if sl s <? zlen sub then Ok false else
  let* a := str_z s in
  Ok (strncmp_eq a sub (zlen sub)).
(** vt_str_ends_with, str.c:1239-1252. *)
Definition str_ends_with (s : str) (sub : list Z) : res bool :=
  if sl s <? zlen sub then Ok false else
  let* a := cstr_at (sb s) (sl s - zlen sub) in
  Ok (strncmp_eq a sub (zlen sub)).

(** vt_str_apply, str.c:1254-1264: [f c i] is the character func leaves at index i. *)
Fixpoint apply_loop (k : nat) (s : str) (f : Z -> Z -> Z) (i : Z) : res str :=
  match k with
  | O => Ok s
  | S k' => let* c := bbyte (sb s) i in
            let* s := sput s i (f c i) in
            apply_loop k' s f (i + 1)
  end.
Definition str_apply (s : str) (f : Z -> Z -> Z) : res str := apply_loop (Z.to_nat (sl s)) s f 0.

Definition is_digit (c : Z) : bool := (48 <=? c) && (c <=? 57).
Definition is_upper (c : Z) : bool := (65 <=? c) && (c <=? 90).
Definition is_lower (c : Z) : bool := (97 <=? c) && (c <=? 122).
Definition to_upper (c : Z) : Z := if is_lower c then c - 32 else c.
Definition to_lower (c : Z) : Z := if is_upper c then c + 32 else c.

(** vt_str_is_numeric, str.c:1266-1281. *)
Fixpoint numeric_loop (k : nat) (b : blk) (i : Z) : res bool :=
  match k with
  | O => Ok true
  | S k' => let* c := bbyte b i in
            if negb (is_digit c) && negb (c =? 46) then Ok false else numeric_loop k' b (i + 1)
  end.
Definition str_is_numeric (s : str) : res bool := numeric_loop (Z.to_nat (sl s)) (sb s) 0.
(** vt_str_is_numeric_z, str.c:1283-1296. *)
Definition str_is_numeric_z (dbg : bool) (z : list Z) (len : Z) : res bool :=
  let* _ := dassert dbg (0 <? len) in
  numeric_loop (Z.to_nat len) (zblk z) 0.

(** vt_str_to_uppercase / to_lowercase, str.c:1298-1322. *)
Definition str_to_uppercase (s : str) : res str := apply_loop (Z.to_nat (sl s)) s (fun c _ => to_upper c) 0.
Definition str_to_lowercase (s : str) : res str := apply_loop (Z.to_nat (sl s)) s (fun c _ => to_lower c) 0.

(** vt_str_index_of, str.c:1324-1335: strchr also finds the terminator. *)
Definition str_index_of (s : str) (c : Z) : res Z :=
  let* t := str_z s in
  Ok (if c =? 0 then zlen t else match index_in c t with Some i => i | None => -1 end).

(** vt_str_slide_front / slide_back / slide_reset, str.c:1352-1374 (common.c:107-147);
    result: the character pointed to, [None] = NULL. *)
Definition set_slider (s : str) (n : Z) : str := mk_str (sb s) (sl s) (sc s) (sv s) n.
Definition str_slide_reset (s : str) : str := set_slider s 0.
Definition str_slide_front (s : str) : res (str * option Z) :=
  if ss s <? sl s then
    let s := set_slider s (w64 (ss s + 1)) in
    let* c := bbyte (sb s) (w64 (ss s - 1)) in
    Ok (s, Some c)
  else Ok (str_slide_reset s, None).
Definition str_slide_back (s : str) : res (str * option Z) :=
  if ss s <? sl s then
    let s := set_slider s (w64 (ss s + 1)) in
    let* c := bbyte (sb s) (w64 (sl s - ss s - 2)) in
    Ok (s, Some c)
  else Ok (str_slide_reset s, None).
