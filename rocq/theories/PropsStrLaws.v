(** Laws between string operations.  [srep t cap s] (StrSpec.v): the string object [s] holds
    the text [t]; [scan sub t ps]: [ps] are the pieces of [t] between the occurrences of [sub];
    [settles op s]: doing [op] twice leaves the text that doing it once leaves (StrLaws.v). *)
From Verif Require Import Base BaseFacts StrModel StrModel2 StrSpec StrProofs StrProofs2 StrProofs3 StrMain PropsStr.
From Verif Require Import StrLaws.
From Coq Require Import String.
Local Open Scope list_scope.

(** ** C143 Replacing back *)
(** Full statement: replacing a by b and then b by a restores the text.  False if b occurs in
    the text already. *)
Theorem C143_back_refuted :
  on "ab" (fun s => let* s := str_replace true (lf s) s (T "a") (T "b") in txt (str_replace true (lf s) s (T "b") (T "a"))) = Ok (T "aa").
Proof. vm_compute. reflexivity. Qed.
Print Assumptions C143_back_refuted.

(** Missing: pieces of the text that contain the replacement, or make it up together with it. *)
Theorem C143_back_partial :
  forall dbg t cap s sub rsub ps, srep t cap s -> 0 < zlen sub -> 0 < zlen rsub -> oks sub -> oks rsub -> scan sub t ps ->
  Forall (clear_of rsub) (removelast ps) -> cut rsub (last ps []) = None ->
  zlen t + zlen (join_with rsub ps) + cap + 1 <= alloc_max ->
  exists s1 s2 cap1 cap2, str_replace dbg (lf s) s sub rsub = Ok s1 /\ srep (join_with rsub ps) cap1 s1 /\
    str_replace dbg (lf s1) s1 rsub sub = Ok s2 /\ srep t cap2 s2.
Proof. exact replace_back. Qed.
Print Assumptions C143_back_partial.

Theorem C143_back_char_partial :
  forall dbg t cap s sub c ps, srep t cap s -> 0 < zlen sub -> oks sub -> okc c -> ~ In c t -> scan sub t ps ->
  zlen t + zlen (join_with [c] ps) + cap + 1 <= alloc_max ->
  exists s1 s2 cap1 cap2, str_replace dbg (lf s) s sub [c] = Ok s1 /\ srep (join_with [c] ps) cap1 s1 /\
    str_replace dbg (lf s1) s1 [c] sub = Ok s2 /\ srep t cap2 s2.
Proof. exact replace_back_char. Qed.
Print Assumptions C143_back_char_partial.

Example C143_example :
  on "one, two, three" (fun s => let* s := str_replace true (lf s) s (T ", ") (T ";") in
    let* z := str_z s in let* s := str_replace true (lf s) s (T ";") (T ", ") in let* y := str_z s in Ok (z, y)) = Ok (T "one;two;three", T "one, two, three").
Proof. vm_compute. reflexivity. Qed.

(** ** C144 Doing it twice *)
(** Full statement: for all texts.  False: stripping a text of white space only is undefined,
    and so is stripping the empty text. *)
Theorem C144_twice_refuted :
  on "  " (fun s => let* s := str_strip (lf s) s in txt (str_strip (lf s) s)) = UB.
Proof. vm_compute. reflexivity. Qed.
Print Assumptions C144_twice_refuted.

(** Missing: stripping texts of which nothing would remain. *)
Theorem C144_twice_partial :
  forall t cap s, srep t cap s ->
  settles str_to_uppercase s /\ settles str_to_lowercase s /\ (forall c, settles (fun s => str_remove_c s c) s) /\
  (forall z, 0 < zlen z -> settles (fun s => str_remove_all (lf s) s z) s) /\
  (forallb white t = false -> settles (fun s => str_strip (lf s) s) s) /\
  (forallb (fun c => white c || punct c) t = false -> settles (fun s => str_strip_punct (lf s) s) s) /\
  (forall c, forallb (in_set c) t = false -> 0 < zlen c -> settles (fun s => str_strip_c (lf s) s c) s).
Proof. exact settle_all. Qed.
Print Assumptions C144_twice_partial.

Example C144_example :
  on " a aabb!b " (fun s => let* s := str_remove_all (lf s) s (T "ab") in let* z := str_z s in
     let* s := str_remove_all (lf s) s (T "ab") in let* y := str_z s in Ok (z, y)) = Ok (T " a !b ", T " a !b ") /\
  on " x y " (fun s => let* s := str_strip (lf s) s in let* z := str_z s in
     let* s := str_strip (lf s) s in let* y := str_z s in Ok (z, y)) = Ok (T "x y", T "x y").
Proof. split; vm_compute; reflexivity. Qed.
