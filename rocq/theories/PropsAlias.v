(** Properties of string functions called with a pointer into the string itself. *)
From Coq Require Import Ascii String.
From Verif Require Import Base BaseFacts StrModel StrModel2 StrSpec StrProofs StrAlias.

Definition T (s : string) : list Z := map (fun a => Z.of_N (N_of_ascii a)) (list_ascii_of_string s).
(** A string with room. *)
Definition roomy (z : list Z) : res str :=
  let* s := str_create_capacity true 16 in
  str_append true s z.

(** C114 (false): a string appended to itself is read after the storage was moved; an
    insertion in front of the text passed shifts that text first; setting the text at its
    own position cuts it before it is copied.  Each time a copy of the text would work. *)
Theorem C114_own_text_refuted :
  (let* s := str_create true (T "ab") in str_append_own true s 0) = UB /\
  (let* s := roomy (T "abc") in let* s := str_insert_own true s 2 0 in str_z s) = Ok (T "babc") /\
  (let* s := roomy (T "abc") in let* s := str_set_at_own true s 1 1 in str_z s) = Ok (T "a") /\
  (let* s := roomy (T "abc") in let* s := str_insert true s (T "c") 0 in str_z s) = Ok (T "cabc") /\
  (let* s := roomy (T "abc") in let* s := str_set_at true s (T "bc") 1 in str_z s) = Ok (T "abc").
Proof. repeat split; vm_compute; reflexivity. Qed.
Print Assumptions C114_own_text_refuted.

(** Proved: the text [z] of the string behind [a] passed by pointer has the effect of a
    separate copy of it, for set always, for append if there is room, for insert if
    there is room and the position is not in front of z, for set_at if it is not the
    position of z. *)
Theorem C114_set_partial :
  forall dbg a z cap s, srep (a ++ z) cap s -> str_set_own dbg s (zlen a) = str_set dbg s z.
Proof. exact set_own_ok. Qed.
Print Assumptions C114_set_partial.
Theorem C114_append_partial :
  forall dbg a z cap s, srep (a ++ z) cap s -> zlen (a ++ z) + zlen z <= cap ->
  str_append_own dbg s (zlen a) = str_append dbg s z.
Proof. exact append_own_ok. Qed.
Print Assumptions C114_append_partial.
Theorem C114_insert_partial :
  forall dbg a z cap s at_, srep (a ++ z) cap s -> zlen (a ++ z) + zlen z <= cap -> zlen a <= at_ < zlen (a ++ z) ->
  str_insert_own dbg s (zlen a) at_ = str_insert dbg s z at_.
Proof. exact insert_own_ok. Qed.
Print Assumptions C114_insert_partial.
Theorem C114_set_at_partial :
  forall dbg a z cap s at_, srep (a ++ z) cap s -> 0 < zlen z -> 0 <= at_ < zlen (a ++ z) -> zlen a <> at_ ->
  str_set_at_own dbg s (zlen a) at_ = str_set_at dbg s z at_.
Proof. exact set_at_own_ok. Qed.
Print Assumptions C114_set_at_partial.
(** Without room, appending own text never ends normally. *)
Theorem C114_append_refuted :
  forall dbg a z cap s s', srep (a ++ z) cap s -> cap < zlen (a ++ z) + zlen z -> str_append_own dbg s (zlen a) <> Ok s'.
Proof. exact append_own_bad. Qed.
Print Assumptions C114_append_refuted.
Example C114_example :
  (let* s := roomy (T "abc") in let* s := str_append_own true s 1 in str_z s) = Ok (T "abcbc") /\
  (let* s := roomy (T "abc") in let* s := str_set_own true s 1 in str_z s) = Ok (T "bc") /\
  (let* s := roomy (T "abc") in let* s := str_insert_own true s 1 2 in str_z s) = Ok (T "abbcc") /\
  (let* s := roomy (T "abc") in let* s := str_set_at_own true s 2 0 in str_z s) = Ok (T "c").
Proof. repeat split; vm_compute; reflexivity. Qed.
