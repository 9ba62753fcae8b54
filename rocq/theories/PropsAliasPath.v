(** Properties of functions that fill a string from its own text. *)
From Coq Require Import Ascii String.
From Verif Require Import Base BaseFacts StrModel StrModel2 StrSpec StrProofs StrProofs2 StrMain StrAlias FsModel PathModel PathProofs AliasPath.

Local Open Scope list_scope.
Local Definition T (s : string) : list Z := map (fun a => Z.of_N (N_of_ascii a)) (list_ascii_of_string s).
Local Definition base (z : string) : res (list Z) := let* s := str_create true (T z) in let* s := path_basename_own true s in str_z s.
Local Definition between (z l r : string) : res (option (list Z) * list Z) :=
  let* s := str_create true (T z) in let* o := str_split_between_own true s (T l) (T r) in
  let* a := str_z (snd o) in
  match fst o with Some x => let* y := str_z x in Ok (Some y, a) | None => Ok (None, a) end.

(** C226: vt_path_basename(s, vt_str_z(s)) does to the string exactly what it does with a
    separate copy of its text, for every string and in both builds. *)
Theorem C226_basename_own :
  forall dbg t cap s, srep t cap s -> (let* r := path_basename_own dbg s in Ok (Some r)) = path_basename dbg (Some s) t.
Proof. exact basename_own. Qed.
Print Assumptions C226_basename_own.
(** So a path with a name behind a separator that is not its first byte is cut down to
    that name. *)
Theorem C226_basename_name :
  forall dbg d b cap s, srep (d ++ [47] ++ b) cap s -> 0 < zlen d -> 0 < zlen b -> ~ In 47 b ->
  cap + zlen (d ++ [47] ++ b) + 2 <= alloc_max ->
  exists s' cap', path_basename_own dbg s = Ok s' /\ srep b cap' s'.
Proof.
  intros dbg d b cap s R Hd Hb Hn Hf. pose proof R as [P O L C LE RM F V].
  destruct (basename_ok dbg (Some s) d b O Hd Hb Hn) as (st & cap' & E & R'); [lia| |].
  - intros s0 [= <-]. exists (d ++ [47] ++ b), cap. split; [exact R|lia].
  - rewrite <- (basename_own dbg _ _ _ R) in E. destruct (path_basename_own dbg s) as [s'| | |]; try discriminate. injection E as ->. eauto.
Qed.
Print Assumptions C226_basename_name.
Example C226_example : base "/usr/lib/x.so" = Ok (T "x.so") /\ base "x.so" = Ok (T "x.so") /\ base "a/b/" = Ok (T "b/") /\ base "/x" = Ok (T "/x").
Proof. repeat split; vm_compute; reflexivity. Qed.

(** C227 (false): vt_str_split_between(s, vt_str_z(s), l, r) does not leave the text between
    the markers in the string: the string is resized first, and the text then read from
    the storage it had before.  A separate copy of the text works. *)
Theorem C227_between_own_refuted :
  between "x<<mid>>y" "<<" ">>" = UB /\
  (let* s := str_create true (T "x<<mid>>y") in let* o := str_split_between true (Some s) (T "x<<mid>>y") (T "<<") (T ">>") in
   match fst o with Some x => str_z x | None => UB end) = Ok (T "mid").
Proof. split; vm_compute; reflexivity. Qed.
Print Assumptions C227_between_own_refuted.
(** Whenever both markers are there and the left one is first, the call does not end
    normally, in either build. *)
Theorem C227_between_own_found_refuted :
  forall dbg t cap s zl zr l r o, srep t cap s -> strstr t zl = Some l -> strstr t zr = Some r -> l < r ->
  str_split_between_own dbg s zl zr <> Ok o.
Proof. exact between_own_bad. Qed.
Print Assumptions C227_between_own_found_refuted.
(** Proved: if a marker is missing or the right one is not behind the left one, the effect
    is that of a separate copy. *)
Theorem C227_between_own_partial :
  forall dbg t cap s zl zr, srep t cap s ->
  (forall l r, strstr t zl = Some l -> strstr t zr = Some r -> r <= l) ->
  (let* o := str_split_between_own dbg s zl zr in Ok (fst o, Some (snd o))) = str_split_between dbg (Some s) t zl zr.
Proof. exact between_own_same. Qed.
Print Assumptions C227_between_own_partial.
Example C227_example : between "x<<mid" "<<" ">>" = Ok (None, T "x<<mid") /\ between ">>x<<" "<<" ">>" = Ok (None, []).
Proof. split; vm_compute; reflexivity. Qed.

(** C228 (false): vt_str_remove_all called with a pointer into the string's own text never
    returns, whatever the string and wherever the pointer points; a copy works. *)
Theorem C228_remove_own_refuted :
  forall a z cap s, srep (a ++ z) cap s -> forall fuel, str_remove_all_own fuel s (zlen a) = NoFuel.
Proof. exact remove_all_own_diverges. Qed.
Print Assumptions C228_remove_own_refuted.
(** Proved: vt_str_remove_first removes the first place where that text occurs. *)
Theorem C228_remove_own_partial :
  forall a z cap s, srep (a ++ z) cap s ->
  exists s' x y, str_remove_first_own s (zlen a) = Ok (s', true) /\ srep (x ++ y) cap s' /\
    a ++ z = x ++ z ++ y /\ forall x' y', a ++ z = x' ++ z ++ y' -> zlen x <= zlen x'.
Proof.
  intros a z cap s R. rewrite (remove_first_own a z cap s R). destruct (remove_first_ok _ cap s z R) as (s' & E & R' & _).
  destruct (cut z (a ++ z)) as [[x y]|] eqn:C.
  - exists s', x, y. split; [exact E|]. split; [exact R'|]. split; [now apply cut_some|now apply (cut_leftmost _ _ _ _ C)].
  - exfalso. apply (proj1 (cut_none _ _) C a []). now rewrite app_nil_r.
Qed.
Print Assumptions C228_remove_own_partial.
Example C228_example :
  (let* s := str_create true (T "abcab") in let* r := str_remove_first_own s 3 in str_z (fst r)) = Ok (T "cab") /\
  (let* s := str_create true (T "abcab") in str_remove_all_own 1000 s 3) = NoFuel /\
  (let* s := str_create true (T "abcab") in let* s := str_remove_all 10 s (T "ab") in str_z s) = Ok (T "c").
Proof. repeat (split; [vm_compute; reflexivity|]). vm_compute; reflexivity. Qed.
