(** Texts with bytes from 128 on.  Statements only. *)
From Coq Require Import String Ascii.
From Verif Require Import Base BaseFacts StrModel StrModel2 StrSpec StrProofs StrProofs2 StrProofs3 StrMain CtypeModel CtypeProofs.
Local Open Scope list_scope.
Local Open Scope Z_scope.

(** C188.  [undef l c]: <ctype.h> is not defined for the byte c: plain char is signed, c is in 128..254 and the library
    keeps to the standard.  Stripping is undefined exactly if nothing remains, or the first or last character that
    remains is such a byte; else it is as in C35. *)
Theorem C188_strip : forall l t cap s, srep t cap s -> (forall i c, bbyte (sb s) i = Ok c -> 0 <= c < 256) -> zlen (sb s) <= alloc_max ->
  k_strip l (lf s) s = (if forallb white t then UB else if undef l (hd 0 (strip_text white t)) || undef l (last (strip_text white t) 0) then UB else str_strip (lf s) s) /\
  let wp := fun c => white c || punct c in
  k_strip_punct l (lf s) s = (if forallb wp t then UB else if undef l (hd 0 (strip_text wp t)) || undef l (last (strip_text wp t) 0) then UB else str_strip_punct (lf s) s).
Proof. exact strips. Qed.
Print Assumptions C188_strip.
(** The check for numbers is undefined exactly if the first character that is neither digit nor dot is such a byte. *)
Theorem C188_numeric : forall l t cap s, srep t cap s ->
  k_is_numeric l s = if match stops numch t with Some c => undef l c | None => false end then UB else Ok (forallb numch t).
Proof. exact k_numeric_ok. Qed.
Print Assumptions C188_numeric.
(** Changing the case is undefined exactly if the text contains such a byte. *)
Theorem C188_case : forall l t cap s, srep t cap s ->
  (if existsb (undef l) t then k_uppercase l s = UB /\ k_lowercase l s = UB
   else (exists s', k_uppercase l s = Ok s' /\ srep (map upper t) cap s') /\ (exists s', k_lowercase l s = Ok s' /\ srep (map lower t) cap s')).
Proof. exact cases. Qed.
Print Assumptions C188_case.
(** ASCII texts, and all texts with other libraries, are never affected. *)
Theorem C188_fine_partial : forall l t, (forall c, In c t -> c < 128) \/ l <> CharSigned -> existsb (undef l) t = false.
Proof.
  intros l t H. destruct (existsb (undef l) t) eqn:E; [|reflexivity]. exfalso. apply existsb_exists in E as (c & Hc & U).
  destruct H as [H|H]; [specialize (H c Hc)|]; destruct l; cbn in U; try discriminate; [|now apply H]. lia.
Qed.
Print Assumptions C188_fine_partial.
(** "é", "é ", "1é" in UTF-8. *)
Theorem C188_refuted : exists s1 s2 s3, str_create true [195; 169] = Ok s1 /\ str_create true [195; 169; 32] = Ok s2 /\ str_create true [49; 195; 169] = Ok s3 /\
  k_uppercase CharSigned s1 = UB /\ k_strip CharSigned (lf s2) s2 = UB /\ k_is_numeric CharSigned s3 = UB.
Proof. do 3 eexists. repeat (split; [vm_compute; reflexivity|]). vm_compute. reflexivity. Qed.
Print Assumptions C188_refuted.
Example C188_example : exists s2, str_create true [32; 195; 169; 32] = Ok s2 /\
  (let* s := k_strip CharSignedTable (lf s2) s2 in str_z s) = Ok [195; 169] /\ (let* s := k_strip CharUnsigned (lf s2) s2 in str_z s) = Ok [195; 169] /\
  (let* s := k_uppercase CharSignedTable s2 in str_z s) = Ok [32; 195; 169; 32].
Proof. eexists. repeat (split; [vm_compute; reflexivity|]). vm_compute. reflexivity. Qed.
