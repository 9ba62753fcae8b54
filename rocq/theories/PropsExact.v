(** What happens in the cases that the partial theorems about strings leave out: no case remains open.
    Statements only. *)
From Coq Require Import String Ascii.
From Verif Require Import Base BaseFacts StrModel StrModel2 StrSpec StrProofs StrProofs2 StrProofs3 StrMain PropsStr ExactStr.
Local Open Scope list_scope.

(** C25, C32: a substring longer than the text always ends the process. *)
Theorem C25_exact :
  forall t cap s sub, srep t cap s -> zlen t < zlen sub ->
  str_find s sub = Abort /\ str_index_find s sub = Abort /\ (forall f, str_can_find f s sub = Abort).
Proof. exact find_long. Qed.
Print Assumptions C25_exact.
Theorem C32_exact :
  forall dbg t cap s sub rsub, srep t cap s -> zlen t < zlen sub -> 0 < zlen rsub -> str_replace_first dbg s sub rsub = Abort.
Proof. exact replace_first_long. Qed.
Print Assumptions C32_exact.
Example C25_exact_example : on "abc" (fun s => str_find s (T "abcd")) = Abort /\ on "abc" (fun s => str_replace_first true s (T "abcd") (T "x")) = Abort.
Proof. now vm_compute. Qed.

(** C26: counting occurrences of the empty string never ends, whatever the text. *)
Theorem C26_exact : forall t cap s, srep t cap s -> forall f, str_can_find f s [] = NoFuel.
Proof. exact can_find_empty. Qed.
Print Assumptions C26_exact.
Example C26_exact_example : on "abc" (fun s => str_can_find 1000 s []) = NoFuel /\ on "abc" (fun s => str_can_find (lf s) s (T "b")) = Ok 1.
Proof. now vm_compute. Qed.

(** C28: absent: the loop starts at NULL.  Empty: no end.  Only occurrence at the front: ends debug builds and
    leaves the text in release builds, which still report a removal. *)
Theorem C28_exact :
  forall (dbg : bool) t cap s z, srep t cap s ->
  (cut z t = None -> forall f, str_remove_last dbg f s z = UB) /\
  (z = [] -> forall f, str_remove_last dbg f s z = NoFuel) /\
  (forall b f, 0 < zlen z -> (List.length t < f)%nat -> last_cut (List.length t) z t = Some ([], b) ->
     if dbg then str_remove_last dbg f s z = Abort else exists s', str_remove_last dbg f s z = Ok (s', true) /\ srep t cap s').
Proof.
  intros dbg t cap s z R. split; [|split].
  - intros C f. now apply (remove_last_absent dbg t cap).
  - intros -> f. now apply (remove_last_empty dbg t cap).
  - intros b f Hz Hf L. now apply (remove_last_front dbg t cap s z b f).
Qed.
Print Assumptions C28_exact.
Example C28_exact_example :
  on "abcd" (fun s => str_remove_last true (lf s) s (T "x")) = UB /\
  on "abcd" (fun s => txt1 (str_remove_last false (lf s) s (T "ab"))) = Ok (T "abcd", true) /\
  on "abcd" (fun s => txt1 (str_remove_last true (lf s) s (T "ab"))) = Abort /\ last_cut 4 (T "ab") (T "abcd") = Some ([], T "cd").
Proof. now vm_compute. Qed.

(** C33: absent: undefined; otherwise the last occurrence of a search that jumps over each match is replaced,
    which is the last one of all unless the substring overlaps itself. *)
Theorem C33_exact :
  forall dbg t cap s sub rsub, srep t cap s -> 0 < zlen sub -> 0 < zlen rsub ->
  (cut sub t = None -> forall f, str_replace_last dbg f s sub rsub = UB) /\
  (forall f a b, oks rsub -> (List.length t < f)%nat -> last_cut (List.length t) sub t = Some (a, b) ->
     Z.max cap (zlen (a ++ rsub ++ b)) + 1 <= alloc_max ->
     exists s', str_replace_last dbg f s sub rsub = Ok s' /\ srep (a ++ rsub ++ b) (Z.max cap (zlen (a ++ rsub ++ b))) s').
Proof.
  intros dbg t cap s sub rsub R Hs Hr. split.
  - intros C f. now apply (replace_last_absent dbg t cap).
  - intros f a b O Hf L M. now apply (replace_last_ok dbg t cap).
Qed.
Print Assumptions C33_exact.
Example C33_exact_example :
  on "xaaa" (fun s => txt (str_replace_last true (lf s) s (T "aa") (T "--"))) = Ok (T "x--a") /\ last_cut 4 (T "aa") (T "xaaa") = Some (T "x", T "a").
Proof. now vm_compute. Qed.

(** C35: if nothing remains (also for the empty text), the loop runs on before the text. *)
Theorem C35_exact :
  forall t cap s, srep t cap s -> zlen (sb s) <= alloc_max ->
  (forallb white t = true -> str_strip (lf s) s = UB) /\
  (forallb (fun c => white c || punct c) t = true -> str_strip_punct (lf s) s = UB) /\
  (forall c, oks c -> 0 < zlen c -> forallb (in_set c) t = true -> str_strip_c (lf s) s c = UB) /\
  str_strip_c (lf s) s [] = NoFuel.
Proof. exact strip_nothing. Qed.
Print Assumptions C35_exact.
Example C35_exact_example :
  on "  " (fun s => str_strip (lf s) s) = UB /\ on ".. " (fun s => str_strip_punct (lf s) s) = UB /\ on "xyx" (fun s => str_strip_c (lf s) s (T "yx")) = UB.
Proof. now vm_compute. Qed.

(** C36: a text ending in two separators, in storage that just fits, is read beyond its end; with more storage,
    text deleted earlier comes back as a piece. *)
Theorem C36_exact :
  forall dbg t cap s sep, srep t cap s ->
  (zlen t < zlen sep -> str_split dbg (lf s) s sep = Abort) /\
  (sep = [] -> forall f, str_split dbg f s sep = NoFuel) /\
  (forall l, 0 < zlen sep <= zlen t -> scan sep t (l ++ [[]; []]) -> zlen (sb s) = zlen t + 1 -> str_split dbg (lf s) s sep = UB).
Proof. exact split_cases. Qed.
Print Assumptions C36_exact.
Theorem C36_revives_refuted :
  exists s s' l, str_create true (T "a//xyz") = Ok s /\ str_remove true s 3 3 = Ok s' /\ srep (T "a//") 6 s' /\
  str_split true (lf s') s' (T "/") = Ok (Some l) /\ map str_z l = [Ok (T "a"); Ok (T "yz")].
Proof.
  destruct (create_ok true (T "a//xyz")) as (s & E & R); [repeat constructor; vm_compute; intuition congruence|vm_compute; congruence|vm_compute; congruence|].
  do 3 eexists. split; [vm_compute; reflexivity|]. split; [vm_compute; reflexivity|]. split.
  - constructor; try (vm_compute; congruence); try (vm_compute; reflexivity).
    + eexists. vm_compute. reflexivity.
    + repeat constructor; vm_compute; congruence.
  - split; vm_compute; reflexivity.
Qed.
Print Assumptions C36_revives_refuted.
Example C36_exact_example : on "a//" (fun s => str_split true (lf s) s (T "/")) = UB /\ on "a" (fun s => str_split true (lf s) s (T "//")) = Abort.
Proof. now vm_compute. Qed.

(** C38: the first right marker before the left one, inside it, and right after it. *)
Theorem C38_exact :
  forall (dbg : bool) so z zl_ zr a a' c c', (match so with Some st => exists t cap, srep t cap st | None => True end) ->
  cut zl_ z = Some (a, a') -> cut zr z = Some (c, c') ->
  (zlen c <= zlen a -> exists so' : option str, str_split_between dbg so z zl_ zr = Ok (None, so') /\
     match so, so' with Some _, Some st' => exists cap', srep [] cap' st' | None, None => True | _, _ => False end) /\
  (zlen a < zlen c < zlen a + zlen zl_ -> zlen z < alloc_max -> str_split_between dbg so z zl_ zr = Abort) /\
  (0 < zlen zl_ -> zlen c = zlen a + zlen zl_ ->
     if dbg then str_split_between dbg so z zl_ zr = Abort
     else exists s', str_split_between dbg so z zl_ zr = Ok (Some s', match so with Some _ => Some s' | None => None end) /\ srep [] 0 s').
Proof.
  intros dbg so z zl_ zr a a' c c' S C1 C2. split; [|split].
  - now apply between_late with (a := a) (a' := a') (c := c) (c' := c').
  - now apply between_overlap with (a := a) (a' := a') (c := c) (c' := c').
  - now apply between_nothing with (a := a) (a' := a') (c := c) (c' := c').
Qed.
Print Assumptions C38_exact.
Example C38_exact_example :
  (let* r := str_split_between true None (T "x>y<z") (T "<") (T ">") in Ok (fst r)) = Ok None /\
  (let* r := str_split_between false None (T "x**y") (T "**") (T "*y") in Ok (fst r)) = Abort /\
  (let* r := str_split_between true None (T "x<>z") (T "<") (T ">") in Ok (fst r)) = Abort /\
  (let* r := str_split_between false None (T "x<>z") (T "<") (T ">") in match fst r with Some s => str_z s | None => UB end) = Ok [].
Proof. now vm_compute. Qed.
