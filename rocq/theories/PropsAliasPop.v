(** Properties of popping a part of a string into the string itself. *)
From Coq Require Import Ascii String.
From Verif Require Import Base BaseFacts StrModel StrModel2 StrSpec StrProofs StrProofs2 StrMain StrAlias AliasPop.

Local Open Scope list_scope.
Local Definition T (s : string) : list Z := map (fun a => Z.of_N (N_of_ascii a)) (list_ascii_of_string s).
Local Definition text (r : res str) : res (list Z) := let* s := r in str_z s.
Local Definition with_text (z : string) (f : str -> res str) : res (list Z) := text (let* s := str_create true (T z) in f s).

(** C225 (false): called with one string as source and as target, vt_str_pop_get_first and
    vt_str_pop_get_last do not leave the popped part in it, nor the rest: of "key=val"
    nothing is left by the first; the second stops the Debug build and writes outside
    the storage in the Release build.  With another string as target both work. *)
Theorem C225_pop_own_refuted :
  with_text "key=val" (fun s => str_pop_get_first_own true s (T "=")) = Ok [] /\
  with_text "key=val" (fun s => str_pop_get_first_own false s (T "=")) = Ok [] /\
  with_text "key=val" (fun s => str_pop_get_last_own true 20 s (T "=")) = Abort /\
  with_text "key=val" (fun s => str_pop_get_last_own false 20 s (T "=")) = UB /\
  (let* s := str_create true (T "key=val") in let* r := str_pop_get_first true None s (T "=") in
   match fst r with Some k => let* x := str_z k in let* y := str_z (snd r) in Ok (x, y) | None => UB end) = Ok (T "key", T "val") /\
  (let* s := str_create true (T "key=val") in let* r := str_pop_get_last true 20 None s (T "=") in
   match fst r with Some k => let* x := str_z k in let* y := str_z (snd r) in Ok (x, y) | None => UB end) = Ok (T "val", T "key").
Proof. repeat (split; [vm_compute; reflexivity|]). vm_compute; reflexivity. Qed.
Print Assumptions C225_pop_own_refuted.

(** Proved: what happens instead.  Whenever there is a first part to pop, the string ends
    up empty, its capacity unchanged; *)
Theorem C225_pop_first_own_partial :
  forall dbg t cap s sep a b, srep t cap s -> 0 < zlen sep -> cut sep t = Some (a, b) -> 0 < zlen a ->
  exists s', str_pop_get_first_own dbg s sep = Ok s' /\ srep [] cap s'.
Proof. exact pop_first_own. Qed.
Print Assumptions C225_pop_first_own_partial.

(** whenever there is a last part to pop, the Debug build stops and the Release build
    leaves the storage; *)
Theorem C225_pop_last_own_refuted :
  forall t cap s sep a b f, srep t cap s -> 0 < zlen sep -> last_cut (List.length t) sep t = Some (a, b) -> 0 < zlen b ->
  (List.length t < f)%nat -> zlen (sb s) <= alloc_max ->
  str_pop_get_last_own true f s sep = Abort /\ str_pop_get_last_own false f s sep = UB.
Proof. exact pop_last_own. Qed.
Print Assumptions C225_pop_last_own_refuted.

(** and if there is nothing to pop, the string stays as it is. *)
Theorem C225_pop_own_none_partial :
  forall dbg t cap s sep f, srep t cap s -> (List.length t < f)%nat ->
  (zlen sep = 0 \/ cut sep t = None \/ (exists b, cut sep t = Some ([], b)) -> str_pop_get_first_own dbg s sep = Ok s) /\
  (zlen sep = 0 \/ cut sep t = None \/ (0 < zlen sep /\ exists a, last_cut (List.length t) sep t = Some (a, [])) ->
   str_pop_get_last_own dbg f s sep = Ok s).
Proof.
  intros dbg t cap s sep f R Hf. split; [exact (pop_first_own_none dbg t cap s sep R)|exact (pop_last_own_none dbg t cap s sep f R Hf)].
Qed.
Print Assumptions C225_pop_own_none_partial.
Example C225_example :
  with_text "=val" (fun s => str_pop_get_first_own true s (T "=")) = Ok (T "=val") /\
  with_text "key=" (fun s => str_pop_get_last_own true 20 s (T "=")) = Ok (T "key=") /\
  with_text "abc" (fun s => str_pop_get_first_own true s (T "::")) = Ok (T "abc").
Proof. repeat split; vm_compute; reflexivity. Qed.
