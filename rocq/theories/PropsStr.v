(** Properties of vt_str (src/vita/container/str.c).  Statements only; each theorem is
    followed by a non-vacuity example.  [srep t cap s] (StrSpec.v) says that the string
    object [s] holds the text [t] with capacity [cap]; C23 shows that every string made
    by a constructor and every sequence of valid calls establishes it. *)
From Verif Require Import Base BaseFacts StrModel StrModel2 StrSpec StrProofs StrProofs2 StrProofs3 StrMain.
From Coq Require Import String Ascii.
Local Open Scope list_scope.

(** Helpers for the examples: a literal as a list of bytes; a string created from it;
    the text of a result. *)
Definition T (s : string) : list Z := map (fun a => Z.of_N (N_of_ascii a)) (list_ascii_of_string s).
Definition on {A} (z : string) (f : str -> res A) : res A := let* s := str_create true (T z) in f s.
Definition txt (r : res str) : res (list Z) := let* s := r in str_z s.
Definition txt1 {A} (r : res (str * A)) : res (list Z * A) := let* p := r in let* z := str_z (fst p) in Ok (z, snd p).

(** C23: invariant of every call sequence. *)
Theorem C23_str_invariant :
  forall dbg i ops t0 cap0 t cap outs,
    tinit i = Some (t0, cap0) -> trun (t0, cap0) ops = Some (t, cap, outs) ->
    exists s0 s z, smake dbg i = Ok s0 /\ srun dbg s0 ops = Ok (s, outs) /\
      str_z s = Ok z /\ zlen z = str_len s /\ str_len s <= str_capacity s /\ str_capacity s + 1 <= zlen (sb s).
Proof. exact strings_invariant. Qed.
Print Assumptions C23_str_invariant.

Example C23_example :
  tinit (IOwn (T "hello") [None; Some 7]) = Some (T "hello", 5) /\
  trun (T "hello", 5) [SAppend (T ", world"); SInsert (T ">> ") 0; SRemove 1 2; SReplace (T "o") (T "oo"); SShrink;
                       SStripC (T "> d"); SResize 9; SUpper; SCanFind (T "L"); SCapacity]
  = Some (T "HELLOO, W", 9, [None; None; None; None; None; None; None; None; Some 2; Some 9]).
Proof. split; vm_compute; reflexivity. Qed.

(** C24: every sequence of edits yields the text of the same edits on the character
    sequence, whatever the capacity. *)
Theorem C24_str_edits :
  forall dbg t cap s o t' cap' out,
    srep t cap s -> tstep (t, cap) o = Some (t', cap', out) ->
    exists s', sstep dbg s o = Ok (s', out) /\ srep t' cap' s'.
Proof. exact step_ok. Qed.
Print Assumptions C24_str_edits.

Theorem C24_str_edit_sequences :
  forall dbg i ops t0 cap0 t cap outs,
    tinit i = Some (t0, cap0) -> trun (t0, cap0) ops = Some (t, cap, outs) ->
    exists s0 s, smake dbg i = Ok s0 /\ srun dbg s0 ops = Ok (s, outs) /\ srep t cap s.
Proof. exact strings_run. Qed.
Print Assumptions C24_str_edit_sequences.

Example C24_example :
  trun (T "abc", 3) [SInsertN (T "xyz") 3 2; SInsertBefore (T "bc") (T "--"); SRemove 4 100; SSetAt (T "Q") 3; SSetC 90 0; SClear; SAppendN (T "tail") 2]
  = Some (T "ta", 7, [None; None; None; None; None; None; None]) /\
  on "abc" (fun s => let* r := srun true s [SInsertN (T "xyz") 3 2; SInsertBefore (T "bc") (T "--"); SRemove 4 100; SSetAt (T "Q") 3] in str_z (fst r)) = Ok (T "a--Q").
Proof. split; vm_compute; reflexivity. Qed.

(** C25 (false as stated): a substring longer than the string ends the process
    instead of reporting "not found". *)
Theorem C25_find_refuted :
  exists z sub, (forall a b, T z <> a ++ T sub ++ b) /\ on z (fun s => str_find s (T sub)) = Abort.
Proof.
  exists "abc"%string, "abcd"%string. split; [|vm_compute; reflexivity].
  intros a b E. apply (f_equal (@List.length Z)) in E. rewrite !app_length in E. cbn in E. lia.
Qed.
Print Assumptions C25_find_refuted.

Theorem C25_find_partial :
  forall t cap s sub, srep t cap s -> zlen sub <= zlen t ->
  exists r, str_find s sub = Ok r /\ str_index_find s sub = Ok (match r with Some i => i | None => -1 end) /\
    match r with
    | Some i => exists a b, t = a ++ sub ++ b /\ zlen a = i /\ forall a' b', t = a' ++ sub ++ b' -> i <= zlen a'
    | None => forall a b, t <> a ++ sub ++ b
    end.
Proof. exact find_leftmost. Qed.
Print Assumptions C25_find_partial.

Example C25_example :
  on "abcabc" (fun s => str_index_find s (T "ca")) = Ok 2 /\ on "abcabc" (fun s => str_index_find s (T "bc")) = Ok 1 /\
  on "abcabc" (fun s => str_find s (T "cb")) = Ok None.
Proof. repeat split; vm_compute; reflexivity. Qed.

(** C26 *)
Theorem C26_count :
  forall t cap s z, srep t cap s -> 0 < zlen z <= zlen t ->
  exists ps, scan z t ps /\ str_can_find (lf s) s z = Ok (zlen ps - 1).
Proof. exact count_scan. Qed.
Print Assumptions C26_count.

Theorem C26_scan_unique : forall sub t ps, 0 < zlen sub -> scan sub t ps -> ps = split_on sub t.
Proof. exact scan_unique. Qed.
Print Assumptions C26_scan_unique.

Example C26_example : on "aaaabaa" (fun s => str_can_find (lf s) s (T "aa")) = Ok 3.
Proof. vm_compute. reflexivity. Qed.

(** C27 *)
Theorem C27_remove_first :
  forall t cap s z, srep t cap s ->
  exists s' found, str_remove_first s z = Ok (s', found) /\
    if found : bool then exists a b, t = a ++ z ++ b /\ (forall a' b', t = a' ++ z ++ b' -> zlen a <= zlen a') /\ srep (a ++ b) cap s'
    else s' = s /\ forall a b, t <> a ++ z ++ b.
Proof. exact remove_first_leftmost. Qed.
Print Assumptions C27_remove_first.

Example C27_example :
  on "xabyab" (fun s => txt1 (str_remove_first s (T "ab"))) = Ok (T "xyab", true) /\
  on "xy" (fun s => txt1 (str_remove_first s (T "xyz"))) = Ok (T "xy", false).
Proof. split; vm_compute; reflexivity. Qed.

(** C28 (false): removing the last "ab" of "abcab" deletes "ca" instead; and an absent
    substring makes strstr's NULL be used as a pointer. *)
Theorem C28_remove_last_refuted :
  on "abcab" (fun s => txt1 (str_remove_last true (lf s) s (T "ab"))) = Ok (T "abb", true) /\
  on "abc" (fun s => txt1 (str_remove_last true (lf s) s (T "x"))) = UB.
Proof. split; vm_compute; reflexivity. Qed.
Print Assumptions C28_remove_last_refuted.

(** What it does when an occurrence is found at distance d > 0 from the start (scan of
    C26): it deletes |z| characters at position len - d instead of d. *)
Theorem C28_remove_last_partial :
  forall dbg t cap s z a b f, srep t cap s -> 0 < zlen z -> (List.length t < f)%nat ->
  last_cut (List.length t) z t = Some (a, b) -> 0 < zlen a ->
  exists s', str_remove_last dbg f s z = Ok (s', true) /\
    srep (firstn (Z.to_nat (zlen t - zlen a)) t ++ skipn (Z.to_nat (zlen t - zlen a + zlen z)) t) cap s'.
Proof. exact remove_last_actual. Qed.
Print Assumptions C28_remove_last_partial.

Example C28_example :
  on "abcdab" (fun s => txt1 (str_remove_last true (lf s) s (T "da"))) = Ok (T "abcb", true).
Proof. vm_compute. reflexivity. Qed.

(** C29 *)
Theorem C29_remove_all_partial :
  forall t cap s z, srep t cap s -> 0 < zlen z ->
  exists s' t', str_remove_all (lf s) s z = Ok s' /\ srep t' cap s' /\ (forall a b, t' <> a ++ z ++ b) /\
    ((forall a b, t <> a ++ z ++ b) -> t' = t) /\ t' = delete_all (List.length t) z t.
Proof. exact remove_all_clean. Qed.
Print Assumptions C29_remove_all_partial.

(** Missing: the empty substring, for which the loop never ends. *)
Theorem C29_remove_all_refuted :
  forall t cap s, srep t cap s -> forall fuel, str_remove_all fuel s [] = NoFuel.
Proof. exact remove_all_empty_diverges. Qed.
Print Assumptions C29_remove_all_refuted.

Example C29_example :
  on "xaabbx" (fun s => txt (str_remove_all (lf s) s (T "ab"))) = Ok (T "xx") /\
  (exists s, str_create true (T "q") = Ok s /\ srep (T "q") 1 s).
Proof. split; [vm_compute; reflexivity|]. apply (make_ok true (ICreate (T "q"))). vm_compute. reflexivity. Qed.

(** C30 *)
Theorem C30_remove_c :
  forall t cap s c, srep t cap s -> exists s', str_remove_c s c = Ok s' /\ srep (filter (fun x => negb (existsb (Z.eqb x) c)) t) cap s'.
Proof. exact remove_c_ok. Qed.
Print Assumptions C30_remove_c.

Example C30_example : on "a-b_c-" (fun s => txt (str_remove_c s (T "-_"))) = Ok (T "abc").
Proof. vm_compute. reflexivity. Qed.

(** C31 *)
Theorem C31_replace :
  forall dbg t cap s sub rsub ps, srep t cap s -> 0 < zlen sub -> 0 < zlen rsub -> oks rsub -> scan sub t ps ->
  Z.max cap (zlen (join_with rsub ps)) + 1 <= alloc_max ->
  t = join_with sub ps /\ exists s' cap', str_replace dbg (lf s) s sub rsub = Ok s' /\ srep (join_with rsub ps) cap' s'.
Proof. exact replace_scan. Qed.
Print Assumptions C31_replace.

Theorem C31_replace_empty : forall dbg f s sub rsub, sub = [] \/ rsub = [] -> str_replace dbg f s sub rsub = Ok s.
Proof. exact replace_empty. Qed.
Print Assumptions C31_replace_empty.

Example C31_example : on "aXXa" (fun s => txt (str_replace true (lf s) s (T "a") (T "aba"))) = Ok (T "abaXXaba").
Proof. vm_compute. reflexivity. Qed.

(** C32 (false as stated): as for C25, a longer substring ends the process. *)
Theorem C32_replace_first_refuted : on "abc" (fun s => str_replace_first true s (T "abcd") (T "x")) = Abort.
Proof. vm_compute. reflexivity. Qed.
Print Assumptions C32_replace_first_refuted.

Theorem C32_replace_first_partial :
  forall dbg t cap s sub rsub, srep t cap s -> 0 < zlen sub <= zlen t -> oks rsub -> 0 < zlen rsub ->
  Z.max cap (zlen t + zlen rsub) + 1 <= alloc_max ->
  exists s', str_replace_first dbg s sub rsub = Ok s' /\
    ((exists a b capr, t = a ++ sub ++ b /\ (forall a' b', t = a' ++ sub ++ b' -> zlen a <= zlen a') /\ srep (a ++ rsub ++ b) capr s')
     \/ ((forall a b, t <> a ++ sub ++ b) /\ s' = s)).
Proof. exact replace_first_leftmost. Qed.
Print Assumptions C32_replace_first_partial.

Example C32_example : on "one two two" (fun s => txt (str_replace_first true s (T "two") (T "three"))) = Ok (T "one three two").
Proof. vm_compute. reflexivity. Qed.

(** C33 (false as stated): an absent substring is undefined behaviour, and with a
    self-overlapping substring the rightmost occurrence is missed. *)
Theorem C33_replace_last_refuted :
  on "abc" (fun s => txt (str_replace_last true (lf s) s (T "d") (T "x"))) = UB /\
  on "aaa" (fun s => txt (str_replace_last true (lf s) s (T "aa") (T "x"))) = Ok (T "xa").
Proof. split; vm_compute; reflexivity. Qed.
Print Assumptions C33_replace_last_refuted.

Theorem C33_replace_last_partial :
  forall dbg t cap s sub rsub, srep t cap s -> 0 < zlen sub -> oks rsub -> 0 < zlen rsub ->
  Z.max cap (zlen t + zlen rsub) + 1 <= alloc_max -> no_overlap sub -> (exists a b, t = a ++ sub ++ b) ->
  exists s' a b capr, str_replace_last dbg (lf s) s sub rsub = Ok s' /\ t = a ++ sub ++ b /\
    (forall a' b', t = a' ++ sub ++ b' -> zlen a' <= zlen a) /\ srep (a ++ rsub ++ b) capr s'.
Proof. exact replace_last_rightmost. Qed.
Print Assumptions C33_replace_last_partial.

Example C33_example :
  on "a.b.c" (fun s => txt (str_replace_last true (lf s) s (T ".") (T "::"))) = Ok (T "a.b::c") /\ no_overlap (T ".").
Proof. split; [vm_compute; reflexivity|apply no_overlap_single]. Qed.

(** C34 *)
Theorem C34_replace_c :
  forall t cap s c r, srep t cap s -> oks r -> zlen r <= zlen c ->
  exists s', str_replace_c s c r = Ok s' /\ srep (match r with [] => t | _ => map (map_char c r (last r 0)) t end) cap s'.
Proof. exact replace_c_ok. Qed.
Print Assumptions C34_replace_c.

Example C34_example : on "banana" (fun s => txt (str_replace_c s (T "abn") (T "12"))) = Ok (T "212121").
Proof. vm_compute. reflexivity. Qed.

(** C35 (false as stated): a string consisting only of strippable characters (or an
    empty one) makes the backward scan leave the storage. *)
Theorem C35_strip_refuted :
  on "   " (fun s => txt (str_strip (lf s) s)) = UB /\
  on "x" (fun s => let* s := str_clear s in txt (str_strip (lf s) s)) = UB.
Proof. split; vm_compute; reflexivity. Qed.
Print Assumptions C35_strip_refuted.

Theorem C35_strip_partial :
  forall t cap s, srep t cap s ->
  (forallb white t = false -> exists s', str_strip (lf s) s = Ok s' /\ srep (strip_text white t) cap s') /\
  (forallb (fun c => white c || punct c) t = false ->
     exists s', str_strip_punct (lf s) s = Ok s' /\ srep (strip_text (fun c => white c || punct c) t) cap s') /\
  (forall c, forallb (in_set c) t = false -> 0 < zlen c ->
     exists s', str_strip_c (lf s) s c = Ok s' /\ srep (strip_text (in_set c) t) cap s').
Proof. exact strip_all_ok. Qed.
Print Assumptions C35_strip_partial.

(** [strip_text] is the text without its maximal strippable prefix and suffix. *)
Theorem C35_strip_meaning_partial :
  forall f t, forallb f t = false ->
  exists p q, t = p ++ strip_text f t ++ q /\ forallb f p = true /\ forallb f q = true /\
    (exists c m, strip_text f t = c :: m /\ f c = false) /\ (exists m d, strip_text f t = m ++ [d] /\ f d = false).
Proof. exact strip_meaning. Qed.
Print Assumptions C35_strip_meaning_partial.

Example C35_example :
  on " 	a b  " (fun s => txt (str_strip (lf s) s)) = Ok (T "a b") /\
  on "!! a.b; " (fun s => txt (str_strip_punct (lf s) s)) = Ok (T "a.b") /\
  on "xxyaxby" (fun s => txt (str_strip_c (lf s) s (T "xy"))) = Ok (T "axb").
Proof. repeat split; vm_compute; reflexivity. Qed.

(** C36 (false as stated): "/" and "a//" make the loop skip the terminator; a separator
    longer than the text ends the process. *)
Theorem C36_split_refuted :
  on "/" (fun s => str_split true (lf s) s (T "/")) = UB /\
  on "a//" (fun s => str_split true (lf s) s (T "/")) = UB /\
  on "a" (fun s => str_split true (lf s) s (T "//")) = Abort.
Proof. repeat split; vm_compute; reflexivity. Qed.
Print Assumptions C36_split_refuted.

(** Without two adjacent separators at the end of the text. *)
Theorem C36_split_partial :
  forall dbg t cap s sep ps, srep t cap s -> 0 < zlen sep <= zlen t -> scan sep t ps ->
  (zlen ps = 1 -> str_split dbg (lf s) s sep = Ok None) /\
  (1 < zlen ps -> (forall l, ps <> l ++ [[]; []]) ->
   exists l, str_split dbg (lf s) s sep = Ok (Some l) /\ Forall2 (fun p x => srep p (zlen p) x) (filter nonempty ps) l).
Proof. exact split_scan. Qed.
Print Assumptions C36_split_partial.

Example C36_example :
  on "/usr//lib/" (fun s => let* r := str_split true (lf s) s (T "/") in
                            match r with Some [a; b] => let* x := str_z a in let* y := str_z b in Ok (x, y) | _ => UB end)
  = Ok (T "usr", T "lib") /\
  on "usr" (fun s => str_split true (lf s) s (T "/")) = Ok None.
Proof. split; vm_compute; reflexivity. Qed.

(** C37 (false as stated): "ba" and "b" are free of "aa", but "ba"+"aa"+"b" splits into
    "b" and "ab". *)
Theorem C37_join_split_refuted :
  (let* s := str_join true None (T "aa") [T "ba"; T "b"] in
   let* r := str_split true (lf s) s (T "aa") in
   match r with Some [a; b] => let* x := str_z a in let* y := str_z b in Ok (x, y) | _ => UB end)
  = Ok (T "b", T "ab").
Proof. vm_compute. reflexivity. Qed.
Print Assumptions C37_join_split_refuted.

(** When each piece followed by the separator contains it only at the end
    ([clear_of]); in particular for one-character separators. *)
Theorem C37_join_split_partial :
  forall dbg sep x y l, oks sep -> 0 < zlen sep -> okpieces (x :: y :: l) ->
  zlen (join_with sep (x :: y :: l)) + 1 <= alloc_max ->
  Forall (clear_of sep) (removelast (x :: y :: l)) -> cut sep (last l y) = None ->
  exists s ps, str_join dbg None sep (x :: y :: l) = Ok s /\ str_z s = Ok (join_with sep (x :: y :: l)) /\
    str_split dbg (lf s) s sep = Ok (Some ps) /\ Forall2 (fun p q => str_z q = Ok p) (x :: y :: l) ps.
Proof. exact join_split_roundtrip. Qed.
Print Assumptions C37_join_split_partial.

Theorem C37_join_split_char_partial :
  forall dbg c x y l, okc c -> okpieces (x :: y :: l) -> Forall (fun p => ~ In c p) (x :: y :: l) ->
  zlen (join_with [c] (x :: y :: l)) + 1 <= alloc_max ->
  exists s ps, str_join dbg None [c] (x :: y :: l) = Ok s /\ str_z s = Ok (join_with [c] (x :: y :: l)) /\
    str_split dbg (lf s) s [c] = Ok (Some ps) /\ Forall2 (fun p q => str_z q = Ok p) (x :: y :: l) ps.
Proof. exact join_split_char. Qed.
Print Assumptions C37_join_split_char_partial.

Theorem C37_join :
  forall dbg t cap st sep x l, srep t cap st -> oks sep -> 0 < zlen sep -> okpieces (x :: l) ->
  Z.max cap (zlen (t ++ join_with sep (x :: l))) + 1 <= alloc_max ->
  exists s', str_join dbg (Some st) sep (x :: l) = Ok s' /\
    srep (t ++ join_with sep (x :: l)) (Z.max cap (zlen (t ++ join_with sep (x :: l)))) s'.
Proof. exact join_ok. Qed.
Print Assumptions C37_join.

Theorem C37_join_n :
  forall dbg t cap st sep x l, srep t cap st -> oks sep -> 0 < zlen sep -> okpieces (x :: l) ->
  Z.max cap (zlen (t ++ join_with sep (x :: l))) + 1 <= alloc_max ->
  exists s', str_join_n dbg (Some st) sep (x :: l) = Ok s' /\
    srep (t ++ join_with sep (x :: l)) (Z.max cap (zlen (t ++ join_with sep (x :: l)))) s'.
Proof. exact join_n_ok. Qed.
Print Assumptions C37_join_n.

Example C37_example :
  txt (str_join true None (T ", ") [T "a"; T "bc"; T "d"]) = Ok (T "a, bc, d") /\
  clear_of (T ", ") (T "a") /\ clear_of (T ", ") (T "bc") /\ cut (T ", ") (T "d") = None.
Proof. repeat split; vm_compute; reflexivity. Qed.

(** C38 (false as stated): a right marker before the left one hides the pair; an empty
    middle ends the process in debug builds. *)
Theorem C38_between_refuted :
  str_split_between true None (T "b]a[c]") (T "[") (T "]") = Ok (None, None) /\
  str_split_between true None (T "[]") (T "[") (T "]") = Abort.
Proof. split; vm_compute; reflexivity. Qed.
Print Assumptions C38_between_refuted.

Theorem C38_between_partial :
  forall dbg a zl_ m zr b, oks (a ++ zl_ ++ m ++ zr ++ b) -> 0 < zlen m ->
  zlen (a ++ zl_ ++ m ++ zr ++ b) + 1 <= alloc_max ->
  cut zl_ (a ++ zl_ ++ m ++ zr ++ b) = Some (a, m ++ zr ++ b) ->
  cut zr (a ++ zl_ ++ m ++ zr ++ b) = Some (a ++ zl_ ++ m, b) ->
  exists s', str_split_between dbg None (a ++ zl_ ++ m ++ zr ++ b) zl_ zr = Ok (Some s', None) /\ srep m (zlen m) s'.
Proof. exact between_new_ok. Qed.
Print Assumptions C38_between_partial.

Theorem C38_between_reuse_partial :
  forall dbg st t cap a zl_ m zr b, srep t cap st -> oks (a ++ zl_ ++ m ++ zr ++ b) -> 0 < zlen m ->
  zlen (a ++ zl_ ++ m ++ zr ++ b) + 1 <= alloc_max ->
  cut zl_ (a ++ zl_ ++ m ++ zr ++ b) = Some (a, m ++ zr ++ b) ->
  cut zr (a ++ zl_ ++ m ++ zr ++ b) = Some (a ++ zl_ ++ m, b) ->
  exists s', str_split_between dbg (Some st) (a ++ zl_ ++ m ++ zr ++ b) zl_ zr = Ok (Some s', Some s') /\ srep m (zlen m) s'.
Proof. exact between_ok. Qed.
Print Assumptions C38_between_reuse_partial.

Theorem C38_between_absent :
  forall dbg so z zl_ zr, cut zl_ z = None \/ cut zr z = None -> str_split_between dbg so z zl_ zr = Ok (None, so).
Proof. exact between_absent. Qed.
Print Assumptions C38_between_absent.

Example C38_example :
  (let* r := str_split_between true None (T "x<<mid>>y") (T "<<") (T ">>") in
   match fst r with Some s => str_z s | None => UB end) = Ok (T "mid").
Proof. vm_compute. reflexivity. Qed.

(** C39 *)
Theorem C39_pop_first :
  forall dbg sr t cap s sep a b, srep t cap s -> 0 < zlen sep -> cut sep t = Some (a, b) -> 0 < zlen a ->
  target_ok sr (zlen a) ->
  exists r s' capr, str_pop_get_first dbg sr s sep = Ok (Some r, s') /\ srep a capr r /\ srep b cap s'.
Proof. exact pop_first_ok. Qed.
Print Assumptions C39_pop_first.

Theorem C39_pop_first_none :
  forall dbg sr t cap s sep, srep t cap s -> zlen sep = 0 \/ cut sep t = None \/ (exists b, cut sep t = Some ([], b)) ->
  str_pop_get_first dbg sr s sep = Ok (sr, s).
Proof. exact pop_first_none. Qed.
Print Assumptions C39_pop_first_none.

(** [cut] is the leftmost occurrence. *)
Theorem C39_cut_leftmost :
  forall sub t, match cut sub t with
  | Some (a, b) => t = a ++ sub ++ b /\ forall a' b', t = a' ++ sub ++ b' -> zlen a <= zlen a'
  | None => forall a b, t <> a ++ sub ++ b
  end.
Proof.
  intros sub t. destruct (cut sub t) as [[a b]|] eqn:E; [|now apply cut_none].
  split; [now apply cut_some|now apply (cut_leftmost _ _ _ _ E)].
Qed.
Print Assumptions C39_cut_leftmost.

Example C39_example :
  on "key=val=x" (fun s => let* r := str_pop_get_first true None s (T "=") in
     match fst r with Some k => let* x := str_z k in let* y := str_z (snd r) in Ok (x, y) | None => UB end)
  = Ok (T "key", T "val=x").
Proof. vm_compute. reflexivity. Qed.

(** C40 (false as stated, for self-overlapping separators): the last "aa" of "aaab"
    starts at 1, but the scan stops at 0. *)
Theorem C40_pop_last_refuted :
  on "aaab" (fun s => let* r := str_pop_get_last true (lf s) None s (T "aa") in
     match fst r with Some k => let* x := str_z k in let* y := str_z (snd r) in Ok (x, y) | None => UB end)
  = Ok (T "ab", T "").
Proof. vm_compute. reflexivity. Qed.
Print Assumptions C40_pop_last_refuted.

Theorem C40_pop_last_partial :
  forall dbg sr t cap s sep a b, srep t cap s -> 0 < zlen sep -> no_overlap sep ->
  t = a ++ sep ++ b -> (forall a' b', t = a' ++ sep ++ b' -> zlen a' <= zlen a) -> target_ok sr (zlen b) ->
  exists r s', str_pop_get_last dbg (lf s) sr s sep = Ok (r, s') /\
    if zlen b =? 0 then r = sr /\ s' = s
    else exists r' capr, r = Some r' /\ srep b capr r' /\ srep a cap s'.
Proof. exact pop_last_rightmost. Qed.
Print Assumptions C40_pop_last_partial.

(** For every separator: the last occurrence of the left-to-right scan. *)
Theorem C40_pop_last_scan_partial :
  forall dbg sr t cap s sep a b f, srep t cap s -> 0 < zlen sep -> last_cut (List.length t) sep t = Some (a, b) -> 0 < zlen b ->
  (List.length t < f)%nat -> target_ok sr (zlen b) ->
  exists r s' capr, str_pop_get_last dbg f sr s sep = Ok (Some r, s') /\ srep b capr r /\ srep a cap s'.
Proof. exact pop_last_ok. Qed.
Print Assumptions C40_pop_last_scan_partial.

Theorem C40_pop_last_none :
  forall dbg sr t cap s sep f, srep t cap s -> (List.length t < f)%nat ->
  zlen sep = 0 \/ cut sep t = None \/ (0 < zlen sep /\ exists a, last_cut (List.length t) sep t = Some (a, [])) ->
  str_pop_get_last dbg f sr s sep = Ok (sr, s).
Proof. exact pop_last_none. Qed.
Print Assumptions C40_pop_last_none.

Example C40_example :
  on "a/b/c.txt" (fun s => let* r := str_pop_get_last true (lf s) None s (T "/") in
     match fst r with Some k => let* x := str_z k in let* y := str_z (snd r) in Ok (x, y) | None => UB end)
  = Ok (T "c.txt", T "a/b").
Proof. vm_compute. reflexivity. Qed.

(** C41 *)
Theorem C41_equals :
  forall t1 c1 s1 t2 c2 s2, srep t1 c1 s1 -> srep t2 c2 s2 ->
  exists b, str_equals s1 s2 = Ok b /\ (b = true <-> t1 = t2).
Proof. exact equals_ok. Qed.
Print Assumptions C41_equals.

Theorem C41_equals_z : forall z1 z2, str_equals_z z1 z2 = true <-> z1 = z2.
Proof. exact equals_z_ok. Qed.
Print Assumptions C41_equals_z.

Theorem C41_equals_n :
  forall dbg z1 z2 n, 0 < n <= zlen z1 -> n <= zlen z2 ->
  exists b, str_equals_n dbg z1 z2 n = Ok b /\ (b = true <-> firstn (Z.to_nat n) z1 = firstn (Z.to_nat n) z2).
Proof. exact equals_n_ok. Qed.
Print Assumptions C41_equals_n.
(** A count beyond either text ends the program, in both builds. *)
Theorem C41_equals_n_stops : forall dbg z1 z2 n, 0 < n -> zlen z1 < n \/ zlen z2 < n -> str_equals_n dbg z1 z2 n = Abort.
Proof.
  intros dbg z1 z2 n P H. unfold str_equals_n, dassert, enforce. replace (0 <? n) with true by lia.
  destruct dbg; cbn [bind]; (destruct (Z.leb_spec n (zlen z1)); [|reflexivity]); cbn [bind];
    (destruct (Z.leb_spec n (zlen z2)); [lia|reflexivity]).
Qed.
Print Assumptions C41_equals_n_stops.

Theorem C41_starts_with :
  forall t cap s sub, srep t cap s -> exists b, str_starts_with s sub = Ok b /\ (b = true <-> exists r, t = sub ++ r).
Proof. exact starts_ok. Qed.
Print Assumptions C41_starts_with.

Theorem C41_ends_with :
  forall t cap s sub, srep t cap s -> exists b, str_ends_with s sub = Ok b /\ (b = true <-> exists r, t = r ++ sub).
Proof. exact ends_ok. Qed.
Print Assumptions C41_ends_with.

Example C41_example :
  on "report.pdf" (fun s => str_ends_with s (T ".pdf")) = Ok true /\ on "pdf" (fun s => str_ends_with s (T ".pdf")) = Ok false /\
  on "abc" (fun s => str_starts_with s (T "ab")) = Ok true /\ on "ab" (fun s => on "abc" (fun u => str_equals s u)) = Ok false.
Proof. repeat split; vm_compute; reflexivity. Qed.

(** C42 *)
Theorem C42_uppercase : forall t cap s, srep t cap s -> exists s', str_to_uppercase s = Ok s' /\ srep (map upper t) cap s'.
Proof. exact upper_ok. Qed.
Print Assumptions C42_uppercase.

Theorem C42_lowercase : forall t cap s, srep t cap s -> exists s', str_to_lowercase s = Ok s' /\ srep (map lower t) cap s'.
Proof. exact lower_ok. Qed.
Print Assumptions C42_lowercase.

Theorem C42_case_laws :
  forall t : list Z, map upper (map upper t) = map upper t /\ map lower (map lower t) = map lower t /\
  map lower (map upper t) = map lower t.
Proof. intros t. split; [apply upper_upper|]. split; [apply lower_lower|apply lower_upper]. Qed.
Print Assumptions C42_case_laws.

Example C42_example :
  on "aZ[`z{1" (fun s => txt (str_to_uppercase s)) = Ok (T "AZ[`Z{1") /\ on "aZ[@A" (fun s => txt (str_to_lowercase s)) = Ok (T "az[@a").
Proof. split; vm_compute; reflexivity. Qed.

(** C43 *)
Theorem C43_is_numeric :
  forall t cap s, srep t cap s -> str_is_numeric s = Ok (forallb (fun x => existsb (Z.eqb x) [46; 48; 49; 50; 51; 52; 53; 54; 55; 56; 57]) t).
Proof. exact numeric_ok. Qed.
Print Assumptions C43_is_numeric.

Example C43_example :
  on "10.25" str_is_numeric = Ok true /\ on "-1" str_is_numeric = Ok false /\ T "./0123456789:" = [46; 47; 48; 49; 50; 51; 52; 53; 54; 55; 56; 57; 58].
Proof. repeat split; vm_compute; reflexivity. Qed.

(** C44 *)
Theorem C44_validate_len :
  forall t cap s j, srep t cap s -> 0 <= j <= zlen t ->
  exists s1 s2, sput s j 0 = Ok s1 /\ str_validate_len s1 = Ok (s2, j) /\ srep (firstn (Z.to_nat j) t) cap s2.
Proof. exact shortened_validates. Qed.
Print Assumptions C44_validate_len.

(** More generally after the caller rewrote the storage with any text that fits. *)
Theorem C44_validate_rewritten :
  forall t s, sv s = false -> zlen t <= sc s -> sc s + 1 <= zlen (sb s) -> sc s + 1 <= alloc_max -> oks t ->
  pre (zblk t) (sb s) -> exists s2, str_validate_len s = Ok (s2, zlen t) /\ srep t (sc s) s2.
Proof. exact rewritten_validates. Qed.
Print Assumptions C44_validate_rewritten.

Example C44_example :
  on "hello" (fun s => let* s := sput s 2 0 in txt1 (str_validate_len s)) = Ok (T "he", 2).
Proof. vm_compute. reflexivity. Qed.

(** C45 (false): most mutating calls on a view write to the borrowed storage. *)
Theorem C45_views_refuted :
  str_clear (str_create_static (T "abc")) = UB /\ str_append true (str_create_static (T "abc")) (T "x") = UB /\
  str_insert true (str_create_static (T "abc")) (T "x") 0 = UB /\ str_remove true (str_create_static (T "abc")) 0 1 = UB /\
  str_to_uppercase (str_create_static (T "abc")) = UB /\ str_set_c true (str_create_static (T "abc")) 65 0 = UB.
Proof. repeat split; vm_compute; reflexivity. Qed.
Print Assumptions C45_views_refuted.

(** Only the functions that would reallocate are guarded. *)
Theorem C45_views_partial :
  forall dbg z n, 0 < n ->
  str_reserve dbg (str_create_static z) n = Abort /\ str_resize dbg (str_create_static z) n = Abort /\
  str_shrink dbg (str_create_static z) = Abort.
Proof. exact view_guarded. Qed.
Print Assumptions C45_views_partial.

Example C45_example : str_z (str_create_static (T "abc")) = Ok (T "abc") /\ str_reserve true (str_create_static (T "abc")) 4 = Abort.
Proof. split; vm_compute; reflexivity. Qed.

(** C79: calling vt_str_slide_front until it returns NULL visits every character once,
    in order, and leaves the string ready for another pass. *)
Theorem C79_slide_front :
  forall t cap s, srep t cap s -> forall rest d, t = d ++ rest ->
  slide_all (S (List.length rest)) (set_slider s (zlen d)) = Ok (set_slider s 0, rest).
Proof. exact slide_front_ok. Qed.
Print Assumptions C79_slide_front.

Example C79_example : on "abc" (fun s => let* r := slide_all 4 s in Ok (snd r)) = Ok (T "abc").
Proof. vm_compute. reflexivity. Qed.
