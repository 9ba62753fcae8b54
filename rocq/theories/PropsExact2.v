(** What happens in the cases that the partial theorems about vectors, spans, views, clamping, paths and files
    leave out.  Statements only. *)
From Coq Require Import String Ascii.
From Verif Require Import Base BaseFacts VecModel VecSpec VecAlias SpanModel SpanProofs NumModel StrModel StrModel2 StrSpec StrProofs StrProofs2 StrProofs3 StrMain FsModel PathModel PathProofs PropsStr PropsPath ExactMisc ExactPath.
Local Open Scope list_scope.

(** C04: the outcome of vt_vec_create for every count and element size; if the product is too large, the block is
    smaller than the capacity says. *)
Theorem C04_exact :
  forall (dbg : bool) n es, 0 < n < two64 -> 0 < es < two64 ->
  vec_create dbg n es =
    (let p := (n * es) mod 2 ^ 64 in
     if alloc_max <? p then Abort else if p =? 0 then (if dbg then Abort else Ok (mk_arr [] 0 n es 0)) else
     Ok (mk_arr (repeat (Some 0) (Z.to_nat p)) 0 n es 0)) /\
  (2 ^ 64 <= n * es -> (n * es) mod 2 ^ 64 < n * es).
Proof. exact vec_create_exact. Qed.
Print Assumptions C04_exact.
Example C04_exact_example : exists v, vec_create true (2 ^ 61 + 1) 8 = Ok v /\ zlen (a_blk v) = 8 /\ vec_capacity v = 2 ^ 61 + 1.
Proof. eexists. split; [vm_compute; reflexivity|]. now vm_compute. Qed.

(** C15: ranges from element 0 end every debug build and work in release builds. *)
Theorem C15_exact :
  (forall off to es, span_from_to true off 0 to es = Abort) /\
  forall es pre xs post i, uniform es xs -> 0 < es -> zlen xs * es < two64 ->
  exists s, span_from_to false (zlen pre) 0 (zlen xs) es = Ok s /\ span_len s = zlen xs /\
  (0 <= i < zlen xs -> exists x, nth_error xs (Z.to_nat i) = Some x /\ span_get false (pre ++ map Some (concat xs) ++ post) s i = Ok (map Some x)).
Proof. split; [exact span_from_zero|exact span_zero_release]. Qed.
Print Assumptions C15_exact.
Example C15_exact_example :
  span_from_to true 0 0 2 1 = Abort /\
  (let* s := span_from_to false 1 0 2 1 in span_get false (map Some [9; 5; 6; 7]) s 1) = Ok [Some 6].
Proof. now vm_compute. Qed.

(** C45: every change of a view of a non-empty text is a write to memory the program may not own; appending to a
    view of the empty text ends the process. *)
Theorem C45_exact :
  forall dbg z, 0 < zlen z <= alloc_max -> oks z ->
  let v := str_create_static z in
  str_clear v = UB /\ str_validate_len v = UB /\
  (forall x, 0 < zlen x <= alloc_max -> str_append dbg v x = UB) /\
  (forall x i, zlen x <= alloc_max -> 0 <= i < zlen z -> str_insert dbg v x i = UB) /\
  (forall from n, 0 <= from < zlen z -> 0 < n < two64 -> str_remove dbg v from n = UB) /\
  (forall x n, 0 < n <= zlen z -> n <= zlen x + 1 -> str_set_n dbg v x n = UB) /\
  (forall c i, 0 <= i < zlen z -> str_set_c dbg v c i = UB) /\
  (forall x, 0 < zlen x -> (exists a b, z = a ++ x ++ b) -> str_remove_first v x = UB) /\
  (forall c, str_remove_c v c = UB) /\ str_to_uppercase v = UB /\ str_to_lowercase v = UB.
Proof. exact view_all. Qed.
Print Assumptions C45_exact.
Theorem C45_empty : forall dbg x, 0 < zlen x <= alloc_max -> str_append dbg (str_create_static []) x = Abort.
Proof. intros dbg x H. rewrite view_append; [reflexivity|vm_compute; congruence|exact H]. Qed.
Print Assumptions C45_empty.
Example C45_exact_example : str_remove_first (str_create_static (T "abc")) (T "b") = UB /\ str_remove_first (str_create_static (T "abc")) (T "x") = Ok (str_create_static (T "abc"), false).
Proof. now vm_compute. Qed.

(** C51: with crossed bounds the lower one is returned, whatever the value. *)
Theorem C51_exact : forall x l h, h < l -> cmp_clamp x l h = l.
Proof. exact clamp_crossed. Qed.
Print Assumptions C51_exact.
Example C51_exact_example : cmp_clamp 7 5 3 = 5 /\ cmp_clamp 1 5 3 = 5 /\ cmp_clamp 4 5 3 = 5.
Proof. now vm_compute. Qed.

(** C74: an element inserted in front of its own place arrives as the element before it. *)
Theorem C74_exact :
  forall dbg es p y x s cap v i, vrep es ((p ++ [y]) ++ x :: s) cap v -> zlen ((p ++ [y]) ++ x :: s) < cap -> 0 <= i <= zlen p ->
  exists o w, vec_get_ptr dbg v (zlen (p ++ [y])) = Ok o /\ vec_insert dbg v (Own o) i = Ok w /\
              vrep es (seq_insert ((p ++ [y]) ++ x :: s) (Z.to_nat i) y) cap w.
Proof. exact vec_insert_own_before. Qed.
Print Assumptions C74_exact.
Example C74_exact_example :
  exists v o w, alias_vec = Ok v /\ vec_get_ptr true v 2 = Ok o /\ vec_insert true v (Own o) 0 = Ok w /\ vec_get true w 0 = Ok [Some 20] /\ vec_get true w 3 = Ok [Some 30].
Proof. do 3 eexists. repeat (split; [vm_compute; reflexivity|]). vm_compute. reflexivity. Qed.

(** C59: the basename of every path.  Only separators strictly inside the path count: without any separator the
    result argument is returned, with separators at the ends only the result keeps its text. *)
Theorem C59_exact :
  forall dbg s z, oks z -> zlen z + 1 <= alloc_max -> target_ok s (zlen z) ->
  (z = [] -> path_basename dbg s z = Abort) /\
  (z <> [] -> ~ In 47 z -> path_basename dbg s z = Ok s) /\
  (In 47 z -> (forall i, 0 < i < zlen z - 1 -> nth_error z (Z.to_nat i) <> Some 47) ->
     exists st t cap, path_basename dbg s z = Ok (Some st) /\ srep t cap st /\
       match s with Some st0 => exists cap0, srep t cap0 st0 | None => t = repeat 63 (List.length z) end) /\
  (forall d b c, z = d ++ [47] ++ b ++ [c] -> 0 < zlen d -> ~ In 47 b ->
     exists st cap, path_basename dbg s z = Ok (Some st) /\ srep (b ++ [c]) cap st).
Proof. exact basename_cases. Qed.
Print Assumptions C59_exact.
Theorem C59_cases :
  forall z : text, z = [] \/ (z <> [] /\ ~ In 47 z) \/
  (In 47 z /\ forall i, 0 < i < zlen z - 1 -> nth_error z (Z.to_nat i) <> Some 47) \/
  exists d b c, z = d ++ [47] ++ b ++ [c] /\ 0 < zlen d /\ ~ In 47 b.
Proof. exact basename_total. Qed.
Print Assumptions C59_cases.
Example C59_exact_example :
  text_of (path_basename true None (T "a/b//")) = Ok (Some (T "/")) /\ text_of (path_basename true None (T "/a/")) = Ok (Some (T "???")) /\
  text_of (path_basename true None (T "/a/b")) = Ok (Some (T "b")).
Proof. now vm_compute. Qed.

(** C61: nothing to join; empty components end debug builds and are joined in release builds. *)
Theorem C61_exact :
  forall t cap st, srep t cap st ->
  (forall dbg : bool, path_build dbg (Some st) [] = (if dbg then Abort else UB) /\ path_build dbg None [] = (if dbg then Abort else UB) /\ path_build_n true None [] = Abort) /\
  (forall l1 l2, okpieces l1 -> Z.max cap (zlen (t ++ join_with [47] l1)) + 3 <= alloc_max -> path_build true (Some st) (l1 ++ [] :: l2) = Abort) /\
  (forall x l, Forall oks (x :: l) -> Z.max cap (zlen (t ++ join_with [47] (x :: l))) + 1 <= alloc_max ->
     exists s' cap', path_build false (Some st) (x :: l) = Ok s' /\ srep (t ++ join_with [47] (x :: l)) cap' s').
Proof.
  intros t cap st R. split; [|split].
  - intros dbg. exact (build_nothing dbg t cap st R).
  - intros l1 l2. exact (build_debug_empty t cap st l1 l2 R).
  - intros x l. exact (build_release t cap st x l R).
Qed.
Print Assumptions C61_exact.
Example C61_exact_example :
  path_build true None [T "a"; []; T "b"] = Abort /\ txt (path_build false None [T "a"; []; T "b"]) = Ok (T "a//b").
Proof. now vm_compute. Qed.

(** C62: the tilde alone ends debug builds whatever the home directory; so does the empty path. *)
Theorem C62_exact :
  (forall h, path_expand_tilda true (Some h) (T "~") = Abort) /\
  (forall home, path_expand_tilda true home [] = Abort /\ exists s, path_expand_tilda false home [] = Ok s /\ srep [] 0 s).
Proof. split; [intros h; exact (proj1 (tilde_alone h))|]. intros home. split; [exact (tilde_empty true home)|exact (tilde_empty false home)]. Qed.
Print Assumptions C62_exact.
Example C62_exact_example : txt (path_expand_tilda false (Some (T "/h")) (T "~")) = Ok (T "/h").
Proof. now vm_compute. Qed.

(** C66: reading any empty file ends debug builds and gives the empty string in release builds. *)
Theorem C66_exact :
  forall fs cwd z, fs_stat fs cwd z = Some (EFile []) ->
  file_read true fs cwd z = Abort /\ exists s, file_read false fs cwd z = Ok (Some s) /\ sb s = [Some 0] /\ sl s = 0.
Proof. exact read_empty. Qed.
Print Assumptions C66_exact.
Example C66_exact_example : exists fs, file_write fs0 [] (T "e") [] = (fs, true) /\ fs_stat fs [] (T "e") = Some (EFile []).
Proof. eexists. split; vm_compute; reflexivity. Qed.
