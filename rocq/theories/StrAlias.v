(** str.c: a pointer into the string's own text as the argument.

    [o] is the offset of the argument z in the storage.  The functions are those of
    StrModel.v with reads of z replaced by reads of the storage as it is at that moment;
    once realloc was called the pointer is invalid and its use undefined. *)
From Verif Require Import Base BaseFacts StrModel StrModel2 StrSpec StrProofs StrProofs2.

(** vt_str_set_n, str.c:289-313, and vt_str_set, 230-237. *)
Definition str_set_n_own (dbg : bool) (s : str) (o n : Z) : res str :=
  let* _ := dassert dbg (0 <? n) in
  let* _ := enforce (n <=? sl s) in
  let* s := smove s 0 o n in
  let* s := sput s n 0 in
  Ok (set_len s n).
Definition str_set_own (dbg : bool) (s : str) (o : Z) : res str :=
  let* z := cstr_at (sb s) o in
  str_set_n_own dbg s o (zlen z).

(** vt_str_append_n, str.c:342-362, and vt_str_append, 315-322. *)
Definition str_append_n_own (dbg : bool) (s : str) (o n : Z) : res str :=
  let* _ := dassert dbg (0 <? n) in
  if str_has_space s <? n then let* _ := str_reserve dbg s (w64 (n - str_has_space s)) in UB else
  let* s := smove s (sl s) o n in
  let s := set_len s (w64 (sl s + n)) in
  sput s (sl s) 0.
Definition str_append_own (dbg : bool) (s : str) (o : Z) : res str :=
  let* z := cstr_at (sb s) o in
  str_append_n_own dbg s o (zlen z).

(** vt_str_insert, str.c:364-395. *)
Definition str_insert_own (dbg : bool) (s : str) (o at_ : Z) : res str :=
  let* _ := dassert dbg (at_ <? sl s) in
  let* z := cstr_at (sb s) o in
  let zl := zlen z in
  let sp := str_has_space s in
  if sp <? zl then let* _ := str_reserve dbg s (w64 (zl - sp)) in UB else
  let* s := smove s (w64 (at_ + zl)) at_ (w64 (sl s - at_)) in
  let* s := smove s at_ o zl in
  let s := set_len s (w64 (sl s + zl)) in
  sput s (sl s) 0.

(** vt_str_set_at, str.c:239-269. *)
Definition str_set_at_own (dbg : bool) (s : str) (o at_ : Z) : res str :=
  let* _ := dassert dbg (at_ <? sl s) in
  let* z := cstr_at (sb s) o in
  let* _ := enforce (zlen z <=? w64 (sl s - at_)) in
  let* s := str_remove dbg s at_ (w64 (sl s - at_)) in
  str_append_n_own dbg s o (zlen z).

(** * Proofs *)
Lemma own_copy s dst o z n : bread (sb s) o n = bread (zblk z) 0 n -> smove s dst o n = scopy s dst z 0 n.
Proof. intros H. unfold smove, scopy. now rewrite H. Qed.

Lemma own_bytes (b : blk) a z q n o : b = map Some a ++ map Some z ++ q -> o = zlen a -> 0 <= n <= zlen z ->
  bread b o n = bread (zblk z) 0 n.
Proof.
  intros -> -> H. unfold zblk. rewrite !bread_val; try (zl; zlia). f_equal. change (Z.to_nat 0) with 0%nat. cbn [skipn].
  rewrite skipn_zlen by (zl; reflexivity). rewrite !firstn_app.
  assert (Z.to_nat n - length (map (@Some Z) z) = 0)%nat as -> by (rewrite map_length; unfold zlen in *; lia). reflexivity.
Qed.
Lemma own_rep a z cap s : srep (a ++ z) cap s -> exists q, sb s = map Some a ++ map Some z ++ q.
Proof. intros R. destruct (pre_text _ _ _ R) as [q E]. rewrite map_app, <- app_assoc in E. eauto. Qed.
Lemma own_rep_read a z cap s n : srep (a ++ z) cap s -> 0 <= n <= zlen z -> bread (sb s) (zlen a) n = bread (zblk z) 0 n.
Proof. intros R H. destruct (own_rep _ _ _ _ R) as [q E]. exact (own_bytes _ _ _ _ _ _ E eq_refl H). Qed.

Lemma set_own_ok dbg a z cap s : srep (a ++ z) cap s -> str_set_own dbg s (zlen a) = str_set dbg s z.
Proof.
  intros R. unfold str_set_own, str_set. rewrite (cstr_mid a z cap s) by (assumption || reflexivity). cbn [bind].
  unfold str_set_n_own, str_set_n. rewrite (own_copy s 0 (zlen a) z (zlen z)); [reflexivity|]. eapply own_rep_read; [exact R|zlia].
Qed.

Lemma space_rep t cap s : srep t cap s -> str_has_space s = cap - zlen t.
Proof. intros [P O L C LE RM F V]. unfold str_has_space. rewrite L, C. apply w64_small. zlia. Qed.

Lemma append_own_ok dbg a z cap s : srep (a ++ z) cap s -> zlen (a ++ z) + zlen z <= cap ->
  str_append_own dbg s (zlen a) = str_append dbg s z.
Proof.
  intros R H. unfold str_append_own, str_append. rewrite (cstr_mid a z cap s) by (assumption || reflexivity). cbn [bind].
  unfold str_append_n_own, str_append_n. rewrite (space_rep _ _ _ R).
  assert (cap - zlen (a ++ z) <? zlen z = false) as -> by lia. cbn [bind].
  rewrite (own_copy s (sl s) (zlen a) z (zlen z)); [reflexivity|]. eapply own_rep_read; [exact R|zlia].
Qed.
(** Without room the result is never a string. *)
Lemma append_own_bad dbg a z cap s s' : srep (a ++ z) cap s -> cap < zlen (a ++ z) + zlen z -> str_append_own dbg s (zlen a) <> Ok s'.
Proof.
  intros R H. unfold str_append_own. rewrite (cstr_mid a z cap s) by (assumption || reflexivity). cbn [bind].
  unfold str_append_n_own. rewrite (space_rep _ _ _ R).
  assert (cap - zlen (a ++ z) <? zlen z = true) as -> by lia. destruct (dassert dbg _); try discriminate. cbn [bind].
  destruct (str_reserve _ _ _); discriminate.
Qed.

Lemma insert_own_ok dbg a z cap s at_ : srep (a ++ z) cap s -> zlen (a ++ z) + zlen z <= cap -> zlen a <= at_ < zlen (a ++ z) ->
  str_insert_own dbg s (zlen a) at_ = str_insert dbg s z at_.
Proof.
  intros R H Ha. unfold str_insert_own, str_insert. rewrite (cstr_mid a z cap s) by (assumption || reflexivity). cbn [bind].
  rewrite (space_rep _ _ _ R). assert (cap - zlen (a ++ z) <? zlen z = false) as -> by lia. cbn [bind].
  destruct (own_rep _ _ _ _ R) as [q E]. destruct R as [P O L C LE RM F V]. rewrite L. destruct (dassert dbg _); try reflexivity. cbn [bind]. zl. w64s.
  destruct (smove_ok s (at_ + zlen z) at_ (zlen a + zlen z - at_) V) as (b2 & E2 & Lb2 & Pb2 & _); try zlia.
  rewrite E2. cbn [bind]. rewrite (own_copy _ at_ (zlen a) z (zlen z)); [reflexivity|]. cbn [sb].
  destruct Pb2 as [q2 ->]. rewrite <- app_assoc.
  assert (firstn (Z.to_nat (at_ + zlen z)) (sb s) = map Some a ++ map Some z ++ firstn (Z.to_nat (at_ - zlen a)) q) as ->.
  { rewrite E. rewrite app_assoc, firstn_app, firstn_ge by (rewrite app_length, !map_length; unfold zlen in *; lia).
    rewrite <- app_assoc. do 3 f_equal. rewrite app_length, !map_length. unfold zlen in *. lia. }
  rewrite <- !app_assoc. eapply own_bytes; [reflexivity|reflexivity|zlia].
Qed.

Lemma set_at_own_ok dbg a z cap s at_ : srep (a ++ z) cap s -> 0 < zlen z -> 0 <= at_ < zlen (a ++ z) -> zlen a <> at_ ->
  str_set_at_own dbg s (zlen a) at_ = str_set_at dbg s z at_.
Proof.
  intros R Hz Ha Hne. unfold str_set_at_own, str_set_at. rewrite (cstr_mid a z cap s) by (assumption || reflexivity). cbn [bind].
  rewrite (r_len _ _ _ R). destruct (dassert dbg _); try reflexivity. cbn [bind].
  assert (T : zlen (a ++ z) <= alloc_max) by (destruct R; zlia). rewrite (w64_small (zlen (a ++ z) - at_)) by zlia.
  destruct (Z.leb_spec (zlen z) (zlen (a ++ z) - at_)) as [H|H]; [|reflexivity]. cbn [enforce bind].
  assert (Hlt : at_ < zlen a) by (zl; lia).
  (* the text up to [at_] is kept, the byte behind it becomes NUL *)
  pose (a1 := firstn (Z.to_nat at_) a). pose (a2 := skipn (Z.to_nat at_) a).
  assert (Ea : a = a1 ++ a2) by (symmetry; apply firstn_skipn).
  assert (L1 : zlen a1 = at_) by (unfold a1; rewrite zlen_firstn; zlia).
  assert (L2 : 0 < zlen a2) by (unfold a2; rewrite zlen_skipn; zlia).
  clearbody a1 a2.
  assert (R2 : exists s', str_remove dbg s at_ (zlen (a ++ z) - at_) = Ok s' /\ srep a1 cap s' /\ exists q, sb s' = map Some a1 ++ Some 0 :: map Some (tl a2) ++ map Some z ++ q).
  { destruct (own_rep _ _ _ _ R) as [q E]. pose proof R as R0. rewrite Ea, <- app_assoc in R0. rewrite <- (app_nil_r (a1 ++ _)), <- app_assoc in R0.
    destruct (remove_ok dbg a1 (a2 ++ z) [] cap s at_ (zlen (a ++ z) - at_) R0) as (s' & E1 & R1 & _); [congruence|zl; lia|left; rewrite Ea; zl; lia|].
    rewrite app_nil_r in R1. exists s'. split; [exact E1|]. split; [exact R1|].
    unfold str_remove in E1. rewrite (r_len _ _ _ R) in E1. rewrite !dassert_true in E1 by lia. cbn [bind] in E1.
    rewrite (w64_small (zlen (a ++ z) - at_)) in E1 by zlia. rewrite Z.ltb_irrefl in E1.
    replace (at_ + (zlen (a ++ z) - at_)) with (zlen (a ++ z)) in E1 by lia. rewrite (w64_small (zlen (a ++ z))) in E1 by zlia.
    rewrite Z.sub_diag in E1. change (w64 0) with 0 in E1. cbn [smove Z.eqb bind set_len sl] in E1. unfold smove in E1. cbn [Z.eqb bind] in E1.
    unfold set_len in E1. cbn [sl] in E1. rewrite (r_len _ _ _ R) in E1. rewrite (w64_small _) in E1 by zlia.
    replace (zlen (a ++ z) - (zlen (a ++ z) - at_)) with at_ in E1 by lia.
    unfold sput, swrite in E1. cbn [sv sb sl sc ss] in E1. rewrite (r_view _ _ _ R) in E1.
    destruct R as [P O L C LE RM F V]. rewrite bwrite_val in E1 by (zl; zlia). cbn [bind] in E1. injection E1 as <-. cbn [sb]. exists q.
    rewrite E, Ea. destruct a2 as [|c a2]; [discriminate L2|]. cbn [tl]. rewrite map_app. cbn [map]. rewrite <- !app_assoc.
    rewrite firstn_zlen by (zl; congruence). f_equal. cbn [app length]. f_equal.
    rewrite skipn_app, map_length. replace (Z.to_nat at_ + 1 - length a1)%nat with 1%nat by (unfold zlen in L1; lia).
    rewrite skipn_all2 by (rewrite map_length; unfold zlen in L1; lia). reflexivity. }
  destruct R2 as (s' & E1 & R1 & q & Eq). rewrite E1. cbn [bind].
  unfold str_append_n_own, str_append_n. rewrite (space_rep _ _ _ R1).
  assert (cap - zlen a1 <? zlen z = false) as -> by (pose proof (r_le _ _ _ R); zl; lia).
  destruct (dassert dbg _); try reflexivity. cbn [bind].
  rewrite (own_copy s' (sl s') (zlen a) z (zlen z)); [reflexivity|].
  assert (sb s' = map Some (a1 ++ 0 :: tl a2) ++ map Some z ++ q) as X.
  { rewrite Eq, map_app, <- app_assoc. reflexivity. }
  eapply own_bytes; [exact X| |zlia]. rewrite Ea. destruct a2 as [|c a2]; [discriminate L2|]. cbn [tl]. rewrite !zlen_app, !zlen_cons. reflexivity.
Qed.
