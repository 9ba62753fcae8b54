(** path.c and str.c: vt_path_basename and vt_str_split_between with the text of the
    string that is also the target.

    As in StrAlias.v: what is read is read from the storage as it is at that moment. *)
From Verif Require Import Base BaseFacts StrModel StrModel2 StrSpec StrProofs StrProofs2 StrMain StrAlias FsModel PathModel PathProofs.

(** vt_path_basename(s, vt_str_z(s)), path.c:221-259.  Everything up to the copy is read
    while the text is untouched. *)
Definition path_basename_own (dbg : bool) (s : str) : res str :=
  let* z := str_z s in
  let sz := str_create_static z in
  let* n := str_can_find (S (length (sb sz))) sz sep in
  if n =? 0 then Ok s else
  let* ptr := base_loop (length z) z (w64 (zlen z - 1)) in
  if str_len s <? zlen z then let* _ := str_reserve dbg s (w64 (zlen z - str_len s)) in UB else
  match ptr with
  | None => Ok s
  | Some i => let* s := str_clear s in str_append_own dbg s i
  end.

(** vt_str_split_between(s, vt_str_z(s), zl, zr), str.c:991-1027.  Result: what is
    returned and the string.  The resizing always calls realloc; the address of the text
    found before is used after it. *)
Definition str_split_between_own (dbg : bool) (s : str) (zl zr : list Z) : res (option str * str) :=
  let* z := str_z s in
  match strstr z zl with
  | None => Ok (None, s)
  | Some l =>
      match strstr z zr with
      | None => Ok (None, s)
      | Some r =>
          let* st := str_clear s in
          if l <? r then let* _ := str_resize dbg st (w64 (r - l - zlen zl)) in UB
          else Ok (None, st)
      end
  end.

Lemma base_loop_in z : forall k i j, i < zlen z -> base_loop k z i = Ok (Some j) -> 1 < j < zlen z.
Proof.
  induction k as [|k IH]; intros i j Hi; cbn [base_loop]; [discriminate|]. destruct (Z.ltb_spec 0 i); [|discriminate].
  destruct (bbyte _ i) as [c| | |]; cbn [bind]; try discriminate. destruct ((c =? 47) && negb (i =? zlen z - 1)) eqn:E.
  - intros [= <-]. apply andb_prop in E as [_ E]. apply negb_true_iff, Z.eqb_neq in E. lia.
  - apply IH. lia.
Qed.

(** Appending text from behind the first byte of a string just cleared. *)
Lemma clear_append_own dbg a b cap s : srep (a ++ b) cap s -> 0 < zlen a ->
  (let* s := str_clear s in str_append_own dbg s (zlen a)) = (let* s := str_clear s in str_append dbg s b).
Proof.
  intros R Ha. destruct (own_rep _ _ _ _ R) as [q0 _]. pose proof R as [[q P] O L C LE RM F V].
  destruct a as [|c a]; [zl; lia|]. unfold str_clear, sput, swrite. rewrite V.
  assert (Eb : sb s = Some c :: map Some a ++ map Some b ++ Some 0 :: q).
  { rewrite P. unfold zblk. rewrite map_app, <- !app_assoc. reflexivity. }
  rewrite Eb. rewrite bwrite_val by (zl; zlia). change (Z.to_nat 0) with 0%nat. cbn [firstn length Nat.add skipn app bind].
  unfold set_len. cbn [sb sl sc sv ss]. unfold str_append_own. cbn [sb].
  assert (Nb : Forall okc b) by (now apply oks_app in O).
  change (Some 0 :: map Some a ++ map Some b ++ Some 0 :: q) with ((Some 0 :: map Some a) ++ map Some b ++ Some 0 :: q).
  rewrite cstr_at_app; [|zl; reflexivity|now apply oks_nonul]. cbn [bind].
  unfold str_append, str_append_n_own, str_append_n, str_has_space. cbn [sb sl sc sv ss].
  rewrite Z.sub_0_r. assert (w64 (sc s) <? zlen b = false) as -> by (rewrite C, w64_small by zlia; rewrite zlen_app in LE; zlia).
  destruct (dassert dbg _); try reflexivity. cbn [bind].
  rewrite (own_copy _ 0 (zlen (c :: a)) b (zlen b)); [reflexivity|]. cbn [sb]. unfold bread, zblk.
  replace ((0 <=? zlen (c :: a)) && (0 <=? zlen b) && (zlen (c :: a) + zlen b <=? zlen ((Some 0 :: map Some a) ++ map Some b ++ Some 0 :: q)))
    with true by (zl; zlia).
  replace ((0 <=? 0) && (0 <=? zlen b) && (0 + zlen b <=? zlen (map Some b ++ [Some 0]))) with true by (zl; zlia).
  f_equal. change (Z.to_nat 0) with 0%nat. cbn [skipn].
  rewrite skipn_zlen by (zl; reflexivity). rewrite !firstn_app.
  assert (Z.to_nat (zlen b) - length (map (@Some Z) b) = 0)%nat as -> by (rewrite map_length; unfold zlen; lia). reflexivity.
Qed.

Lemma basename_own dbg t cap s : srep t cap s -> (let* r := path_basename_own dbg s in Ok (Some r)) = path_basename dbg (Some s) t.
Proof.
  intros R. unfold path_basename_own, path_basename. rewrite (z_ok _ _ _ R). cbn [bind].
  destruct (str_can_find _ _ sep) as [n| | |]; cbn [bind]; try reflexivity. destruct (n =? 0); [reflexivity|].
  unfold str_len. pose proof (r_len _ _ _ R) as L. rewrite L, Z.ltb_irrefl.
  destruct (base_loop (length t) t (w64 (zlen t - 1))) as [[j|]| | |] eqn:E; cbn [bind]; try reflexivity.
  assert (J : 1 < j < zlen t).
  { destruct t as [|c t0]; [discriminate|]. assert (0 < zlen (c :: t0) < 2 ^ 64) by (destruct R; rewrite zlen_cons in *; zlia). rewrite w64_small in E by zlia.
    eapply base_loop_in; [|exact E]. lia. }
  rewrite <- (firstn_skipn (Z.to_nat j) t) in R.
  pose proof (clear_append_own dbg _ _ _ _ R) as X. rewrite zlen_firstn in X. replace (Z.min (Z.of_nat (Z.to_nat j)) (zlen t)) with j in X by lia. specialize (X ltac:(lia)).
  destruct (str_clear s) as [s1| | |]; cbn [bind] in *; try reflexivity. rewrite X.
  destruct (str_append dbg s1 (skipn (Z.to_nat j) t)); reflexivity.
Qed.

Lemma between_own_bad dbg t cap s zl zr l r o : srep t cap s -> strstr t zl = Some l -> strstr t zr = Some r -> l < r ->
  str_split_between_own dbg s zl zr <> Ok o.
Proof.
  intros R El Er H. unfold str_split_between_own. rewrite (z_ok _ _ _ R). cbn [bind]. rewrite El, Er.
  destruct (str_clear s); cbn [bind]; try discriminate. replace (l <? r) with true by lia. destruct (str_resize _ _ _); discriminate.
Qed.
Lemma between_own_same dbg t cap s zl zr : srep t cap s ->
  (forall l r, strstr t zl = Some l -> strstr t zr = Some r -> r <= l) ->
  (let* o := str_split_between_own dbg s zl zr in Ok (fst o, Some (snd o))) = str_split_between dbg (Some s) t zl zr.
Proof.
  intros R H. unfold str_split_between_own, str_split_between. rewrite (z_ok _ _ _ R). cbn [bind].
  destruct (strstr t zl) as [l|] eqn:El; [|reflexivity]. destruct (strstr t zr) as [r|] eqn:Er; [|reflexivity]. specialize (H l r eq_refl eq_refl).
  destruct (str_clear s); cbn [bind]; try reflexivity. replace (l <? r) with false by lia. reflexivity.
Qed.

(** vt_str_remove_first(s, vt_str_z(s) + o), str.c:537-565: z is last read before the text
    is moved; and vt_str_remove_all, 594-604, which calls it with the same address until
    nothing is found. *)
Definition str_remove_first_own (s : str) (o : Z) : res (str * bool) :=
  let* z := cstr_at (sb s) o in str_remove_first s z.
Fixpoint str_remove_all_own (fuel : nat) (s : str) (o : Z) : res str :=
  match fuel with
  | O => NoFuel
  | S f => let* r := str_remove_first_own s o in if snd r then str_remove_all_own f (fst r) o else Ok (fst r)
  end.

Lemma remove_first_own a z cap s : srep (a ++ z) cap s -> str_remove_first_own s (zlen a) = str_remove_first s z.
Proof. intros R. unfold str_remove_first_own. rewrite (cstr_mid a z cap s) by (assumption || reflexivity). reflexivity. Qed.

(** An empty text is found again and again. *)
Lemma remove_all_own_nil t cap : forall f s, srep t cap s -> str_remove_all_own f s (zlen t) = NoFuel.
Proof.
  induction f as [|f IH]; intros s R; [reflexivity|]. cbn [str_remove_all_own].
  rewrite <- (app_nil_r t) in R. rewrite (remove_first_own t [] cap s R). rewrite app_nil_r in R.
  destruct (remove_first_ok t cap s [] R) as (s' & E & R' & _).
  assert (C : cut [] t = Some ([], t)) by (destruct t; reflexivity). rewrite C in *. rewrite E. cbn [bind fst snd]. now apply IH.
Qed.
(** After the first removal the string ends where the text passed began. *)
Lemma remove_all_own_diverges a z cap s : srep (a ++ z) cap s -> forall f, str_remove_all_own f s (zlen a) = NoFuel.
Proof.
  intros R f. destruct f as [|f]; [reflexivity|]. cbn [str_remove_all_own]. rewrite (remove_first_own a z cap s R).
  destruct (remove_first_ok _ cap s z R) as (s' & E & R' & _). rewrite E. cbn [bind].
  destruct (cut z (a ++ z)) as [[x y]|] eqn:C.
  - cbn [fst snd]. apply cut_some in C. assert (zlen a = zlen (x ++ y)) as ->.
    { apply (f_equal (@zlen Z)) in C. rewrite !zlen_app in C. rewrite zlen_app. lia. }
    eapply remove_all_own_nil. exact R'.
  - exfalso. apply (proj1 (cut_none _ _) C a []). now rewrite app_nil_r.
Qed.
