(** Proofs about searching, replacing and stripping. *)
From Verif Require Import Base BaseFacts StrModel StrModel2 StrSpec StrProofs.

(** * Occurrences *)
Lemma strip_prefix_some p l r : strip_prefix p l = Some r <-> l = p ++ r.
Proof.
  revert l; induction p as [|x p IH]; intros l; cbn [strip_prefix app].
  - split; [now intros [= ->]|now intros ->].
  - destruct l as [|y l]; [split; discriminate|].
    destruct (Z.eqb_spec x y) as [->|Hne].
    + rewrite IH. split; [now intros ->|now intros [= ->]].
    + split; [discriminate|]. intros [= -> _]. contradiction.
Qed.
Lemma strip_prefix_is p l : is_prefix p l = match strip_prefix p l with Some _ => true | None => false end.
Proof.
  revert l; induction p as [|x p IH]; intros l; cbn [strip_prefix is_prefix]; [reflexivity|].
  destruct l as [|y l]; [reflexivity|]. destruct (x =? y); cbn [andb]; [apply IH|reflexivity].
Qed.

Lemma strstr_cut t sub : strstr t sub = match cut sub t with Some (a, _) => Some (zlen a) | None => None end.
Proof.
  induction t as [|c t IH]; cbn [strstr cut]; rewrite strip_prefix_is.
  - destruct (strip_prefix sub []); reflexivity.
  - destruct (strip_prefix sub (c :: t)); [reflexivity|]. rewrite IH.
    destruct (cut sub t) as [[a b]|]; [|reflexivity]. f_equal. zl. lia.
Qed.

Lemma cut_some sub t a b : cut sub t = Some (a, b) -> t = a ++ sub ++ b.
Proof.
  revert a b; induction t as [|c t IH]; intros a b; cbn [cut].
  - destruct (strip_prefix sub []) as [r|] eqn:E; [|discriminate]. intros [= <- <-]. now apply strip_prefix_some in E.
  - destruct (strip_prefix sub (c :: t)) as [r|] eqn:E.
    + intros [= <- <-]. now apply strip_prefix_some in E.
    + destruct (cut sub t) as [[a' b']|]; [|discriminate]. intros [= <- <-]. cbn [app]. f_equal. now apply IH.
Qed.

Lemma cut_leftmost sub t a b : cut sub t = Some (a, b) -> forall a' b', t = a' ++ sub ++ b' -> zlen a <= zlen a'.
Proof.
  intros H a' b' E'. pose proof (strstr_cut t sub) as S. rewrite H in S.
  destruct (strstr_some _ _ _ S) as (x & y & E & L & M). rewrite <- L. now apply (M a' b').
Qed.
Lemma cut_none sub t : cut sub t = None <-> forall a b, t <> a ++ sub ++ b.
Proof.
  split.
  - intros H. apply strstr_none. now rewrite strstr_cut, H.
  - intros H. destruct (cut sub t) as [[a b]|] eqn:E; [|reflexivity]. apply cut_some in E. destruct (H _ _ E).
Qed.
(** [cut] is the only split with these properties. *)
Lemma app_len_inj {A} (a a' s s' : list A) : a ++ s = a' ++ s' -> zlen a = zlen a' -> a = a' /\ s = s'.
Proof.
  revert a'; induction a as [|x a IH]; intros [|y a']; cbn [app]; zl; intros E L.
  - now split.
  - zlia.
  - zlia.
  - injection E as -> E. destruct (IH a' E) as [-> ->]; [lia|]. now split.
Qed.
Lemma cut_intro sub a b : (forall a' b', a ++ sub ++ b = a' ++ sub ++ b' -> zlen a <= zlen a') ->
  cut sub (a ++ sub ++ b) = Some (a, b).
Proof.
  intros H. destruct (cut sub (a ++ sub ++ b)) as [[x y]|] eqn:E.
  - pose proof (cut_some _ _ _ _ E) as E1. pose proof (cut_leftmost _ _ _ _ E a b eq_refl). pose proof (H _ _ E1).
    destruct (app_len_inj _ _ _ _ E1) as [-> E2]; [lia|]. apply app_inv_head in E2. now subst.
  - apply cut_none with (a := a) (b := b) in E. destruct (E eq_refl).
Qed.

Lemma cut_shorter sub t a b : 0 < zlen sub -> cut sub t = Some (a, b) -> (length b < length t)%nat.
Proof. intros H E. apply cut_some in E. subst. rewrite !app_length. unfold zlen in H. lia. Qed.
Lemma cut_nil sub : 0 < zlen sub -> cut sub [] = None.
Proof. destruct sub; [unfold zlen; cbn [length]; lia|reflexivity]. Qed.

Lemma pieces_fuel sub : 0 < zlen sub -> forall k k' t, (length t <= k)%nat -> (length t <= k')%nat -> pieces k sub t = pieces k' sub t.
Proof.
  intros Hs k. induction k as [|k IH]; intros k' t H1 H2.
  - destruct t; [|cbn [length] in H1; lia]. destruct k'; cbn [pieces]; [reflexivity|]. now rewrite cut_nil.
  - destruct k' as [|k'].
    + destruct t; [|cbn [length] in H2; lia]. cbn [pieces]. now rewrite cut_nil.
    + cbn [pieces]. destruct (cut sub t) as [[a b]|] eqn:E; [|reflexivity].
      pose proof (cut_shorter _ _ _ _ Hs E). f_equal. apply IH; lia.
Qed.
Lemma pieces_cons k sub t : pieces k sub t <> [].
Proof. destruct k; cbn [pieces]; [discriminate|]. destruct (cut sub t) as [[? ?]|]; discriminate. Qed.
Lemma join_cons sep x l : l <> [] -> join_with sep (x :: l) = x ++ sep ++ join_with sep l.
Proof. destruct l; [contradiction|reflexivity]. Qed.

(** Replacing the occurrences by themselves changes nothing. *)
Lemma join_pieces k sub t : join_with sub (pieces k sub t) = t.
Proof.
  revert t; induction k as [|k IH]; intros t; cbn [pieces]; [reflexivity|].
  destruct (cut sub t) as [[a b]|] eqn:E; [|reflexivity].
  rewrite join_cons by apply pieces_cons. rewrite IH. symmetry. now apply cut_some.
Qed.
Lemma join_len k sub rsub t : zlen (join_with rsub (pieces k sub t)) = zlen t + (zlen (pieces k sub t) - 1) * (zlen rsub - zlen sub).
Proof.
  revert t; induction k as [|k IH]; intros t; cbn [pieces]; [cbn [join_with]; zl; lia|].
  destruct (cut sub t) as [[a b]|] eqn:E; [|cbn [join_with]; zl; lia].
  rewrite join_cons by apply pieces_cons. zl. rewrite IH. apply cut_some in E. subst t. zl. lia.
Qed.
Lemma pieces_pos k sub t : 1 <= zlen (pieces k sub t).
Proof. destruct (pieces k sub t) eqn:E; [destruct (pieces_cons _ _ _ E)|]. zl. zlia. Qed.
Lemma pieces_count k sub t : 0 < zlen sub -> zlen (pieces k sub t) - 1 <= zlen t.
Proof.
  intros Hs. revert t; induction k as [|k IH]; intros t; cbn [pieces]; [zl; zlia|].
  destruct (cut sub t) as [[a b]|] eqn:E; [|zl; zlia]. specialize (IH b). apply cut_some in E. subst t. zl. zlia.
Qed.

(** * Searching in the storage *)
Lemma cstr_mid a b cap s p : srep (a ++ b) cap s -> p = zlen a -> cstr_at (sb s) p = Ok b.
Proof.
  intros [[q P] O L C LE RM F V] ->. rewrite P. unfold zblk. rewrite map_app, <- !app_assoc. cbn [app].
  apply cstr_at_app; [now rewrite zlen_map|]. apply oks_app in O. now apply oks_nonul.
Qed.

Lemma find_ok t cap s z : srep t cap s -> zlen z <= zlen t ->
  str_find s z = Ok (match cut z t with Some (a, _) => Some (zlen a) | None => None end).
Proof.
  intros R H. unfold str_find. rewrite (r_len _ _ _ R), enforce_true by lia. cbn [bind].
  rewrite (z_ok _ _ _ R). cbn [bind]. now rewrite strstr_cut.
Qed.
Lemma index_find_ok t cap s z : srep t cap s -> zlen z <= zlen t ->
  str_index_find s z = Ok (match cut z t with Some (a, _) => zlen a | None => -1 end).
Proof.
  intros R H. unfold str_index_find. rewrite (find_ok _ _ _ _ R H). cbn [bind]. destruct (cut z t) as [[? ?]|]; reflexivity.
Qed.
Lemma index_in_cut c t : index_in c t = match cut [c] t with Some (a, _) => Some (zlen a) | None => None end.
Proof.
  induction t as [|x t IH]; cbn [index_in cut strip_prefix]; [reflexivity|].
  destruct (c =? x); [reflexivity|]. rewrite IH. destruct (cut [c] t) as [[? ?]|]; [|reflexivity]. f_equal. zl. lia.
Qed.
Lemma index_of_ok t cap s c : srep t cap s -> c <> 0 ->
  str_index_of s c = Ok (match cut [c] t with Some (a, _) => zlen a | None => -1 end).
Proof.
  intros R H. unfold str_index_of. rewrite (z_ok _ _ _ R). cbn [bind]. replace (c =? 0) with false by lia.
  rewrite index_in_cut. destruct (cut [c] t) as [[? ?]|]; reflexivity.
Qed.

Lemma count_loop_ok sub cap s : 0 < zlen sub -> forall f k d rest count, srep (d ++ rest) cap s ->
  (length rest < f)%nat -> (length rest <= k)%nat -> 0 <= count -> count + zlen rest < two64 ->
  count_loop f (sb s) sub (zlen d) count = Ok (count + (zlen (pieces k sub rest) - 1)).
Proof.
  intros Hs f. induction f as [|f IH]; intros k d rest count R H1 H2 H3 H4; [lia|]. cbn [count_loop].
  rewrite (cstr_mid _ _ _ _ _ R eq_refl). cbn [bind]. rewrite strstr_cut.
  destruct k as [|k].
  { destruct rest; [|cbn [length] in H2; lia]. rewrite cut_nil by assumption. cbn [pieces]. zl. f_equal. lia. }
  cbn [pieces]. destruct (cut sub rest) as [[a b]|] eqn:E.
  - pose proof (cut_shorter _ _ _ _ Hs E). apply cut_some in E. subst rest.
    zl. pose proof (zlen_nonneg a). pose proof (zlen_nonneg b).
    rewrite (w64_small (count + 1)) by zlia.
    replace (zlen d + zlen a + zlen sub) with (zlen (d ++ a ++ sub)) by (zl; lia).
    rewrite (IH k (d ++ a ++ sub) b); [|now rewrite <- !app_assoc|lia|lia|lia|lia]. f_equal. lia.
  - zl. f_equal. lia.
Qed.
Lemma fuel_len t cap s : srep t cap s -> (length t < length (sb s))%nat.
Proof. intros [P O L C LE RM F V]. apply pre_len in P. zl. unfold zlen in *. lia. Qed.

Lemma can_find_ok t cap s z f : srep t cap s -> 0 < zlen z <= zlen t -> (length t < f)%nat ->
  str_can_find f s z = Ok (zlen (split_on z t) - 1).
Proof.
  intros R H Hf. unfold str_can_find. rewrite (r_len _ _ _ R), enforce_true by lia. cbn [bind].
  change 0 with (zlen (@nil Z)) at 1. rewrite (count_loop_ok z cap s) with (k := length t) (rest := t); try assumption; try lia.
  - reflexivity.
  - destruct R. zlia.
Qed.

(** * Removing occurrences *)
Lemma smove_sl s a b n s' : smove s a b n = Ok s' -> sl s' = sl s.
Proof.
  unfold smove. destruct (n =? 0); [now intros [= <-]|]. destruct (bread _ _ _); try discriminate. cbn [bind].
  unfold swrite. destruct (sv s); [discriminate|]. destruct (bwrite _ _ _); try discriminate. now intros [= <-].
Qed.

Lemma remove_first_ok t cap s z : srep t cap s ->
  exists s', str_remove_first s z = Ok (s', match cut z t with Some _ => true | None => false end) /\
    srep (match cut z t with Some (a, b) => a ++ b | None => t end) cap s' /\ zlen (sb s') = zlen (sb s).
Proof.
  intros R. unfold str_remove_first. rewrite (z_ok _ _ _ R). cbn [bind]. rewrite strstr_cut.
  destruct (cut z t) as [[a b]|] eqn:E; [|exists s; tauto].
  apply cut_some in E. subst t. pose proof R as R0. destruct R0 as [P O L C LE RM F V]. zl.
  destruct (cutout_ok a z b cap s R) as (s1 & E1 & R1 & L1).
  rewrite L. replace (zlen a + (zlen z + zlen b) - (zlen a + zlen z)) with (zlen b) by lia.
  rewrite (w64_small (zlen b)) by zlia.
  destruct (smove s (zlen a) (zlen a + zlen z) (zlen b)) as [s2| | |] eqn:E2; try discriminate. cbn [bind] in *.
  rewrite (smove_sl _ _ _ _ _ E2), L.
  replace (zlen a + (zlen z + zlen b) - zlen z) with (zlen a + zlen b) by lia. rewrite (w64_small (zlen a + zlen b)) by zlia.
  rewrite E1. cbn [bind]. exists s1. split; [reflexivity|]. split; [exact R1|exact L1].
Qed.

Lemma delete_shorter z t a b : 0 < zlen z -> cut z t = Some (a, b) -> (length (a ++ b) < length t)%nat.
Proof. intros H E. apply cut_some in E. subst. rewrite !app_length. unfold zlen in H. lia. Qed.

Lemma remove_all_ok z cap : 0 < zlen z -> forall f k t s, srep t cap s -> (length t < f)%nat -> (length t <= k)%nat ->
  exists s', str_remove_all f s z = Ok s' /\ srep (delete_all k z t) cap s'.
Proof.
  intros Hz f. induction f as [|f IH]; intros k t s R H1 H2; [lia|]. cbn [str_remove_all].
  destruct (remove_first_ok t cap s z R) as (s1 & E1 & R1 & _). rewrite E1. cbn [bind fst snd].
  destruct k as [|k].
  { destruct t; [|cbn [length] in H2; lia]. rewrite cut_nil in * by assumption. eauto. }
  cbn [delete_all]. destruct (cut z t) as [[a b]|] eqn:E; [|eauto].
  pose proof (delete_shorter _ _ _ _ Hz E). apply IH; [assumption|lia|lia].
Qed.

Lemma delete_all_none z : 0 < zlen z -> forall k t, (length t <= k)%nat -> cut z (delete_all k z t) = None.
Proof.
  intros Hz k. induction k as [|k IH]; intros t H; cbn [delete_all].
  - destruct t; [now apply cut_nil|cbn [length] in H; lia].
  - destruct (cut z t) as [[a b]|] eqn:E; [|assumption].
    pose proof (delete_shorter _ _ _ _ Hz E). apply IH. lia.
Qed.

(** * Removing characters *)
Lemma memb_in_set x c : memb x c = in_set c x.
Proof. unfold in_set. induction c as [|y c IH]; cbn [memb existsb]; [reflexivity|]. rewrite IH. f_equal. apply Z.eqb_sym. Qed.

Lemma rmc_loop_ok c : forall rest s kept junk q, sb s = map Some kept ++ junk ++ map Some rest ++ q -> sv s = false ->
  exists s' junk', rmc_loop (length rest) s c (zlen kept + zlen junk) (zlen junk) = Ok (s', zlen junk')
    /\ sb s' = map Some (kept ++ keep_out c rest) ++ junk' ++ q
    /\ zlen (keep_out c rest) + zlen junk' = zlen rest + zlen junk
    /\ sl s' = sl s /\ sc s' = sc s /\ sv s' = false.
Proof.
  induction rest as [|x rest IH]; intros s kept junk q E V; cbn [length rmc_loop keep_out filter].
  - exists s, junk. split; [reflexivity|]. rewrite app_nil_r. cbn [map app] in E. rewrite E. zl. repeat split; try assumption; lia.
  - cbn [map] in E.
    assert (bbyte (sb s) (zlen kept + zlen junk) = Ok x) as ->.
    { rewrite E, app_assoc. apply bbyte_app. zl. reflexivity. }
    cbn [bind]. rewrite memb_in_set. destruct (in_set c x) eqn:M; cbn [negb].
    + destruct (IH s kept (junk ++ [Some x]) q) as (s' & junk' & E' & B & Ln & F1 & F2 & F3).
      { rewrite E. now rewrite <- !app_assoc. } { assumption. }
      exists s', junk'. zl. split; [|split; [exact B|split; [unfold keep_out in *; lia|tauto]]].
      rewrite <- E'. f_equal; lia.
    + destruct (junk ++ [Some x]) as [|y j] eqn:J; [destruct junk; discriminate|].
      assert (sb s = map Some kept ++ [y] ++ (j ++ map Some rest ++ q)) as E2.
      { rewrite E. f_equal. change ((Some x :: map Some rest) ++ q) with ([Some x] ++ map Some rest ++ q).
        rewrite (app_assoc junk), J. reflexivity. }
      assert (zlen j = zlen junk) as Lj.
      { apply (f_equal (@zlen _)) in J. zl. lia. }
      unfold sput, swrite. rewrite V, E2.
      rewrite bwrite_app by (zl; lia). cbn [bind].
      destruct (IH (mk_str (map Some kept ++ [Some x] ++ j ++ map Some rest ++ q) (sl s) (sc s) (sv s) (ss s)) (kept ++ [x]) j q)
        as (s' & junk' & E' & B & Ln & F1 & F2 & F3).
      { cbn [sb]. rewrite map_app. now rewrite <- !app_assoc. } { assumption. }
      exists s', junk'. cbn [sl sc sv ss] in *. zl. rewrite V in *.
      split; [|split; [|split; [unfold keep_out in *; lia|tauto]]].
      * rewrite <- E'. f_equal; lia.
      * rewrite B. now rewrite <- app_assoc.
Qed.

Lemma oks_filter f t : oks t -> oks (filter f t).
Proof. unfold oks. rewrite !Forall_forall. intros H x Hx. apply filter_In in Hx. apply H. tauto. Qed.

Lemma remove_c_ok t cap s c : srep t cap s -> exists s', str_remove_c s c = Ok s' /\ srep (keep_out c t) cap s'.
Proof.
  intros [[q P] O L C LE RM F V]. unfold str_remove_c.
  destruct (rmc_loop_ok c t s [] [] ([Some 0] ++ q)) as (s1 & junk & E1 & B & Ln & F1 & F2 & F3).
  { cbn [map app]. rewrite P. unfold zblk. now rewrite <- app_assoc. } { assumption. }
  zl. rewrite L, to_nat_zlen. change (0 + 0) with 0 in E1. rewrite E1. cbn [bind fst snd]. rewrite F1, L.
  cbn [app] in B. unfold set_len. rewrite (w64_small (zlen t - zlen junk)) by zlia. cbn [sl].
  match goal with |- context [sput ?x _ _] =>
      destruct (term_ok (keep_out c t) cap x (zlen t - zlen junk)) as (s4 & E4 & R4 & _) end;
      cbn [sb sl sc sv ss]; try zlia; try reflexivity; try assumption.
  - rewrite B. now exists (junk ++ Some 0 :: q).
  - unfold keep_out. now apply oks_filter.
  - rewrite B. rewrite P in RM. zl. lia.
  - eauto.
Qed.

(** * Mapping characters in place *)
Lemma apply_loop_ok (f : Z -> Z -> Z) (g : Z -> Z) cap : (forall c i, f c i = g c) -> (forall c, okc c -> okc (g c)) ->
  forall rest s d, srep (d ++ rest) cap s ->
  exists s', apply_loop (length rest) s f (zlen d) = Ok s' /\ srep (d ++ map g rest) cap s'.
Proof.
  intros Hf Hg rest. induction rest as [|x rest IH]; intros s d R; cbn [length apply_loop map]; [eauto|].
  rewrite (byte_mid _ _ _ _ _ R). cbn [bind]. rewrite Hf.
  assert (okc x) as Ox. { destruct R as [_ O _ _ _ _ _ _]. apply oks_app in O as [_ O]. now inversion O. }
  destruct (put_mid _ _ _ _ _ (g x) R (Hg x Ox)) as (s1 & E1 & R1 & _). rewrite E1. cbn [bind].
  destruct (IH s1 (d ++ [g x])) as (s2 & E2 & R2); [now rewrite <- app_assoc|].
  zl. exists s2. split; [rewrite <- E2; f_equal; lia|]. now rewrite <- app_assoc in R2.
Qed.

Lemma upper_ok t cap s : srep t cap s -> exists s', str_to_uppercase s = Ok s' /\ srep (map upper t) cap s'.
Proof.
  intros R. unfold str_to_uppercase. rewrite (r_len _ _ _ R), to_nat_zlen. apply (apply_loop_ok _ upper cap) with (d := []); [reflexivity| |assumption].
  intros c H. unfold upper, okc in *. destruct ((97 <=? c) && (c <=? 122)) eqn:E; lia.
Qed.
Lemma lower_ok t cap s : srep t cap s -> exists s', str_to_lowercase s = Ok s' /\ srep (map lower t) cap s'.
Proof.
  intros R. unfold str_to_lowercase. rewrite (r_len _ _ _ R), to_nat_zlen. apply (apply_loop_ok _ lower cap) with (d := []); [reflexivity| |assumption].
  intros c H. unfold lower, okc in *. destruct ((65 <=? c) && (c <=? 90)) eqn:E; lia.
Qed.

(** * Replacing characters *)
Lemma index_in_range x c j : index_in x c = Some j -> 0 <= j < zlen c.
Proof.
  revert j; induction c as [|y c IH]; intros j; cbn [index_in]; [discriminate|].
  destruct (x =? y); [intros [= <-]; zl; zlia|]. destruct (index_in x c) as [i|]; [|discriminate].
  intros [= <-]. specialize (IH i eq_refl). zl. lia.
Qed.
Lemma map_char_none x c r l : index_in x c = None -> map_char c r l x = x.
Proof.
  revert r; induction c as [|y c IH]; intros r; cbn [index_in map_char]; [reflexivity|].
  destruct (x =? y); [discriminate|]. destruct (index_in x c); [discriminate|]. intros _. destruct r; now apply IH.
Qed.
Lemma map_char_some x c r l j : index_in x c = Some j -> map_char c r l x = nth (Z.to_nat j) r l.
Proof.
  revert r j; induction c as [|y c IH]; intros r j; cbn [index_in map_char]; [discriminate|].
  destruct (x =? y).
  - intros [= <-]. destruct r; reflexivity.
  - destruct (index_in x c) as [i|] eqn:E; [|discriminate]. intros [= <-].
    pose proof (index_in_range _ _ _ E).
    replace (Z.to_nat (i + 1)) with (S (Z.to_nat i)) by lia. destruct r; cbn [nth].
    + rewrite (IH [] i eq_refl). now destruct (Z.to_nat i).
    + now apply IH.
Qed.
Lemma byte_zblk r i d : 0 <= i < zlen r -> bbyte (zblk r) i = Ok (nth (Z.to_nat i) r d).
Proof.
  intros H. assert (Z.to_nat i < length r)%nat as Hi by (unfold zlen in H; lia).
  destruct (nth_split r d Hi) as (a & b & E & La). rewrite E at 1. unfold zblk. rewrite map_app. cbn [map].
  rewrite <- app_assoc. cbn [app]. apply bbyte_app. zl. unfold zlen. lia.
Qed.
Lemma last_nth (r : list Z) : r <> [] -> last r 0 = nth (Z.to_nat (zlen r - 1)) r 0.
Proof.
  intros H. rewrite (app_removelast_last 0 H) at 2 3. zl.
  rewrite app_nth2; [|unfold zlen; lia].
  replace (Z.to_nat _ - _)%nat with 0%nat; [reflexivity|]. unfold zlen. lia.
Qed.
Lemma char_repl r j : r <> [] -> 0 <= j -> bbyte (zblk r) (if j <? zlen r then j else zlen r - 1) = Ok (nth (Z.to_nat j) r (last r 0)).
Proof.
  intros H Hj. assert (0 < zlen r) by (destruct r; [contradiction|zl; zlia]).
  destruct (Z.ltb_spec j (zlen r)).
  - apply byte_zblk. lia.
  - rewrite (byte_zblk r (zlen r - 1) 0) by lia. f_equal. rewrite <- last_nth by assumption.
    rewrite nth_overflow; [reflexivity|unfold zlen in *; lia].
Qed.
Lemma okc_nth r j : r <> [] -> oks r -> okc (nth j r (last r 0)).
Proof.
  intros H O. unfold oks in O. rewrite Forall_forall in O. destruct (Nat.lt_ge_cases j (length r)).
  - apply O. now apply nth_In.
  - rewrite nth_overflow by assumption. apply O. rewrite (app_removelast_last 0 H) at 2. apply in_or_app. right. now left.
Qed.

Lemma rpc_loop_ok c r cap : r <> [] -> oks r -> forall rest s d, srep (d ++ rest) cap s ->
  exists s', rpc_loop (length rest) s c r (zlen d) = Ok s' /\ srep (d ++ map (map_char c r (last r 0)) rest) cap s'.
Proof.
  intros Hr Or rest. induction rest as [|x rest IH]; intros s d R; cbn [length rpc_loop map]; [eauto|].
  rewrite (byte_mid _ _ _ _ _ R). cbn [bind]. destruct (index_in x c) as [j|] eqn:E.
  - pose proof (index_in_range _ _ _ E). rewrite char_repl by (assumption || lia). cbn [bind].
    rewrite (map_char_some _ _ _ _ _ E). set (y := nth (Z.to_nat j) r (last r 0)).
    destruct (put_mid _ _ _ _ _ y R (okc_nth r (Z.to_nat j) Hr Or)) as (s1 & E1 & R1 & _). rewrite E1. cbn [bind].
    destruct (IH s1 (d ++ [y])) as (s2 & E2 & R2); [now rewrite <- app_assoc|].
    zl. exists s2. split; [rewrite <- E2; f_equal; lia|]. now rewrite <- app_assoc in R2.
  - rewrite (map_char_none _ _ _ _ E).
    destruct (IH s (d ++ [x])) as (s2 & E2 & R2); [now rewrite <- app_assoc|].
    zl. exists s2. split; [rewrite <- E2; f_equal; lia|]. now rewrite <- app_assoc in R2.
Qed.

Lemma replace_c_ok t cap s c r : srep t cap s -> oks r -> zlen r <= zlen c ->
  exists s', str_replace_c s c r = Ok s' /\ srep (match r with [] => t | _ => map (map_char c r (last r 0)) t end) cap s'.
Proof.
  intros R O H. unfold str_replace_c. rewrite enforce_true by lia. cbn [bind].
  destruct r as [|y r]; cbn [is_nil orb]; [eauto|].
  destruct c as [|x c]; [zl; zlia|]. cbn [is_nil].
  rewrite (r_len _ _ _ R), to_nat_zlen. apply (rpc_loop_ok (x :: c) (y :: r) cap) with (d := []); [discriminate|assumption|assumption].
Qed.

(** * Replacing occurrences *)
Lemma replace_at_ok dbg a sub rsub b cap s : srep (a ++ sub ++ b) cap s -> 0 < zlen sub -> 0 < zlen rsub -> oks rsub ->
  Z.max cap (zlen (a ++ rsub ++ b)) + 1 <= alloc_max ->
  exists s', replace_at dbg s sub rsub (zlen a) = Ok s' /\ srep (a ++ rsub ++ b) (Z.max cap (zlen (a ++ rsub ++ b))) s'.
Proof.
  intros R Hs Hr O Hf. unfold replace_at. destruct (Z.eqb_spec (zlen sub) (zlen rsub)) as [El|Hne].
  - pose proof (pre_text _ _ _ R) as PT. pose proof R as R0. destruct R0 as [P OT L C LE RM F V].
    destruct P as [q P]. unfold zblk in P. rewrite !map_app in P. rewrite <- !app_assoc in P.
    unfold scopy. replace (zlen rsub =? 0) with false by lia.
    rewrite bread_val by (zl; zlia). cbn [bind]. change (Z.to_nat 0) with 0%nat. cbn [skipn].
    rewrite firstn_map_some by (unfold zlen; lia). rewrite to_nat_zlen, firstn_all.
    unfold swrite. rewrite V, P. rewrite bwrite_app by (zl; lia). cbn [bind].
    eexists. split; [reflexivity|].
    assert (Z.max cap (zlen (a ++ rsub ++ b)) = cap) as -> by (zl; lia).
    constructor; cbn [sb sl sc sv]; zl; try assumption; try reflexivity; try lia.
    + exists q. unfold zblk. rewrite !map_app. now rewrite <- !app_assoc.
    + rewrite !oks_app in *. tauto.
    + rewrite P in RM. zl. lia.
  - destruct (remove_ok dbg a sub b cap s (zlen a) (zlen sub) R) as (s1 & E1 & R1 & _); [reflexivity|assumption|now left|].
    rewrite E1. cbn [bind]. rewrite (r_len _ _ _ R1).
    destruct (Z.ltb_spec (zlen a) (zlen (a ++ b))) as [Hl|Hl].
    + destruct (insert_ok dbg a b cap s1 rsub (zlen a) R1 O) as (s2 & E2 & R2); [reflexivity|zl; lia|zl; zlia|].
      exists s2. split; [exact E2|]. replace (zlen (a ++ rsub ++ b)) with (zlen (a ++ b) + zlen rsub) by (zl; lia). exact R2.
    + assert (b = []) as -> by (apply zlen_0; zl; zlia). rewrite !app_nil_r in *.
      destruct (append_ok dbg a cap s1 rsub R1 O) as (s2 & E2 & R2); [lia|zl; lia|].
      exists s2. split; [exact E2|]. zl. exact R2.
Qed.

Lemma replace_loop_ok dbg sub rsub : 0 < zlen sub -> 0 < zlen rsub -> oks rsub -> forall f k rest d cap s,
  srep (d ++ rest) cap s -> (length rest < f)%nat -> (length rest <= k)%nat ->
  Z.max cap (zlen (d ++ join_with rsub (pieces k sub rest))) + 1 <= alloc_max ->
  exists s', replace_loop f dbg s sub rsub (zlen d) = Ok s' /\
    srep (d ++ join_with rsub (pieces k sub rest)) (Z.max cap (zlen (d ++ join_with rsub (pieces k sub rest)))) s'.
Proof.
  intros Hs Hr O f. induction f as [|f IH]; intros k rest d cap s R H1 H2 Hf; [lia|]. cbn [replace_loop].
  rewrite (cstr_mid _ _ _ _ _ R eq_refl). cbn [bind]. rewrite strstr_cut. pose proof (r_le _ _ _ R) as LE.
  assert (forall t, d ++ t = d ++ rest -> exists s', Ok s = Ok s' /\ srep (d ++ t) (Z.max cap (zlen (d ++ t))) s') as Hsame.
  { intros t ->. exists s. split; [reflexivity|]. replace (Z.max cap (zlen (d ++ rest))) with cap by lia. assumption. }
  destruct k as [|k].
  { destruct rest; [|cbn [length] in H2; lia]. rewrite cut_nil by assumption. cbn [pieces join_with]. now apply Hsame. }
  cbn [pieces] in *. destruct (cut sub rest) as [[a b]|] eqn:E; [|cbn [join_with]; now apply Hsame].
  pose proof (cut_shorter _ _ _ _ Hs E) as Hsh. apply cut_some in E. subst rest.
  rewrite join_cons in * by apply pieces_cons.
  set (final := a ++ rsub ++ join_with rsub (pieces k sub b)) in *.
  assert (zlen final = zlen a + zlen rsub + zlen b + (zlen (pieces k sub b) - 1) * (zlen rsub - zlen sub)) as Lf
    by (unfold final; zl; rewrite join_len; lia).
  pose proof (pieces_pos k sub b) as Hp.
  assert (zlen ((d ++ a) ++ rsub ++ b) <= Z.max cap (zlen (d ++ final))) as Hmono.
  { zl. rewrite Lf. destruct (Z.le_ge_cases (zlen sub) (zlen rsub)); [nia|lia]. }
  rewrite app_assoc in R. 
  destruct (replace_at_ok dbg (d ++ a) sub rsub b cap s R Hs Hr O) as (s1 & E1 & R1); [lia|].
  zl. rewrite E1. cbn [bind].
  destruct (IH k b (d ++ a ++ rsub) (Z.max cap (zlen (d ++ a) + (zlen rsub + zlen b))) s1) as (s2 & E2 & R2); try lia.
  - zl. rewrite <- !app_assoc in *. exact R1.
  - unfold final in *. zl. lia.
  - exists s2. split; [rewrite <- E2; f_equal; zl; lia|].
    rewrite <- !app_assoc in R2. fold final in R2. zl.
    match goal with H : srep _ ?x s2 |- srep _ ?y s2 => replace y with x by lia end. exact R2.
Qed.

Lemma replace_ok dbg t cap s sub rsub f : srep t cap s -> 0 < zlen sub -> 0 < zlen rsub -> oks rsub -> (length t < f)%nat ->
  Z.max cap (zlen (join_with rsub (split_on sub t))) + 1 <= alloc_max ->
  exists s', str_replace dbg f s sub rsub = Ok s' /\
    srep (join_with rsub (split_on sub t)) (Z.max cap (zlen (join_with rsub (split_on sub t)))) s'.
Proof.
  intros R Hs Hr O Hl Hf. unfold str_replace. destruct sub; [zl; lia|]. destruct rsub; [zl; lia|]. cbn [is_nil orb].
  apply (replace_loop_ok dbg) with (d := []); assumption || lia || (unfold split_on; lia).
Qed.

(** * The last occurrence of the scan *)
Lemma last_cut_some k sub t a b : last_cut k sub t = Some (a, b) -> t = a ++ sub ++ b.
Proof.
  revert t a b; induction k as [|k IH]; intros t a b; cbn [last_cut]; [discriminate|].
  destruct (cut sub t) as [[x y]|] eqn:E; [|discriminate]. apply cut_some in E.
  destruct (last_cut k sub y) as [[x' y']|] eqn:E2.
  - intros [= <- <-]. apply IH in E2. subst. now rewrite <- !app_assoc.
  - intros [= <- <-]. exact E.
Qed.
Lemma last_cut_rest k sub t a b : 0 < zlen sub -> (length t <= k)%nat -> last_cut k sub t = Some (a, b) -> cut sub b = None.
Proof.
  intros Hs. revert t a b; induction k as [|k IH]; intros t a b H; cbn [last_cut]; [discriminate|].
  destruct (cut sub t) as [[x y]|] eqn:E; [|discriminate]. pose proof (cut_shorter _ _ _ _ Hs E).
  destruct (last_cut k sub y) as [[x' y']|] eqn:E2.
  - intros [= <- <-]. apply (IH y x' y'); [lia|assumption].
  - intros [= <- <-]. destruct k; cbn [last_cut] in E2.
    + destruct y; [now apply cut_nil|cbn [length] in *; lia].
    + destruct (cut sub y) as [[? ?]|]; [|reflexivity]. destruct (last_cut k sub _) as [[? ?]|]; discriminate.
Qed.
Lemma last_cut_none k sub t : 0 < zlen sub -> (length t <= k)%nat -> last_cut k sub t = None <-> cut sub t = None.
Proof.
  intros Hs H. destruct k; cbn [last_cut].
  - destruct t; [|cbn [length] in H; lia]. rewrite cut_nil by assumption. tauto.
  - destruct (cut sub t) as [[x y]|]; [|tauto]. destruct (last_cut k sub y) as [[? ?]|]; split; discriminate.
Qed.

Lemma last_loop_ok sub cap s : 0 < zlen sub -> forall f k d rest, srep (d ++ sub ++ rest) cap s ->
  (length rest < f)%nat -> (length rest <= k)%nat ->
  last_loop f (sb s) sub (zlen d) = Ok (match last_cut k sub rest with Some (a, _) => zlen d + zlen sub + zlen a | None => zlen d end).
Proof.
  intros Hs f. induction f as [|f IH]; intros k d rest R H1 H2; [lia|]. cbn [last_loop].
  rewrite app_assoc in R. rewrite (cstr_mid _ _ _ _ _ R) by (zl; reflexivity). cbn [bind]. rewrite strstr_cut.
  destruct k as [|k].
  { destruct rest; [|cbn [length] in H2; lia]. rewrite cut_nil by assumption. reflexivity. }
  cbn [last_cut]. destruct (cut sub rest) as [[a b]|] eqn:E; [|reflexivity].
  pose proof (cut_shorter _ _ _ _ Hs E). apply cut_some in E. subst rest.
  replace (zlen d + zlen sub + zlen a) with (zlen (d ++ sub ++ a)) by (zl; lia).
  rewrite (IH k (d ++ sub ++ a) b); [|now rewrite <- !app_assoc in *|lia|lia].
  destruct (last_cut k sub b) as [[a' b']|]; f_equal; zl; lia.
Qed.

(** From the start of the text. *)
Lemma last_ok_scan sub cap s t f a b : srep t cap s -> 0 < zlen sub -> (length t < f)%nat ->
  last_cut (length t) sub t = Some (a, b) ->
  exists i, strstr t sub = Some i /\ last_loop f (sb s) sub i = Ok (zlen a).
Proof.
  intros R Hs Hf E. rewrite strstr_cut. destruct t as [|c t0]; [discriminate|]. set (t := c :: t0) in *.
  change (length t) with (S (length t0)) in E. cbn [last_cut] in E.
  destruct (cut sub t) as [[x y]|] eqn:Ec; [|discriminate]. exists (zlen x). split; [reflexivity|].
  pose proof (cut_shorter _ _ _ _ Hs Ec). apply cut_some in Ec. rewrite Ec in R.
  rewrite (last_loop_ok sub cap s Hs f (length t0) x y R) by (subst t; cbn [length] in *; lia).
  destruct (last_cut (length t0) sub y) as [[x' y']|]; injection E as <- <-; f_equal; zl; lia.
Qed.

(** Without self-overlap of [sub], it is the rightmost occurrence. *)
Lemma last_cut_rightmost k sub t a b : 0 < zlen sub -> (length t <= k)%nat -> no_overlap sub ->
  last_cut k sub t = Some (a, b) -> forall a' b', t = a' ++ sub ++ b' -> zlen a' <= zlen a.
Proof.
  intros Hs H N E a' b' E'. pose proof (last_cut_some _ _ _ _ _ E) as Et.
  pose proof (last_cut_rest _ _ _ _ _ Hs H E) as En.
  destruct (Z.le_gt_cases (zlen a') (zlen a)) as [|Hgt]; [assumption|exfalso].
  rewrite Et in E'. clear E Et H.
  (* a' = a ++ x *)
  destruct (split_at a' (zlen a)) as (p & x & Ea & Lp); [zlia|]. subst a'. rewrite <- app_assoc in E'.
  destruct (app_len_inj _ _ _ _ E') as [-> E2]; [lia|]. clear E' Lp. zl.
  assert (0 < zlen x) as Hx by lia. clear Hgt.
  destruct (Z.le_gt_cases (zlen sub) (zlen x)) as [Hle|Hlt].
  - destruct (split_at x (zlen sub)) as (p1 & y & Ex & Lp1); [zlia|]. subst x. rewrite <- app_assoc in E2.
    destruct (app_len_inj _ _ _ _ E2) as [-> E3]; [lia|]. apply cut_none with (a := y) (b := b') in En. now apply En.
  - destruct (split_at sub (zlen x)) as (u & v & Eu & Lu); [zlia|].
    assert (x = u /\ v ++ b = sub ++ b') as [<- Ev].
    { rewrite Eu in E2 at 1. rewrite <- app_assoc in E2. destruct (app_len_inj _ _ _ _ E2) as [? ?]; [lia|]. split; congruence. }
    destruct (split_at sub (zlen v)) as (v' & w & Ew & Lv); [apply (f_equal (@zlen _)) in Eu; zl; zlia|].
    rewrite Ew in Ev. rewrite <- app_assoc in Ev. destruct (app_len_inj _ _ _ _ Ev) as [<- _]; [lia|].
    destruct (N x v w Eu Ew) as [->| ->]; [|zl; lia].
    apply (f_equal (@zlen _)) in Eu. zl. lia.
Qed.
Lemma no_overlap_single c : no_overlap [c].
Proof.
  intros u v w E1 E2. destruct u as [|x u]; [now right|]. injection E1 as -> E1. symmetry in E1. apply app_eq_nil in E1. now left.
Qed.

Lemma replace_last_ok dbg t cap s sub rsub f a b : srep t cap s -> 0 < zlen sub -> 0 < zlen rsub -> oks rsub -> (length t < f)%nat ->
  last_cut (length t) sub t = Some (a, b) -> Z.max cap (zlen (a ++ rsub ++ b)) + 1 <= alloc_max ->
  exists s', str_replace_last dbg f s sub rsub = Ok s' /\ srep (a ++ rsub ++ b) (Z.max cap (zlen (a ++ rsub ++ b))) s'.
Proof.
  intros R Hs Hr O Hl E Hf. unfold str_replace_last.
  replace (is_nil sub || is_nil rsub) with false by (destruct sub; [zl; lia|]; destruct rsub; [zl; lia|]; reflexivity).
  rewrite (z_ok _ _ _ R). cbn [bind].
  destruct (last_ok_scan _ _ _ _ _ _ _ R Hs Hl E) as (i & Ei & El). rewrite Ei, El. cbn [bind].
  rewrite (last_cut_some _ _ _ _ _ E) in R. now apply replace_at_ok.
Qed.

(** * Stripping *)
Lemma drop_while_split f t : exists p, t = p ++ drop_while f t /\ forallb f p = true /\
  match drop_while f t with [] => True | c :: _ => f c = false end.
Proof.
  induction t as [|c t (p & E & F & H)]; cbn [drop_while].
  - exists []. repeat split.
  - destruct (f c) eqn:X.
    + exists (c :: p). cbn [app forallb]. rewrite X, F. now rewrite <- E.
    + exists []. now repeat split.
Qed.

Lemma strip_split f t : forallb f t = false ->
  exists p c m d q, t = p ++ (c :: m) ++ q /\ strip_text f t = c :: m /\ forallb f p = true /\ f c = false
    /\ forallb f q = true /\ (exists m', c :: m = m' ++ [d]) /\ f d = false.
Proof.
  intros H. unfold strip_text. destruct (drop_while_split f t) as (p & E & Fp & Hh).
  destruct (drop_while f t) as [|c u]; [rewrite app_nil_r in E; congruence|].
  destruct (drop_while_split f (rev (c :: u))) as (q & E2 & Fq & Hh2).
  destruct (drop_while f (rev (c :: u))) as [|d v].
  - exfalso. rewrite app_nil_r in E2. assert (forallb f (c :: u) = true) as X.
    { rewrite <- (rev_involutive (c :: u)), E2. rewrite forallb_forall in *. intros x Hx. apply Fq. now apply in_rev. }
    cbn [forallb] in X. rewrite Hh in X. discriminate.
  - assert (c :: u = rev (d :: v) ++ rev q) as E3.
    { rewrite <- (rev_involutive (c :: u)), E2. now rewrite rev_app_distr. }
    destruct (rev (d :: v)) as [|c' m] eqn:Er; [cbn [rev] in Er; destruct (rev v); discriminate|].
    injection E3 as <- E3.
    exists p, c, m, d, (rev q). rewrite E. repeat split; try assumption.
    + f_equal. cbn [app]. f_equal. exact E3.
    + rewrite forallb_forall in *. intros x Hx. apply Fq. now apply in_rev.
    + exists (rev v). rewrite <- Er. reflexivity.
Qed.

Lemma lead_loop_ok f s cap p d c r k : srep (d ++ p ++ c :: r) cap s -> forallb f p = true -> f c = false -> (length p < k)%nat ->
  lead_loop k f (sb s) (zlen d) = Ok (zlen d + zlen p).
Proof.
  revert d k; induction p as [|x p IH]; intros d k R Fp Fc Hk; (destruct k; cbn [length] in Hk; [lia|]); cbn [lead_loop app] in *.
  - rewrite (byte_mid _ _ _ _ _ R). cbn [bind]. rewrite Fc. f_equal. zl. lia.
  - rewrite (byte_mid _ _ _ _ _ R). cbn [bind forallb] in *. apply andb_true_iff in Fp as [Fx Fp]. rewrite Fx.
    replace (zlen d + 1) with (zlen (d ++ [x])) by (zl; lia). rewrite (IH (d ++ [x])); [|now rewrite <- app_assoc|assumption|assumption|lia].
    f_equal. zl. lia.
Qed.

Lemma tail_loop_ok f s cap p m d : forall q z k, srep (p ++ m ++ [d] ++ q ++ z) cap s -> forallb f q = true -> f d = false -> (length q < k)%nat ->
  tail_loop k f (sb s) (zlen p) (zlen m + 1 + zlen q) = Ok (zlen m + 1).
Proof.
  intros q. induction q as [|x q IH] using rev_ind; intros z k R Fq Fd Hk; (destruct k; [lia|]); cbn [tail_loop].
  - pose proof R as R'. destruct R' as [P O L C LE RM F V]. zl.
    rewrite (w64_small (zlen m + 1 + 0 + zlen p - 1)) by zlia.
    rewrite app_assoc in R. replace (zlen m + 1 + 0 + zlen p - 1) with (zlen (p ++ m)) by (zl; lia).
    rewrite (byte_mid (p ++ m) d z cap s) by assumption. cbn [bind]. rewrite Fd. f_equal. lia.
  - pose proof R as R'. destruct R' as [P O L C LE RM F V]. zl. rewrite app_length in Hk. cbn [length] in Hk.
    rewrite (w64_small (zlen m + 1 + (zlen q + (1 + 0)) + zlen p - 1)) by zlia.
    rewrite (w64_small (zlen m + 1 + (zlen q + (1 + 0)) - 1)) by zlia.
    replace (zlen m + 1 + (zlen q + (1 + 0)) + zlen p - 1) with (zlen (p ++ m ++ [d] ++ q)) by (zl; lia).
    rewrite (byte_mid (p ++ m ++ [d] ++ q) x z cap s) by (rewrite <- !app_assoc in *; assumption).
    cbn [bind]. rewrite forallb_app in Fq. cbn [forallb] in Fq. rewrite andb_true_r in Fq. apply andb_true_iff in Fq as [Fq Fx]. rewrite Fx.
    replace (zlen m + 1 + (zlen q + (1 + 0)) - 1) with (zlen m + 1 + zlen q) by lia.
    apply (IH ([x] ++ z)); [|assumption|assumption|lia]. now rewrite <- !app_assoc in R.
Qed.

Lemma strip_by_ok f g t cap s k : srep t cap s -> (forall c, f c = g c) -> forallb g t = false -> (length t < k)%nat ->
  exists s', strip_by k f s = Ok s' /\ srep (strip_text g t) cap s'.
Proof.
  intros R Hfg Hn Hk. destruct (strip_split g t Hn) as (p & c & m & d & q & Et & Es & Fp & Fc & Fq & (m' & Em) & Fd).
  rewrite Es. assert (forall l, forallb g l = true -> forallb f l = true) as Hl.
  { intros l. rewrite !forallb_forall. intros H x Hx. rewrite Hfg. now apply H. }
  pose proof R as R0. destruct R0 as [[qq P] O L C LE RM F V].
  unfold strip_by. subst t. rewrite !app_length in Hk.
  assert (length (c :: m) = S (length m')) as Lm by (rewrite Em, app_length; cbn [length]; lia).
  change 0 with (zlen (@nil Z)) at 1.
  rewrite (lead_loop_ok f s cap p [] c (m ++ q)); [|exact R|now apply Hl|now rewrite Hfg|lia].
  cbn [bind]. rewrite zlen_nil, Z.add_0_l. rewrite L. zl.
  assert (1 + zlen m = zlen m' + 1) as Lm' by (unfold zlen; cbn [length] in Lm; lia).
  rewrite (w64_small (zlen p + (1 + zlen m + zlen q) - zlen p)) by zlia.
  replace (zlen p + (1 + zlen m + zlen q) - zlen p) with (zlen m' + 1 + zlen q) by lia.
  rewrite (tail_loop_ok f s cap p m' d q []); [|rewrite app_nil_r; rewrite Em, <- app_assoc in R; exact R|now apply Hl|now rewrite Hfg|lia].
  cbn [bind].
  destruct (smove_ok (set_len s (zlen m' + 1)) 0 (zlen p) (zlen m' + 1)) as (b2 & E2 & Lb2 & Pb2 & _); unfold set_len; cbn [sb sv]; try zlia; try assumption.
  unfold set_len in *. cbn [sb sl sc sv ss] in *. rewrite E2. cbn [bind].
  change (Z.to_nat 0) with 0%nat in Pb2. cbn [firstn app] in Pb2.
  replace (firstn (Z.to_nat (zlen m' + 1)) (skipn (Z.to_nat (zlen p)) (sb s))) with (map (@Some Z) (c :: m)) in Pb2.
  2:{ rewrite P. unfold zblk. rewrite !map_app. rewrite <- !app_assoc. rewrite skipn_zlen by (zl; reflexivity).
      rewrite firstn_zlen by (zl; lia). reflexivity. }
  match goal with |- context [sput ?x _ _] =>
      destruct (term_ok (c :: m) cap x (zlen m' + 1)) as (s4 & E4 & R4 & _) end;
      cbn [sb sl sc sv ss]; zl; try zlia; try reflexivity; try assumption.
  - rewrite !oks_app in O. tauto.
  - eauto.
Qed.

Lemma space_white c : is_space c = white c.
Proof. unfold is_space, white, in_set. cbn [existsb]. lia. Qed.
Lemma punct_eq c : is_punct c = punct c.
Proof. unfold is_punct, punct, in_set. cbn [existsb]. lia. Qed.
Lemma numch_eq c : negb (is_digit c) && negb (c =? 46) = negb (numch c).
Proof. unfold is_digit, numch, in_set. cbn [existsb]. lia. Qed.

Lemma numeric_ok t cap s : srep t cap s -> str_is_numeric s = Ok (forallb numch t).
Proof.
  intros R. unfold str_is_numeric. rewrite (r_len _ _ _ R), to_nat_zlen.
  assert (forall rest d, srep (d ++ rest) cap s -> numeric_loop (length rest) (sb s) (zlen d) = Ok (forallb numch rest)) as H.
  { induction rest as [|x rest IH]; intros d Rd; cbn [length numeric_loop forallb]; [reflexivity|].
    rewrite (byte_mid _ _ _ _ _ Rd). cbn [bind]. rewrite numch_eq. destruct (numch x); cbn [negb andb]; [|reflexivity].
    replace (zlen d + 1) with (zlen (d ++ [x])) by (zl; lia). apply IH. now rewrite <- app_assoc. }
  exact (H t [] R).
Qed.
