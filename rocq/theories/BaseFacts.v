(** Lemmas about the base model. *)
From Verif Require Import Base.
From Coq Require Import ZifyBool ZifyNat.
Ltac Zify.zify_post_hook ::= Z.div_mod_to_equations.

#[global] Arguments Z.add : simpl never.
#[global] Arguments Z.sub : simpl never.
#[global] Arguments Z.mul : simpl never.
#[global] Arguments Z.opp : simpl never.
#[global] Arguments Z.of_nat : simpl never.
#[global] Arguments Z.to_nat : simpl never.

Lemma two64_val : two64 = 2 ^ 64. Proof. reflexivity. Qed.

Lemma w64_small z : 0 <= z < two64 -> w64 z = z.
Proof. intros H. unfold w64. apply Z.mod_small. exact H. Qed.

Lemma w64_range z : 0 <= w64 z < two64.
Proof. unfold w64, two64. apply Z.mod_pos_bound. lia. Qed.

Lemma zlen_nonneg {A} (l : list A) : 0 <= zlen l.
Proof. unfold zlen. lia. Qed.

Lemma zlen_app {A} (l k : list A) : zlen (l ++ k) = zlen l + zlen k.
Proof. unfold zlen. rewrite app_length. lia. Qed.

Lemma zlen_cons {A} (x : A) l : zlen (x :: l) = 1 + zlen l.
Proof. unfold zlen. cbn [length]. lia. Qed.

Lemma zlen_nil {A} : zlen (@nil A) = 0.
Proof. reflexivity. Qed.

Lemma zlen_map {A B} (f : A -> B) l : zlen (map f l) = zlen l.
Proof. unfold zlen. rewrite map_length. reflexivity. Qed.

Lemma zlen_repeat {A} (x : A) n : zlen (repeat x n) = Z.of_nat n.
Proof. unfold zlen. rewrite repeat_length. reflexivity. Qed.

Lemma zlen_firstn {A} n (l : list A) : zlen (firstn n l) = Z.min (Z.of_nat n) (zlen l).
Proof. unfold zlen. rewrite firstn_length. lia. Qed.

Lemma zlen_skipn {A} n (l : list A) : zlen (skipn n l) = Z.max 0 (zlen l - Z.of_nat n).
Proof. unfold zlen. rewrite skipn_length. lia. Qed.

Lemma zlen_rev {A} (l : list A) : zlen (rev l) = zlen l.
Proof. unfold zlen. rewrite rev_length. reflexivity. Qed.

Lemma to_nat_zlen {A} (l : list A) : Z.to_nat (zlen l) = length l.
Proof. unfold zlen. lia. Qed.

Lemma zlen_0 {A} (l : list A) : zlen l = 0 -> l = [].
Proof. destruct l; [reflexivity|rewrite zlen_cons; pose proof (zlen_nonneg l); lia]. Qed.

#[export] Hint Rewrite @zlen_app @zlen_cons @zlen_nil @zlen_map @zlen_repeat @zlen_firstn @zlen_skipn @zlen_rev : zlen.

Lemma firstn_exact {A} (p s : list A) : firstn (length p) (p ++ s) = p.
Proof. rewrite firstn_app, Nat.sub_diag, firstn_all. cbn. apply app_nil_r. Qed.

Lemma skipn_exact {A} (p s : list A) : skipn (length p) (p ++ s) = s.
Proof. rewrite skipn_app, Nat.sub_diag, skipn_all. reflexivity. Qed.

Lemma firstn_zlen {A} (p s : list A) z : z = zlen p -> firstn (Z.to_nat z) (p ++ s) = p.
Proof. intros ->. rewrite to_nat_zlen. apply firstn_exact. Qed.

Lemma skipn_zlen {A} (p s : list A) z : z = zlen p -> skipn (Z.to_nat z) (p ++ s) = s.
Proof. intros ->. rewrite to_nat_zlen. apply skipn_exact. Qed.

Lemma firstn_ge {A} n (l : list A) : (length l <= n)%nat -> firstn n l = l.
Proof. apply firstn_all2. Qed.

(** Splitting at a length. *)
Lemma split_at {A} (l : list A) z : 0 <= z <= zlen l ->
  exists p s, l = p ++ s /\ zlen p = z.
Proof.
  intros H. exists (firstn (Z.to_nat z) l), (skipn (Z.to_nat z) l).
  rewrite firstn_skipn. split; [reflexivity|]. rewrite zlen_firstn. lia.
Qed.

Lemma bread_app p m s off n :
  off = zlen p -> n = zlen m -> bread (p ++ m ++ s) off n = Ok m.
Proof.
  intros -> ->. unfold bread.
  autorewrite with zlen.
  pose proof (zlen_nonneg p); pose proof (zlen_nonneg m); pose proof (zlen_nonneg s).
  replace ((0 <=? zlen p) && (0 <=? zlen m) && (zlen p + zlen m <=? zlen p + (zlen m + zlen s)))
    with true by lia.
  rewrite !to_nat_zlen, skipn_exact, firstn_exact. reflexivity.
Qed.

Lemma bwrite_app p m s off d :
  off = zlen p -> zlen d = zlen m -> bwrite (p ++ m ++ s) off d = Ok (p ++ d ++ s).
Proof.
  intros -> Hd. unfold bwrite.
  autorewrite with zlen.
  pose proof (zlen_nonneg p); pose proof (zlen_nonneg m); pose proof (zlen_nonneg s).
  replace ((0 <=? zlen p) && (zlen p + zlen d <=? zlen p + (zlen m + zlen s)))
    with true by lia.
  assert (length d = length m) as Hl by (unfold zlen in Hd; lia).
  rewrite !to_nat_zlen, firstn_exact, Hl.
  do 3 f_equal. rewrite (app_assoc p m s), <- app_length. apply skipn_exact.
Qed.

Lemma bread_range b off n : 0 <= off -> 0 <= n -> off + n <= zlen b ->
  exists m, bread b off n = Ok m /\ zlen m = n.
Proof.
  intros H1 H2 H3. unfold bread.
  replace ((0 <=? off) && (0 <=? n) && (off + n <=? zlen b)) with true by lia.
  eexists; split; [reflexivity|]. rewrite zlen_firstn, zlen_skipn. lia.
Qed.

Lemma bwrite_range b off d : 0 <= off -> off + zlen d <= zlen b ->
  exists b', bwrite b off d = Ok b' /\ zlen b' = zlen b.
Proof.
  intros H1 H2. unfold bwrite.
  replace ((0 <=? off) && (off + zlen d <=? zlen b)) with true by lia.
  eexists; split; [reflexivity|]. pose proof (zlen_nonneg d).
  rewrite !zlen_app, zlen_firstn, zlen_skipn.
  unfold zlen in *. lia.
Qed.

Lemma bread_ub b off n : off < 0 \/ n < 0 \/ zlen b < off + n -> bread b off n = UB.
Proof.
  intros H. unfold bread.
  replace ((0 <=? off) && (0 <=? n) && (off + n <=? zlen b)) with false by lia. reflexivity.
Qed.

Lemma all_init_map t : all_init (map Some t) = Some t.
Proof. induction t as [|c t IH]; cbn; [reflexivity|]. rewrite IH. reflexivity. Qed.

Lemma bytes_eqb_spec a b : bytes_eqb a b = true <-> a = b.
Proof.
  revert b; induction a as [|x a IH]; destruct b as [|y b]; cbn; split; try discriminate; auto.
  - intros H. apply andb_true_iff in H as [H1 H2]. apply IH in H2. f_equal; [lia|assumption].
  - intros [= -> ->]. apply andb_true_iff. split; [lia|]. apply IH. reflexivity.
Qed.

Lemma memcmp_eq_map t d : memcmp_eq (map Some t) d = Ok (bytes_eqb t d).
Proof. unfold memcmp_eq. rewrite all_init_map. reflexivity. Qed.

(** A text without NUL. *)
Definition nonul (t : list Z) : Prop := Forall (fun c => c <> 0) t.

Lemma nonul_app a b : nonul (a ++ b) <-> nonul a /\ nonul b.
Proof. apply Forall_app. Qed.

Lemma cstr_app t r : nonul t -> cstr (map Some t ++ Some 0 :: r) = Ok t.
Proof.
  induction 1 as [|c t Hc Ht IH]; cbn; [reflexivity|].
  destruct (Z.eqb_spec c 0); [contradiction|]. rewrite IH. reflexivity.
Qed.

Lemma cstr_at_app p t r off : off = zlen p -> nonul t ->
  cstr_at (p ++ map Some t ++ Some 0 :: r) off = Ok t.
Proof.
  intros -> Ht. unfold cstr_at. autorewrite with zlen.
  pose proof (zlen_nonneg p); pose proof (zlen_nonneg t); pose proof (zlen_nonneg r).
  replace ((0 <=? zlen p) && (zlen p <=? zlen p + (zlen t + (1 + zlen r)))) with true by lia.
  rewrite to_nat_zlen, skipn_exact. apply cstr_app. exact Ht.
Qed.

Lemma bbyte_app p c s off : off = zlen p -> bbyte (p ++ Some c :: s) off = Ok c.
Proof.
  intros ->. unfold bbyte. autorewrite with zlen.
  pose proof (zlen_nonneg p); pose proof (zlen_nonneg s).
  replace ((0 <=? zlen p) && (zlen p <? zlen p + (1 + zlen s))) with true by lia.
  rewrite to_nat_zlen, nth_error_app2, Nat.sub_diag by lia. reflexivity.
Qed.

Lemma is_prefix_spec p l : is_prefix p l = true <-> exists s, l = p ++ s.
Proof.
  revert l; induction p as [|x p IH]; intros l; cbn.
  - split; [intros _; exists l; reflexivity|reflexivity].
  - destruct l as [|y l]; [split; [discriminate|intros [s Hs]; discriminate]|].
    rewrite andb_true_iff, IH. split.
    + intros [He [s ->]]. exists s. f_equal. lia.
    + intros [s [= -> ->]]. split; [lia|eauto].
Qed.

Lemma strstr_some l p i : strstr l p = Some i ->
  exists a b, l = a ++ p ++ b /\ zlen a = i /\
              (forall a' b', l = a' ++ p ++ b' -> zlen a <= zlen a').
Proof.
  revert i; induction l as [|c l IH]; intros i; cbn [strstr].
  - destruct (is_prefix p []) eqn:E; [|discriminate]. intros [= <-].
    apply is_prefix_spec in E as [s Hs]. exists [], s. repeat split; auto.
    intros. rewrite zlen_nil. apply zlen_nonneg.
  - destruct (is_prefix p (c :: l)) eqn:E.
    + intros [= <-]. apply is_prefix_spec in E as [s Hs]. exists [], s.
      repeat split; auto. intros. rewrite zlen_nil. apply zlen_nonneg.
    + destruct (strstr l p) as [j|] eqn:F; [|discriminate]. intros [= <-].
      destruct (IH j eq_refl) as (a & b & -> & Ha & Hmin).
      exists (c :: a), b. split; [reflexivity|]. split; [rewrite zlen_cons; lia|].
      intros a' b' H. destruct a' as [|c' a'].
      * cbn in H. exfalso.
        assert (is_prefix p (c :: a ++ p ++ b) = true) as X by (apply is_prefix_spec; eauto).
        congruence.
      * injection H as -> H. apply Hmin in H. rewrite !zlen_cons. lia.
Qed.

Lemma strstr_none l p : strstr l p = None -> forall a b, l <> a ++ p ++ b.
Proof.
  induction l as [|c l IH]; cbn [strstr]; intros H a b E.
  - destruct a; [|discriminate]. destruct p; [cbn in H; discriminate|discriminate].
  - destruct (is_prefix p (c :: l)) eqn:X; [discriminate|].
    destruct (strstr l p) eqn:F; [discriminate|].
    destruct a as [|c' a].
    + assert (is_prefix p (c :: l) = true) by (apply is_prefix_spec; exists b; exact E). congruence.
    + injection E as -> E. exact (IH eq_refl a b E).
Qed.

Lemma strstr_app_leftmost a p b :
  (forall a' b', a ++ p ++ b = a' ++ p ++ b' -> zlen a <= zlen a') ->
  strstr (a ++ p ++ b) p = Some (zlen a).
Proof.
  intros Hmin. destruct (strstr (a ++ p ++ b) p) as [i|] eqn:E.
  - apply strstr_some in E as (a' & b' & He & <- & Hm).
    f_equal. pose proof (Hmin _ _ He). pose proof (Hm a b eq_refl). lia.
  - exfalso. exact (strstr_none _ _ E a b eq_refl).
Qed.

Lemma memb_In c l : memb c l = true <-> In c l.
Proof.
  induction l as [|x l IH]; cbn; [split; [discriminate|tauto]|].
  rewrite orb_true_iff, IH. split; intros [H|H]; auto; left; lia.
Qed.

(** Inversion of [bind]. *)
Lemma bind_ok {A B} (r : res A) (k : A -> res B) b :
  bind r k = Ok b -> exists a, r = Ok a /\ k a = Ok b.
Proof. destruct r; cbn; try discriminate. eauto. Qed.

Lemma dassert_true dbg c : c = true -> dassert dbg c = Ok tt.
Proof. intros ->. unfold dassert. destruct dbg; reflexivity. Qed.

Lemma enforce_true c : c = true -> enforce c = Ok tt.
Proof. intros ->. reflexivity. Qed.

Lemma c_calloc_ok dbg n : 0 < n <= alloc_max ->
  c_calloc dbg n = Ok (repeat (Some 0) (Z.to_nat n)).
Proof.
  intros H. unfold c_calloc. rewrite dassert_true by lia. cbn [bind].
  replace (n <=? alloc_max) with true by lia. reflexivity.
Qed.

Lemma c_realloc_ok dbg b n : 0 < n <= alloc_max ->
  c_realloc dbg b n = Ok (firstn (Z.to_nat n) b ++ repeat None (Z.to_nat n - length b)%nat).
Proof.
  intros H. unfold c_realloc. rewrite dassert_true by lia. cbn [bind].
  replace (n =? 0) with false by lia.
  replace (n <=? alloc_max) with true by lia. reflexivity.
Qed.

(** Computes the conjuncts of an example from left to right. *)
Ltac run_steps :=
  match goal with
  | |- _ /\ _ => split; [vm_compute; first [reflexivity | discriminate] | run_steps]
  | _ => vm_compute; first [reflexivity | discriminate]
  end.
