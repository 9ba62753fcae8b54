(** The cost of appending: reallocations and what they move. *)
From Verif Require Import Base BaseFacts VecModel VecSpec VecProofs StrModel StrModel2 StrSpec StrProofs PlistModel PlistSpec PlistProofs.
From Coq Require Import ZifyBool ZifyNat.

(** Appending texts one by one, with the number of changes of the capacity (each is a
    reallocation) and the bytes held by the string when they happen. *)
Fixpoint append_all (dbg : bool) (s : str) (zs : list text) : res (str * Z * Z) :=
  match zs with
  | [] => Ok (s, 0, 0)
  | z :: zs' =>
      let* s' := str_append dbg s z in
      let* r := append_all dbg s' zs' in
      let '(w, reallocs, moved) := r in
      if str_capacity s' =? str_capacity s then Ok (w, reallocs, moved) else Ok (w, reallocs + 1, moved + (str_len s + 1))
  end.
(** The same for pushing pointers to a list; moved: pointers. *)
Fixpoint lpush_all (dbg : bool) (p : plist) (xs : list Z) : res (plist * Z * Z) :=
  match xs with
  | [] => Ok (p, 0, 0)
  | x :: xs' =>
      let* p' := plist_push_back dbg p x in
      let* r := lpush_all dbg p' xs' in
      let '(w, reallocs, moved) := r in
      if plist_capacity p' =? plist_capacity p then Ok (w, reallocs, moved) else Ok (w, reallocs + 1, moved + plist_len p)
  end.
(** The bytes held before each of the appends. *)
Fixpoint held (n : Z) (zs : list text) : Z :=
  match zs with [] => 0 | z :: zs' => (n + 1) + held (n + zlen z) zs' end.

Definition okappend (z : text) : Prop := oks z /\ 0 < zlen z.
Lemma append_all_full dbg : forall zs t s, srep t (zlen t) s -> Forall okappend zs -> zlen (t ++ concat zs) + 1 <= alloc_max ->
  exists w, append_all dbg s zs = Ok (w, zlen zs, held (zlen t) zs) /\ srep (t ++ concat zs) (zlen (t ++ concat zs)) w.
Proof.
  induction zs as [|z zs IH]; intros t s R F M; cbn [append_all concat held].
  { rewrite app_nil_r. exists s. split; [reflexivity|exact R]. }
  inversion F as [|? ? [O P] F']; subst. cbn [concat] in M. pose proof (zlen_nonneg (concat zs)).
  destruct (append_ok dbg t (zlen t) s z R O P) as (s1 & E1 & R1); [zl; lia|]. rewrite E1. cbn [bind].
  pose proof (zlen_nonneg t). replace (Z.max (zlen t) (zlen t + zlen z)) with (zlen (t ++ z)) in R1 by (zl; lia).
  destruct (IH (t ++ z) s1 R1 F') as (w & E2 & R2); [rewrite <- app_assoc; exact M|]. rewrite E2. cbn [bind].
  unfold str_capacity, str_len. rewrite (r_cap _ _ _ R1), (r_cap _ _ _ R), (r_len _ _ _ R).
  replace (zlen (t ++ z) =? zlen t) with false by (zl; lia). exists w. split; [|rewrite app_assoc; exact R2].
  rewrite zlen_cons, (zlen_app t z). f_equal. f_equal; [f_equal|]; lia.
Qed.
Lemma append_all_room dbg : forall zs t cap s, srep t cap s -> Forall okappend zs -> zlen (t ++ concat zs) <= cap ->
  exists w, append_all dbg s zs = Ok (w, 0, 0) /\ srep (t ++ concat zs) cap w.
Proof.
  induction zs as [|z zs IH]; intros t cap s R F M; cbn [append_all concat].
  { rewrite app_nil_r. exists s. split; [reflexivity|exact R]. }
  inversion F as [|? ? [O P] F']; subst. cbn [concat] in M. pose proof (zlen_nonneg (concat zs)). pose proof (r_fit _ _ _ R).
  destruct (append_ok dbg t cap s z R O P) as (s1 & E1 & R1); [zl; lia|]. rewrite E1. cbn [bind].
  replace (Z.max cap (zlen t + zlen z)) with cap in R1 by (zl; lia).
  destruct (IH (t ++ z) cap s1 R1 F') as (w & E2 & R2); [rewrite <- app_assoc; exact M|]. rewrite E2. cbn [bind].
  unfold str_capacity. rewrite (r_cap _ _ _ R1), (r_cap _ _ _ R), Z.eqb_refl. exists w. split; [reflexivity|rewrite app_assoc; exact R2].
Qed.
Lemma held_repeat c : forall k n, 2 * held n (repeat [c] k) = Z.of_nat k * (2 * n + Z.of_nat k + 1).
Proof. induction k as [|k IH]; intros n; cbn [repeat held]; [lia|]. specialize (IH (n + zlen [c])). rewrite Z.mul_add_distr_l, IH. change (zlen [c]) with 1. nia. Qed.
Lemma concat_single (c : Z) k : concat (repeat [c] k) = repeat c k.
Proof. induction k as [|k IH]; cbn [repeat concat app]; [reflexivity|]. now rewrite IH. Qed.

Lemma append_quadratic dbg c : 0 < c -> 2 * c + 2 <= alloc_max ->
  exists s zs w moved, str_create dbg [97] = Ok s /\ zlen zs = 2 * c /\ Forall (fun z => zlen z = 1) zs /\
    append_all dbg s zs = Ok (w, 2 * c, moved) /\ c * zlen zs < moved.
Proof.
  intros Hc Hm. assert (O : oks [97]) by (repeat constructor; unfold okc; lia).
  destruct (create_ok dbg [97] O) as (s & E & R); [reflexivity|vm_compute; congruence|].
  set (zs := repeat [98] (Z.to_nat (2 * c))).
  assert (Lz : zlen zs = 2 * c) by (unfold zs; rewrite zlen_repeat; lia).
  destruct (append_all_full dbg zs [97] s R) as (w & E2 & _).
  - unfold zs. apply Forall_forall. intros x Hx. apply repeat_spec in Hx. subst x. split; [repeat constructor; unfold okc; lia|reflexivity].
  - unfold zs. rewrite concat_single. rewrite zlen_app, zlen_repeat. change (zlen [97]) with 1. lia.
  - exists s, zs, w, (held 1 zs). split; [exact E|]. split; [exact Lz|]. split.
    { unfold zs. apply Forall_forall. intros x Hx. apply repeat_spec in Hx. subst x. reflexivity. }
    rewrite Lz in E2. split; [exact E2|]. rewrite Lz. pose proof (held_repeat 98 (Z.to_nat (2 * c)) 1) as H. fold zs in H. rewrite Z2Nat.id in H by lia. nia.
Qed.

(** * Pointer lists *)
Lemma lpush_all_cost dbg n : forall ds xs cap p r m, prep xs cap p ->
  Forall (fun x => x <> 0) ds -> (zlen xs + zlen ds) * 3 * 8 <= alloc_max ->
  0 < n -> cap = n * 3 ^ r -> 0 <= r -> 2 * m = cap - n -> (r = 0 \/ cap < 3 * zlen xs) ->
  exists w r' m' cap', lpush_all dbg p ds = Ok (w, r' - r, m' - m) /\ prep (xs ++ ds) cap' w /\
    cap' = n * 3 ^ r' /\ r <= r' /\ 2 * m' = cap' - n /\ (r' = 0 \/ cap' < 3 * zlen (xs ++ ds)).
Proof.
  induction ds as [|d ds IH]; intros xs cap p r m H Hu Hmax Hn Hcap Hr Hm Hinv; cbn [lpush_all].
  - exists p, r, m, cap. rewrite !Z.sub_diag, app_nil_r. auto 10 using Z.le_refl.
  - apply Forall_cons_iff in Hu as [Hd Hu']. pose proof H as [[tl Hb] Hl Hc Hs Hmx Hle Hcp]. pose proof (zlen_nonneg xs) as Hnn.
    rewrite zlen_cons in Hmax. pose proof (zlen_nonneg ds) as Hnd.
    assert (pgrown (zlen xs) cap * 8 <= alloc_max) as Hg.
    { unfold pgrown. destruct (Z.eqb_spec cap (zlen xs)); lia. }
    destruct (plist_push_back_rep dbg xs cap p d H Hd Hg) as (p' & -> & Hp' & _). cbn [bind].
    assert ((zlen (xs ++ [d]) + zlen ds) * 3 * 8 <= alloc_max) as Hmax' by (autorewrite with zlen; lia).
    unfold pgrown in Hp'. destruct (Z.eqb_spec cap (zlen xs)) as [E|E].
    + destruct (IH _ _ _ (r + 1) (m + cap) Hp' Hu' Hmax' Hn) as (w & r' & m' & cap' & -> & Hw & Hcap' & Hr' & Hm' & Hi').
      * rewrite Z.pow_add_r by lia. lia.
      * lia.
      * lia.
      * right. autorewrite with zlen. lia.
      * cbn [bind]. unfold plist_capacity, plist_len. rewrite Hl, Hc, (pr_cap _ _ _ Hp'). replace (cap * 3 =? cap) with false by lia.
        exists w, r', m', cap'. rewrite <- app_assoc in *. cbn [app] in *.
        split; [f_equal; f_equal; [f_equal|]; lia|]. split; [exact Hw|]. repeat split; auto. lia.
    + destruct (IH _ _ _ r m Hp' Hu' Hmax' Hn Hcap Hr Hm) as (w & r' & m' & cap' & -> & Hw & Hcap' & Hr' & Hm' & Hi').
      * destruct Hinv as [?|?]; [auto|right]. autorewrite with zlen. lia.
      * cbn [bind]. unfold plist_capacity. rewrite Hc, (pr_cap _ _ _ Hp'), Z.eqb_refl. exists w, r', m', cap'.
        rewrite <- app_assoc in *. cbn [app] in *. split; [reflexivity|]. split; [exact Hw|]. repeat split; auto.
Qed.
Lemma lpush_amortised dbg n xs p0 : 0 < n -> n * 8 <= alloc_max -> zlen xs * 24 <= alloc_max ->
  Forall (fun x => x <> 0) xs -> plist_create dbg n = Ok p0 ->
  exists w reallocs moved, lpush_all dbg p0 xs = Ok (w, reallocs, moved) /\ plist_len w = zlen xs /\
    (forall i x, 0 <= i -> nth_error xs (Z.to_nat i) = Some x -> plist_get dbg w i = Ok x) /\
    0 <= reallocs /\ (reallocs = 0 \/ n * 3 ^ reallocs < 3 * zlen xs) /\ 2 * moved <= 3 * zlen xs.
Proof.
  intros Hn Hm1 Hm2 Hx Hc. destruct (plist_create_rep dbg n Hn Hm1) as (p & Hp & H & _). rewrite Hc in Hp. injection Hp as <-.
  destruct (lpush_all_cost dbg n xs [] n p0 0 0 H Hx) as (w & r & m & cap & E & Hw & Hcap & Hr & Hm & Hi); try lia.
  { rewrite zlen_nil. lia. }
  rewrite !Z.sub_0_r in E. cbn [app] in *. exists w, r, m. split; [exact E|]. split; [exact (pr_len _ _ _ Hw)|]. split.
  { intros i x H0 Hnx. assert (0 <= i < zlen xs) as Hi'.
    { split; [lia|]. assert (Z.to_nat i < length xs)%nat as X by (apply nth_error_Some; congruence). unfold zlen. lia. }
    destruct (slot_get_rep xs cap w i Hw Hi') as (x' & Hx' & G). unfold plist_get. rewrite (pr_len _ _ _ Hw), dassert_true by lia. cbn [bind]. congruence. }
  split; [lia|]. pose proof (zlen_nonneg xs). destruct Hi as [->|Hi].
  - change (3 ^ 0) with 1 in *. split; [auto|]. lia.
  - split; [right; lia|]. lia.
Qed.
