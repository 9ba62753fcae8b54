(** Specifications and proofs for NumModel.v. *)
From Verif Require Import Base BaseFacts StrModel StrModel2 StrSpec StrProofs StrProofs2 NumModel.
From Coq Require Import Zquot.

(** Value of a decimal text, most significant digit first. *)
Fixpoint dval (acc : Z) (z : list Z) : Z :=
  match z with
  | [] => acc
  | c :: z' => dval (10 * acc + (c - 48)) z'
  end.
Definition digit (c : Z) : Prop := 48 <= c <= 57.
(** The digits of a number: no leading zero except for 0 itself. *)
Definition decimal (n : Z) (z : list Z) : Prop :=
  Forall digit z /\ z <> [] /\ dval 0 z = n /\ (hd 48 z = 48 -> z = [48]).

Lemma dval_app z z' acc : dval acc (z ++ z') = dval (dval acc z) z'.
Proof. revert acc. induction z as [|c z IH]; intros acc; [reflexivity|]. apply IH. Qed.

Lemma dec_loop_app k n acc : dec_loop k n acc = dec_loop k n [] ++ acc.
Proof.
  revert n acc. induction k as [|k IH]; intros n acc; cbn [dec_loop]; [reflexivity|].
  destruct (n / 10 =? 0); [reflexivity|]. rewrite IH, (IH _ [_]), <- app_assoc. reflexivity.
Qed.

Lemma dec_loop_ok k : forall n, 0 <= n < 10 ^ Z.of_nat (S k) -> decimal n (dec_loop (S k) n []).
Proof.
  induction k as [|k IH]; intros n H.
  - change (Z.of_nat 1) with 1 in H. rewrite Z.pow_1_r in H. cbn [dec_loop].
    replace (n / 10 =? 0) with true by (symmetry; apply Z.eqb_eq; lia). unfold decimal, digit. cbn [dval hd].
    rewrite Z.mod_small by lia. repeat split; [|discriminate|lia|].
    + repeat constructor; lia.
    + now intros ->.
  - assert (0 <= n / 10 < 10 ^ Z.of_nat (S k)) as Hq.
    { rewrite Nat2Z.inj_succ, Z.pow_succ_r in H by lia. split; [apply Z.div_pos; lia|]. apply Z.div_lt_upper_bound; lia. }
    change (dec_loop (S (S k)) n []) with (if n / 10 =? 0 then [48 + n mod 10] else dec_loop (S k) (n / 10) [48 + n mod 10]).
    destruct (Z.eqb_spec (n / 10) 0) as [E|E].
    + assert (n mod 10 = n) as -> by lia. unfold decimal, digit. cbn [dval hd].
      repeat split; [|discriminate|lia|]; [repeat constructor; lia|now intros ->].
    + rewrite dec_loop_app. destruct (IH _ Hq) as (D1 & D2 & D3 & D4). repeat split.
      * apply Forall_app. split; [assumption|]. repeat constructor; unfold digit; lia.
      * intros X. apply app_eq_nil in X. now destruct X.
      * rewrite dval_app, D3. cbn [dval]. lia.
      * destruct (dec_loop (S k) (n / 10) []) as [|c l] eqn:X; [congruence|]. cbn [hd app] in *. intros ->.
        specialize (D4 eq_refl). injection D4 as ->. exfalso. cbn [dval] in D3. lia.
Qed.

Lemma fmt_ok v : 0 <= v < two64 -> decimal v (fmt_int v).
Proof.
  intros H. unfold fmt_int. replace (v <? 0) with false by lia. apply dec_loop_ok.
  change (10 ^ Z.of_nat 20) with 100000000000000000000. unfold two64 in H. lia.
Qed.

Lemma dval_mono z : Forall digit z -> forall acc, 0 <= acc -> acc <= dval acc z.
Proof.
  induction 1 as [|c z D F IH]; intros acc Ha; cbn [dval]; [lia|]. unfold digit in D.
  transitivity (10 * acc + (c - 48)); [lia|apply IH; lia].
Qed.
Lemma digit_run_ok z : Forall digit z -> forall acc, digit_run z acc = dval acc z.
Proof.
  induction 1 as [|c z D F IH]; intros acc; [reflexivity|]. cbn [digit_run dval]. unfold digit in D.
  replace (is_digit c) with true by (unfold is_digit; lia). apply IH.
Qed.
Lemma strto_digits z : Forall digit z -> strto z = (dval 0 z, false).
Proof.
  intros F. unfold strto. destruct z as [|c z]; [reflexivity|]. cbn [skip_space].
  assert (48 <= c <= 57) as D by (inversion F; assumption).
  replace (is_space c) with false by (unfold is_space; lia).
  rewrite <- (digit_run_ok _ F).
  assert (c = 48 \/ c = 49 \/ c = 50 \/ c = 51 \/ c = 52 \/ c = 53 \/ c = 54 \/ c = 55 \/ c = 56 \/ c = 57) as X by lia.
  repeat (destruct X as [->|X]; [reflexivity|]). now subst.
Qed.

Lemma numeric_loop_ok z : forall d q, numeric_loop (length z) (map Some (d ++ z) ++ q) (zlen d) = Ok (forallb numch z).
Proof.
  induction z as [|c z IH]; intros d q; [reflexivity|]. cbn [length numeric_loop].
  rewrite map_app. cbn [map]. rewrite <- app_assoc. cbn [app]. rewrite bbyte_app by (autorewrite with zlen; lia). cbn [bind].
  rewrite numch_eq. cbn [forallb]. destruct (numch c); cbn [negb andb]; [|reflexivity].
  specialize (IH (d ++ [c]) q). autorewrite with zlen in IH. rewrite <- IH. f_equal.
  rewrite !map_app. cbn [map]. rewrite <- !app_assoc. reflexivity.
Qed.
Lemma static_numeric z : str_is_numeric (str_create_static z) = Ok (forallb numch z).
Proof.
  unfold str_is_numeric, str_create_static, zblk. cbn [sl sb]. rewrite to_nat_zlen.
  apply (numeric_loop_ok z [] [Some 0]).
Qed.
Lemma digits_numeric z : Forall digit z -> forallb numch z = true.
Proof.
  induction 1 as [|c z D F IH]; [reflexivity|]. cbn [forallb]. rewrite IH, andb_true_r. unfold digit in D.
  unfold numch, in_set. cbn [existsb]. lia.
Qed.

Definition width (w : Z) : Prop := w = 8 \/ w = 16 \/ w = 32 \/ w = 64.
Lemma width_le w : width w -> 2 ^ w <= two64 /\ 0 < 2 ^ (w - 1) /\ 2 ^ w = 2 * 2 ^ (w - 1).
Proof. intros [->|[->|[->| ->]]]; vm_compute; repeat split; congruence. Qed.

(** Texts of digits. *)
Lemma str_to_u_digits w z : width w -> Forall digit z -> dval 0 z < 2 ^ w -> conv_str_to_u w z = Ok (dval 0 z).
Proof.
  intros W F H. destruct (width_le _ W) as (L1 & L2 & L3). unfold conv_str_to_u. rewrite static_numeric, digits_numeric by assumption.
  cbn [bind negb]. unfold strtoul. rewrite strto_digits by assumption.
  pose proof (dval_mono z F 0 ltac:(lia)). replace (two64 <=? dval 0 z) with false by lia.
  unfold to_unsigned. rewrite Z.mod_small by lia. reflexivity.
Qed.
Lemma str_to_i_digits w z : width w -> Forall digit z -> dval 0 z < 2 ^ (w - 1) -> conv_str_to_i w z = Ok (dval 0 z).
Proof.
  intros W F H. destruct (width_le _ W) as (L1 & L2 & L3). unfold conv_str_to_i. rewrite static_numeric, digits_numeric by assumption.
  cbn [bind negb]. unfold strtol. rewrite strto_digits by assumption.
  pose proof (dval_mono z F 0 ltac:(lia)). unfold two64 in L1. rewrite Z.min_r by lia.
  unfold to_signed. rewrite Z.mod_small by lia. replace (dval 0 z <? 2 ^ (w - 1)) with true by lia. reflexivity.
Qed.
(** Any number of digits: limited to 64 bits first, then reduced to the type. *)
Lemma str_to_u_any w z : Forall digit z -> conv_str_to_u w z = Ok (Z.min (dval 0 z) 18446744073709551615 mod 2 ^ w).
Proof.
  intros F. unfold conv_str_to_u. rewrite static_numeric, digits_numeric by assumption.
  cbn [bind negb]. unfold strtoul. rewrite strto_digits by assumption. unfold to_unsigned. do 2 f_equal.
  unfold two64. destruct (Z.leb_spec 18446744073709551616 (dval 0 z)); lia.
Qed.
Lemma str_to_i_any w z : width w -> Forall digit z ->
  exists r, conv_str_to_i w z = Ok r /\ - 2 ^ (w - 1) <= r < 2 ^ (w - 1) /\ r mod 2 ^ w = Z.min (dval 0 z) 9223372036854775807 mod 2 ^ w.
Proof.
  intros W F. destruct (width_le _ W) as (_ & L2 & L3). unfold conv_str_to_i. rewrite static_numeric, digits_numeric by assumption.
  cbn [bind negb]. unfold strtol. rewrite strto_digits by assumption. eexists. split; [reflexivity|].
  rewrite Z.min_comm. set (n := Z.min _ _). unfold to_signed.
  pose proof (Z.mod_pos_bound n (2 ^ w) ltac:(lia)) as B.
  destruct (Z.ltb_spec (n mod 2 ^ w) (2 ^ (w - 1))).
  - split; [lia|]. rewrite Z.mod_mod by lia. reflexivity.
  - split; [lia|]. replace (n mod 2 ^ w - 2 ^ w) with (n mod 2 ^ w + (-1) * 2 ^ w) by lia.
    rewrite Z.mod_add, Z.mod_mod by lia. reflexivity.
Qed.
(** Any other character (sign, letter, space) makes the text "not a number". *)
Lemma str_to_other w z : forallb numch z = false -> conv_str_to_u w z = Ok 0 /\ conv_str_to_i w z = Ok 0.
Proof. intros H. unfold conv_str_to_u, conv_str_to_i. rewrite static_numeric, H. split; reflexivity. Qed.

Lemma cstr_zblk z q : oks z -> cstr (zblk z ++ q) = Ok z.
Proof.
  unfold zblk. induction 1 as [|c z O F IH]; [reflexivity|]. cbn [map app cstr]. unfold okc in O.
  replace (c =? 0) with false by lia. cbn [app] in IH. rewrite IH. reflexivity.
Qed.
Lemma digits_oks z : Forall digit z -> oks z.
Proof. apply Forall_impl. unfold digit, okc. lia. Qed.

Lemma to_str_ok buf buf_len v : 0 <= v < two64 -> buf_len <= zlen buf -> zlen (fmt_int v) + 1 <= buf_len ->
  exists buf', conv_to_str buf buf_len v = Ok buf' /\ cstr buf' = Ok (fmt_int v) /\ zlen buf' = zlen buf /\
    skipn (length (fmt_int v) + 1) buf' = skipn (length (fmt_int v) + 1) buf.
Proof.
  intros H Hb Hl. unfold conv_to_str. rewrite enforce_true by lia. cbn [bind].
  set (z := fmt_int v) in *. pose proof (fmt_ok v H) as (D & _). fold z in D.
  pose proof (zlen_nonneg z). assert (zlen (zblk z) = zlen z + 1) as Lz by (unfold zblk; autorewrite with zlen; unfold zlen; cbn [length]; lia).
  unfold bwrite. replace (_ && _) with true by lia. cbn [bind]. rewrite enforce_true by lia. cbn [bind].
  change (Z.to_nat 0) with 0%nat. cbn [firstn app Nat.add]. eexists. split; [reflexivity|].
  assert (length (zblk z) = length z + 1)%nat as Lz' by (unfold zblk; rewrite app_length, map_length; reflexivity).
  split; [|split].
  - apply cstr_zblk. now apply digits_oks.
  - unfold zlen in *. rewrite app_length, skipn_length. lia.
  - rewrite Lz'. rewrite skipn_app. rewrite skipn_all2 by lia. rewrite Lz'. rewrite Nat.sub_diag. reflexivity.
Qed.
Lemma to_str_small buf buf_len v : buf_len <= zlen (fmt_int v) -> conv_to_str buf buf_len v = Abort.
Proof. intros H. unfold conv_to_str, enforce. replace (_ <=? buf_len) with false by lia. reflexivity. Qed.

Lemma unsigned_roundtrip w v buf buf_len : width w -> 0 <= v < 2 ^ w -> buf_len <= zlen buf ->
  exists z, decimal v z /\
    (zlen z + 1 <= buf_len ->
     exists buf', conv_to_str buf buf_len v = Ok buf' /\ cstr buf' = Ok z /\ conv_str_to_u w z = Ok v) /\
    (buf_len < zlen z + 1 -> conv_to_str buf buf_len v = Abort).
Proof.
  intros W H Hb. destruct (width_le _ W) as (L1 & L2 & L3). exists (fmt_int v).
  pose proof (fmt_ok v ltac:(lia)) as D. split; [assumption|]. destruct D as (D1 & D2 & D3 & D4). split.
  - intros Hl. destruct (to_str_ok buf buf_len v) as (b' & E1 & E2 & _); [lia|assumption|assumption|].
    exists b'. split; [exact E1|]. split; [exact E2|]. rewrite str_to_u_digits; [now rewrite D3|assumption|assumption|lia].
  - intros Hl. apply to_str_small. lia.
Qed.
Lemma signed_nonneg_roundtrip w v buf buf_len : width w -> 0 <= v < 2 ^ (w - 1) -> buf_len <= zlen buf ->
  zlen (fmt_int v) + 1 <= buf_len ->
  exists buf' z, conv_to_str buf buf_len v = Ok buf' /\ cstr buf' = Ok z /\ conv_str_to_i w z = Ok v.
Proof.
  intros W H Hb Hl. destruct (width_le _ W) as (L1 & L2 & L3).
  pose proof (fmt_ok v ltac:(lia)) as (D1 & D2 & D3 & D4).
  destruct (to_str_ok buf buf_len v) as (b' & E1 & E2 & _); [lia|assumption|assumption|].
  exists b', (fmt_int v). split; [exact E1|]. split; [exact E2|]. rewrite str_to_i_digits; [now rewrite D3|assumption|assumption|lia].
Qed.
Lemma fmt_int_sign v : - two64 < v < two64 ->
  exists z, fmt_int v = (if v <? 0 then [45] else []) ++ z /\ decimal (Z.abs v) z.
Proof.
  intros H. destruct (Z.ltb_spec v 0) as [N|N].
  - exists (fmt_int (- v)). split.
    + unfold fmt_int. rewrite (proj2 (Z.ltb_lt v 0) N), (proj2 (Z.ltb_ge (- v) 0)) by lia. reflexivity.
    + rewrite Z.abs_neq by lia. apply fmt_ok. lia.
  - exists (fmt_int v). split; [reflexivity|]. rewrite Z.abs_eq by lia. apply fmt_ok. lia.
Qed.

Lemma signed_text w v buf buf_len : width w -> - 2 ^ (w - 1) <= v < 2 ^ (w - 1) -> buf_len <= zlen buf ->
  exists z, decimal (Z.abs v) z /\
    let t := (if v <? 0 then [45] else []) ++ z in
    (zlen t + 1 <= buf_len -> exists buf', conv_to_str buf buf_len v = Ok buf' /\ cstr buf' = Ok t) /\
    (buf_len < zlen t + 1 -> conv_to_str buf buf_len v = Abort).
Proof.
  intros W R B. destruct (width_le w W) as (W1 & W2 & W3).
  destruct (fmt_int_sign v) as (z & E & D); [lia|].
  exists z. split; [exact D|]. cbv zeta. rewrite <- E. split.
  - intros L. unfold conv_to_str.
    rewrite enforce_true by lia. cbn [bind].
    assert (O : oks (fmt_int v)).
    { rewrite E. destruct D as (D & _). apply digits_oks in D.
      destruct (v <? 0); [|exact D]. cbn [app]. constructor; [unfold okc; lia|exact D]. }
    set (t := fmt_int v) in *. pose proof (zlen_nonneg t).
    assert (zlen (zblk t) = zlen t + 1) as Lz by (unfold zblk; autorewrite with zlen; unfold zlen; cbn [length]; lia).
    unfold bwrite. replace (_ && _) with true by lia. cbn [bind]. rewrite enforce_true by lia. cbn [bind].
    change (Z.to_nat 0) with 0%nat. cbn [firstn app Nat.add]. eexists. split; [reflexivity|]. now apply cstr_zblk.
  - intros L. apply to_str_small. lia.
Qed.

Lemma signed_negative_zero w v : v < 0 -> conv_str_to_i w (fmt_int v) = Ok 0.
Proof. intros H. apply str_to_other. unfold fmt_int. replace (v <? 0) with true by lia. reflexivity. Qed.

(** * Palindromes *)

(** Decimal digits, least significant first. *)
Fixpoint digits (k : nat) (n : Z) : list Z :=
  match k with
  | O => []
  | S k' => if n =? 0 then [] else n mod 10 :: digits k' (n / 10)
  end.
(** Value of a digit list, least significant first / most significant first. *)
Fixpoint vle (l : list Z) : Z := match l with [] => 0 | d :: l' => d + 10 * vle l' end.
Fixpoint vbe (acc : Z) (l : list Z) : Z := match l with [] => acc | d :: l' => vbe (10 * acc + d) l' end.

Lemma vbe_app l l' acc : vbe acc (l ++ l') = vbe (vbe acc l) l'.
Proof. revert acc. induction l as [|c l IH]; intros acc; [reflexivity|]. apply IH. Qed.
Lemma vle_rev l : vle (rev l) = vbe 0 l.
Proof.
  assert (forall l acc, vle (rev l) + acc * 10 ^ zlen l = vbe acc l) as G.
  { clear. induction l as [|d l IH]; intros acc; [unfold zlen; cbn; lia|]. cbn [rev vbe].
    rewrite <- IH. assert (forall x y, vle (x ++ [y]) = vle x + y * 10 ^ zlen x) as A.
    { clear. induction x as [|c x IH]; intros y; [unfold zlen; cbn [app vle length Z.of_nat]; lia|].
      cbn [app vle]. rewrite IH. autorewrite with zlen. rewrite Z.add_comm, Z.pow_add_r by (pose proof (zlen_nonneg x); lia). lia. }
    rewrite A. autorewrite with zlen. rewrite ?Z.add_1_l, ?Z.add_1_r, Z.pow_succ_r by apply zlen_nonneg. lia. }
  rewrite <- G. lia.
Qed.
Definition small (d : Z) : Prop := 0 <= d <= 9.
Lemma vle_inj l : forall l', Forall small l -> Forall small l' -> length l = length l' -> vle l = vle l' -> l = l'.
Proof.
  induction l as [|d l IH]; intros [|d' l'] F F' L E; try discriminate; [reflexivity|].
  inversion F; inversion F'; subst. cbn [vle length] in *. unfold small in *.
  assert (d = d') by lia. subst d'. f_equal. apply IH; try assumption; lia.
Qed.
Lemma vle_bound l : Forall small l -> 0 <= vle l < 10 ^ zlen l.
Proof.
  induction 1 as [|d l D F IH]; [unfold zlen; cbn; lia|]. cbn [vle]. autorewrite with zlen. unfold small in D.
  rewrite ?Z.add_1_l, ?Z.add_1_r, Z.pow_succ_r by apply zlen_nonneg. lia.
Qed.
Lemma digits_ok k : forall n, 0 <= n < 10 ^ Z.of_nat k -> Forall small (digits k n) /\ vle (digits k n) = n /\
  (length (digits k n) <= k)%nat /\ last (digits k n) 1 <> 0.
Proof.
  induction k as [|k IH]; intros n H; cbn [digits].
  - change (Z.of_nat 0) with 0 in H. rewrite Z.pow_0_r in H. cbn. repeat split; [constructor|lia|lia|lia].
  - destruct (Z.eqb_spec n 0) as [->|E]; [cbn; repeat split; [constructor|lia|lia]|].
    rewrite Nat2Z.inj_succ, Z.pow_succ_r in H by lia. destruct (IH (n / 10)) as (A & B & C & D).
    { split; [apply Z.div_pos; lia|apply Z.div_lt_upper_bound; lia]. }
    repeat split.
    + constructor; [unfold small; lia|assumption].
    + cbn [vle]. rewrite B. lia.
    + cbn [length]. lia.
    + destruct (digits k (n / 10)) as [|d l] eqn:X; [|exact D].
      cbn [vle] in B. cbn [last]. lia.
Qed.
Lemma reverse_loop_ok k : forall n r acc, 0 <= n < 10 ^ Z.of_nat k -> r = w64 acc -> 0 <= acc ->
  reverse_loop (S k) n r = Ok (w64 (vbe acc (digits k n))).
Proof.
  induction k as [|k IH]; intros n r acc H -> Ha.
  - change (Z.of_nat 0) with 0 in H. rewrite Z.pow_0_r in H. cbn [reverse_loop digits vbe]. replace (n <=? 0) with true by lia. reflexivity.
  - cbn [digits]. change (reverse_loop (S (S k)) n (w64 acc)) with
      (if n <=? 0 then Ok (w64 acc) else reverse_loop (S k) (n / 10) (w64 (w64 (w64 acc * 10) + n mod 10))).
    destruct (Z.eqb_spec n 0) as [->|E]; [reflexivity|]. replace (n <=? 0) with false by lia.
    rewrite Nat2Z.inj_succ, Z.pow_succ_r in H by lia. cbn [vbe]. apply IH; [| |lia].
    + split; [apply Z.div_pos; lia|apply Z.div_lt_upper_bound; lia].
    + unfold w64. rewrite Z.mul_mod_idemp_l, Z.add_mod_idemp_l by discriminate. f_equal. lia.
Qed.

Lemma vle_snoc x y : vle (x ++ [y]) = vle x + y * 10 ^ zlen x.
Proof.
  induction x as [|c x IH]; [unfold zlen; cbn [app vle length Z.of_nat]; lia|].
  cbn [app vle]. rewrite IH. autorewrite with zlen. rewrite ?Z.add_1_l, ?Z.add_1_r, Z.pow_succ_r by apply zlen_nonneg. lia.
Qed.

(** A reversal of 20 digits never wraps round to the number itself. *)
Lemma no_false_wrap l n : Forall small l -> vle l = n -> 0 <= n < two64 -> last l 1 <> 0 -> zlen l <= 20 ->
  w64 (vle (rev l)) = n -> vle (rev l) = n.
Proof.
  intros F V H L K W. unfold w64 in W.
  assert (Forall small (rev l)) as Fr by now apply Forall_rev.
  pose proof (vle_bound _ Fr) as B. assert (zlen (rev l) = zlen l) as Lr by (unfold zlen; now rewrite rev_length). rewrite Lr in B.
  destruct (Z_le_gt_dec (zlen l) 19) as [S|S].
  - rewrite Z.mod_small in W; [assumption|]. split; [lia|]. apply Z.lt_le_trans with (10 ^ zlen l); [lia|].
    transitivity (10 ^ 19); [apply Z.pow_le_mono_r; lia|]. unfold two64. vm_compute. discriminate.
  - assert (zlen l = 20) as E by lia. clear S K.
    destruct l as [|d l]; [unfold zlen in E; cbn in E; lia|].
    assert (l <> []) as Hl by (intros ->; unfold zlen in E; cbn in E; lia).
    rewrite (app_removelast_last 0 Hl) in *. set (m := removelast l) in *. set (e := last l 0) in *. clearbody m e. clear Hl l.
    assert (zlen m = 18) as Lm by (autorewrite with zlen in E; lia).
    assert (e <> 0) as He. { intros ->. apply L. change (d :: m ++ [0]) with ((d :: m) ++ [0]). now rewrite last_last. }
    inversion F as [|? ? Sd F1]; subst. apply Forall_app in F1 as [F1 F2]. inversion F2 as [|? ? Se _]; subst. unfold small in Sd, Se.
    assert (vle (rev (d :: m ++ [e])) = e + 10 * vle (rev m) + d * 10 ^ 19) as E1.
    { cbn [rev]. rewrite rev_app_distr. cbn [rev app vle]. rewrite vle_snoc, zlen_rev, Lm. change (10 ^ 19) with (10 * 10 ^ 18). lia. }
    assert (vle (d :: m ++ [e]) = d + 10 * vle m + e * 10 ^ 19) as E2.
    { cbn [vle]. rewrite vle_snoc, Lm. change (10 ^ 19) with (10 * 10 ^ 18). lia. }
    pose proof (vle_bound m F1) as Bm. rewrite Lm in Bm.
    assert (Forall small (rev m)) as Fm by now apply Forall_rev.
    pose proof (vle_bound _ Fm) as Bm'. replace (zlen (rev m)) with 18 in Bm' by (unfold zlen in *; rewrite rev_length; lia).
    rewrite E1 in *. rewrite E2 in *. unfold two64 in *.
    change (10 ^ 19) with 10000000000000000000 in *. change (10 ^ 18) with 1000000000000000000 in *.
    clear - H W Sd Se He Bm Bm'. set (a := vle (rev m)) in *. set (b := vle m) in *. clearbody a b.
    pose proof (Z.div_mod (e + 10 * a + d * 10000000000000000000) 18446744073709551616 ltac:(lia)) as DM.
    set (j := (e + 10 * a + d * 10000000000000000000) / 18446744073709551616) in *. clearbody j. rewrite W in DM. clear W.
    assert (e = 1) by lia. subst e. assert (0 <= j <= 5) as J by lia.
    assert (j = 0 \/ j = 1 \/ j = 2 \/ j = 3 \/ j = 4 \/ j = 5) as X by lia.
    destruct X as [->|[->|[->|[->|[->| ->]]]]]; lia.
Qed.

Lemma palindrome_ok n : 0 <= n < two64 ->
  exists b, is_palindrome n = Ok b /\ (b = true <-> digits 20 n = rev (digits 20 n)).
Proof.
  intros H. assert (0 <= n < 10 ^ Z.of_nat 20) as H' by (change (10 ^ Z.of_nat 20) with 100000000000000000000; unfold two64 in H; lia).
  unfold is_palindrome. rewrite (reverse_loop_ok 20 n 0 0) by (try reflexivity; assumption). cbn [bind]. eexists. split; [reflexivity|].
  destruct (digits_ok 20 n H') as (F & V & L & Hl). set (l := digits 20 n) in *. rewrite <- vle_rev. rewrite Z.eqb_eq. split.
  - intros E. assert (vle (rev l) = n) as E'. { apply (no_false_wrap l n); try assumption. unfold zlen. lia. }
    apply vle_inj; try assumption; [now apply Forall_rev|now rewrite rev_length|congruence].
  - intros E. rewrite <- E, V. apply w64_small. lia.
Qed.

(** * gcd and lcm *)
Lemma gcd_rem a b : b <> 0 -> Z.gcd a b = Z.gcd b (Z.rem a b).
Proof.
  intros H. rewrite (Z.quot_rem' a b) at 1. rewrite Z.gcd_comm, Z.add_comm, Z.mul_comm. apply Z.gcd_add_mult_diag_r.
Qed.
Lemma rem_halves l r : 0 < r < l -> 2 * Z.rem l r < l.
Proof.
  intros H. destruct (Z_le_gt_dec (2 * r) l) as [C|C]; [pose proof (Z.rem_bound_pos l r); lia|].
  rewrite <- (Z.rem_unique l r 1 (l - r)); lia.
Qed.
Lemma gcd_loop_ok k : forall h l, l <> 0 -> Z.abs l < 2 ^ Z.of_nat k -> in_i64 h = true -> in_i64 l = true ->
  ~ (h = int64_min /\ l = -1) -> ~ (l = int64_min /\ h = -1) ->
  exists g, gcd_loop (2 * k + 2) h l = Ok g /\ Z.abs g = Z.gcd h l.
Proof.
  induction k as [|k IH]; intros h l Hl Hb Ih Il Hm1 Hm2.
  - change (Z.of_nat 0) with 0 in Hb. rewrite Z.pow_0_r in Hb. lia.
  - replace (2 * S k + 2)%nat with (S (S (2 * k + 2))) by lia. cbn [gcd_loop].
    unfold in_i64, int64_min, int64_max in *.
    unfold c_rem at 1. replace (_ || _) with false by (unfold int64_min; lia). cbn [bind].
    destruct (Z.eqb_spec (Z.rem h l) 0) as [E|E].
    { exists l. split; [reflexivity|]. rewrite gcd_rem by assumption. rewrite E, Z.gcd_0_r. reflexivity. }
    pose proof (Z.rem_bound_abs h l Hl) as B. set (r := Z.rem h l) in *.
    assert (Z.abs r <= Z.abs h) as B'.
    { pose proof (Z.quot_rem' h l). unfold r. pose proof (Z.rem_le (Z.abs h) (Z.abs l) ltac:(lia) ltac:(lia)) as X.
      rewrite Z.rem_abs in X by assumption. lia. }
    assert (~ (l = -9223372036854775808 /\ r = -1)) as N.
    { intros [-> Er]. assert (h = -1); [|lia]. unfold r in Er.
      assert (h = -9223372036854775808 \/ Z.abs h < 9223372036854775808) as [->|X] by lia; [vm_compute in Er; discriminate|].
      pose proof (Z.quot_rem' h (-9223372036854775808)).
      assert (Z.quot h (-9223372036854775808) = 0) as Q; [|rewrite Q in *; lia].
      apply Z.quot_small_iff; lia. }
    unfold c_rem at 1. replace (_ || _) with false by (unfold int64_min; lia). cbn [bind].
    rewrite (gcd_rem h l Hl). fold r. rewrite (gcd_rem l r E). set (q := Z.rem l r) in *.
    destruct (Z.eqb_spec q 0) as [E2|E2].
    { exists r. split; [reflexivity|]. rewrite E2, Z.gcd_0_r. reflexivity. }
    pose proof (Z.rem_bound_abs l r E) as B2. fold q in B2.
    assert (2 * Z.abs q < Z.abs l) as B3.
    { unfold q. rewrite <- (Z.rem_abs l r E). apply rem_halves. clear - B E. lia. }
    rewrite Nat2Z.inj_succ, Z.pow_succ_r in Hb by lia.
    apply IH; try lia.
Qed.

Lemma math_gcd_ok a b : in_i64 a = true -> in_i64 b = true -> a <> 0 -> b <> 0 ->
  ~ (a = int64_min /\ b = -1) -> ~ (b = int64_min /\ a = -1) ->
  exists g, math_gcd a b = Ok g /\ Z.abs g = Z.gcd a b.
Proof.
  intros Ia Ib Ha Hb N1 N2. unfold math_gcd.
  assert (forall z, in_i64 z = true -> Z.abs z < 2 ^ Z.of_nat 69) as S.
  { intros z I. unfold in_i64, int64_min, int64_max in I. change (2 ^ Z.of_nat 69) with 590295810358705651712. lia. }
  destruct (b <=? a).
  - apply (gcd_loop_ok 69); auto.
  - destruct (gcd_loop_ok 69 b a) as (g & E & G); auto. exists g. split; [exact E|]. now rewrite G, Z.gcd_comm.
Qed.
Lemma gcd_loop_pos k : forall h l g, 0 <= h -> 0 < l -> gcd_loop k h l = Ok g -> 0 < g.
Proof.
  induction k as [|k IH]; intros h l g Hh Hl E; [discriminate|]. cbn [gcd_loop] in E. unfold c_rem in E.
  destruct (_ || _); [discriminate|]. cbn [bind] in E. destruct (Z.eqb_spec (Z.rem h l) 0) as [Z0|Z0].
  - injection E as <-. exact Hl.
  - pose proof (Z.rem_nonneg h l). apply IH in E; lia.
Qed.
Lemma gcd_positive a b : 0 < a <= int64_max -> 0 < b <= int64_max -> math_gcd a b = Ok (Z.gcd a b).
Proof.
  intros Ha Hb. unfold int64_max in *. destruct (math_gcd_ok a b) as (g & E & G); try (unfold in_i64, int64_min, int64_max; lia).
  rewrite E. f_equal. assert (0 < g); [|lia]. unfold math_gcd in E. destruct (b <=? a); apply gcd_loop_pos in E; lia.
Qed.
Lemma lcm_positive a b : 0 < a <= int64_max -> 0 < b <= int64_max ->
  math_lcm a b = if Z.lcm a b <=? int64_max then Ok (Z.lcm a b) else UB.
Proof.
  intros Ha Hb. unfold math_lcm. rewrite gcd_positive by assumption. cbn [bind]. unfold int64_max in *.
  pose proof (Z.gcd_nonneg a b). assert (Z.gcd a b <> 0) as G by (intros X; apply Z.gcd_eq_0_l in X; lia).
  unfold c_quot. replace (_ || _) with false by (unfold int64_min; lia). cbn [bind]. unfold c_mul.
  assert (Z.quot a (Z.gcd a b) * b = Z.lcm a b) as ->.
  { rewrite Z.quot_div_nonneg by lia. unfold Z.lcm.
    rewrite Z.abs_eq. 2:{ apply Z.mul_nonneg_nonneg; [lia|]. apply Z.div_pos; lia. }
    destruct (Z.gcd_divide_l a b) as [x Ex]. destruct (Z.gcd_divide_r a b) as [y Ey]. set (g := Z.gcd a b) in *.
    assert (a / g = x) as -> by (rewrite Ex; now apply Z.div_mul). assert (b / g = y) as -> by (rewrite Ey; now apply Z.div_mul).
    rewrite Ex, Ey. lia. }
  pose proof (Z.lcm_nonneg a b). unfold in_i64, int64_min, int64_max.
  destruct (Z.leb_spec (Z.lcm a b) 9223372036854775807).
  - now replace (_ && _) with true by lia.
  - now replace (_ && _) with false by lia.
Qed.
Lemma gcd_zero_ub b : 0 <= b -> math_gcd 0 b = UB /\ math_gcd b 0 = UB.
Proof.
  intros H. unfold math_gcd. destruct (Z.leb_spec b 0).
  - assert (b = 0) by lia. subst. split; reflexivity.
  - replace (0 <=? b) with true by lia. split; reflexivity.
Qed.

(** * Random numbers *)
Lemma random_range st now : (match st with Some t => 0 <= t < 4294967295 | None => True end) ->
  exists t, fst (random_u64 st now) = Some t /\ 0 <= t < 4294967295 /\ 0 <= snd (random_u64 st now) < 32768.
Proof.
  intros H. unfold random_u64. eexists. split; [reflexivity|].
  match goal with |- context [Z.land ?t] => set (x := t) end. assert (0 <= x < 4294967295) by (apply Z.mod_pos_bound; lia).
  split; [assumption|]. cbn [snd]. rewrite Z.shiftr_div_pow2 by lia. change (2 ^ 15) with 32768.
  assert (0 <= Z.land x 1073709056 <= 1073709056) as B.
  { split; [apply Z.land_nonneg; lia|]. clearbody x. 
    assert (Z.land x 1073709056 = Z.land (Z.land x 1073709056) (Z.ones 30)) as ->.
    { rewrite <- Z.land_assoc. f_equal. }
    rewrite Z.land_ones by lia. pose proof (Z.mod_pos_bound (Z.land x 1073709056) (2 ^ 30) ltac:(lia)).
    change (2 ^ 30) with 1073741824 in *.
    set (y := Z.land x 1073709056) in *. assert (y mod 32768 = 0).
    { unfold y. change 32768 with (2 ^ 15). rewrite <- Z.land_ones by lia. rewrite <- Z.land_assoc.
      change (Z.land 1073709056 (Z.ones 15)) with 0. apply Z.land_0_r. }
    lia. }
  lia.
Qed.
Lemma random_run_range nows : forall st, (match st with Some t => 0 <= t < 4294967295 | None => True end) ->
  Forall (fun r => 0 <= r < 32768) (random_run st nows).
Proof.
  induction nows as [|now nows IH]; intros st H; [constructor|]. cbn [random_run].
  destruct (random_range st now H) as (t & E1 & E2 & E3). destruct (random_u64 st now) as [st' r]. cbn [fst snd] in *.
  constructor; [assumption|]. apply IH. now rewrite E1.
Qed.
(** Only the clock value of the first call matters. *)
Lemma random_run_seed nows : forall t nows', length nows = length nows' -> random_run (Some t) nows = random_run (Some t) nows'.
Proof.
  induction nows as [|n nows IH]; intros t [|n' nows'] L; try discriminate; [reflexivity|]. cbn [random_run].
  unfold random_u64. f_equal. apply IH. now injection L.
Qed.
Lemma random_first n nows nows' : length nows = length nows' -> random_run None (n :: nows) = random_run None (n :: nows').
Proof. intros L. cbn [random_run]. unfold random_u64. f_equal. now apply random_run_seed. Qed.
