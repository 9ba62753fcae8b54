(** What a text of an address means, written down without the functions of NetModel.v. *)
From Verif Require Import Base BaseFacts NumModel StrModel StrSpec NumProofs SockModel SockProofs NetModel NetProofs.

(** Value of a digit of a C number, 99 for other characters. *)
Definition cval (c : Z) : Z :=
  match c with
  | 48 => 0 | 49 => 1 | 50 => 2 | 51 => 3 | 52 => 4 | 53 => 5 | 54 => 6 | 55 => 7 | 56 => 8 | 57 => 9
  | 97 | 65 => 10 | 98 | 66 => 11 | 99 | 67 => 12 | 100 | 68 => 13 | 101 | 69 => 14 | 102 | 70 => 15
  | _ => 99
  end.
Definition in_base (base : Z) (z : list Z) : Prop := forall c, In c z -> cval c < base.
Definition value (base : Z) (z : list Z) : Z := fold_left (fun a c => base * a + cval c) z 0.
(** Decimal, octal after 0, hexadecimal after 0x. *)
Inductive number_text (v : Z) : list Z -> Prop :=
| nt_dec z : z <> [] -> hd 0 z <> 48 -> in_base 10 z -> v = value 10 z -> number_text v z
| nt_oct z : in_base 8 z -> v = value 8 z -> number_text v (48 :: z)
| nt_hex x z : x = 120 \/ x = 88 -> z <> [] -> in_base 16 z -> v = value 16 z -> number_text v (48 :: x :: z).
(** The bytes of the last number, most significant first. *)
Definition big_endian (v : Z) (bs : list Z) : Prop :=
  (forall b, In b bs -> 0 <= b < 256) /\ v = fold_left (fun a b => 256 * a + b) bs 0.
Inductive address_text : nat -> list Z -> list Z -> Prop :=
| at_last k v z tail bs : number_text v z -> List.length bs = S k -> big_endian v bs ->
    (tail = [] \/ exists c r, tail = c :: r /\ white c = true) -> address_text k (z ++ tail) bs
| at_dot k v z t bs : number_text v z -> v <= 255 -> address_text k t bs -> address_text (S k) (z ++ 46 :: t) (v :: bs).

Lemma cval_eq c : digit_val c = cval c.
Proof.
  assert (forallb (fun n => digit_val (Z.of_nat n) =? cval (Z.of_nat n)) (seq 0 128) = true) as H by (vm_compute; reflexivity).
  destruct (Z_lt_dec c 0) as [L|L].
  - destruct c; try lia. cbn [cval]. unfold digit_val, is_digit. repeat match goal with |- context [if ?b then _ else _] => destruct b eqn:? end; lia.
  - destruct (Z_lt_dec c 128) as [M|M].
    + rewrite forallb_forall in H. specialize (H (Z.to_nat c) ltac:(apply in_seq; lia)). rewrite Z2Nat.id in H by lia. lia.
    + replace (digit_val c) with 99.
      * destruct c as [|p|p]; try lia. do 7 (destruct p as [p|p|]; try reflexivity; try lia).
      * unfold digit_val, is_digit. repeat match goal with |- context [if ?b then _ else _] => destruct b eqn:? end; lia.
Qed.
Lemma rval_value base z : forall acc, rval base acc z = fold_left (fun a c => base * a + cval c) z acc.
Proof. induction z as [|c z IH]; intros acc; [reflexivity|]. cbn [rval fold_left]. now rewrite IH, cval_eq. Qed.
Lemma digits_in_base base z : digits_in base z <-> in_base base z.
Proof. unfold digits_in, in_base. rewrite Forall_forall. split; intros H c I; specialize (H c I); [rewrite <- cval_eq|rewrite cval_eq]; assumption. Qed.
Lemma number_iff v z : c_number v z <-> number_text v z.
Proof.
  split.
  - intros [(c & z' & -> & D & N & B & ->)|[(z' & -> & B & ->)|(x & z' & -> & X & N & B & ->)]]; rewrite rval_value; apply digits_in_base in B.
    + apply nt_dec; [discriminate|assumption|assumption|reflexivity].
    + apply nt_oct; [assumption|reflexivity].
    + apply nt_hex; [assumption|assumption|assumption|reflexivity].
  - intros [z0 E N B V|z0 B V|x z0 X E B V]; rewrite V; unfold value.
    + left. destruct z0 as [|c z0]; [now elim E|]. exists c, z0. cbn [hd] in N.
      assert (is_digit c = true) as D.
      { specialize (B c (or_introl eq_refl)). rewrite <- cval_eq in B. unfold digit_val in B. destruct (is_digit c); [reflexivity|].
        unfold is_digit in B. repeat match type of B with context [if ?b then _ else _] => destruct b eqn:? end; lia. }
      repeat split; [assumption|assumption|now apply digits_in_base|]. now rewrite rval_value.
    + right. left. exists z0. repeat split; [now apply digits_in_base|]. now rewrite rval_value.
    + right. right. exists x, z0. repeat split; [assumption|assumption|now apply digits_in_base|]. now rewrite rval_value.
Qed.
Lemma be_len n : forall v, List.length (be_bytes n v) = n.
Proof. induction n as [|n IH]; intros v; [reflexivity|]. cbn [be_bytes]. rewrite app_length, IH. cbn [List.length]. lia. Qed.
Lemma be_big n : forall v, 0 <= v < 256 ^ Z.of_nat n -> big_endian v (be_bytes n v).
Proof.
  induction n as [|n IH]; intros v H.
  - split; [intros b []|]. cbn in *. lia.
  - assert (0 <= v / 256 < 256 ^ Z.of_nat n) as H'.
    { split; [apply Z.div_pos; lia|]. apply Z.div_lt_upper_bound; [lia|]. rewrite <- Z.pow_succ_r by lia. rewrite <- Nat2Z.inj_succ. lia. }
    destruct (IH _ H') as [A B]. cbn [be_bytes]. split.
    + intros b I. apply in_app_iff in I as [I|[<-|[]]]; [now apply A|]. apply Z.mod_pos_bound. lia.
    + rewrite fold_left_app. cbn [fold_left]. rewrite <- B. apply Z_div_mod_eq_full.
Qed.
Lemma big_be bs : forall v, big_endian v bs -> 0 <= v < 256 ^ Z.of_nat (List.length bs) /\ bs = be_bytes (List.length bs) v.
Proof.
  induction bs as [|b bs IH] using rev_ind; intros v [A V].
  - cbn in V. subst v. cbn. split; [lia|reflexivity].
  - rewrite fold_left_app in V. cbn [fold_left] in V. rewrite app_length, Nat.add_1_r.
    destruct (IH (fold_left (fun a b => 256 * a + b) bs 0)) as [R E].
    { split; [|reflexivity]. intros c I. apply A, in_app_iff. now left. }
    specialize (A b ltac:(apply in_app_iff; right; now left)).
    rewrite Nat2Z.inj_succ, Z.pow_succ_r by lia. split; [lia|]. cbn [be_bytes].
    replace (v / 256) with (fold_left (fun a b => 256 * a + b) bs 0) by (apply Z.div_unique with b; lia).
    replace (v mod 256) with b by (apply Z.mod_unique with (fold_left (fun a b => 256 * a + b) bs 0); lia).
    now rewrite <- E.
Qed.
Lemma address_iff k t bs : address_text k t bs <-> addr_text k t bs.
Proof.
  split.
  - induction 1 as [k v z tail bs N L B T|k v z t bs N V A IH].
    + destruct (big_be bs v B) as [R ->]. rewrite L in *. apply addr_last; [now apply number_iff|lia|assumption].
    + apply addr_dot; [now apply number_iff|assumption|assumption].
  - induction 1 as [k v z tail N L T|k v z t bs N V A IH].
    + apply (at_last k v); [now apply number_iff|apply be_len| |assumption]. apply be_big. pose proof (c_number_nonneg v z N). lia.
    + apply at_dot; [now apply number_iff|assumption|assumption].
Qed.
Lemma address_len k t bs : address_text k t bs -> List.length bs = S k.
Proof. induction 1; [assumption|]. cbn [List.length]. congruence. Qed.
Lemma aton_texts t a : inet_aton t = Some a <->
  exists b0 b1 b2 b3, address_text 3 t [b0; b1; b2; b3] /\ a = b0 + 256 * b1 + 65536 * b2 + 16777216 * b3.
Proof.
  rewrite aton_iff. split.
  - intros (bs & A & ->). apply address_iff in A. pose proof (address_len _ _ _ A) as L.
    destruct bs as [|b0 [|b1 [|b2 [|b3 [|]]]]]; try discriminate. exists b0, b1, b2, b3. split; [assumption|]. cbn [le_word]. lia.
  - intros (b0 & b1 & b2 & b3 & A & ->). exists [b0; b1; b2; b3]. split; [now apply address_iff|]. cbn [le_word]. lia.
Qed.
