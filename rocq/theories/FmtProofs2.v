(** Proofs about the conversions of printf as FmtSpec.v states them. *)
From Verif Require Import Base BaseFacts FmtModel FmtSpec.

Definition memz (c : Z) (l : list Z) : bool := existsb (Z.eqb c) l.
Lemma memz_in c l : memz c l = true <-> In c l.
Proof. unfold memz. rewrite existsb_exists. split; [intros (x & I & E); apply Z.eqb_eq in E; now subst|intros I; exists c; split; [exact I|apply Z.eqb_refl]]. Qed.
Definition num_of (c : count) : num := match c with CNo => NNone | CDig ds => NNum (dec_value ds) | CArg _ => NStar end.
Definition sp_of (fl : list Z) (w p : count) (s : isize) : spec := mk_spec (memz 45 fl) (memz 48 fl) (memz 43 fl) (memz 32 fl) (num_of w) (num_of p) (bits s).

Definition with_flags (fl : list Z) (sp : spec) : spec :=
  mk_spec (memz 45 fl || sp_minus sp) (memz 48 fl || sp_zero sp) (memz 43 fl || sp_plus sp) (memz 32 fl || sp_space sp) (sp_width sp) (sp_prec sp) (sp_size sp).
Lemma parse_flags fl : forall sp rest, flags_ok fl -> parse_at AtFlags sp (fl ++ rest) = parse_at AtFlags (with_flags fl sp) rest.
Proof.
  induction fl as [|c fl IH]; intros [a b d e w p s] rest F; [reflexivity|]. apply Forall_cons_iff in F as [Hc F].
  destruct Hc as [->|[->|[->| ->]]]; cbn [parse_at app inside set_flag Z.eqb Pos.eqb]; rewrite (IH _ _ F); unfold with_flags; cbn [memz existsb Z.eqb Pos.eqb sp_minus sp_zero sp_plus sp_space sp_width sp_prec sp_size orb];
    fold (memz 45 fl) (memz 48 fl) (memz 43 fl) (memz 32 fl); rewrite ?orb_true_r; reflexivity.
Qed.

Ltac dig H := match type of H with 48 <= ?c <= 57 => assert (c = 48 \/ c = 49 \/ c = 50 \/ c = 51 \/ c = 52 \/ c = 53 \/ c = 54 \/ c = 55 \/ c = 56 \/ c = 57) as H' by lia; clear H end.
Lemma inside_width sp c m : 48 <= c <= 57 -> sp_width sp = NNum m -> inside InWidth sp c = Some (inl (InWidth, set_width sp (NNum (10 * m + (c - 48))))).
Proof. intros H E. unfold inside. replace (is_dig c) with true by (unfold is_dig; lia). now rewrite E. Qed.
Lemma inside_prec sp c m pl : 48 <= c <= 57 -> sp_prec sp = NNum m -> pl = AtPrec \/ pl = InPrec -> inside pl sp c = Some (inl (InPrec, set_prec sp (NNum (10 * m + (c - 48))))).
Proof. intros H E [-> | ->]; unfold inside; replace (is_dig c) with true by (unfold is_dig; lia); now rewrite E. Qed.
Definition dec_from (m : Z) (ds : list Z) : Z := fold_left (fun a c => 10 * a + (c - 48)) ds m.
Lemma parse_width ds : forall sp m rest, dec_digits ds -> sp_width sp = NNum m ->
  parse_at InWidth sp (ds ++ rest) = parse_at InWidth (set_width sp (NNum (dec_from m ds))) rest.
Proof.
  induction ds as [|c ds IH]; intros sp m rest F E.
  - cbn [app dec_from fold_left]. destruct sp as [a b d e w p s]. cbn in E. subst w. reflexivity.
  - apply Forall_cons_iff in F as [Hc F]. cbn [app parse_at]. rewrite (inside_width sp c m Hc E). rewrite (IH (set_width sp (NNum (10 * m + (c - 48)))) (10 * m + (c - 48)) rest F eq_refl). reflexivity.
Qed.
Lemma parse_prec ds : forall pl sp m rest, dec_digits ds -> sp_prec sp = NNum m -> pl = AtPrec \/ pl = InPrec ->
  exists pl', (pl' = AtPrec \/ pl' = InPrec) /\ parse_at pl sp (ds ++ rest) = parse_at pl' (set_prec sp (NNum (dec_from m ds))) rest.
Proof.
  induction ds as [|c ds IH]; intros pl sp m rest F E Hp.
  - exists pl. split; [exact Hp|]. cbn [app dec_from fold_left]. destruct sp as [a b d e w p s]. cbn in E. subst p. reflexivity.
  - apply Forall_cons_iff in F as [Hc F]. destruct (IH InPrec (set_prec sp (NNum (10 * m + (c - 48)))) (10 * m + (c - 48)) rest F eq_refl (or_intror eq_refl)) as (pl' & Hp' & X).
    exists pl'. split; [exact Hp'|]. cbn [app parse_at]. rewrite (inside_prec sp c m pl Hc E Hp). destruct Hp as [-> | ->]; rewrite X; reflexivity.
Qed.
Definition wplace (pl : place) : Prop := pl = AtFlags \/ pl = InWidth \/ pl = PastWidth.
Definition pplace (pl : place) : Prop := wplace pl \/ pl = AtPrec \/ pl = InPrec \/ pl = PastPrec.
Lemma read_width w : forall sp rest, width_ok w -> sp_width sp = NNone ->
  exists pl, wplace pl /\ parse_at AtFlags sp (count_text w ++ rest) = parse_at pl (set_width sp (num_of w)) rest.
Proof.
  intros sp rest H E. destruct w as [|ds|n]; cbn [count_text num_of].
  - exists AtFlags. split; [now left|]. destruct sp as [a b d e w p s]. cbn in E. subst w. reflexivity.
  - destruct H as [F (d & ds' & -> & Nd)]. apply Forall_cons_iff in F as [Hd F]. exists InWidth. split; [right; now left|].
    assert (inside AtFlags sp d = Some (inl (InWidth, set_width sp (NNum (d - 48))))) as X.
    { unfold inside, set_flag. replace (d =? 45) with false by lia. replace (d =? 48) with false by lia. replace (d =? 43) with false by lia. replace (d =? 32) with false by lia.
      replace (is_dig d) with true by (unfold is_dig; lia). now rewrite E. }
    cbn [app parse_at]. rewrite X. rewrite (parse_width ds' (set_width sp (NNum (d - 48))) (d - 48) rest F eq_refl). reflexivity.
  - exists PastWidth. split; [right; now right|]. reflexivity.
Qed.
Lemma read_prec p : forall sp rest pl, prec_ok p -> sp_prec sp = NNone -> wplace pl ->
  exists pl', pplace pl' /\ parse_at pl sp (prec_text p ++ rest) = parse_at pl' (set_prec sp (num_of p)) rest.
Proof.
  intros sp rest pl H E Hp. destruct p as [|ds|n]; cbn [prec_text count_text num_of].
  - exists pl. split; [now left|]. destruct sp as [a b d e w p s]. cbn in E. subst p. reflexivity.
  - assert (forall r, parse_at pl sp (46 :: r) = parse_at AtPrec (set_prec sp (NNum 0)) r) as X by (intros r; destruct Hp as [->|[->| ->]]; reflexivity).
    cbn [app]. rewrite X. destruct (parse_prec ds AtPrec (set_prec sp (NNum 0)) 0 rest H eq_refl (or_introl eq_refl)) as (pl' & Hp' & Y).
    exists pl'. split; [right; tauto|]. rewrite Y. reflexivity.
  - exists PastPrec. split; [right; tauto|]. destruct Hp as [->|[->| ->]]; reflexivity.
Qed.
Lemma read_size s : forall sp rest pl, sp_size sp = 32 -> pplace pl -> exists pl', (pplace pl' \/ pl' = InSize) /\ (s = Inone -> pplace pl') /\
  parse_at pl sp (size_text s ++ rest) = parse_at pl' (set_size sp (bits s)) rest.
Proof.
  intros sp rest pl E Hp. destruct s; cbn [size_text bits].
  3: { exists pl. split; [now left|]. split; [auto|]. destruct sp as [a b d e w p s]. cbn in E. subst s. reflexivity. }
  all: exists InSize; split; [now right|]; split; [discriminate|]; destruct Hp as [[->|[->| ->]]|[->|[->| ->]]]; reflexivity.
Qed.
Definition conv_of (k : iconv) : conv := match k with Id | Ii => CDec | Iu => CUns | Ix => CHex false | IX => CHex true end.
Lemma read_conv k sp pl : sp_size sp <> 80 -> pplace pl \/ pl = InSize -> parse_at pl sp [conv_char k] = Some [Dir sp (conv_of k)].
Proof.
  intros E Hp. assert ((sp_size sp =? 80) = false) as E' by lia.
  assert (inside pl sp (conv_char k) = Some (inr (Dir sp (conv_of k)))) as X.
  { destruct k; unfold inside; cbn [conv_char conv_of]; destruct Hp as [[[->|[->| ->]]|[->|[->| ->]]]| ->]; cbn [set_flag is_dig Z.eqb Z.leb Z.compare Pos.eqb Pos.compare Pos.compare_cont andb orb CompOpp]; rewrite E'; reflexivity. }
  destruct Hp as [[[->|[->| ->]]|[->|[->| ->]]]| ->]; cbn [parse_at]; rewrite X; reflexivity.
Qed.
Lemma parse_dir fl w p s k : flags_ok fl -> width_ok w -> prec_ok p -> parse (dir_fmt fl w p s (conv_char k)) = Some [Dir (sp_of fl w p s) (conv_of k)].
Proof.
  intros F W P. unfold parse, dir_fmt. cbn [parse_at Z.eqb Pos.eqb]. rewrite (parse_flags fl spec0 _ F).
  destruct (read_width w (with_flags fl spec0) (prec_text p ++ size_text s ++ [conv_char k]) W eq_refl) as (p1 & H1 & ->).
  destruct (read_prec p (set_width (with_flags fl spec0) (num_of w)) (size_text s ++ [conv_char k]) p1 P eq_refl H1) as (p2 & H2 & ->).
  destruct (read_size s (set_prec (set_width (with_flags fl spec0) (num_of w)) (num_of p)) [conv_char k] p2 eq_refl H2) as (p3 & H3 & _ & ->).
  rewrite read_conv; [|destruct s; cbn; discriminate|exact H3]. unfold with_flags, set_size, set_prec, set_width, sp_of. cbn. now rewrite !orb_false_r.
Qed.
Lemma parse_char fl w p (c : Z) k : (c = 99 /\ k = CChar) \/ (c = 115 /\ k = CStr) -> flags_ok fl -> width_ok w -> prec_ok p ->
  parse (dir_fmt fl w p Inone c) = Some [Dir (sp_of fl w p Inone) k].
Proof.
  intros C F W P. unfold parse, dir_fmt. cbn [parse_at Z.eqb Pos.eqb]. rewrite (parse_flags fl spec0 _ F).
  destruct (read_width w (with_flags fl spec0) (prec_text p ++ size_text Inone ++ [c]) W eq_refl) as (p1 & H1 & ->).
  destruct (read_prec p (set_width (with_flags fl spec0) (num_of w)) (size_text Inone ++ [c]) p1 P eq_refl H1) as (p2 & H2 & ->).
  assert (set_prec (set_width (with_flags fl spec0) (num_of w)) (num_of p) = sp_of fl w p Inone) as -> by (unfold with_flags, set_prec, set_width, sp_of; cbn; now rewrite !orb_false_r).
  cbn [size_text app]. destruct C as [[-> ->]|[-> ->]]; destruct H2 as [[->|[->| ->]]|[->|[->| ->]]]; reflexivity.
Qed.

(** The digits. *)
Lemma digits_numeral base upper : 2 <= base <= 16 -> forall fuel n acc, 0 <= n < 2 ^ Z.of_nat fuel -> (0 < fuel)%nat ->
  exists ds, digits_of fuel base upper n acc = ds ++ acc /\ numeral base upper n ds.
Proof.
  intros Hb. induction fuel as [|k IH]; intros n acc Hn Hf; [lia|]. cbn [digits_of].
  assert (0 <= n mod base < base) as Hm by (apply Z.mod_pos_bound; lia).
  assert (digit_value upper (if n mod base <? 10 then 48 + n mod base else (if upper then 55 else 87) + n mod base) (n mod base)) as D.
  { unfold digit_value. destruct (n mod base <? 10) eqn:E; [left; lia|right; destruct upper; lia]. }
  set (c := if n mod base <? 10 then _ else _) in *. destruct (n / base =? 0) eqn:E.
  - apply Z.eqb_eq in E. exists [c]. split; [reflexivity|]. exists [n mod base]. split; [constructor; [exact D|constructor]|]. split; [constructor; [lia|constructor]|].
    pose proof (Z.div_mod n base). cbn [fold_left]. split; [nia|]. destruct (Z.eq_dec (n mod base) 0) as [->|]; [now left|right; now exists (n mod base), []].
  - apply Z.eqb_neq in E. assert (0 <= n / base) as Hq by (apply Z.div_pos; lia).
    assert (n / base < 2 ^ Z.of_nat k) as Hl. { apply Z.div_lt_upper_bound; [lia|]. rewrite Nat2Z.inj_succ, Z.pow_succ_r in Hn by lia. nia. }
    assert (0 < k)%nat as Hk. { destruct k; [cbn in Hl; lia|lia]. }
    destruct (IH (n / base) (c :: acc) (conj Hq Hl) Hk) as (ds & -> & vs & F & L & V & Z0). exists (ds ++ [c]). split; [now rewrite <- app_assoc|].
    exists (vs ++ [n mod base]). split; [apply Forall2_app; [exact F|constructor; [exact D|constructor]]|]. split; [apply Forall_app; split; [exact L|constructor; [lia|constructor]]|].
    split. { rewrite fold_left_app, V. cbn [fold_left]. pose proof (Z.div_mod n base). lia. }
    right. destruct Z0 as [->|(d & vs' & -> & Nd)].
    + cbn in V. lia.
    + exists d, (vs' ++ [n mod base]). now split.
Qed.

Lemma small_converted s k n : converted s k n (small (bits s) n (signed_conv k)) \/ bits s >= 32.
Proof.
  destruct s; cbn [bits]; try (right; lia); left; unfold converted, small; cbn [bits Z.eqb Pos.eqb orb]; destruct (signed_conv k); cbn [Z.sub Z.add Z.opp Z.pos_sub Pos.pred_double Z.pow Z.pow_pos Pos.iter Z.mul Pos.mul].
  - pose proof (Z.mod_pos_bound (n + 128) 256 ltac:(lia)). pose proof (Z.div_mod (n + 128) 256 ltac:(lia)). split; [exists ((n + 128) / 256); lia|lia].
  - pose proof (Z.mod_pos_bound n 256 ltac:(lia)). pose proof (Z.div_mod n 256 ltac:(lia)). split; [exists (n / 256); lia|lia].
  - pose proof (Z.mod_pos_bound (n + 32768) 65536 ltac:(lia)). pose proof (Z.div_mod (n + 32768) 65536 ltac:(lia)). split; [exists ((n + 32768) / 65536); lia|lia].
  - pose proof (Z.mod_pos_bound n 65536 ltac:(lia)). pose proof (Z.div_mod n 65536 ltac:(lia)). split; [exists (n / 65536); lia|lia].
Qed.
Lemma value_converted s k n : arg_ok s k n -> converted s k n (small (bits s) n (signed_conv k)).
Proof.
  intros A. destruct (small_converted s k n) as [H|H]; [exact H|]. unfold arg_ok in A. replace (bits s <? 32) with false in A by lia. rewrite orb_false_r in A.
  unfold converted, small. replace (bits s =? 8) with false by lia. replace (bits s =? 16) with false by lia. cbn [orb]. split; [exists 0; lia|].
  replace (Z.max 32 (bits s)) with (bits s) in A by lia. destruct (signed_conv k); exact A.
Qed.
Lemma pad_filled (minus : bool) (left zero : Prop) w sign body : (minus = true <-> left) -> ~ zero \/ left -> filled left zero w sign body (pad minus 32 w (sign ++ body)).
Proof.
  intros M N. unfold filled, pad. exists (Z.to_nat w - length (sign ++ body))%nat. rewrite app_length. unfold zlen. split; [lia|].
  destruct minus.
  - assert left as L by now apply M. split; [intros _; now rewrite <- app_assoc|]. split; intros; contradiction.
  - assert (~ left) as L by (intros L; apply M in L; discriminate). split; [contradiction|]. split; [intros _ Z; destruct N; contradiction|reflexivity].
Qed.
Lemma int_filled (sp : spec) fl w (minus : bool) (left : Prop) p signed v base upper : 2 <= base <= 16 -> Z.abs v < 2 ^ 64 -> (signed = false -> 0 <= v) ->
  (sp_zero sp = true <-> In 48 fl) -> (sp_plus sp = true <-> In 43 fl) -> (sp_space sp = true <-> In 32 fl) -> (minus = true <-> left) ->
  exists sign ds body, sign_text fl signed v sign /\ numeral base upper (Z.abs v) ds /\ with_prec p (Z.abs v) ds body /\
    filled left (In 48 fl /\ p = None) w sign body (int_text sp w minus p signed (v <? 0) base upper (Z.abs v)).
Proof.
  intros Hb Hv Hs Z0 Pl Sp M. destruct (digits_numeral base upper Hb 64 (Z.abs v) []) as (ds & E & N); [change (Z.of_nat 64) with 64; lia|lia|]. rewrite app_nil_r in E.
  unfold int_text. rewrite E. set (sign := if v <? 0 then _ else _).
  assert (sign_text fl signed v sign) as Sg.
  { unfold sign_text, sign. split; [intros L; now replace (v <? 0) with true by lia|]. intros L. replace (v <? 0) with false by lia. split; [|split].
    - intros -> I. apply Pl in I. now rewrite I.
    - intros -> I J. apply Sp in J. rewrite J. destruct (sp_plus sp) eqn:X; [exfalso; apply I, Pl; reflexivity|reflexivity].
    - intros [->|[I J]]; [reflexivity|]. destruct (sp_plus sp) eqn:X; [exfalso; apply I, Pl; reflexivity|]. destruct (sp_space sp) eqn:Y; [exfalso; apply J, Sp; reflexivity|]. now rewrite !andb_false_r. }
  set (body := match p with Some q => repeat 48 (Z.to_nat q - length (match p with Some 0 => if Z.abs v =? 0 then [] else ds | _ => ds end)) ++ match p with Some 0 => if Z.abs v =? 0 then [] else ds | _ => ds end
               | None => match p with Some 0 => if Z.abs v =? 0 then [] else ds | _ => ds end end).
  assert (with_prec p (Z.abs v) ds body) as Wp.
  { unfold with_prec, body. destruct p as [q|]; [|reflexivity]. destruct (Z.eq_dec q 0) as [->|Nq].
    - destruct (Z.abs v =? 0) eqn:E0; cbn [Z.eqb andb]; [reflexivity|]. exists 0%nat. split; [unfold zlen; lia|reflexivity].
    - replace (q =? 0) with false by lia. cbn [andb]. assert (match q with 0 => if Z.abs v =? 0 then [] else ds | _ => ds end = ds) as -> by (destruct q; [contradiction|reflexivity|reflexivity]).
      exists (Z.to_nat q - length ds)%nat. split; [unfold zlen; lia|reflexivity]. }
  exists sign, ds, body. split; [exact Sg|]. split; [exact N|]. split; [exact Wp|].
  destruct (sp_zero sp && negb minus && match p with None => true | Some _ => false end) eqn:B.
  - apply andb_prop in B as [B Bp]. apply andb_prop in B as [B Bm]. destruct p; [discriminate|]. apply negb_true_iff in Bm. subst minus.
    assert (~ left) as L by (intros L; apply M in L; discriminate). unfold filled. exists (Z.to_nat w - length sign - length body)%nat. split; [unfold zlen; lia|].
    split; [contradiction|]. split; [reflexivity|]. intros _ X. exfalso. apply X. split; [now apply Z0|reflexivity].
  - apply pad_filled; [exact M|]. destruct minus; [right; now apply M|]. left. intros [I ->]. apply Z0 in I. rewrite I in B. discriminate.
Qed.

Lemma left_minus fl w : memz 45 fl || (match w with CArg n => n <? 0 | _ => false end) = true <-> left_of fl w.
Proof.
  unfold left_of. rewrite orb_true_iff, memz_in. destruct w as [|ds|n].
  - split; [intros [H|H]; [now left|discriminate]|intros [H|(n & H & _)]; [now left|discriminate]].
  - split; [intros [H|H]; [now left|discriminate]|intros [H|(n & H & _)]; [now left|discriminate]].
  - rewrite Z.ltb_lt. split; [intros [H|H]; [now left|right; now exists n]|intros [H|(m & H & L)]; [now left|right; now injection H as <-]].
Qed.
Lemma dec_from_pos ds : forall m, dec_digits ds -> 0 <= m -> 0 <= dec_from m ds.
Proof. induction ds as [|c ds IH]; intros m F H; [exact H|]. apply Forall_cons_iff in F as [Hc F]. cbn [dec_from fold_left]. apply IH; [exact F|lia]. Qed.
Lemma dec_value_pos ds : dec_digits ds -> 0 <= dec_value ds.
Proof. intros F. now apply (dec_from_pos ds 0). Qed.

Lemma eval_dir (fl : list Z) (w p : count) (s : isize) k a rest ty : width_ok w -> prec_ok p -> wants (Dir (sp_of fl w p s) k) = wants (Dir (sp_of fl w p s) k) ->
  last (wants (Dir (sp_of fl w p s) k)) TText = ty -> of_type a ty = true ->
  eval [Dir (sp_of fl w p s) k] (count_args w ++ count_args p ++ a :: rest) = Ok (dir_text (sp_of fl w p s) k (count_args w ++ count_args p ++ [a])).
Proof.
  intros W P _ L O. assert (forall l, all_of l [] = true) as Nil by (intros [|]; reflexivity). assert (forall n, - 2 ^ 31 <= n < 2 ^ 31 -> of_type (A32 n) TInt32 = true) as I32 by (intros n H; cbn [of_type]; lia).
  cbn [eval]. unfold wants in *. cbn [sp_of sp_width sp_prec sp_size] in *.
  destruct w as [|dw|nw], p as [|dp|np]; cbn [num_of count_args app all_of length skipn firstn last] in *; cbn [width_ok prec_ok] in *; rewrite ?Nil, ?L, ?O, ?(I32 nw), ?(I32 np) by assumption; cbn [andb bind]; now rewrite app_nil_r.
Qed.

Lemma integers_ok fl w p s k n rest : flags_ok fl -> width_ok w -> prec_ok p -> arg_ok s k n ->
  exists v sign ds body t, converted s k n v /\ sign_text fl (signed_conv k) v sign /\ numeral (base_of k) (match k with IX => true | _ => false end) (Z.abs v) ds /\
    with_prec (prec_of p) (Z.abs v) ds body /\ filled (left_of fl w) (In 48 fl /\ prec_of p = None) (width_of w) sign body t /\
    format (dir_fmt fl w p s (conv_char k)) (count_args w ++ count_args p ++ int_arg s n :: rest) = Ok t.
Proof.
  intros F W P A. pose proof (value_converted s k n A) as C. set (v := small (bits s) n (signed_conv k)) in *.
  assert (Z.abs v < 2 ^ 64) as Hv. { destruct C as [_ C]. destruct s, (signed_conv k); cbn [bits] in C; lia. }
  assert (signed_conv k = false -> 0 <= v) as Hs. { intros E. destruct C as [_ C]. rewrite E in C. lia. }
  assert (exists sign ds body t, sign_text fl (signed_conv k) v sign /\ numeral (base_of k) (match k with IX => true | _ => false end) (Z.abs v) ds /\
    with_prec (prec_of p) (Z.abs v) ds body /\ filled (left_of fl w) (In 48 fl /\ prec_of p = None) (width_of w) sign body t /\
    t = int_text (sp_of fl w p s) (width_of w) (memz 45 fl || (match w with CArg n => n <? 0 | _ => false end)) (prec_of p) (signed_conv k) (v <? 0) (base_of k) (match k with IX => true | _ => false end) (Z.abs v)) as X.
  { destruct (int_filled (sp_of fl w p s) fl (width_of w) (memz 45 fl || (match w with CArg n => n <? 0 | _ => false end)) (left_of fl w) (prec_of p) (signed_conv k) v (base_of k) (match k with IX => true | _ => false end)) as (sign & ds & body & X1 & X2 & X3 & X4);
      [destruct k; cbn; lia|exact Hv|exact Hs|apply memz_in|apply memz_in|apply memz_in|apply left_minus|]. exists sign, ds, body. eexists. repeat (split; [eassumption|]). reflexivity. }
  destruct X as (sign & ds & body & t & X1 & X2 & X3 & X4 & X5). exists v, sign, ds, body, t. repeat (split; [assumption|]).
  unfold format. rewrite (parse_dir fl w p s k F W P).
  rewrite (eval_dir fl w p s (conv_of k) (int_arg s n) rest _ W P eq_refl eq_refl).
  2: { unfold wants. cbn [sp_of sp_width sp_prec sp_size]. rewrite app_assoc, last_last. unfold int_arg. unfold arg_ok in A.
       destruct s, k; cbn [bits signed_conv conv_of Z.eqb Pos.eqb orb Z.ltb Z.compare Pos.compare Pos.compare_cont Z.max] in *; cbn [of_type]; lia. }
  f_equal. subst t. unfold dir_text. cbn [sp_of sp_width sp_prec sp_minus sp_size].
  assert (forall ds, width_ok (CDig ds) -> (dec_value ds <? 0) = false /\ Z.abs (dec_value ds) = dec_value ds) as Wp. { intros d [Hd _]. pose proof (dec_value_pos d Hd). split; lia. }
  assert (forall x, as_z (int_arg s x) = x) as Ai by (intros x; unfold int_arg; now destruct (bits s =? 64)).
  destruct w as [|dw|nw], p as [|dp|np]; cbn [num_of count_args app hd tl fst snd as_z width_of prec_of]; try (destruct (Wp dw W) as [-> ->]); rewrite ?Ai; cbn [Z.ltb Z.compare Z.abs]; rewrite ?orb_false_r;
    destruct k; cbn [conv_of signed_conv base_of] in *; fold v; try reflexivity; rewrite ?orb_false_r; try (rewrite (Z.abs_eq v) by (apply Hs; reflexivity)); try (replace (v <? 0) with false by (specialize (Hs eq_refl); lia)); reflexivity.
Qed.

Lemma char_ok fl w n rest : Forall (eq 45) fl -> width_ok w -> - 2 ^ 31 <= n < 2 ^ 31 ->
  exists c t, (exists q, n = c + q * 256) /\ 0 <= c < 256 /\ filled (left_of fl w) False (width_of w) [] [c] t /\
    format (dir_fmt fl w CNo Inone 99) (count_args w ++ A32 n :: rest) = Ok t.
Proof.
  intros F W H. assert (flags_ok fl) as F'. { eapply Forall_impl; [|exact F]. intros a <-. now left. }
  exists (n mod 256). eexists. split; [exists (n / 256); pose proof (Z.div_mod n 256); lia|]. split; [apply Z.mod_pos_bound; lia|].
  split; [apply (pad_filled (memz 45 fl || (match w with CArg n => n <? 0 | _ => false end))); [apply left_minus|left; auto]|].
  unfold format. rewrite (parse_char fl w CNo 99 CChar) by (assumption || (left; split; reflexivity) || exact I).
  change (A32 n :: rest) with (count_args CNo ++ A32 n :: rest). rewrite (eval_dir fl w CNo Inone CChar (A32 n) rest TInt32 W I eq_refl).
  2: { unfold wants. now rewrite app_assoc, last_last. } 2: { cbn [of_type]. lia. }
  f_equal. unfold dir_text. cbn [sp_of sp_width sp_prec sp_minus sp_size].
  assert (forall ds, width_ok (CDig ds) -> (dec_value ds <? 0) = false /\ Z.abs (dec_value ds) = dec_value ds) as Wp. { intros d [Hd _]. pose proof (dec_value_pos d Hd). split; lia. }
  destruct w as [|dw|nw]; cbn [num_of count_args app hd tl fst snd as_z width_of]; try (destruct (Wp dw W) as [-> ->]); reflexivity.
Qed.
Lemma texts_ok fl w p z rest : Forall (eq 45) fl -> width_ok w -> prec_ok p ->
  exists b r t, z = b ++ r /\ match prec_of p with None => r = [] | Some q => zlen b = Z.min q (zlen z) end /\ filled (left_of fl w) False (width_of w) [] b t /\
    format (dir_fmt fl w p Inone 115) (count_args w ++ count_args p ++ AS z :: rest) = Ok t.
Proof.
  intros F W P. assert (flags_ok fl) as F'. { eapply Forall_impl; [|exact F]. intros a <-. now left. }
  set (b := match prec_of p with Some q => firstn (Z.to_nat q) z | None => z end). set (r := match prec_of p with Some q => skipn (Z.to_nat q) z | None => [] end).
  exists b, r. eexists. split. { unfold b, r. destruct (prec_of p); [now rewrite firstn_skipn|now rewrite app_nil_r]. }
  split. { unfold b, r. destruct (prec_of p) as [q|] eqn:E; [|reflexivity]. assert (0 <= q). { destruct p as [|dp|np]; cbn [prec_of] in E; [discriminate|injection E as <-; now apply dec_value_pos|destruct (np <? 0) eqn:X; [discriminate|injection E as <-; lia]]. }
    unfold zlen. rewrite firstn_length. lia. }
  split; [apply (pad_filled (memz 45 fl || (match w with CArg n => n <? 0 | _ => false end))); [apply left_minus|left; auto]|].
  unfold format. rewrite (parse_char fl w p 115 CStr) by (assumption || (right; split; reflexivity)).
  rewrite (eval_dir fl w p Inone CStr (AS z) rest TText W P eq_refl).
  2: { unfold wants. now rewrite app_assoc, last_last. } 2: reflexivity.
  f_equal. unfold dir_text. cbn [sp_of sp_width sp_prec sp_minus sp_size].
  assert (forall ds, width_ok (CDig ds) -> (dec_value ds <? 0) = false /\ Z.abs (dec_value ds) = dec_value ds) as Wp. { intros d [Hd _]. pose proof (dec_value_pos d Hd). split; lia. }
  unfold b. destruct w as [|dw|nw], p as [|dp|np]; cbn [num_of count_args app hd tl fst snd as_z as_t width_of prec_of]; try (destruct (Wp dw W) as [-> ->]); reflexivity.
Qed.
