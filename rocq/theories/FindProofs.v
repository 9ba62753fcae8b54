(** Proofs: searching vectors of floats compares representations. *)
From Coq Require Import Reals Psatz.
From Flocq Require Import Core.Core IEEE754.BinarySingleNaN IEEE754.Binary IEEE754.Bits.
From Verif Require Import Base BaseFacts VecModel VecSpec VecProofs VecProofs2 VecMain TypedModel TypedProofs FloatModel.
Local Open Scope Z_scope.

(** The comparison operator == of C. *)
Definition f_eq {prec emax} (x y : binary_float prec emax) : bool :=
  match Bcompare prec emax x y with Some Eq => true | _ => false end.
Definition zero_or_nan {prec emax} (x : binary_float prec emax) : bool :=
  match x with B754_zero _ _ _ | B754_nan _ _ _ _ _ => true | _ => false end.

Lemma f_eq_spec prec emax (x y : binary_float prec emax) : zero_or_nan x = false -> zero_or_nan y = false -> f_eq x y = true <-> x = y.
Proof.
  intros Hx Hy. unfold f_eq.
  destruct x as [sx|sx|sx px ex|sx mx ex Bx]; try discriminate; destruct y as [sy|sy|sy py ey|sy my ey By]; try discriminate.
  - destruct sx, sy; cbn; split; intros H; try discriminate; reflexivity.
  - destruct sx, sy; cbn; split; intros H; discriminate.
  - destruct sx, sy; cbn; split; intros H; discriminate.
  - rewrite Bcompare_correct by reflexivity. split.
    + intros H. apply B2R_inj; try reflexivity. destruct (Rcompare_spec (B2R prec emax (B754_finite prec emax sx mx ex Bx)) (B2R prec emax (B754_finite prec emax sy my ey By))); [discriminate|assumption|discriminate].
    + intros E. rewrite E. rewrite Rcompare_Eq; reflexivity.
Qed.

Lemma find_gen {prec emax} (g : binary_float prec emax -> list Z) es xs cap v x :
  (forall a b, g a = g b -> a = b) -> vrep es (map g xs) cap v ->
  Forall (fun a => zero_or_nan a = false) xs -> zero_or_nan x = false ->
  exists r, vec_can_find v (g x) = Ok r /\
    ((r = -1 /\ Forall (fun a => f_eq a x = false) xs) \/
     (exists p y s, xs = p ++ y :: s /\ r = zlen p /\ f_eq y x = true /\ Forall (fun a => f_eq a x = false) p)).
Proof.
  intros Inj R F Hx. destruct (vec_find_first es (map g xs) cap v (g x) R) as (r & E & H). exists r. split; [exact E|].
  assert (forall l, Forall (fun a => zero_or_nan a = false) l -> ~ In (g x) (map g l) -> Forall (fun a => f_eq a x = false) l) as K.
  { intros l Fl N. rewrite Forall_forall in *. intros a Ha. destruct (f_eq a x) eqn:Ea; [|reflexivity].
    apply f_eq_spec in Ea; [|now apply Fl|exact Hx]. subst a. elim N. now apply in_map. }
  destruct H as [[-> N]|(p & s & E1 & -> & N)]; [left; split; [reflexivity|now apply K]|right].
  apply map_eq_app in E1 as (p' & s' & -> & <- & E2). apply map_eq_cons in E2 as (y & s'' & -> & Ey & <-).
  apply Inj in Ey. subst y. apply Forall_app in F as [Fp Fs]. inversion Fs; subst. exists p', x, s''. repeat split.
  - unfold zlen. now rewrite map_length.
  - now apply f_eq_spec.
  - now apply K.
Qed.

Lemma enc32_inj a b : enc F32 (bits_of_b32 a) = enc F32 (bits_of_b32 b) -> a = b.
Proof.
  intros E. apply enc_inj in E.
  - rewrite <- (binary_float_of_bits_of_binary_float 23 8 eq_refl eq_refl eq_refl a), <- (binary_float_of_bits_of_binary_float 23 8 eq_refl eq_refl eq_refl b).
    unfold bits_of_b32 in E. now rewrite E.
  - exact (bits_of_binary_float_range 23 8 eq_refl eq_refl a).
  - exact (bits_of_binary_float_range 23 8 eq_refl eq_refl b).
Qed.
Lemma enc64_inj a b : enc F64 (bits_of_b64 a) = enc F64 (bits_of_b64 b) -> a = b.
Proof.
  intros E. apply enc_inj in E.
  - rewrite <- (binary_float_of_bits_of_binary_float 52 11 eq_refl eq_refl eq_refl a), <- (binary_float_of_bits_of_binary_float 52 11 eq_refl eq_refl eq_refl b).
    unfold bits_of_b64 in E. now rewrite E.
  - exact (bits_of_binary_float_range 52 11 eq_refl eq_refl a).
  - exact (bits_of_binary_float_range 52 11 eq_refl eq_refl b).
Qed.

Lemma find32 xs cap v x : vrep 4 (map (fun a => enc F32 (bits_of_b32 a)) xs) cap v ->
  Forall (fun a => zero_or_nan a = false) xs -> zero_or_nan x = false ->
  exists r, vec_can_find v (enc F32 (bits_of_b32 x)) = Ok r /\
    ((r = -1 /\ Forall (fun a => f_eq a x = false) xs) \/
     (exists p y s, xs = p ++ y :: s /\ r = zlen p /\ f_eq y x = true /\ Forall (fun a => f_eq a x = false) p)).
Proof. exact (find_gen (fun a => enc F32 (bits_of_b32 a)) 4 xs cap v x enc32_inj). Qed.
Lemma find64 xs cap v x : vrep 8 (map (fun a => enc F64 (bits_of_b64 a)) xs) cap v ->
  Forall (fun a => zero_or_nan a = false) xs -> zero_or_nan x = false ->
  exists r, vec_can_find v (enc F64 (bits_of_b64 x)) = Ok r /\
    ((r = -1 /\ Forall (fun a => f_eq a x = false) xs) \/
     (exists p y s, xs = p ++ y :: s /\ r = zlen p /\ f_eq y x = true /\ Forall (fun a => f_eq a x = false) p)).
Proof. exact (find_gen (fun a => enc F64 (bits_of_b64 a)) 8 xs cap v x enc64_inj). Qed.
