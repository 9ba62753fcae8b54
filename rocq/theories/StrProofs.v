(** Proofs about the storage and editing functions of vt_str_t. *)
From Verif Require Import Base BaseFacts StrModel StrModel2 StrSpec.

Ltac zl := autorewrite with zlen in *.
Ltac zpos := repeat match goal with
  | |- context [zlen ?l] => lazymatch goal with H : 0 <= zlen l |- _ => fail | _ => pose proof (zlen_nonneg l) end
  | _ : context [zlen ?l] |- _ => lazymatch goal with H : 0 <= zlen l |- _ => fail | _ => pose proof (zlen_nonneg l) end
  end.
Ltac zlia := unfold two64, alloc_max in *; zpos; lia.
Ltac w64s := repeat match goal with |- context [w64 ?z] => rewrite (w64_small z) by zlia end.

Lemma okz_oks z : okz z = true <-> oks z.
Proof.
  unfold okz, oks, okc. rewrite forallb_forall, Forall_forall. split; intros H x Hx; specialize (H x Hx); lia.
Qed.
Lemma oks_nonul z : oks z -> nonul z.
Proof. unfold oks, nonul, okc. rewrite !Forall_forall. intros H x Hx. specialize (H x Hx). lia. Qed.
Lemma oks_app a b : oks (a ++ b) <-> oks a /\ oks b.
Proof. apply Forall_app. Qed.
Lemma oks_firstn n z : oks z -> oks (firstn n z).
Proof. intros H. rewrite <- (firstn_skipn n z) in H. apply oks_app in H. tauto. Qed.
Lemma oks_skipn n z : oks z -> oks (skipn n z).
Proof. intros H. rewrite <- (firstn_skipn n z) in H. apply oks_app in H. tauto. Qed.

(** * Prefixes of blocks *)
Lemma pre_len {A} (l b : list A) : pre l b -> zlen l <= zlen b.
Proof. intros [q ->]. zl. zlia. Qed.
Lemma pre_refl {A} (l : list A) : pre l l.
Proof. exists []. now rewrite app_nil_r. Qed.
Lemma pre_app {A} (l m b : list A) : pre (l ++ m) b -> pre l b.
Proof. intros [q ->]. exists (m ++ q). now rewrite app_assoc. Qed.
Lemma pre_ext {A} (l b c : list A) : pre l b -> pre l (b ++ c).
Proof. intros [q ->]. exists (q ++ c). now rewrite app_assoc. Qed.
Lemma pre_firstn {A} (l b : list A) n : pre l b -> zlen l <= n -> pre l (firstn (Z.to_nat n) b).
Proof.
  intros [q ->] H. exists (firstn (Z.to_nat n - length l) q). rewrite firstn_app, firstn_ge; [reflexivity|].
  unfold zlen in H. lia.
Qed.
Lemma pre_firstn_eq {A} (l b : list A) n : pre l b -> n = zlen l -> firstn (Z.to_nat n) b = l.
Proof. intros [q ->] ->. now apply firstn_zlen. Qed.

Lemma bwrite_val b off d : 0 <= off -> off + zlen d <= zlen b ->
  bwrite b off d = Ok (firstn (Z.to_nat off) b ++ d ++ skipn (Z.to_nat off + length d) b).
Proof.
  intros H1 H2. unfold bwrite. replace ((0 <=? off) && (off + zlen d <=? zlen b)) with true by lia. reflexivity.
Qed.
Lemma bread_val b off n : 0 <= off -> 0 <= n -> off + n <= zlen b ->
  bread b off n = Ok (firstn (Z.to_nat n) (skipn (Z.to_nat off) b)).
Proof.
  intros H1 H2 H3. unfold bread. replace ((0 <=? off) && (0 <=? n) && (off + n <=? zlen b)) with true by lia. reflexivity.
Qed.

Lemma write_len {A} (b d : list A) off : 0 <= off -> off + zlen d <= zlen b ->
  zlen (firstn (Z.to_nat off) b ++ d ++ skipn (Z.to_nat off + length d) b) = zlen b.
Proof. intros. zl. unfold zlen in *. lia. Qed.

(** Result of a write, with the rest of the record. *)
Lemma swrite_ok s off d : sv s = false -> 0 <= off -> off + zlen d <= zlen (sb s) ->
  exists b', swrite s off d = Ok (mk_str b' (sl s) (sc s) false (ss s)) /\ zlen b' = zlen (sb s) /\
    pre (firstn (Z.to_nat off) (sb s) ++ d) b'
    /\ skipn (Z.to_nat (off + zlen d)) b' = skipn (Z.to_nat (off + zlen d)) (sb s).
Proof.
  intros V H1 H2. unfold swrite. rewrite V, bwrite_val by assumption. cbn [bind].
  eexists. split; [reflexivity|]. split; [apply write_len; assumption|]. split.
  - eexists. now rewrite <- app_assoc.
  - rewrite app_assoc. rewrite skipn_zlen; [|zl; zlia]. f_equal. unfold zlen. lia.
Qed.

(** * The representation *)

Lemma zlen_zblk z : zlen (zblk z) = zlen z + 1.
Proof. unfold zblk. zl. lia. Qed.
#[global] Hint Rewrite zlen_zblk : zlen.

Lemma sput_ok s off c : sv s = false -> 0 <= off < zlen (sb s) ->
  exists b', sput s off c = Ok (mk_str b' (sl s) (sc s) false (ss s)) /\ zlen b' = zlen (sb s) /\
    pre (firstn (Z.to_nat off) (sb s) ++ [Some c]) b'
    /\ skipn (Z.to_nat (off + 1)) b' = skipn (Z.to_nat (off + 1)) (sb s).
Proof.
  intros V H. unfold sput. apply (swrite_ok s off [Some c]); [assumption|lia|]. zl. lia.
Qed.

(** Writing the terminator after the text. *)
Lemma term_ok t cap s n : n = zlen t ->
  pre (map Some t) (sb s) -> oks t -> sl s = zlen t -> sc s = cap -> zlen t <= cap ->
  cap + 1 <= zlen (sb s) -> cap + 1 <= alloc_max -> sv s = false ->
  exists s', sput s n 0 = Ok s' /\ srep t cap s' /\ zlen (sb s') = zlen (sb s).
Proof.
  intros -> P O L C LE R F V.
  destruct (sput_ok s (zlen t) 0 V) as (b' & E & Lb & Pb & _); [zlia|].
  eexists. split; [exact E|]. split; [|exact Lb].
  rewrite (pre_firstn_eq (map Some t)) in Pb by (assumption || (zl; reflexivity)).
  constructor; cbn [sb sl sc sv]; try assumption; try reflexivity. lia.
Qed.

(** Writing the last byte of the storage. *)
Lemma last_ok t cap s : pre (zblk t) (sb s) -> oks t -> sl s = zlen t -> sc s = cap -> zlen t <= cap ->
  cap + 1 <= zlen (sb s) -> cap + 1 <= alloc_max -> sv s = false ->
  exists s', sput s (sc s) 0 = Ok s' /\ srep t cap s' /\ zlen (sb s') = zlen (sb s).
Proof.
  intros P O L C LE R F V. rewrite C.
  destruct (Z.eq_dec cap (zlen t)) as [->|Hne].
  - apply (term_ok t (zlen t) s (zlen t)); try assumption; try reflexivity. unfold zblk in P. now apply pre_app in P.
  - destruct (sput_ok s cap 0 V) as (b' & E & Lb & Pb & _); [zlia|].
    eexists. split; [exact E|]. split; [|exact Lb].
    apply pre_app in Pb.
    constructor; cbn [sb sl sc sv]; try assumption; try reflexivity; [|lia].
    destruct Pb as [q ->]. apply pre_ext. apply pre_firstn; [assumption|]. zl. lia.
Qed.

Lemma realloc_ok dbg s n l : pre l (sb s) -> zlen l <= n -> 0 < n <= alloc_max -> 
  exists s', srealloc dbg s n = Ok s' /\ pre l (sb s') /\ zlen (sb s') = n
             /\ sl s' = sl s /\ sc s' = sc s /\ sv s' = sv s /\ ss s' = ss s.
Proof.
  intros P Hl Hn. unfold srealloc. rewrite c_realloc_ok by assumption. cbn [bind].
  eexists. split; [reflexivity|]. cbn [sb sl sc sv ss]. split; [|split; [|tauto]].
  - apply pre_ext. now apply pre_firstn.
  - zl. unfold zlen. lia.
Qed.

Lemma reserve_ok dbg t cap s n : srep t cap s -> 0 < n -> cap + n + 1 <= alloc_max ->
  exists s', str_reserve dbg s n = Ok s' /\ srep t (cap + n) s'.
Proof.
  intros R Hn Hf. destruct R as [P O L C LE RM F V]. unfold str_reserve.
  rewrite dassert_true by lia. rewrite V. cbn [bind enforce negb].
  rewrite C. w64s.
  destruct (realloc_ok dbg s (cap + n + 1) (zblk t) P) as (s1 & E & P1 & L1 & L1' & C1 & V1 & S1); [zl; lia|zlia|].
  rewrite E. cbn [bind]. rewrite L1', C1, V1, C, V. w64s.
  set (s2 := mk_str (sb s1) (sl s) (cap + n) false (ss s1)).
  destruct (last_ok t (cap + n) s2) as (s3 & E3 & R3 & _); unfold s2; cbn [sb sl sc sv]; try assumption; try reflexivity; try lia.
  exists s3. split; [exact E3|exact R3].
Qed.

Lemma space_val t cap s : srep t cap s -> str_has_space s = cap - zlen t.
Proof. intros [P O L C LE RM F V]. unfold str_has_space. rewrite L, C. w64s. reflexivity. Qed.

Lemma ensure_ok dbg t cap s n : srep t cap s -> 0 <= n -> Z.max cap (zlen t + n) + 1 <= alloc_max ->
  exists s', (if str_has_space s <? n then str_reserve dbg s (w64 (n - str_has_space s)) else Ok s) = Ok s'
    /\ srep t (Z.max cap (zlen t + n)) s'.
Proof.
  intros R Hn Hf. rewrite (space_val t cap s R). pose proof (r_le _ _ _ R).
  destruct (Z.ltb_spec (cap - zlen t) n).
  - w64s. replace (Z.max cap (zlen t + n)) with (cap + (n - (cap - zlen t))) by lia.
    apply reserve_ok; [assumption|lia|lia].
  - exists s. split; [reflexivity|]. replace (Z.max cap (zlen t + n)) with cap by lia. assumption.
Qed.

Lemma firstn_map_some n (z : list Z) : (n <= length z)%nat -> firstn n (zblk z) = map Some (firstn n z).
Proof.
  intros H. unfold zblk. rewrite firstn_app, map_length. replace (n - length z)%nat with O by lia.
  cbn [firstn]. rewrite app_nil_r. apply firstn_map.
Qed.

(** Copying [k] characters of [z] from offset 0. *)
Lemma scopy_ok s dst z k : sv s = false -> 0 <= k <= zlen z -> 0 <= dst -> dst + k <= zlen (sb s) ->
  exists b', scopy s dst z 0 k = Ok (mk_str b' (sl s) (sc s) false (ss s)) /\ zlen b' = zlen (sb s) /\
    pre (firstn (Z.to_nat dst) (sb s) ++ map Some (firstn (Z.to_nat k) z)) b'
    /\ skipn (Z.to_nat (dst + k)) b' = skipn (Z.to_nat (dst + k)) (sb s).
Proof.
  intros V Hk Hd Hr. unfold scopy. destruct (Z.eqb_spec k 0) as [->|Hne].
  - exists (sb s). split; [destruct s; cbn in *; subst; reflexivity|]. split; [reflexivity|].
    split; [|reflexivity]. rewrite app_nil_r. exists (skipn (Z.to_nat dst) (sb s)). now rewrite firstn_skipn.
  - rewrite bread_val by (zl; lia). cbn [bind]. change (Z.to_nat 0) with 0%nat. cbn [skipn].
    rewrite firstn_map_some by (unfold zlen in *; lia).
    destruct (swrite_ok s dst (map Some (firstn (Z.to_nat k) z))) as (b' & E & A & B & D); [assumption|lia|zl; lia|].
    exists b'. split; [exact E|]. split; [exact A|]. split; [exact B|].
    zl. replace (Z.min (Z.of_nat (Z.to_nat k)) (zlen z)) with k in D by lia. exact D.
Qed.

(** Moving [n] bytes inside the storage. *)
Lemma smove_ok s dst src n : sv s = false -> 0 <= n -> 0 <= dst -> 0 <= src -> dst + n <= zlen (sb s) -> src + n <= zlen (sb s) ->
  exists b', smove s dst src n = Ok (mk_str b' (sl s) (sc s) false (ss s)) /\ zlen b' = zlen (sb s) /\
    pre (firstn (Z.to_nat dst) (sb s) ++ firstn (Z.to_nat n) (skipn (Z.to_nat src) (sb s))) b'
    /\ skipn (Z.to_nat (dst + n)) b' = skipn (Z.to_nat (dst + n)) (sb s).
Proof.
  intros V H0 H1 H2 H3 H4. unfold smove. destruct (Z.eqb_spec n 0) as [->|Hne].
  - exists (sb s). split; [destruct s; cbn in *; subst; reflexivity|]. split; [reflexivity|].
    split; [|reflexivity]. rewrite app_nil_r. exists (skipn (Z.to_nat dst) (sb s)). now rewrite firstn_skipn.
  - rewrite bread_val by lia. cbn [bind].
    assert (zlen (firstn (Z.to_nat n) (skipn (Z.to_nat src) (sb s))) = n) as Ln by (zl; lia).
    destruct (swrite_ok s dst (firstn (Z.to_nat n) (skipn (Z.to_nat src) (sb s)))) as (b' & E & A & B & D); [assumption|lia|lia|].
    exists b'. split; [exact E|]. split; [exact A|]. split; [exact B|]. rewrite Ln in D. exact D.
Qed.

Lemma pre_text t cap s : srep t cap s -> pre (map Some t) (sb s).
Proof. intros R. pose proof (r_pre _ _ _ R) as P. unfold zblk in P. now apply pre_app in P. Qed.

Lemma append_n_ok dbg t cap s z k : srep t cap s -> oks z -> 0 < k <= zlen z -> Z.max cap (zlen t + k) + 1 <= alloc_max ->
  exists s', str_append_n dbg s z k = Ok s' /\ srep (t ++ firstn (Z.to_nat k) z) (Z.max cap (zlen t + k)) s'.
Proof.
  intros R O Hk Hf. unfold str_append_n. rewrite dassert_true by lia. cbn [bind].
  destruct (ensure_ok dbg t cap s k R) as (s1 & E1 & R1); [lia|assumption|].
  rewrite E1. cbn [bind]. pose proof (pre_text _ _ _ R1) as PT. pose proof R1 as R1'. destruct R1' as [P1 O1 L1 C1 LE1 RM1 F1 V1].
  rewrite L1.
  destruct (scopy_ok s1 (zlen t) z k V1) as (b' & E2 & Lb & Pb & _); [lia|zlia|lia|].
  rewrite E2. cbn [bind sb sl sc sv ss set_len]. rewrite L1. w64s.
  rewrite (pre_firstn_eq (map Some t)) in Pb by (assumption || (zl; reflexivity)).
  assert (zlen (t ++ firstn (Z.to_nat k) z) = zlen t + k) as Lt by (zl; lia).
  match goal with |- context [sput ?x _ _] => destruct (term_ok (t ++ firstn (Z.to_nat k) z) (Z.max cap (zlen t + k)) x (zlen t + k)) as (s3 & E3 & R3 & _) end;
    cbn [sb sl sc sv ss set_len]; try lia; try reflexivity; try assumption.
  - now rewrite map_app.
  - apply oks_app. split; [assumption|now apply oks_firstn].
  - exists s3. split; [exact E3|exact R3].
Qed.

Lemma append_ok dbg t cap s z : srep t cap s -> oks z -> 0 < zlen z -> Z.max cap (zlen t + zlen z) + 1 <= alloc_max ->
  exists s', str_append dbg s z = Ok s' /\ srep (t ++ z) (Z.max cap (zlen t + zlen z)) s'.
Proof.
  intros R O Hk Hf. destruct (append_n_ok dbg t cap s z (zlen z) R O) as (s' & E & R'); [lia|assumption|].
  exists s'. split; [exact E|]. rewrite to_nat_zlen, firstn_all in R'. exact R'.
Qed.

Lemma appendf_ok dbg t cap s z : srep t cap s -> oks z -> Z.max cap (zlen t + zlen z) + 1 <= alloc_max ->
  exists s', str_appendf dbg s z = Ok s' /\ srep (t ++ z) (Z.max cap (zlen t + zlen z)) s'.
Proof.
  intros R O Hf. unfold str_appendf.
  destruct (ensure_ok dbg t cap s (zlen z) R) as (s1 & E1 & R1); [zlia|assumption|].
  rewrite E1. cbn [bind]. pose proof (pre_text _ _ _ R1) as PT. destruct R1 as [P1 O1 L1 C1 LE1 RM1 F1 V1].
  rewrite L1.
  destruct (swrite_ok s1 (zlen t) (zblk z) V1) as (b' & E2 & Lb & Pb & _); [zlia|zl; lia|].
  rewrite E2. cbn [bind sb sl sc sv ss set_len]. rewrite L1. w64s.
  rewrite (pre_firstn_eq (map Some t)) in Pb by (assumption || (zl; reflexivity)).
  match goal with |- context [sput ?x _ _] => destruct (term_ok (t ++ z) (Z.max cap (zlen t + zlen z)) x (zlen t + zlen z)) as (s3 & E3 & R3 & _) end;
    cbn [sb sl sc sv ss set_len]; zl; try lia; try reflexivity; try assumption.
  - rewrite map_app. unfold zblk in Pb. rewrite app_assoc in Pb. now apply pre_app in Pb.
  - apply oks_app. now split.
  - exists s3. split; [exact E3|exact R3].
Qed.

(** The body shared by insert and insert_n. *)
Lemma insert_body dbg t1 t2 cap s z k at_ : srep (t1 ++ t2) cap s -> oks z -> 0 <= k <= zlen z -> at_ = zlen t1 ->
  let sp := str_has_space s in
  Z.max cap (zlen (t1 ++ t2) + k) + 1 <= alloc_max ->
  exists s', (let* s := if sp <? k then str_reserve dbg s (w64 (k - sp)) else Ok s in
              let* s := smove s (w64 (at_ + k)) at_ (w64 (sl s - at_)) in
              let* s := scopy s at_ z 0 k in
              let s := set_len s (w64 (sl s + k)) in
              sput s (sl s) 0) = Ok s'
    /\ srep (t1 ++ firstn (Z.to_nat k) z ++ t2) (Z.max cap (zlen (t1 ++ t2) + k)) s'.
Proof.
  intros R O Hk -> sp Hf. unfold sp. clear sp.
  destruct (ensure_ok dbg (t1 ++ t2) cap s k R) as (s1 & E1 & R1); [lia|assumption|].
  rewrite E1. cbn [bind]. pose proof (pre_text _ _ _ R1) as PT.
  set (cap' := Z.max cap (zlen (t1 ++ t2) + k)) in *. destruct R1 as [P1 O1 L1 C1 LE1 RM1 F1 V1].
  rewrite L1. assert (zlen (t1 ++ t2) + k <= cap') as Hc by (unfold cap'; lia). zl. w64s.
  rewrite map_app in PT. destruct PT as [q Eq].
  destruct (smove_ok s1 (zlen t1 + k) (zlen t1) (zlen t1 + zlen t2 - zlen t1) V1) as (b2 & E2 & Lb2 & Pb2 & _); try zlia.
  rewrite E2. cbn [bind].
  replace (firstn (Z.to_nat (zlen t1 + zlen t2 - zlen t1)) (skipn (Z.to_nat (zlen t1)) (sb s1))) with (map (@Some Z) t2) in Pb2.
  2:{ rewrite Eq, <- app_assoc. rewrite skipn_zlen by (zl; reflexivity). rewrite firstn_zlen by (zl; lia). reflexivity. }
  set (s2 := mk_str b2 (sl s1) (sc s1) false (ss s1)).
  destruct (scopy_ok s2 (zlen t1) z k) as (b3 & E3 & Lb3 & Pb3 & Sb3); unfold s2; cbn [sb sv]; try reflexivity; try zlia.
  unfold s2 in E3. rewrite E3. cbn [bind sb sl sc sv ss set_len]. rewrite L1. zl. w64s. unfold s2 in *. cbn [sb sl sc sv ss] in *.
  assert (firstn (Z.to_nat (zlen t1)) b2 = map Some t1) as F2.
  { destruct Pb2 as [q2 ->]. rewrite <- app_assoc. rewrite firstn_app.
    rewrite firstn_firstn. replace (Nat.min (Z.to_nat (zlen t1)) (Z.to_nat (zlen t1 + k))) with (Z.to_nat (zlen t1)) by zlia.
    rewrite Eq at 1. rewrite <- app_assoc, firstn_zlen by (zl; reflexivity).
    assert (Z.to_nat (zlen t1) - length (firstn (Z.to_nat (zlen t1 + k)) (sb s1)) = 0)%nat as ->
      by (rewrite firstn_length; unfold zlen in *; lia).
    cbn [firstn]. now rewrite app_nil_r. }
  rewrite F2 in Pb3.
  assert (pre (map Some (t1 ++ firstn (Z.to_nat k) z ++ t2)) b3) as PF.
  { destruct Pb3 as [q3 Eq3]. rewrite !map_app.
    rewrite Eq3 in Sb3. rewrite skipn_zlen in Sb3 by (zl; zlia).
    destruct Pb2 as [q2 Eq2]. rewrite Eq2 in Sb3. rewrite <- app_assoc in Sb3. rewrite skipn_zlen in Sb3 by (zl; zlia).
    rewrite Eq3, Sb3. exists q2. now rewrite <- !app_assoc. }
  match goal with |- context [sput ?x _ _] =>
    destruct (term_ok (t1 ++ firstn (Z.to_nat k) z ++ t2) cap' x (zlen t1 + zlen t2 + k)) as (s4 & E4 & R4 & _) end;
    cbn [sb sl sc sv ss set_len]; zl; try zlia; try reflexivity; try assumption.
  - apply oks_app in O1. apply oks_app. split; [tauto|]. apply oks_app. split; [now apply oks_firstn|tauto].
  - exists s4. split; [exact E4|exact R4].
Qed.

Lemma splice_app t1 t2 z i : i = zlen t1 -> splice (t1 ++ t2) z i = t1 ++ z ++ t2.
Proof. intros ->. unfold splice. now rewrite firstn_zlen, skipn_zlen. Qed.

Lemma insert_ok dbg t1 t2 cap s z at_ : srep (t1 ++ t2) cap s -> oks z -> at_ = zlen t1 -> 0 < zlen t2 ->
  Z.max cap (zlen (t1 ++ t2) + zlen z) + 1 <= alloc_max ->
  exists s', str_insert dbg s z at_ = Ok s' /\ srep (t1 ++ z ++ t2) (Z.max cap (zlen (t1 ++ t2) + zlen z)) s'.
Proof.
  intros R O Ha H2 Hf. unfold str_insert. rewrite (r_len _ _ _ R). rewrite dassert_true by (zl; lia). cbn [bind].
  destruct (insert_body dbg t1 t2 cap s z (zlen z) at_ R O) as (s' & E & R'); [zlia|assumption|assumption|].
  rewrite to_nat_zlen, firstn_all in R'. exists s'. split; [|exact R']. rewrite <- E. reflexivity.
Qed.

Lemma insert_n_ok dbg t1 t2 cap s z k at_ : srep (t1 ++ t2) cap s -> oks z -> at_ = zlen t1 -> 0 < k <= zlen z ->
  Z.max cap (zlen (t1 ++ t2) + k) + 1 <= alloc_max ->
  exists s', str_insert_n dbg s z at_ k = Ok s' /\ srep (t1 ++ firstn (Z.to_nat k) z ++ t2) (Z.max cap (zlen (t1 ++ t2) + k)) s'.
Proof.
  intros R O Ha Hk Hf. unfold str_insert_n. rewrite dassert_true by (zl; lia). cbn [bind].
  destruct (insert_body dbg t1 t2 cap s z k at_ R O) as (s' & E & R'); [lia|assumption|assumption|].
  exists s'. split; [|exact R']. rewrite <- E. reflexivity.
Qed.

(** The body shared by remove and remove_first. *)
Lemma cutout_ok t1 m t2 cap s : srep (t1 ++ m ++ t2) cap s ->
  exists s', (let* s := smove s (zlen t1) (zlen t1 + zlen m) (zlen t2) in
              let s := set_len s (zlen t1 + zlen t2) in
              sput s (sl s) 0) = Ok s' /\ srep (t1 ++ t2) cap s' /\ zlen (sb s') = zlen (sb s).
Proof.
  intros R. pose proof (pre_text _ _ _ R) as PT. destruct R as [P O L C LE RM F V]. zl.
  destruct (smove_ok s (zlen t1) (zlen t1 + zlen m) (zlen t2) V) as (b2 & E2 & Lb2 & Pb2 & _); try zlia.
  rewrite E2. cbn [bind set_len sb sl sc sv ss].
  destruct PT as [q Eq]. rewrite !map_app in Eq. rewrite Eq in Pb2 at 1 2. rewrite <- !app_assoc in Pb2.
  rewrite firstn_zlen in Pb2 by (zl; reflexivity).
  rewrite (app_assoc (map Some t1)) in Pb2. rewrite skipn_zlen in Pb2 by (zl; lia).
  rewrite firstn_zlen in Pb2 by (zl; lia).
  match goal with |- context [sput ?x _ _] =>
    destruct (term_ok (t1 ++ t2) cap x (zlen t1 + zlen t2)) as (s4 & E4 & R4 & L4) end;
    cbn [sb sl sc sv ss set_len] in *; zl; try zlia; try reflexivity; try assumption.
  - now rewrite map_app.
  - rewrite !oks_app in O. apply oks_app. tauto.
  - exists s4. split; [exact E4|]. split; [exact R4|]. lia.
Qed.

Lemma remove_ok dbg t1 m t2 cap s from n : srep (t1 ++ m ++ t2) cap s -> from = zlen t1 ->
  0 < zlen m -> n = zlen m \/ (zlen m <= n /\ t2 = []) -> 
  exists s', str_remove dbg s from n = Ok s' /\ srep (t1 ++ t2) cap s' /\ zlen (sb s') = zlen (sb s).
Proof.
  intros R -> Hm Hn. pose proof (cutout_ok _ _ _ _ _ R) as X. destruct R as [P O L C LE RM F V]. unfold str_remove. zl.
  rewrite !dassert_true by (zlia || (destruct Hn as [?|[? ?]]; lia)). cbn [bind]. rewrite L. zl. w64s.
  assert ((if zlen t1 + (zlen m + zlen t2) - zlen t1 <? n then zlen t1 + (zlen m + zlen t2) - zlen t1 else n) = zlen m) as ->.
  { assert (n = zlen m \/ zlen m <= n /\ zlen t2 = 0) as Hn' by (destruct Hn as [?|[? ->]]; [left; assumption|right; split; [assumption|reflexivity]]).
    destruct (Z.ltb_spec (zlen t1 + (zlen m + zlen t2) - zlen t1) n); zlia. }
  w64s.
  replace (zlen t1 + (zlen m + zlen t2) - (zlen t1 + zlen m)) with (zlen t2) by lia.
  destruct (smove s (zlen t1) (zlen t1 + zlen m) (zlen t2)) as [s1| | |] eqn:E1; destruct X as (s' & E & R'); try discriminate.
  exists s'. split; [|exact R']. rewrite <- E. cbn [bind].
  assert (sl s1 = zlen t1 + (zlen m + zlen t2)) as ->.
  { unfold smove in E1. destruct (zlen t2 =? 0); [injection E1 as <-; assumption|].
    destruct (bread _ _ _); try discriminate. cbn [bind] in E1. unfold swrite in E1. rewrite V in E1.
    destruct (bwrite _ _ _); try discriminate. injection E1 as <-. exact L. }
  w64s. replace (zlen t1 + (zlen m + zlen t2) - zlen m) with (zlen t1 + zlen t2) by lia. reflexivity.
Qed.

Lemma clear_ok t cap s : srep t cap s -> exists s', str_clear s = Ok s' /\ srep [] cap s'.
Proof.
  intros [P O L C LE RM F V]. unfold str_clear.
  destruct (sput_ok s 0 0 V) as (b' & E & Lb & Pb & _); [zlia|].
  rewrite E. cbn [bind set_len sb sl sc sv ss].
  eexists. split; [reflexivity|]. unfold set_len. constructor; cbn [sb sl sc sv]; zl; try assumption; try reflexivity; try zlia.
  constructor.
Qed.

Lemma set_n_ok dbg t cap s z k : srep t cap s -> oks z -> 0 < k <= zlen z -> k <= zlen t ->
  exists s', str_set_n dbg s z k = Ok s' /\ srep (firstn (Z.to_nat k) z) cap s'.
Proof.
  intros [P O L C LE RM F V] Oz Hk Hn. unfold str_set_n. rewrite dassert_true by lia.
  rewrite enforce_true by lia. cbn [bind].
  destruct (scopy_ok s 0 z k V) as (b' & E & Lb & Pb & _); [lia|lia|lia|].
  rewrite E. cbn [bind]. change (Z.to_nat 0) with 0%nat in Pb. cbn [firstn app] in Pb.
  destruct (sput_ok (mk_str b' (sl s) (sc s) false (ss s)) k 0) as (b2 & E2 & Lb2 & Pb2 & _); [reflexivity|cbn [sb]; lia|].
  rewrite E2. cbn [bind set_len sb sl sc sv ss] in *.
  eexists. split; [reflexivity|]. unfold set_len.
  assert (zlen (firstn (Z.to_nat k) z) = k) as Lk by (zl; lia).
  rewrite (pre_firstn_eq (map Some (firstn (Z.to_nat k) z))) in Pb2 by (assumption || (zl; lia)).
  constructor; cbn [sb sl sc sv]; try assumption; try reflexivity; try lia.
  now apply oks_firstn.
Qed.

Lemma map_repeat {A B} (f : A -> B) x n : map f (repeat x n) = repeat (f x) n.
Proof. induction n as [|n IH]; cbn; [reflexivity|now rewrite IH]. Qed.

Lemma create_len_ok dbg n : 0 < n -> n + 1 <= alloc_max ->
  exists s, str_create_len dbg n = Ok s /\ srep (repeat 63 (Z.to_nat n)) n s /\ zlen (sb s) = n + 1.
Proof.
  intros H1 H2. unfold str_create_len. rewrite dassert_true by lia. cbn [bind].
  rewrite c_calloc_ok by (unfold array_size, alloc_max; lia). cbn [bind]. w64s.
  rewrite c_calloc_ok by lia. cbn [bind]. replace (n =? 0) with false by lia.
  set (s := mk_str _ n n false 0).
  assert (zlen (sb s) = n + 1) as Ls by (unfold s; cbn [sb]; zl; lia).
  unfold swrite. cbn [sv s]. unfold s. cbn [sb sl sc sv ss].
  replace (Z.to_nat (n + 1)) with (Z.to_nat n + 1)%nat by lia. rewrite repeat_app.
  change (repeat (Some 0) (Z.to_nat n) ++ repeat (Some 0) 1) with ([] ++ repeat (Some 0) (Z.to_nat n) ++ [Some 0]).
  rewrite bwrite_app by (zl; reflexivity). cbn [bind app].
  eexists. split; [reflexivity|]. split; [|cbn [sb]; zl; lia].
  constructor; cbn [sb sl sc sv]; zl; try reflexivity; try lia.
  - unfold zblk. rewrite map_repeat. apply pre_refl.
  - apply Forall_forall. intros x Hx. apply repeat_spec in Hx. unfold okc. lia.
Qed.

Lemma create_ok dbg z : oks z -> 0 < zlen z -> zlen z + 1 <= alloc_max ->
  exists s, str_create dbg z = Ok s /\ srep z (zlen z) s.
Proof.
  intros O H1 H2. unfold str_create.
  destruct (create_len_ok dbg (zlen z) H1 H2) as (s1 & E1 & R1 & _). rewrite E1. cbn [bind].
  destruct (set_n_ok dbg _ _ s1 z (zlen z) R1 O) as (s2 & E2 & R2); [lia|zl; lia|].
  rewrite to_nat_zlen, firstn_all in R2. eauto.
Qed.

Lemma create_capacity_ok dbg n : 0 < n -> n + 1 <= alloc_max ->
  exists s, str_create_capacity dbg n = Ok s /\ srep [] n s.
Proof.
  intros H1 H2. unfold str_create_capacity. rewrite dassert_true by lia. cbn [bind].
  destruct (create_len_ok dbg n H1 H2) as (s1 & E1 & R1 & _). rewrite E1. cbn [bind].
  apply (clear_ok _ _ _ R1).
Qed.

Lemma z_ok t cap s : srep t cap s -> str_z s = Ok t.
Proof.
  intros [[q P] O L C LE RM F V]. unfold str_z. rewrite P. unfold zblk. rewrite <- app_assoc. cbn [app].
  apply cstr_app. now apply oks_nonul.
Qed.

Lemma dup_ok dbg t cap s : srep t cap s -> 0 < zlen t -> exists s', str_dup dbg s = Ok s' /\ srep t (zlen t) s'.
Proof.
  intros R H. unfold str_dup. pose proof (z_ok _ _ _ R) as Z. unfold str_z in Z. rewrite Z. cbn [bind].
  destruct R as [P O L C LE RM F V]. apply create_ok; [assumption|assumption|lia].
Qed.

Lemma take_ownership_ok dbg b t : pre (zblk t) b -> oks t -> zlen t + 1 <= alloc_max ->
  exists s, str_take_ownership dbg b = Ok s /\ srep t (zlen t) s.
Proof.
  intros [q ->] O H. unfold str_take_ownership. rewrite c_calloc_ok by (unfold array_size, alloc_max; lia). cbn [bind].
  unfold zblk. rewrite <- app_assoc. cbn [app]. rewrite cstr_app by now apply oks_nonul. cbn [bind].
  eexists. split; [reflexivity|]. constructor; cbn [sb sl sc sv]; zl; try assumption; try reflexivity; try zlia.
  exists q. unfold zblk. now rewrite <- app_assoc.
Qed.

Lemma resize_ok dbg t cap s k : srep t cap s -> 0 < k -> k + 1 <= alloc_max ->
  exists s', str_resize dbg s k = Ok s' /\ srep (firstn (Z.to_nat k) t) k s'.
Proof.
  intros R Hk Hf. pose proof (pre_text _ _ _ R) as PT. destruct R as [P O L C LE RM F V]. unfold str_resize.
  rewrite dassert_true by lia. rewrite V. cbn [bind enforce negb]. w64s.
  destruct (Z.ltb_spec k (sl s)).
  - assert (pre (map Some (firstn (Z.to_nat k) t)) (sb s)) as PK.
    { rewrite <- (firstn_skipn (Z.to_nat k) t) in PT. rewrite map_app in PT. now apply pre_app in PT. }
    assert (zlen (firstn (Z.to_nat k) t) = k) as Lk by (zl; lia).
    destruct (realloc_ok dbg s (k + 1) _ PK) as (s1 & E & P1 & L1 & L1' & C1 & V1 & S1); [rewrite zlen_map; lia|zlia|].
    rewrite E. cbn [bind]. rewrite L1'. replace (k <? sl s) with true by lia. rewrite V1, V.
    match goal with |- context [sput ?x _ _] =>
      destruct (term_ok (firstn (Z.to_nat k) t) k x k) as (s4 & E4 & R4 & _) end;
      cbn [sb sl sc sv ss]; try lia; try reflexivity; try assumption.
    { now apply oks_firstn. }
    eauto.
  - destruct (realloc_ok dbg s (k + 1) _ P) as (s1 & E & P1 & L1 & L1' & C1 & V1 & S1); [zl; lia|zlia|].
    rewrite E. cbn [bind]. rewrite L1'. replace (k <? sl s) with false by lia. rewrite V1, V.
    rewrite firstn_ge by (unfold zlen in *; lia).
    match goal with |- context [sput ?x _ _] =>
      destruct (last_ok t k x) as (s4 & E4 & R4 & _) end;
      cbn [sb sl sc sv ss]; try lia; try reflexivity; try assumption.
    eauto.
Qed.

Lemma shrink_ok dbg t cap s : srep t cap s -> exists s', str_shrink dbg s = Ok s' /\ srep t (zlen t) s'.
Proof.
  intros R. pose proof (pre_text _ _ _ R) as PT. pose proof R as R'. destruct R' as [P O L C LE RM F V]. unfold str_shrink.
  rewrite V. cbn [bind enforce negb]. rewrite L, C.
  destruct (Z.eqb_spec (zlen t) cap) as [<-|Hne]; [eauto|]. w64s.
  destruct (realloc_ok dbg s (zlen t + 1) _ P) as (s1 & E & P1 & L1 & L1' & C1 & V1 & S1); [zl; lia|zlia|].
  rewrite E. cbn [bind]. rewrite L1', V1, V, L.
  match goal with |- context [sput ?x _ _] =>
      destruct (last_ok t (zlen t) x) as (s4 & E4 & R4 & _) end;
      cbn [sb sl sc sv ss]; try lia; try reflexivity; try assumption.
  eauto.
Qed.

Lemma strnlen_ok t q k : oks t -> (length t <= k)%nat -> strnlen (map Some t ++ Some 0 :: q) k = Ok (zlen t).
Proof.
  intros O. revert k. induction O as [|c t Hc Ht IH]; intros k Hk; cbn [map app strnlen].
  - destruct k; reflexivity.
  - destruct k; cbn [length] in Hk; [lia|]. cbn [strnlen]. unfold okc in Hc.
    replace (c =? 0) with false by lia. rewrite IH by lia. cbn [bind]. zl. f_equal. lia.
Qed.

Lemma validate_ok t cap s : srep t cap s -> exists s', str_validate_len s = Ok (s', zlen t) /\ srep t cap s'.
Proof.
  intros R. pose proof (pre_text _ _ _ R) as PT. destruct R as [P O L C LE RM F V]. unfold str_validate_len.
  assert (strnlen (sb s) (Z.to_nat (sc s)) = Ok (zlen t)) as ->.
  { destruct P as [q ->]. unfold zblk. rewrite <- app_assoc. apply strnlen_ok; [assumption|unfold zlen in *; lia]. }
  cbn [bind].
  destruct (term_ok t cap s (zlen t)) as (s4 & E4 & R4 & _); try assumption; try lia; try reflexivity.
  rewrite E4. cbn [bind]. eexists. split; [reflexivity|].
  destruct R4; constructor; cbn [set_len sb sl sc sv]; try assumption. reflexivity.
Qed.

Lemma set_at_ok dbg t1 t2 cap s z : srep (t1 ++ t2) cap s -> oks z -> 0 < zlen z <= zlen t2 ->
  exists s', str_set_at dbg s z (zlen t1) = Ok s' /\ srep (t1 ++ z) cap s'.
Proof.
  intros R O Hz. unfold str_set_at. pose proof (r_len _ _ _ R) as L. pose proof (r_le _ _ _ R). pose proof (r_fit _ _ _ R).
  rewrite L. zl. w64s.
  rewrite dassert_true, enforce_true by lia. cbn [bind].
  rewrite <- (app_nil_r t2) in R.
  destruct (remove_ok dbg t1 t2 [] cap s (zlen t1) (zlen t1 + zlen t2 - zlen t1) R) as (s1 & E1 & R1 & _); [reflexivity|lia|left; lia|].
  rewrite E1. cbn [bind]. rewrite app_nil_r in R1.
  destruct (append_n_ok dbg t1 cap s1 z (zlen z) R1 O) as (s2 & E2 & R2); [lia|lia|].
  rewrite to_nat_zlen, firstn_all in R2. exists s2. split; [exact E2|].
  replace (Z.max cap (zlen t1 + zlen z)) with cap in R2 by lia. exact R2.
Qed.

(** Overwriting one character in place. *)
Lemma put_mid a x b cap s c : srep (a ++ x :: b) cap s -> okc c ->
  exists s', sput s (zlen a) c = Ok s' /\ srep (a ++ c :: b) cap s' /\ zlen (sb s') = zlen (sb s).
Proof.
  intros [P O L C LE RM F V] Hc. unfold zblk in *. destruct P as [q P].
  assert (sb s = map Some a ++ [Some x] ++ (map Some b ++ [Some 0] ++ q)) as EP
    by (rewrite P, map_app; cbn [map app]; now rewrite <- !app_assoc).
  unfold sput, swrite. rewrite V, EP. rewrite bwrite_app by (zl; reflexivity). cbn [bind].
  eexists. split; [reflexivity|].
  split; [|cbn [sb]; zl; lia].
  constructor; cbn [sb sl sc sv]; zl; try assumption; try reflexivity; try (rewrite EP in RM; zl; lia).
  - exists q. unfold zblk. rewrite map_app. cbn [map app]. now rewrite <- !app_assoc.
  - apply oks_app in O as [Oa Ox]. apply oks_app. split; [assumption|]. inversion Ox; subst. now constructor.
Qed.

Lemma byte_mid a x b cap s : srep (a ++ x :: b) cap s -> bbyte (sb s) (zlen a) = Ok x.
Proof.
  intros [[q P] O L C LE RM F V]. rewrite P. unfold zblk. rewrite map_app. cbn [map]. rewrite <- !app_assoc.
  cbn [app]. apply bbyte_app. now rewrite zlen_map.
Qed.

Lemma set_c_ok dbg a x b cap s c : srep (a ++ x :: b) cap s -> okc c ->
  exists s', str_set_c dbg s c (zlen a) = Ok s' /\ srep (a ++ c :: b) cap s'.
Proof.
  intros R Hc. unfold str_set_c. rewrite (r_len _ _ _ R). rewrite dassert_true by (zl; zlia). cbn [bind].
  destruct (put_mid _ _ _ _ _ c R Hc) as (s' & E & R' & _). eauto.
Qed.
