(** Proofs of the longer statements in PropsVec.v. *)
From Verif Require Import Base BaseFacts VecModel VecSpec VecProofs VecProofs2 VecAlias.

Lemma c07_slide_front_sweeps_proof :
  forall es xs cap v m, vrep es xs cap v -> a_slider v = 0 ->
    calls slide_front (m * (Z.to_nat (vec_len v) + 1)) v =
    (v, repeat_list m (offsets es 0 (length xs) ++ [None])) /\
    Forall2 (fun o x => match o with Some off => bread (a_blk v) off es = Ok (map Some x) | None => False end)
            (offsets es 0 (length xs)) xs.
Proof.
  intros es xs cap v m H H0. split.
  - pose proof (slide_front_sweeps v m (vrep_slide_ok _ _ _ _ H) H0) as E.
    rewrite (vr_es _ _ _ _ H) in E. unfold vec_len. rewrite E, (vr_len _ _ _ _ H), to_nat_zlen. reflexivity.
  - exact (offsets_read es xs cap v H xs [] eq_refl).
Qed.

Lemma c08_slide_back_partial_proof :
  forall es xs cap v, vrep es xs cap v -> a_slider v = 0 -> 2 <= zlen xs ->
    calls slide_back (Z.to_nat (zlen xs - 2)) v =
      (set_slider v (zlen xs - 2), back_offsets es (zlen xs - 3) (Z.to_nat (zlen xs - 2))) /\
    (forall s, zlen xs - 2 <= s < zlen xs ->
       exists off, snd (slide_back (set_slider v s)) = Some off /\ bread (a_blk v) off es = UB).
Proof.
  intros es xs cap v H H0 Hn. split.
  - pose proof (slide_back_run v (vrep_slide_ok _ _ _ _ H) (Z.to_nat (zlen xs - 2)) 0) as E.
    rewrite (vr_len _ _ _ _ H), (vr_es _ _ _ _ H) in E. rewrite (set_slider_id v H0) in E.
    rewrite E by lia. rewrite Z.sub_0_r. reflexivity.
  - intros s Hs.
    assert (vrep es xs cap (set_slider v s)) as H'.
    { destruct H as [Ha Hb Hc Hd He Hf Hg Hh Hi Hj]. constructor; assumption. }
    destruct (slide_back_oob es xs cap _ s H' eq_refl) as (off & E1 & E2); [lia|lia|]. eauto.
Qed.

Lemma c74_own_element_partial_proof :
  forall dbg es p x s cap v i, vrep es (p ++ x :: s) cap v ->
    (0 <= i < zlen (p ++ x :: s) ->
      exists o w, vec_get_ptr dbg v (zlen p) = Ok o /\ vec_set dbg v (Own o) i = Ok w /\
                  vrep es (seq_update (p ++ x :: s) (Z.to_nat i) x) cap w) /\
    (zlen (p ++ x :: s) < cap ->
      exists o w, vec_get_ptr dbg v (zlen p) = Ok o /\ vec_push_back dbg v (Own o) = Ok w /\
                  vrep es ((p ++ x :: s) ++ [x]) cap w) /\
    (zlen (p ++ x :: s) < cap -> zlen p <= i < zlen (p ++ x :: s) ->
      exists o w, vec_get_ptr dbg v (zlen p) = Ok o /\ vec_insert dbg v (Own o) i = Ok w /\
                  vrep es (seq_insert (p ++ x :: s) (Z.to_nat i) x) cap w).
Proof.
  intros dbg es p x s cap v i H. split; [|split].
  - intros Hi. exact (vec_set_own dbg es p x s cap v i H Hi).
  - intros Hl. exact (vec_push_own dbg es p x s cap v H Hl).
  - intros Hl Hi. exact (vec_insert_own dbg es p x s cap v i H Hl Hi).
Qed.

