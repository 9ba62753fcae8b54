(** Proofs about the program location and the working directory. *)
From Verif Require Import Base BaseFacts StrModel StrModel2 StrSpec StrProofs FsModel FsSpec FsProofs LocModel.

Lemma fresh_capacity dbg : str_create_capacity dbg path_max =
  Ok (mk_str (Some 0 :: repeat (Some 63) 4095 ++ [Some 0]) 0 4096 false 0).
Proof. destruct dbg; vm_compute; reflexivity. Qed.

Lemma exe_ok dbg t : oks t -> 0 < zlen t ->
  let d := firstn 4096 t in
  exists s, get_exe dbg (Some t) = Ok (Some s) /\ sl s = zlen d /\ sc s = 4096 /\
    sb s = map Some d ++ repeat (Some 63) (4096 - length d) ++ [Some 0].
Proof.
  intros O L d. unfold get_exe. rewrite fresh_capacity. cbn [bind].
  change (firstn (Z.to_nat path_max) t) with d.
  assert (Ld : (0 < length d <= 4096)%nat).
  { unfold d. rewrite firstn_length. unfold zlen in L. lia. }
  replace (Some 0 :: repeat (Some 63) 4095 ++ [Some 0])
    with ([] ++ (Some 0 :: repeat (Some 63) (length d - 1)) ++ (repeat (Some 63) (4096 - length d) ++ [Some 0])).
  2:{ cbn [app]. f_equal. rewrite app_assoc, <- repeat_app. do 2 f_equal. lia. }
  unfold swrite. cbn [sv sb sl sc ss].
  rewrite bwrite_app by (unfold zlen; cbn [length]; rewrite ?map_length, ?repeat_length; lia). cbn [bind app].
  replace (zlen d <=? 0) with false by (unfold zlen; lia).
  eexists. split; [reflexivity|]. unfold set_len. cbn [sb sl sc]. auto.
Qed.

Lemma exe_text dbg t : oks t -> 0 < zlen t <= 4096 ->
  exists s, get_exe dbg (Some t) = Ok (Some s) /\ sl s = zlen t /\ cstr (sb s) = Ok (t ++ repeat 63 (4096 - length t)).
Proof.
  intros O L. destruct (exe_ok dbg t O) as (s & E & Sl & _ & Sb); [lia|].
  rewrite firstn_all2 in * by (unfold zlen in L; lia).
  exists s. split; [exact E|]. split; [exact Sl|]. rewrite Sb.
  replace (map Some t ++ repeat (Some 63) (4096 - length t) ++ [Some 0]) with (map Some (t ++ repeat 63 (4096 - length t)) ++ Some 0 :: []).
  2:{ rewrite map_app, map_repeat, <- app_assoc. reflexivity. }
  apply cstr_app, oks_nonul, Forall_app. split; [exact O|]. apply Forall_forall. intros x Hx. apply repeat_spec in Hx. unfold okc. lia.
Qed.

(** The working directory. *)
Lemma comps_flat q : Forall okname q -> forall n, ~ In 47 n -> comps (n ++ flat_map (fun n => 47 :: n) q) = n :: q.
Proof.
  induction 1 as [|m q Om F IH]; intros n Hn; cbn [flat_map]; [rewrite app_nil_r; now apply comps_name|].
  cbn [app]. rewrite comps_app, comps_name by assumption. cbn [app]. f_equal. apply IH. apply Om.
Qed.

Lemma oks_flat q : Forall okname q -> oks (flat_map (fun n => 47 :: n) q).
Proof.
  induction 1 as [|m q Om F IH]; cbn [flat_map app]; constructor; [unfold okc; lia|]. apply Forall_app. split; [apply Om|exact IH].
Qed.

Lemma filter_names q : Forall okname q -> filter nonempty q = q.
Proof.
  induction 1 as [|m q Om F IH]; [reflexivity|]. cbn [filter]. destruct m as [|c m]; [destruct Om; contradiction|].
  cbn [nonempty]. now rewrite IH.
Qed.

Lemma cwd_ok dbg fs cwd z : wf fs -> fs_getcwd fs cwd = Some z -> zlen z + 1 <= alloc_max ->
  exists s, get_cwd dbg fs cwd = Ok s /\ srep z (zlen z) s /\ forall c, resolve fs c z = Some cwd.
Proof.
  intros W E Lz. unfold get_cwd. rewrite E. unfold fs_getcwd in E.
  destruct (lookup fs cwd) as [[|]|] eqn:L; try discriminate. injection E as E.
  assert (Fn : Forall okname cwd) by (apply (wf_names fs); [exact W|congruence]).
  assert (Oz : oks z). { subst z. destruct cwd; [repeat constructor; unfold okc; lia|now apply oks_flat]. }
  unfold str_take_ownership. rewrite c_calloc_ok by (unfold array_size, alloc_max; lia). cbn [bind].
  replace (zblk z) with (map Some z ++ Some 0 :: []) by reflexivity. rewrite cstr_app by (now apply oks_nonul). cbn [bind].
  eexists. split; [reflexivity|]. split.
  - constructor; cbn [sb sl sc sv]; [exists []; now rewrite app_nil_r|assumption|reflexivity|reflexivity|lia|zl; lia|lia|reflexivity].
  - intros c. subst z. destruct cwd as [|n q]; [reflexivity|].
    cbn [flat_map app]. rewrite resolve_walk by discriminate. cbn [start]. change (47 =? 47) with true. cbn iota.
    change (comps (47 :: n ++ flat_map (fun n0 => 47 :: n0) q)) with ([] :: comps (n ++ flat_map (fun n0 => 47 :: n0) q)).
    inversion Fn as [|? ? On Fq]; subst. rewrite comps_flat by (try assumption; apply On).
    rewrite walk_dir; [|exact W| |].
    + change (filter nonempty ([] :: n :: q)) with (filter nonempty (n :: q)). rewrite (filter_names (n :: q)) by assumption. reflexivity.
    + constructor; [now left|]. eapply Forall_impl; [|exact Fn]. intros a Ha. now right.
    + change (filter nonempty ([] :: n :: q)) with (filter nonempty (n :: q)). rewrite (filter_names (n :: q)) by assumption. exact L.
Qed.
