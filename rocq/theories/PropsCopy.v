(** C206: copying a file through memory. *)
From Verif Require Import Base BaseFacts StrModel StrModel2 StrSpec StrProofs StrMain FsModel PathModel FsSpec FsProofs FsMain FsMain2 PropsPath.
From Coq Require Import String.
Local Open Scope list_scope.

(** The text before the first NUL. *)
Lemma cstr_cut c : exists t, cstr (map Some c ++ [Some 0]) = Ok t /\ ((~ In 0 c /\ t = c) \/ exists r, c = t ++ 0 :: r /\ ~ In 0 t).
Proof.
  induction c as [|x c (t & E & H)]; [exists []; split; [reflexivity|left; split; [intros []|reflexivity]]|]. cbn [map app cstr].
  destruct (Z.eqb_spec x 0) as [->|N].
  - exists []. split; [reflexivity|]. right. exists c. split; [reflexivity|intros []].
  - rewrite E. cbn [bind]. exists (x :: t). split; [reflexivity|]. destruct H as [[A ->]|(r & -> & A)].
    + left. split; [|reflexivity]. intros [X|X]; [congruence|tauto].
    + right. exists r. split; [reflexivity|]. intros [X|X]; [congruence|tauto].
Qed.

(** ** C206 Copying a file *)
(** Full statement: what vt_file_read (or vt_file_readb) returned for a file, written with vt_file_write (or vt_file_writeb), gives a file with the
    same bytes.  False: all writing functions take a C string, also those for binary files, so the copy ends before the first NUL byte, and true is
    returned. *)
Theorem C206_copy_refuted :
  exists fs s t fs', fs_stat fs [] (T "image") = Some (EFile [137; 80; 0; 71; 10]) /\ file_read true fs [] (T "image") = Ok (Some s) /\ sl s = 5 /\ str_z s = Ok t /\
    file_write fs [] (T "copy") t = (fs', true) /\ fs_stat fs' [] (T "copy") = Some (EFile [137; 80]).
Proof.
  exists [([T "image"], EFile [137; 80; 0; 71; 10])]. do 3 eexists. repeat (split; [vm_compute; reflexivity|]). vm_compute. reflexivity.
Qed.
Print Assumptions C206_copy_refuted.
(** Missing: bytes from the first NUL on.  Exactly: the copy holds the bytes before the first NUL; nothing else changes.  (Empty files cannot be read
    in debug builds, C66.) *)
Theorem C206_copy_partial :
  forall dbg fs cwd z c z' ns n, fs_stat fs cwd z = Some (EFile c) -> 0 < zlen c \/ dbg = false -> zlen c + 1 <= alloc_max ->
  wf fs -> plain z' -> (forall a, z' <> a ++ [47]) -> names z' = ns ++ [n] ->
  lookup fs (start cwd z' ++ ns) = Some EDir -> lookup fs (target cwd z') <> Some EDir ->
  exists s t fs', file_read dbg fs cwd z = Ok (Some s) /\ str_z s = Ok t /\ file_write fs cwd z' t = (fs', true) /\
    fs_stat fs' cwd z' = Some (EFile t) /\ (forall q, q <> target cwd z' -> lookup fs' q = lookup fs q) /\
    ((~ In 0 c /\ t = c) \/ exists r, c = t ++ 0 :: r /\ ~ In 0 t).
Proof.
  intros dbg fs cwd z c z' ns n S Hd A W P Hs E L K. destruct (read_ok dbg fs cwd z c S Hd A) as (s & E1 & B & _).
  destruct (cstr_cut c) as (t & E2 & H). destruct (write_ok fs cwd z' ns n false false t W P Hs E L K) as (f & E3 & W3 & Q3 & S3).
  exists s, t, f. split; [exact E1|]. split; [unfold str_z; rewrite B; exact E2|]. split; [exact E3|].
  assert (written (lookup fs (target cwd z')) false false t = t) as X by (unfold written; destruct (lookup fs (target cwd z')) as [[|?]|]; cbn [app]; apply app_nil_r).
  rewrite X in S3. split; [exact S3|]. split; [|exact H]. intros q Nq. rewrite Q3. destruct path_dec; [contradiction|reflexivity].
Qed.
Print Assumptions C206_copy_partial.
Example C206_example :
  exists s t fs', file_read true fs0 [] (T "d/x") = Ok (Some s) /\ str_z s = Ok t /\ file_write fs0 [] (T "d/copy") t = (fs', true) /\
    fs_stat fs' [] (T "d/copy") = fs_stat fs0 [] (T "d/x").
Proof. do 3 eexists. repeat (split; [vm_compute; reflexivity|]). vm_compute. reflexivity. Qed.
