(** C235: keeping any text in one line, with vt_str_replace.  [coded]: CodeProofs.v; [append_lines]: LineProofs.v. *)
From Verif Require Import Base BaseFacts StrModel StrModel2 StrSpec StrProofs StrMain FsModel PathModel FsSpec FsProofs FsMain FsMain2 PropsPath LineProofs PropsLines DblProofs CodeProofs.
From Coq Require Import String.
Local Open Scope list_scope.

(** ** C235 Any text in one line *)
(** vt_str_replace(s, "%", "%25"), then (s, "\n", "%0A"): the text without line feeds; the same backwards gives every text back. *)
Definition encode (dbg : bool) (s : str) : res str :=
  let* s := str_replace dbg (lf s) s (T "%") (T "%25") in str_replace dbg (lf s) s [10] (T "%0A").
Definition decode (dbg : bool) (s : str) : res str :=
  let* s := str_replace dbg (lf s) s (T "%0A") [10] in str_replace dbg (lf s) s (T "%25") (T "%").
Theorem C235_code :
  forall dbg t cap s, srep t cap s -> Z.max cap (3 * zlen t) + 1 <= alloc_max ->
  exists s1 e cap1 s2 cap2, encode dbg s = Ok s1 /\ srep e cap1 s1 /\ ~ In 10 e /\ decode dbg s1 = Ok s2 /\ srep t cap2 s2.
Proof.
  intros dbg t cap s R A. pose proof (coded_len t). destruct (encode_ok dbg t cap s R) as (s1 & s2 & cap2 & E1 & E2 & R2); [lia|].
  destruct (decode_ok dbg t cap2 s2 R2) as (s3 & s4 & cap4 & E3 & E4 & R4).
  exists s2, (coded t), cap2, s4, cap4. split; [unfold encode; change (T "%") with [37]; change (T "%25") with pct; rewrite E1; exact E2|]. split; [exact R2|]. split; [apply coded_no_lf|].
  split; [unfold decode; change (T "%0A") with pct_lf; rewrite E3; exact E4|exact R4].
Qed.
Print Assumptions C235_code.
(** So any texts that are not empty, also with line feeds, can be kept in a file, one per line: [ls] are the texts encoded. *)
Theorem C235_file :
  forall dbg fs cwd z ns n ts ls, plain z -> (forall a, z <> a ++ [47]) -> names z = ns ++ [n] -> wf fs ->
  lookup fs (start cwd z ++ ns) = Some EDir -> lookup fs (target cwd z) = None \/ lookup fs (target cwd z) = Some (EFile []) ->
  ts <> [] -> Forall (fun t => oks t /\ t <> [] /\ 3 * zlen t + 1 <= alloc_max) ts ->
  Forall2 (fun t l => (let* s := str_create dbg t in let* s := encode dbg s in str_z s) = Ok l) ts ls ->
  zlen (List.concat (map (fun l => l ++ [10]) ls)) + 1 <= alloc_max ->
  exists fs' s ps, append_lines fs cwd z ls = (fs', true) /\ file_read dbg fs' cwd z = Ok (Some s) /\ str_split dbg (lf s) s [10] = Ok (Some ps) /\
    Forall2 (fun t p => (let* l := str_z p in let* s := str_create dbg l in let* s := decode dbg s in str_z s) = Ok t) ts ps.
Proof.
  intros dbg fs cwd z ns n ts ls P Hs E W L K N F G A.
  assert (ls = map coded ts) as ->.
  { clear -F G. induction G as [|t l ts ls H G IH]; [reflexivity|]. inversion F as [|? ? (O & Nt & B) F']; subst. cbn [map]. f_equal; [|now apply IH].
    pose proof (zlen_nonneg t). destruct (create_ok dbg t O) as (s & Es & Rs); [destruct t; [contradiction|]; unfold zlen in *; cbn [List.length] in *; lia|lia|]. rewrite Es in H. cbn [bind] in H.
    pose proof (coded_len t). destruct (encode_ok dbg t _ s Rs) as (s1 & s2 & cap2 & E1 & E2 & R2); [lia|]. unfold encode in H. change (T "%") with [37] in H. change (T "%25") with pct in H.
    rewrite E1 in H. cbn [bind] in H. change (T "%0A") with pct_lf in H. rewrite E2 in H. cbn [bind] in H. rewrite (z_ok _ _ _ R2) in H. now injection H. }
  assert (forall t, t <> [] -> coded t <> []) as Nc by (intros t Nt X; pose proof (coded_len t) as [Y _]; rewrite X in Y; destruct t; [contradiction|]; unfold zlen in Y; cbn [List.length] in Y; lia).
  destruct (C198_full_lines dbg fs cwd z ns n (map coded ts) P Hs E W L K) as (fs' & s & ps & E1 & E2 & E3 & R); [now destruct ts| |exact A|].
  { apply Forall_map. eapply Forall_impl; [|exact F]. intros t (O & Nt & _). split; [now apply coded_oks|]. split; [apply coded_no_lf|now apply Nc]. }
  exists fs', s, ps. repeat (split; [assumption|]). clear -F R Nc. revert ps R. induction F as [|t ts (O & Nt & B) F IH]; intros ps R; inversion R as [|? ? ? ps' Hp R']; subst; constructor; [|now apply IH].
  rewrite Hp. cbn [bind]. pose proof (coded_len t). pose proof (zlen_nonneg t).
  destruct (create_ok dbg (coded t) (coded_oks t O)) as (s & Es & Rs); [destruct t; [contradiction|]; unfold zlen in *; cbn [List.length] in *; lia|lia|]. rewrite Es. cbn [bind].
  destruct (decode_ok dbg t _ s Rs) as (s1 & s2 & cap2 & D1 & D2 & R2). unfold decode. change (T "%0A") with pct_lf. rewrite D1. cbn [bind]. change (T "%25") with pct. change (T "%") with [37].
  rewrite D2. cbn [bind]. exact (z_ok _ _ _ R2).
Qed.
Print Assumptions C235_file.

Example C235_example :
  (let* s := str_create true (T "50%" ++ [10] ++ T "%0A") in let* s := encode true s in let* y := str_z s in let* s := decode true s in let* z := str_z s in Ok (y, z)) =
    Ok (T "50%25%0A%250A", T "50%" ++ [10] ++ T "%0A") /\
  exists fs s ps, append_lines fs0 [T "d"] (T "log") [T "50%25%0A%250A"; T "two"] = (fs, true) /\ file_read true fs [] (T "d/log") = Ok (Some s) /\
    str_split true (lf s) s [10] = Ok (Some ps) /\
    map (fun p => let* l := str_z p in let* s := str_create true l in let* s := decode true s in str_z s) ps = [Ok (T "50%" ++ [10] ++ T "%0A"); Ok (T "two")].
Proof. split; [vm_compute; reflexivity|]. do 3 eexists; repeat (split; [vm_compute; reflexivity|]); vm_compute; reflexivity. Qed.
