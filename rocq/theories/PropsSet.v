(** C220: a file of settings.  [write_settings], [read_settings], [pairs_of]: SetProofs.v; [wappend_lines]: WinLines.v. *)
From Verif Require Import Base BaseFacts StrModel StrModel2 StrSpec StrProofs StrMain FsModel PathModel FsSpec FsProofs FsMain FsMain2 PropsPath LineProofs WinModel WinLines SetProofs.
From Coq Require Import String.
Local Open Scope list_scope.

(** ** C220 A file of settings *)
(** The values may be empty and may contain '='.  (The file is new or empty; its directory exists.) *)
Theorem C220_settings :
  forall dbg fs cwd z ns n l, plain z -> (forall a, z <> a ++ [47]) -> names z = ns ++ [n] -> wf fs ->
  lookup fs (start cwd z ++ ns) = Some EDir -> lookup fs (target cwd z) = None \/ lookup fs (target cwd z) = Some (EFile []) -> l <> [] ->
  Forall (fun kv => oks (fst kv) /\ fst kv <> [] /\ ~ In 61 (fst kv) /\ ~ In 10 (fst kv) /\ oks (snd kv) /\ ~ In 10 (snd kv)) l ->
  zlen (List.concat (map (fun kv => fst kv ++ [61] ++ snd kv ++ [10]) l)) + 1 <= alloc_max ->
  exists fs', write_settings fs cwd z l = (fs', true) /\ read_settings dbg fs' cwd z = Ok (Some l).
Proof.
  intros dbg fs cwd z ns n l P Hs E W L K N F A. apply (settings_ok dbg fs cwd z ns n l P Hs E W L K N F).
  unfold of_lines. rewrite map_map. erewrite map_ext; [exact A|]. intros kv. unfold setting_line. now rewrite <- !app_assoc.
Qed.
Print Assumptions C220_settings.
Example C220_example :
  exists fs, write_settings fs0 [] (T "d/conf") [(T "name", T "vita"); (T "opts", T "a=b"); (T "none", [])] = (fs, true) /\
    fs_stat fs [] (T "d/conf") = Some (EFile (T "name=vita" ++ [10] ++ T "opts=a=b" ++ [10] ++ T "none=" ++ [10])) /\
    read_settings true fs [] (T "d/conf") = Ok (Some [(T "name", T "vita"); (T "opts", T "a=b"); (T "none", [])]).
Proof. eexists; repeat (split; [vm_compute; reflexivity|]); vm_compute; reflexivity. Qed.

(** ** C221 A file of settings on Windows *)
(** Full statement: the same in the Windows build, with vt_file_writefc in text or binary mode.  False in text mode: every value comes back with a carriage
    return at its end. *)
Theorem C221_settings_refuted :
  exists fs, wappend_lines false fs0 [] (T "new") [T "name=vita"; T "none="] = (fs, true) /\
    read_settings true fs [] (T "new") = Ok (Some [(T "name", T "vita" ++ [13]); (T "none", [13])]).
Proof. eexists; (split; [vm_compute; reflexivity|]); vm_compute; reflexivity. Qed.
Print Assumptions C221_settings_refuted.
(** Exactly so for all settings in text mode ([bin] false); in binary mode all come back. *)
Theorem C221_settings_partial :
  forall (bin : bool) dbg fs cwd z ns n l, plain z -> (forall a, z <> a ++ [47]) -> names z = ns ++ [n] -> wf fs ->
  lookup fs (start cwd z ++ ns) = Some EDir -> lookup fs (target cwd z) = None \/ lookup fs (target cwd z) = Some (EFile []) -> l <> [] ->
  Forall (fun kv => oks (fst kv) /\ fst kv <> [] /\ ~ In 61 (fst kv) /\ ~ In 10 (fst kv) /\ oks (snd kv) /\ ~ In 10 (snd kv)) l ->
  zlen (List.concat (map (fun kv => fst kv ++ [61] ++ snd kv ++ [10]) l)) + zlen l + 1 <= alloc_max ->
  exists fs', wappend_lines bin fs cwd z (map (fun kv => fst kv ++ [61] ++ snd kv) l) = (fs', true) /\
    read_settings dbg fs' cwd z = Ok (Some (if bin then l else map (fun kv => (fst kv, snd kv ++ [13])) l)).
Proof.
  intros bin dbg fs cwd z ns n l P Hs E W L K N F A.
  assert (zlen (of_lines (map setting_line l)) + zlen l + 1 <= alloc_max) as A'.
  { unfold of_lines. rewrite map_map. erewrite map_ext; [exact A|]. intros kv. unfold setting_line. now rewrite <- !app_assoc. }
  destruct bin; [rewrite wlines_bin; apply (settings_ok dbg fs cwd z ns n l P Hs E W L K N F); pose proof (zlen_nonneg l); lia|].
  exact (wsettings_ok dbg fs cwd z ns n l P Hs E W L K N F A').
Qed.
Print Assumptions C221_settings_partial.
Example C221_example :
  exists fs, wappend_lines true fs0 [] (T "new") [T "name=vita"; T "none="] = (fs, true) /\ read_settings true fs [] (T "new") = Ok (Some [(T "name", T "vita"); (T "none", [])]).
Proof. eexists; (split; [vm_compute; reflexivity|]); vm_compute; reflexivity. Qed.
