(** Further properties of containers, memory functions and file system queries.
    Statements only; each theorem is followed by a non-vacuity example. *)
From Verif Require Import Base BaseFacts VecModel VecSpec PlistModel PlistSpec PlistProofs SpanModel
  StrModel StrModel2 StrSpec FsModel PathModel FsSpec PropsPath MoreProofs.
From Coq Require Import String Ascii.
Local Open Scope list_scope.

(** C97: emptiness, and functions applied to all elements: once each, in order, with the
    index. *)
Theorem C97_is_empty :
  (forall es xs cap v, vrep es xs cap v -> (vec_is_empty v = true <-> xs = [])) /\
  (forall xs cap p, prep xs cap p -> (plist_is_empty p = true <-> xs = [])) /\
  (forall t cap s, srep t cap s -> (str_is_empty s = true <-> t = [])).
Proof. exact empties. Qed.
Print Assumptions C97_is_empty.
Theorem C97_vec_apply :
  forall es xs cap v, vrep es xs cap v ->
  map snd (vec_apply v) = map Z.of_nat (seq 0 (List.length xs)) /\
  Forall2 (fun a x => bread (a_blk v) (fst a) es = Ok (map Some x)) (vec_apply v) xs.
Proof. exact vec_apply_ok. Qed.
Print Assumptions C97_vec_apply.
(** [imap f 0 t]: the character at index i of [t] becomes [f c i]. *)
Theorem C97_str_apply :
  forall f t cap s, srep t cap s -> (forall c i, 0 < c < 256 -> 0 < f c i < 256) ->
  exists s', str_apply s f = Ok s' /\ srep (imap f 0 t) cap s'.
Proof. exact str_apply_ok. Qed.
Print Assumptions C97_str_apply.
Example C97_example :
  imap (fun c i => c + i) 0 (T "aaa") = T "abc" /\
  (let* s := str_create true (T "aaa") in let* s := str_apply s (fun c i => c + i) in str_z s) = Ok (T "abc") /\
  (exists v w, vec_create true 2 3 = Ok v /\ vec_push_back true v (Ext [1; 2; 3]) = Ok w /\ vec_is_empty v = true /\
     vec_is_empty w = false /\ vec_apply w = [(0, 0)]).
Proof.
  split; [vm_compute; reflexivity|]. split; [vm_compute; reflexivity|]. do 2 eexists. split; [vm_compute; reflexivity|].
  split; [vm_compute; reflexivity|]. repeat split; vm_compute; reflexivity.
Qed.

(** C98 (false): backward iteration of pointer lists and strings does not start at the last
    element, and every complete pass leaves the storage. *)
Theorem C98_backward_refuted :
  (forall xs cap p, prep xs cap p -> p_slider p = 0 -> xs <> [] ->
   pcalls plist_slide_back (List.length xs - 1) p = UB \/ zlen xs = 1 /\ plist_slide_back p = UB) /\
  (exists p, plist_create true 3 = Ok p /\ exists q, (let* a := plist_push_back true p 10 in let* b := plist_push_back true a 20 in plist_push_back true b 30) = Ok q /\
     prep [10; 20; 30] 3 q /\ (let* r := plist_slide_back q in Ok (snd r)) = Ok 10) /\
  (let* s := str_create true (T "abc") in let* r := str_slide_back s in Ok (snd r)) = Ok (Some 97).
Proof.
  split; [intros xs cap p H H0; exact (proj2 (plist_back_all xs cap p H H0))|]. split; [|vm_compute; reflexivity].
  eexists. split; [vm_compute; reflexivity|]. eexists. split; [vm_compute; reflexivity|]. split; [|vm_compute; reflexivity].
  constructor; cbn; try reflexivity; try (vm_compute; discriminate). exists []. reflexivity.
Qed.
Print Assumptions C98_backward_refuted.
(** What happens instead: all but the last two elements come in reverse order, then the
    storage is left. *)
Theorem C98_backward_plist_partial :
  forall xs cap p, prep xs cap p -> p_slider p = 0 -> 2 <= zlen xs ->
  pcalls plist_slide_back (List.length xs - 2) p = Ok (pslide p (zlen xs - 2), rev (firstn (List.length xs - 2) xs)).
Proof. intros xs cap p H H0. exact (proj1 (plist_back_all xs cap p H H0)). Qed.
Print Assumptions C98_backward_plist_partial.
Theorem C98_backward_str_partial :
  forall t cap s, srep t cap s -> ss s = 0 -> zlen (sb s) <= alloc_max -> 2 <= zlen t ->
  back_chars (List.length t - 2) s = Ok (set_slider s (zlen t - 2), rev (firstn (List.length t - 2) t)) /\
  str_slide_back (set_slider s (zlen t - 2)) = UB.
Proof. exact str_back_all. Qed.
Print Assumptions C98_backward_str_partial.
Example C98_example :
  (let* s := str_create true (T "abcde") in let* r := back_chars 3 s in Ok (snd r)) = Ok (T "cba").
Proof. vm_compute. reflexivity. Qed.

(** C99: vt_memcopy between ranges that do not overlap copies exactly the range;
    vt_memset sets exactly the range. *)
Theorem C99_memcopy :
  forall a x m y c, zlen x = zlen y ->
  vt_memcopy (a ++ x ++ m ++ y ++ c) (zlen a) (zlen a + zlen x + zlen m) (zlen x) = Ok (a ++ y ++ m ++ y ++ c) /\
  vt_memcopy (a ++ x ++ m ++ y ++ c) (zlen a + zlen x + zlen m) (zlen a) (zlen x) = Ok (a ++ x ++ m ++ x ++ c).
Proof. exact memcopy_both. Qed.
Print Assumptions C99_memcopy.
Theorem C99_memset :
  forall p m s value,
  vt_memset (p ++ m ++ s) (zlen p) value (zlen m) = Ok (p ++ repeat (Some (value mod 256)) (List.length m) ++ s).
Proof. exact memset_ok. Qed.
Print Assumptions C99_memset.
Example C99_example :
  vt_memset (map Some [1; 2; 3; 4]) 1 (-1) 2 = Ok (map Some [1; 255; 255; 4]) /\
  vt_memcopy (map Some [1; 2; 3; 4]) 2 0 2 = Ok (map Some [1; 2; 1; 2]) /\ vt_memcopy (map Some [1; 2; 3; 4]) 1 0 2 = UB.
Proof. repeat split; vm_compute; reflexivity. Qed.

(** C100: what the path queries tell. *)
Theorem C100_queries :
  forall fs cwd z, wf fs -> plain z -> names z <> [] ->
  (path_exists fs cwd z = true <-> denoted fs cwd z <> None) /\
  (path_is_dir fs cwd z = true <-> denoted fs cwd z = Some EDir) /\
  (path_is_file fs cwd z = true <-> exists c, denoted fs cwd z = Some (EFile c)) /\
  (forall c, denoted fs cwd z = Some (EFile c) -> path_get_file_size fs cwd z = zlen c) /\
  (path_get_file_size fs cwd z = -1 <-> denoted fs cwd z = None).
Proof. exact queries_ok. Qed.
Print Assumptions C100_queries.
Example C100_example :
  path_is_file fs0 [] (T "d/x") = true /\ path_is_file fs0 [] (T "d/x/") = false /\ path_is_file fs0 [] (T "d") = false /\
  path_is_dir fs0 [T "d"] (T "sub/") = true /\ path_get_file_size fs0 [] (T "/d//x") = 5 /\ path_get_file_size fs0 [] (T "q") = -1 /\
  path_exists fs0 [] (T "d/sub/y") = true.
Proof. repeat split; vm_compute; reflexivity. Qed.

(** C66 for each of the writing functions (C66_round_trip_partial is about their common
    core). *)
Theorem C66_writers_partial :
  forall dbg fs cwd z ns n w (append ln : bool) (txt : text),
  In (w, append, ln)
    [(file_write, false, false); (file_writeln, false, true); (file_append, true, false); (file_appendln, true, true);
     (file_writef, false, false); (file_writefln, false, true)] ->
  let old := match lookup fs (target cwd z) with Some (EFile c) => if append then c else [] | _ => [] end in
  let c := old ++ txt ++ (if ln then [10] else []) in
  wf fs -> plain z -> (forall a, z <> a ++ [47]) -> names z = ns ++ [n] ->
  lookup fs (start cwd z ++ ns) = Some EDir -> lookup fs (target cwd z) <> Some EDir ->
  0 < zlen c \/ dbg = false -> zlen c + 1 <= alloc_max ->
  exists fs' s, w fs cwd z txt = (fs', true) /\ wf fs' /\
    lookup fs' (target cwd z) = Some (EFile c) /\ (forall q, q <> target cwd z -> lookup fs' q = lookup fs q) /\
    file_read dbg fs' cwd z = Ok (Some s) /\ sb s = map Some c ++ [Some 0] /\ sl s = zlen c.
Proof. exact writers_ok. Qed.
Print Assumptions C66_writers_partial.
Example C66_writers_example :
  (let '(a, _) := file_write fs0 [] (T "f") (T "1") in let '(b, _) := file_appendln a [] (T "f") (T "2") in
   let '(c, _) := file_append b [] (T "f") (T "3") in lookup c [T "f"]) = Some (EFile (T "12" ++ [10] ++ T "3")) /\
  lookup (fst (file_writefln fs0 [] (T "f") (T "new"))) [T "f"] = Some (EFile (T "new" ++ [10])).
Proof. split; vm_compute; reflexivity. Qed.

(** C43 for C strings: the first [n] characters are looked at. *)
Theorem C43_is_numeric_z :
  forall dbg z, 0 < zlen z -> forall n, 0 < n <= zlen z ->
  str_is_numeric_z dbg z n =
  Ok (forallb (fun x => existsb (Z.eqb x) [46; 48; 49; 50; 51; 52; 53; 54; 55; 56; 57]) (firstn (Z.to_nat n) z)).
Proof. exact numeric_z_ok. Qed.
Print Assumptions C43_is_numeric_z.
Example C43_z_example : str_is_numeric_z true (T "12x") 2 = Ok true /\ str_is_numeric_z true (T "12x") 3 = Ok false.
Proof. split; vm_compute; reflexivity. Qed.

(** C18: which name each status has. *)
Theorem C18_status_names_exact :
  map status_to_str [0; 1; 2; 3; 4; 5; 6; 7; 8; 9; 10] =
  map (fun s => Ok (Some s))
    ["VT_STATUS_ERROR_IS_NULL"; "VT_STATUS_ERROR_ALLOCATION"; "VT_STATUS_ERROR_INVALID_ARGUMENTS";
     "VT_STATUS_ERROR_OUT_OF_MEMORY"; "VT_STATUS_ERROR_OUT_OF_BOUNDS_ACCESS";
     "VT_STATUS_ERROR_INCOMPATIBLE_DATATYPE"; "VT_STATUS_ERROR_CONVERSION"; "VT_STATUS_ERROR_ELEMENT_NOT_FOUND";
     "VT_STATUS_ERROR_IS_VIEW"; "VT_STATUS_OPERATION_FAILURE"; "VT_STATUS_OPERATION_SUCCESS"]%string.
Proof. vm_compute. reflexivity. Qed.
Print Assumptions C18_status_names_exact.
