(** Properties of the objects created and destroyed inside the library. *)
From Coq Require Import Permutation.
From Coq Require Import Ascii String.
From Verif Require Import Base BaseFacts StrModel StrModel2 FsModel FsSpec PathModel PathProofs FsProofs OwnModel OwnSpec OwnProofs.

Definition T (s : string) : list Z := map (fun a => Z.of_N (N_of_ascii a)) (list_ascii_of_string s).
(** Two live objects, 0 and 1. *)
Definition L0 : led := mk_led 2 [0; 1].

(** C115: temporaries are destroyed exactly once on every way out; what is gained is what
    is handed to the caller. *)
Theorem C115_mkdir_parents : forall ex r L, wfl L -> exists L', own_mkdir_parents ex r L = Ok L' /\ gains L L' [].
Proof. exact mkdir_parents_own. Qed.
Print Assumptions C115_mkdir_parents.
Theorem C115_rmdir_recurse :
  forall fuel fs cwd z L l, wfl L -> path_exists fs cwd z = false \/ dir_list_recurse fuel fs cwd false [] z = Ok l ->
  exists L', own_rmdir_recurse fuel fs cwd z L = Ok L' /\ gains L L' [].
Proof. exact rmdir_recurse_own. Qed.
Print Assumptions C115_rmdir_recurse.
Theorem C115_dir_list :
  forall fs cwd p z ign L, wfl L ->
  match path_dir_list fs cwd z ign with
  | None => own_dir_list fs cwd p z ign L = Ok (None, L)
  | Some names => exists q L' ids, own_dir_list fs cwd p z ign L = Ok (Some q, L') /\ gains L L' (ids ++ own_id p q) /\
      filled p q [] ids /\ length ids = length names
  end.
Proof. exact dir_list_ok. Qed.
Print Assumptions C115_dir_list.
(** With [pl] for the texts of the caller's list. *)
Theorem C115_dir_list_recurse :
  forall fs cwd ign fuel p pl z L, wfl L ->
  length pl = length (match p with Some p => items p | None => [] end) ->
  match dir_list_recurse fuel fs cwd ign pl z with
  | Ok None => own_recurse fuel fs cwd ign p z L = Ok (None, L)
  | Ok (Some texts) => exists q L' ids, own_recurse fuel fs cwd ign p z L = Ok (Some q, L') /\ gains L L' (ids ++ own_id p q) /\
      filled p q (match p with Some p => items p | None => [] end) ids /\ length (items q) = length texts
  | NoFuel => own_recurse fuel fs cwd ign p z L = NoFuel
  | _ => True
  end.
Proof. exact recurse_ok. Qed.
Print Assumptions C115_dir_list_recurse.
Theorem C115_file_read :
  forall opened sized complete L, wfl L ->
  exists r L', own_file_read opened sized complete L = Ok (r, L') /\ gains L L' (match r with Some x => [x] | None => [] end) /\
    (r <> None <-> opened && sized && complete = true).
Proof. exact file_read_own. Qed.
Print Assumptions C115_file_read.
Theorem C115_files :
  forall opened sized complete L, wfl L ->
  (exists L', own_read_to_buffer opened sized complete L = Ok L' /\ gains L L' []) /\
  (exists L', own_file_write opened L = Ok L' /\ gains L L' []).
Proof. intros o s c L W. split; [exact (buffer_own o s c L W)|exact (write_own o L W)]. Qed.
Print Assumptions C115_files.
Theorem C115_insertf : forall long L, wfl L -> exists L', own_insertf long L = Ok L' /\ gains L L' [].
Proof. exact insertf_own. Qed.
Print Assumptions C115_insertf.
Theorem C115_parse : forall valid help l L, wfl L -> exists mine L', own_parse valid help l L = Ok (mine, L') /\ gains L L' mine.
Proof. exact parse_own. Qed.
Print Assumptions C115_parse.
(** /d holds f, g and the directory e with h. *)
Definition fs1 : fsys := [([T "d"], EDir); ([T "d"; T "f"], EFile []); ([T "d"; T "g"], EFile []); ([T "d"; T "e"], EDir); ([T "d"; T "e"; T "h"], EFile [])].
Example C115_example :
  wfl L0 /\
  (let* r := own_recurse 5 fs1 [] false None (T "d") L0 in Ok (option_map items (fst r), live (snd r))) = Ok (Some [5; 6; 9; 10], [10; 9; 6; 5; 3; 0; 1]) /\
  (let* L := own_rmdir_recurse 5 fs1 [] (T "d") L0 in Ok (live L)) = Ok [0; 1] /\
  (let* L := own_mkdir_parents false (Some 3%nat) L0 in Ok (live L)) = Ok [0; 1].
Proof.
  split; [split; [repeat constructor; cbn; lia|repeat constructor]|]. repeat split; vm_compute; reflexivity.
Qed.

(** C116 (false): vt_path_dir_free walks the list with its own iteration state, so strings
    already visited by the caller are not destroyed. *)
Theorem C116_dir_free_refuted :
  let p := mk_slist 0 [1; 2; 3] 0 in
  let L := mk_led 4 [0; 1; 2; 3] in
  (let* L := own_dir_free p L in Ok (live L)) = Ok [] /\
  (let* L := own_dir_free (fst (sl_slide_front p)) L in Ok (live L)) = Ok [1].
Proof. split; reflexivity. Qed.
Print Assumptions C116_dir_free_refuted.
(** Proved: exactly the strings visited before the call stay live, none is destroyed
    twice. *)
Theorem C116_dir_free_partial :
  forall p L L1 a, 0 <= slider p <= zlen (items p) -> gains L L1 (items p ++ sid p :: a) ->
  exists L2, own_dir_free p L1 = Ok L2 /\ gains L L2 (firstn (Z.to_nat (slider p)) (items p) ++ a).
Proof. exact dir_free_ok. Qed.
Print Assumptions C116_dir_free_partial.
(** So with the slider at the start (a new listing, or one iterated to the end), listing
    and freeing cancel. *)
Theorem C116_listing_partial :
  forall fs cwd z ign L q L1, wfl L -> own_dir_list fs cwd None z ign L = Ok (Some q, L1) ->
  exists L2, own_dir_free q L1 = Ok L2 /\ gains L L2 [].
Proof. exact list_then_free. Qed.
Print Assumptions C116_listing_partial.
Theorem C116_recurse_partial :
  forall fuel fs cwd z ign L q L1 texts, wfl L -> dir_list_recurse fuel fs cwd ign [] z = Ok (Some texts) ->
  own_recurse fuel fs cwd ign None z L = Ok (Some q, L1) ->
  exists L2, own_dir_free q L1 = Ok L2 /\ gains L L2 [].
Proof. exact recurse_then_free. Qed.
Print Assumptions C116_recurse_partial.
Example C116_example :
  (let* r := own_dir_list fs1 [] None (T "d") false L0 in
   match fst r with Some q => let* L := own_dir_free q (snd r) in Ok (live (snd r), live L) | None => UB end) = Ok ([6; 5; 4; 3; 0; 1], [0; 1]).
Proof. vm_compute. reflexivity. Qed.

(** C117 (false): refilling a list drops the strings it held; they stay live but nothing
    refers to them, and freeing the list does not destroy them. *)
Theorem C117_refill_refuted :
  let p := mk_slist 0 [1] 0 in
  (let r := own_split (Some p) (Some 2%nat) L0 in
   match fst r with Some q => let* L := own_dir_free q (snd r) in Ok (items q, live (snd r), live L) | None => UB end) = Ok ([2; 3], [3; 2; 0; 1], [1]) /\
  (let* r := own_dir_list fs1 [] (Some p) (T "d/e") false L0 in
   match fst r with Some q => let* L := own_dir_free q (snd r) in Ok (items q, live (snd r), live L) | None => UB end) = Ok ([3], [3; 0; 1], [1]).
Proof. split; vm_compute; reflexivity. Qed.
Print Assumptions C117_refill_refuted.
(** Proved: refilling and then freeing the list leaves exactly the strings [items p] it
    held before, so nothing if it was empty; [a] are further objects made since [B].
    vt_path_dir_list_recurse keeps the old strings in the list instead and leaves nothing. *)
Theorem C117_split_partial :
  forall B L p n a q L1, gains B L (items p ++ sid p :: a) -> slider p = 0 -> own_split (Some p) (Some n) L = (Some q, L1) ->
  exists L2, own_dir_free q L1 = Ok L2 /\ gains B L2 (items p ++ a).
Proof. exact split_refill. Qed.
Print Assumptions C117_split_partial.
Theorem C117_dir_list_partial :
  forall B L p fs cwd z ign a q L1, gains B L (items p ++ sid p :: a) -> slider p = 0 ->
  own_dir_list fs cwd (Some p) z ign L = Ok (Some q, L1) ->
  exists L2, own_dir_free q L1 = Ok L2 /\ gains B L2 (items p ++ a).
Proof. exact dir_list_refill. Qed.
Print Assumptions C117_dir_list_partial.
Theorem C117_recurse_partial :
  forall B L p fs cwd z ign fuel pl texts a q L1, gains B L (items p ++ sid p :: a) -> slider p = 0 -> length pl = length (items p) ->
  dir_list_recurse fuel fs cwd ign pl z = Ok (Some texts) -> own_recurse fuel fs cwd ign (Some p) z L = Ok (Some q, L1) ->
  exists L2, own_dir_free q L1 = Ok L2 /\ gains B L2 a.
Proof. exact recurse_refill. Qed.
Print Assumptions C117_recurse_partial.
Example C117_example :
  gains (mk_led 0 []) (mk_led 2 [0; 1]) (items (mk_slist 0 [] 0) ++ 0 :: [1]) /\
  (let r := own_split (Some (mk_slist 0 [] 0)) (Some 2%nat) (mk_led 2 [0; 1]) in
   match fst r with Some q => let* L := own_dir_free q (snd r) in Ok (items q, live (snd r), live L) | None => UB end) = Ok ([2; 3], [3; 2; 0; 1], [1]).
Proof.
  split; [split; [split; [repeat constructor; cbn; lia|repeat constructor]|reflexivity]|]. vm_compute. reflexivity.
Qed.

(** C118 (false): the string for the result is made before the order of the marks is known
    and is lost when NULL is returned. *)
Theorem C118_split_between_refuted :
  own_split_between None (T "a]b[c") (T "[") (T "]") (mk_led 0 []) = (None, mk_led 1 [0]).
Proof. reflexivity. Qed.
Print Assumptions C118_split_between_refuted.
Theorem C118_split_between_partial :
  forall s z zl zr L, wfl L ->
  let wrong_order := match strstr z zl, strstr z zr with Some l, Some r => negb (l <? r) | _, _ => false end in
  s <> None \/ wrong_order = false ->
  exists r L', own_split_between s z zl zr L = (r, L') /\ gains L L' (match s, r with None, Some x => [x] | _, _ => [] end) /\
    match s, r with Some x, Some y => y = x | _, _ => True end.
Proof. exact split_between_own. Qed.
Print Assumptions C118_split_between_partial.
Example C118_example :
  own_split_between None (T "a[b]c") (T "[") (T "]") L0 = (Some 2, mk_led 3 [2; 0; 1]) /\
  own_split_between (Some 1) (T "a]b[c") (T "[") (T "]") L0 = (None, L0) /\
  own_split_between None (T "a[b") (T "[") (T "]") L0 = (None, L0).
Proof. repeat split; reflexivity. Qed.
