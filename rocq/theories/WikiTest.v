(** The examples of README.md and of docs/wiki replayed on the model, where they show what comes
    out: a further check that the model behaves like the code.  Pages whose examples are those of
    tests/src are in UpstreamTests1.v and UpstreamTests2.v. *)
From Coq Require Import Ascii String.
From Verif Require Import Base StrModel StrModel2 VecModel PlistModel SpanModel TypedModel NumModel FsModel PathModel ArgModel HeapModel AllocModel LogModel PrintModel UpstreamTests1 UpstreamTests2.
Local Open Scope list_scope.

(** README.md:24-28. *)
Definition readme_help : list hopt :=
  map (fun p => mk_hopt (Some (T (fst (fst p)))) (Some (T (snd (fst p)))) (Some (T (snd p))))
    [("--link", "-l", "url link"); ("--save", "-s", "save directory"); ("--verbose", "-v", "verbose output"); ("--quality", "-q", "video quality")]%string.
Definition lines (l : list string) : list Z := flat_map (fun s => T s ++ [10]) l.
(** README.md:39-46 and 75-82: what downloader -h prints. *)
Example readme_help_output :
  print_help (Some (T "downloader v0.3.0 -- easy video downloader")) (Some (T "Example: downloader --link your_url --save save/dir --verbose")) readme_help =
  Ok (lines ["downloader v0.3.0 -- easy video downloader";
             "-l    --link url link";
             "-s    --save save directory";
             "-v --verbose verbose output";
             "-q --quality video quality";
             "-h    --help This help information.";
             "Example: downloader --link your_url --save save/dir --verbose"]%string).
Proof. vm_compute. reflexivity. Qed.

Definition readme_opts : list opt := [o_ "--link" "-l" TCstr; o_ "--save" "-s" TCstr; o_ "--verbose" "-v" TBool; o_ "--quality" "-q" (TInt 32)].
(** README.md:20-21: opt_save is strdup("~/Desktop"). *)
Definition readme_vals (save : option blk) : list value := [VCstr None; VCstr save; VBool false; VNum 720].
(** README.md:36-37: -h asks for help. *)
Example readme_wants_help : match argopt_parse true readme_opts (readme_vals (Some (zblk (T "~/Desktop")))) [T "-h"] with Ok (s, _) => s = HELP_WANTED | _ => False end.
Proof. vm_compute. reflexivity. Qed.
(** README.md:64-71 with the variable of --save NULL at first: the values shown. *)
Example readme_downloads :
  argopt_parse true readme_opts (readme_vals None) [T "--link"; T "www.abs.com/video"; T "-s"; T "~/Desktop/media"; T "--verbose"] =
  Ok (SUCCESS, [VCstr (Some (zblk (T "www.abs.com/video"))); VCstr (Some (zblk (T "~/Desktop/media"))); VBool true; VNum 720]).
Proof. vm_compute. reflexivity. Qed.
(** As it is in README.md, with the copy of "~/Desktop" in the variable, the program writes past the
    end of the memory: a longer text is put in a block too short for it (argopt.c:228-236; C70). *)
Example readme_as_written :
  argopt_parse true readme_opts (readme_vals (Some (zblk (T "~/Desktop")))) [T "--link"; T "www.abs.com/video"; T "-s"; T "~/Desktop/media"; T "--verbose"] = UB.
Proof. vm_compute. reflexivity. Qed.

(** docs/wiki/page2.md: is the text a number. *)
Example wiki_numeric :
  map (fun s => str_is_numeric (str_create_static (T s))) ["123"; "99.3"; "15,7"; "this is a str 123"; "2024"]%string = [Ok true; Ok true; Ok false; Ok false; Ok true].
Proof. vm_compute. reflexivity. Qed.
(** docs/wiki/page2.md: creating a text in several ways. *)
Definition wiki_create : res unit :=
  let* s := str_create true (T "hello, world!") in text s "hello, world!";
  let* s := str_create_capacity true 32 in let* s := str_append true s (T "hello, world!") in text s "hello, world!";
  let* s := str_appendf true s (T "hello, world!") in text s "hello, world!hello, world!";
  Ok tt.
Example wiki_create_ok : wiki_create = Ok tt.
Proof. vm_compute. reflexivity. Qed.
(** docs/wiki/page2.md:35-36, "the same in 2 steps": it is not, vt_str_set ends the program since the
    text is longer than the string (str.c:289-313). *)
Example wiki_two_steps : (let* s := str_create_len true 10 in str_set true s (T "hello, world!")) = Abort /\ (let* s := str_create_len false 10 in str_set false s (T "hello, world!")) = Abort.
Proof. split; vm_compute; reflexivity. Qed.
(** docs/wiki/page2.md:206-229: after the removal only "world" is left to be printed. *)
Definition wiki_list : res (list Z) :=
  let* p := plist_create true 5 in
  let* p := pl_push p [ph; pw] in
  let* p := plist_remove true p 0 fast in
  assert (plist_len p =? 1) && (plist_capacity p =? 5) && (plist_has_space p =? 4);
  let* p := plist_shrink true p in
  let* p := plist_reserve true p 5 in
  let* r := pl_walk 9 p in
  Ok (snd r).
Example wiki_list_prints : wiki_list = Ok [pw].
Proof. vm_compute. reflexivity. Qed.
(** docs/wiki/page2.md: the identity matrix in a vector. *)
Definition wiki_matrix : res unit :=
  let* v := vec_create true 25 4 in
  assert lens v 0 25 25;
  let* v := vec_resize true v 25 in
  assert lens v 25 25 0;
  let* v := vec_set_t true I32 v 1 (index_2d_to_1d 0 0 5) in
  let* v := vec_set_t true I32 v 1 (index_2d_to_1d 1 1 5) in
  let* v := vec_set_t true I32 v 1 (index_2d_to_1d 2 2 5) in
  let* v := vec_set_t true I32 v 1 (index_2d_to_1d 3 3 5) in
  let* v := vec_set_t true I32 v 1 (index_2d_to_1d 4 4 5) in
  let* a := vec_get_t true I32 v 0 in let* b := vec_get_t true I32 v 6 in let* c := vec_get_t true I32 v 12 in
  let* d := vec_get_t true I32 v 18 in let* e := vec_get_t true I32 v 24 in
  assert (a =? 1) && (b =? 1) && (c =? 1) && (d =? 1) && (e =? 1);
  let* x := vec_get_t true I32 v 7 in assert x ==? 0;
  Ok tt.
Example wiki_matrix_ok : wiki_matrix = Ok tt.
Proof. vm_compute. reflexivity. Qed.
(** docs/wiki/page4.md: paths. *)
Definition wiki_path : res unit :=
  let* s := path_build_n true None [T "photos"; T "mountains.jpg"] in text s "photos/mountains.jpg";
  let* r := path_basename true (Some s) (T "photos/mountains.jpg") in some s := r; text s "mountains.jpg";
  let* s := path_expand_tilda true (Some (T "/home/userX")) (T "~/media/dev") in text s "/home/userX/media/dev";
  let* b := path_pop (zblk (T "media/dev")) in zis b "media";
  let* b := path_validate (zblk (T "media\dev\main.c")) in zis b "media/dev/main.c";
  Ok tt.
Example wiki_path_ok : wiki_path = Ok tt.
Proof. vm_compute. reflexivity. Qed.
(** docs/wiki/page7.md: names of the levels. *)
Example wiki_level : nth 0 level_strings [] = T "INFO".
Proof. vm_compute. reflexivity. Qed.
(** docs/wiki/page8.md: the line an assertion prints. *)
Example wiki_assert :
  debug_record (T "2023-09-09 21:13:32") (T "DEBUG ASSERTION FAILURE") (T "url != NULL") (mk_place (T "download.c") (T "download_file") 4) (T "No url provided! Error code: -1") =
  T "2023-09-09 21:13:32 DEBUG ASSERTION FAILURE [url != NULL] download.c:download_file:4: No url provided! Error code: -1" ++ [10].
Proof. vm_compute. reflexivity. Qed.
