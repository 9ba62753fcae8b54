(** The assertions of the project's own tests, continued (see UpstreamTests1.v): files,
    paths, dates, numbers, options, the allocator, the log. *)
From Coq Require Import Ascii String.
From Flocq Require Import IEEE754.Bits.
From Verif Require Import Base StrModel StrModel2 StrAlias NumModel FloatModel FtextModel DtModel FsModel PathModel ArgModel HeapModel AllocModel LogModel UpstreamTests1.

Definition same (t : list Z) (s : string) : bool := str_equals_z t (T s).
Notation "'zis' b t ; k" := (bind (cstr b) (fun z => bind (must (same z t)) (fun _ => k))) (at level 200, b at level 9, t at level 9, right associativity, only parsing).

(** tests/src/test_conv.c. *)
Definition test_conv : res unit :=
  let* x := conv_str_to_i 64 (T "123") in assert x ==? 123;
  let* x := conv_str_to_i 64 (T "00123") in assert x ==? 123;
  let* x := conv_str_to_u 64 (T "985454325454") in assert x ==? 985454325454;
  let* x := conv_str_to_d (T "985454325454.22548") in assert bits_of_b64 x ==? 0x426cae34f5d9c737;
  let buf := repeat None 36 in
  let* buf := conv_to_str buf 36 123456 in zis buf "123456";
  let* buf := conv_float_to_str buf 36 (b64_of_bits 0x40fe2401f9acffa8) in zis buf "123456.123456";
  Ok tt.
Example test_conv_passes : test_conv = Ok tt.
Proof. vm_compute. reflexivity. Qed.

(** tests/src/test_math.c. *)
Definition test_math : res unit :=
  let* b := is_palindrome 9009 in assert b;
  assert is_close (b32_of_bits 0x41200000) (b32_of_bits 0x411e6666) (b32_of_bits 0x3de147ae);  (* 10, 9.9, 0.11 *)
  assert is_close (b32_of_bits 0x3f000000) (b32_of_bits 0x3efae148) (b32_of_bits 0x3c23d70a);  (* 0.5, 0.49, 0.01 *)
  Ok tt.
Example test_math_passes : test_math = Ok tt.
Proof. vm_compute. reflexivity. Qed.

(** tests/src/test_datetime.c, for several offsets of local time from UTC. *)
Definition ymd (y m d : Z) : vdt := mk_vdt y m d 0 0 0 0 0.
Definition fields (v : vdt) (a b c d e f : Z) : bool :=
  (year v =? a) && (month v =? b) && (month_day v =? c) && (hour v =? d) && (minute v =? e) && (second v =? f).
Definition test_datetime (off : Z) : res unit :=
  let buf := repeat (Some 0) 26 in
  let v := dt_create off 2023 1 1 11 24 56 (-1) (-1) in
  assert fields v 2023 1 1 11 24 56; assert (week_day v =? 7) && (year_day v =? 1);
  let* buf := to_text true Plain v buf 26 in zis buf "2023-01-01 11:24:56";
  let* buf := to_text true Iso v buf 26 in zis buf "20230101T112456";
  let* buf := to_text true IsoExt v buf 26 in zis buf "2023-01-01T11:24:56";
  let* buf := to_text_pretty true v buf 26 in zis buf "Sun Jan  1 11:24:56 2023";
  assert (find_week_day off (ymd 2023 5 15) =? 1) && (find_week_day off (ymd 2023 5 16) =? 2) && (find_week_day off (ymd 2023 5 17) =? 3)
      && (find_week_day off (ymd 2023 5 18) =? 4) && (find_week_day off (ymd 2023 5 19) =? 5) && (find_week_day off (ymd 2023 5 20) =? 6)
      && (find_week_day off (ymd 2023 5 21) =? 7);
  assert (find_year_day off v =? 1) && (find_week_day off v =? 7) && (find_days_in_month (year v) (month v) =? 31)
      && (find_days_in_year (year v) =? 365) && negb (is_leap_year (year v));
  let* w := from_text Plain (zblk (T "2023-05-19 20:31:01")) in assert fields w 2023 5 19 20 31 1;
  let* w := from_text Iso (zblk (T "20230519T203101")) in assert fields w 2023 5 19 20 31 1;
  let* w := from_text IsoExt (zblk (T "2023-05-19T20:31:01")) in assert fields w 2023 5 19 20 31 1;
  let* b := is_valid_text Plain (zblk (T "2023-12-27 23:12:02")) in assert b;
  let* b := is_valid_text Iso (zblk (T "20231227T231202")) in assert b;
  let* b := is_valid_text IsoExt (zblk (T "2023-12-27T23:12:02")) in assert b;
  let* b := is_valid_text Plain (zblk (T "2023-13-27 23:1 :02")) in assert negb b;
  let* b := is_valid_text Plain (zblk (T "2023-1d-27 22:12:02")) in assert negb b;
  let* b := is_valid_text Plain (zblk (T "2023-27 22:12:02   ")) in assert negb b;
  let* b := is_valid_text Plain (zblk (T "a023-27 22:12:02   ")) in assert negb b;
  let* v2 := from_text Plain (zblk (T "2023-05-19 20:31:01")) in
  let* buf := to_text true Plain (from_secs off (to_secs off v2 + 6 * 86400)) buf 26 in zis buf "2023-05-25 20:31:01";
  let v3 := dt_op off v2 (mk_vdt 0 0 6 (-2) 9 (-1) 0 0) in
  let* buf := to_text true Plain v3 buf 26 in zis buf "2023-05-25 18:40:00";
  let* v4 := from_text Plain (zblk (T "2023-05-25 18:40:00")) in
  let* v5 := from_text Plain (zblk (T "2023-05-19 20:31:01")) in
  assert diff_days off v3 v2 ==? 5;
  let d := dt_diff off v4 v5 in
  assert (second d =? 58) && (minute d =? 8) && (hour d =? 22) && (month_day d =? 5);
  Ok tt.
Example test_datetime_passes : forallb (fun h => match test_datetime (h * 3600) with Ok tt => true | _ => false end) [-24; -12; -5; -1; 0; 1; 3; 12; 24] = true.
Proof. vm_compute. reflexivity. Qed.

(** tests/src/test_path.c (Linux branch), in a tree like the one of the test. *)
Definition ls : list Z -> list (list Z) := comps.
Definition srcdir : path := tl (ls (T "/home/kiril/vita/tests/src")).
Definition tree : fsys :=
  [([T "home"], EDir); (tl (ls (T "/home/kiril")), EDir); (tl (ls (T "/home/kiril/vita")), EDir); (tl (ls (T "/home/kiril/vita/tests")), EDir);
   (srcdir, EDir); (srcdir ++ [T "test_path.c"], EFile (T "x")); (srcdir ++ [T ".hidden"], EFile []); (srcdir ++ [T "test_str.c"], EFile (T "yz"))].
Definition test_path : res unit :=
  assert negb (path_exists tree srcdir (T "/home/lala"));
  let* s := path_build_n true None [T "hello"; T "world"; T "media"; T "dev"] in text s "hello/world/media/dev";
  assert path_exists tree srcdir (T "/home/kiril/vita/tests/src");
  assert path_is_dir tree srcdir (T "/home/kiril/vita/tests/src");
  assert path_is_file tree srcdir (T "/home/kiril/vita/tests/src/test_path.c");
  some l := path_dir_list tree srcdir (T "/home/kiril/vita/tests/src/") true; assert zlen l ==? 2;
  let* s := str_create true (T "my/test/folder/text.txt") in
  let* z := str_z s in
  let* r := path_basename true (Some s) z in some s := r; text s "text.txt";
  let fs := fst (path_mkdir tree srcdir (T "hello_test_dir")) in assert path_exists fs srcdir (T "hello_test_dir");
  let* r := path_mkdir_parents true fs srcdir (T "hello/world/of/my/") in let fs := fst r in assert path_exists fs srcdir (T "hello/world/of/my/");
  let fs := fst (path_rmdir (fun _ => false) fs srcdir (T "hello_test_dir")) in assert negb (path_exists fs srcdir (T "hello_test_dir"));
  let* r := path_rmdir_recurse (fun _ => false) 9 fs srcdir (T "hello") in assert negb (path_exists (fst r) srcdir (T "hello"));
  let* s := path_expand_tilda true (Some (T "/home/kiril")) (T "~/hello") in text s "/home/kiril/hello";
  let* s := path_expand_tilda true (Some (T "/home/kiril")) (T "./~") in text s "./~";
  Ok tt.
Example test_path_passes : test_path = Ok tt.
Proof. vm_compute. reflexivity. Qed.
Definition popped (s : str) : res str := let* b := path_pop (sb s) in Ok (mk_str b (sl s) (sc s) (sv s) (ss s)).
Definition test_path_pop : res unit :=
  let* s := str_create true (T "./hello/world/bin") in
  let* s := popped s in text s "./hello/world"; let* r := str_validate_len s in let s := fst r in assert snd r ==? 13;
  let* s := popped s in text s "./hello"; let* r := str_validate_len s in let s := fst r in assert snd r ==? 7;
  let* s := popped s in text s "."; let* r := str_validate_len s in let s := fst r in assert snd r ==? 1;
  let* s := popped s in text s "."; let* r := str_validate_len s in assert snd r ==? 1;
  Ok tt.
Example test_path_pop_passes : test_path_pop = Ok tt.
Proof. vm_compute. reflexivity. Qed.

(** tests/src/test_fileio.c. *)
Definition test_fileio : res unit :=
  let fs := [([T "other"], EDir); ([T "other"; T "test_file.txt"], EFile (T "12345" ++ [10] ++ T "hello" ++ [10] ++ T "world" ++ [10]))] in
  let* r := file_read true fs [] (T "other/test_file.txt") in some s := r; assert str_len s ==? 18;
  let b := T "hello, world" ++ [10] ++ T "this is a new day" ++ [10] ++ T "12345 test" in
  let fs := fst (file_write fs [] (T "other/test_file2.txt") b) in
  let fs := fst (file_writeln fs [] (T "other/test_file3.txt") b) in
  let fs := fst (file_appendln fs [] (T "other/test_file3.txt") b) in
  let fs := fst (file_append fs [] (T "other/test_file3.txt") b) in
  let* r := file_read true fs [] (T "other/test_file3.txt") in some s := r;
  let* z := str_z s in assert str_equals_z z (b ++ [10] ++ b ++ [10] ++ b);
  let* r := file_read_to_buffer true fs [] (T "other/test_file2.txt") (repeat (Some 0) 512) 512 in
  let* z := cstr (snd r) in assert str_equals_z z b;
  Ok tt.
Example test_fileio_passes : test_fileio = Ok tt.
Proof. vm_compute. reflexivity. Qed.

(** tests/src/test_argopt.c. *)
Definition o_ (l s : string) (t : otype) : opt := mk_opt (Some (T l)) (Some (T s)) true t.
Definition args : list (list Z) :=
  map T ["-r=../temp"; "--wpath"; "./docs/dw/data/"; "--intensity=0.7"; "-p"; "0.35"; "--verbose"; "-a"; "true"; "-vl=83"; "--level"; "13";
         "--update=y"; "-ug"; "y"; "-uo"; "--unkownOption"; "unkownValue"]%string.
(** The float an option variable holds. *)
Definition f32_bits (v : value) : res Z := match v with VReal t => let* f := conv_str_to_f t in Ok (bits_of_b32 f) | _ => Abort end.
Definition test_argopt : res unit :=
  let* rpath := str_create true (T "my/temp/folder/default/initialized") in
  let opts := [o_ "--rpath" "-r" TStr; o_ "--wpath" "-w" TStr; o_ "--intensity" "-i" TReal; o_ "--polarity" "-p" TReal; o_ "--verbose" "-v" TBool;
               o_ "--audio" "-a" TBool; o_ "--volume" "-vl" (TInt 32); o_ "--level" "-l" (TInt 32); o_ "--update" "-ud" TChar; o_ "--upgrade" "-ug" TChar] in
  let vals := [VStr (Some rpath); VStr None; VReal (T "0.1"); VReal (T "0.2"); VBool false; VBool false; VNum 50; VNum 1; VChar 110; VChar 110] in
  let* r := argopt_parse true opts vals args in
  assert fst r ==? -1;
  match snd r with
  | [VStr (Some rpath); VStr (Some wpath); i; p; VBool verbose; VBool audio; VNum volume; VNum level; VChar update; VChar upgrade] =>
      text rpath "../temp"; text wpath "./docs/dw/data/";
      let* x := f32_bits i in assert x ==? 0x3f333333;
      let* x := f32_bits p in assert x ==? 0x3eb33333;
      assert verbose && audio && (volume =? 83) && (level =? 13) && (update =? 121) && (upgrade =? 121);
      Ok tt
  | _ => Abort
  end.
Example test_argopt_passes : test_argopt = Ok tt.
Proof. vm_compute. reflexivity. Qed.

(** tests/src/test_mallocator.c and the numbers it prints. *)
Definition pol : policy := mk_policy (fun _ l => 16 + fold_right Z.max 0 l) (fun _ => false).
Definition test_mallocator : res unit :=
  let* r := mallocator_create true pol (mk_sys [] 0) in let '(s, a) := r in
  let* r := mallocator_alloc true pol s a 4 in let '(s, a, val) := r in
  let* r := mallocator_alloc true pol s a 100 in let '(s, a, zbuf) := r in
  let* r := mallocator_free true s a zbuf in let '(s, a) := r in
  let* r := mallocator_alloc true pol s a 210 in let '(s, a, zbuf) := r in
  let* r := mallocator_free true s a val in let '(s, a) := r in
  let* r := mallocator_free true s a zbuf in let '(s, a) := r in
  assert (c_allocs a =? 3) && (c_reallocs a =? 0) && (c_frees a =? 3) && (c_bytes a =? 0) && (c_freed a =? 314);
  let* s := mallocator_destroy s a in
  assert (length (s_heap s) =? 0)%nat;
  Ok tt.
Example test_mallocator_passes : test_mallocator = Ok tt.
Proof. vm_compute. reflexivity. Qed.

(** tests/src/test_log.c:8. *)
Example test_log_passes : nth (Z.to_nat log_fatal) level_strings [] = T "FATAL".
Proof. reflexivity. Qed.
