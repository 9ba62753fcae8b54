(** The assertions of the project's own tests (tests/src of the repository), replayed on the
    model: a check that the model behaves like the code its authors tested.  Each test is
    a computation whose [must]s are the asserts of the C file, in order; the tracking
    allocator the tests use makes no difference to the values (C101). *)
From Coq Require Import Ascii String.
From Verif Require Import Base StrModel StrModel2 VecModel PlistModel SpanModel TypedModel NumModel.

Definition T (s : string) : list Z := map (fun a => Z.of_N (N_of_ascii a)) (list_ascii_of_string s).
Definition must (b : bool) : res unit := if b then Ok tt else Abort.
Notation "'assert' b ; k" := (bind (must b) (fun _ => k)) (at level 200, b at level 100, right associativity, only parsing).
Notation "a ==? b" := (a =? b) (at level 70, only parsing).

(** tests/src/test_vec.c:10-95.  Doubles are their bit patterns. *)
Definition d_half : Z := 0x3fe0000000000000.
Definition d3_125 : Z := 0x4009000000000000.
Definition d24_5 : Z := 0x4038800000000000.
Definition d4 : Z := 0x4010000000000000.
Definition d134_431 : Z := 0x4060cdcac083126f.
(** i / 2.0 for i < 10. *)
Definition halves : list Z :=
  [0; 0x3fe0000000000000; 0x3ff0000000000000; 0x3ff8000000000000; 0x4000000000000000; 0x4004000000000000;
   0x4008000000000000; 0x400c000000000000; 0x4010000000000000; 0x4012000000000000].
Fixpoint set_all (v : arr) (i : Z) (l : list Z) : res arr :=
  match l with [] => Ok v | x :: l => let* v := vec_set_t true F64 v x i in set_all v (i + 1) l end.
Definition stable : Z := 0.
Definition fast : Z := 1.
Definition lens (v : arr) (a b c : Z) : bool := (vec_len v =? a) && (vec_capacity v =? b) && (vec_has_space v =? c).
Definition test_vec : res unit :=
  let* v := vec_create true 10 8 in
  assert lens v 0 10 10; assert vec_is_empty v;
  let* v := vec_resize true v 10 in
  assert lens v 10 10 0; assert negb (vec_is_empty v);
  let* v := set_all v 0 halves in
  let* x := vec_get_t true F64 v 1 in assert x ==? d_half;
  let* v := vec_push_back_t true F64 v d3_125 in
  let* x := vec_get_t true F64 v (vec_len v - 1) in assert x ==? d3_125; assert lens v 11 30 19;
  let* v := vec_set_t true F64 v d24_5 5 in
  let* x := vec_get_t true F64 v 5 in assert x ==? d24_5;
  let* v := vec_reserve true v 32 in assert lens v 11 62 51;
  let* v := vec_insert_t true F64 v d134_431 5 in
  let* x := vec_get_t true F64 v 5 in assert x ==? d134_431; assert lens v 12 62 50;
  let* i := vec_can_find_t F64 v d134_431 in assert i ==? 5;
  let* c := vec_dup true v in
  let* x := vec_get_t true F64 c 5 in assert x ==? d134_431;
  let* c := vec_remove true c i fast in
  let* x := vec_get_t true F64 c 5 in assert x ==? d3_125;
  let* v := vec_remove true v i stable in
  let* x := vec_get_t true F64 v 5 in assert x ==? d24_5;
  let* v := vec_shrink true v in assert lens v 11 11 0;
  let v := vec_clear v in assert lens v 0 11 11;
  let* v := vec_resize true v 5 in assert lens v 5 5 0;
  let* v := vec_resize true v 1 in assert lens v 1 1 0;
  let* v := vec_push_back_t true F64 v d3_125 in
  let* x := vec_get_t true F64 v (vec_len v - 1) in assert x ==? d3_125; assert lens v 2 3 1;
  let* v := vec_push_back_t true F64 v d4 in
  let* x := vec_get_t true F64 v (vec_len v - 1) in assert x ==? d4; assert lens v 3 3 0;
  let* r := vec_pop_get_t F64 v in
  assert snd r ==? d4; assert lens (fst r) 2 3 1;
  Ok tt.
Example test_vec_passes : test_vec = Ok tt.
Proof. vm_compute. reflexivity. Qed.

(** tests/src/test_vec.c:97-123. *)
Definition test_vecmat : res unit :=
  let* v := vec_create true 25 4 in
  assert (vec_len v =? 0) && (vec_capacity v =? 25);
  let* v := vec_resize true v 25 in assert lens v 25 25 0;
  let* v := vec_set_t true I32 v 1 (index_2d_to_1d 0 0 5) in
  let* v := vec_set_t true I32 v 1 (index_2d_to_1d 1 1 5) in
  let* v := vec_set_t true I32 v 1 (index_2d_to_1d 2 2 5) in
  let* v := vec_set_t true I32 v 1 (index_2d_to_1d 3 3 5) in
  let* v := vec_set_t true I32 v 1 (index_2d_to_1d 4 4 5) in
  let* x := vec_get_t true I32 v 0 in assert x ==? 1;
  let* x := vec_get_t true I32 v 6 in assert x ==? 1;
  let* x := vec_get_t true I32 v 12 in assert x ==? 1;
  let* x := vec_get_t true I32 v 18 in assert x ==? 1;
  let* x := vec_get_t true I32 v 24 in assert x ==? 1;
  Ok tt.
Example test_vecmat_passes : test_vecmat = Ok tt.
Proof. vm_compute. reflexivity. Qed.

(** tests/src/test_vec.c:125-162. *)
Fixpoint push_all (v : arr) (l : list Z) : res arr :=
  match l with [] => Ok v | x :: l => let* v := vec_push_back_t true I32 v x in push_all v l end.
Definition test_vec_remove : res unit :=
  let* v := vec_create true 7 4 in
  let* v := push_all v [1; 2; 3; 4; 5; 6; 7] in
  assert vec_len v ==? 7;
  let* x := vec_get_t true I32 v 0 in assert x ==? 1;
  let* v := vec_remove true v 0 stable in
  let* x := vec_get_t true I32 v 0 in assert x ==? 2; assert vec_len v ==? 6;
  let* v := vec_remove true v 0 fast in
  let* x := vec_get_t true I32 v 0 in assert x ==? 7; assert vec_len v ==? 5;
  let* v := vec_remove true v (vec_len v - 1) fast in
  let* x := vec_get_t true I32 v (vec_len v - 1) in assert x ==? 5; assert vec_len v ==? 4;
  let* v := vec_remove true v (vec_len v - 1) stable in
  let* x := vec_get_t true I32 v (vec_len v - 1) in assert x ==? 4; assert vec_len v ==? 3;
  let* v := vec_resize true v 1 in
  let* x := vec_get_t true I32 v 0 in assert x ==? 7; assert vec_len v ==? 1;
  let* v := vec_remove true v 0 stable in assert vec_len v ==? 0;
  Ok tt.
Example test_vec_remove_passes : test_vec_remove = Ok tt.
Proof. vm_compute. reflexivity. Qed.

(** tests/src/test_plist.c; the pointers are numbers. *)
Definition ph := 1. Definition pw := 2. Definition pt := 3. Definition pa := 4. Definition pb := 5. Definition pc := 6. Definition pd := 7.
Fixpoint pl_push (p : plist) (l : list Z) : res plist :=
  match l with [] => Ok p | x :: l => let* p := plist_push_back true p x in pl_push p l end.
(** while ((c = vt_plist_slide_front(p)) != NULL) *)
Fixpoint pl_walk (k : nat) (p : plist) : res (plist * list Z) :=
  match k with
  | O => NoFuel
  | S k => let* r := plist_slide_front p in
           if snd r =? 0 then Ok (fst r, []) else let* q := pl_walk k (fst r) in Ok (fst q, snd r :: snd q)
  end.
Definition eqs (a b : list Z) : bool := if list_eq_dec Z.eq_dec a b then true else false.
Definition test_plist : res unit :=
  let* p := plist_create true 5 in
  assert (plist_len p =? 0) && (plist_capacity p =? 5);
  let* p := pl_push p [ph; pw] in
  assert (plist_len p =? 2) && (plist_capacity p =? 5) && (plist_has_space p =? 3);
  let* i := plist_can_find true p pw in assert i ==? 1;
  let* i := plist_can_find true p pt in assert i ==? -1;
  let* p := plist_shrink true p in assert plist_capacity p ==? 2;
  let* p := plist_reserve true p 5 in assert plist_capacity p ==? 7;
  let* r := plist_pop_get p in let p := fst r in
  assert snd r ==? pw; assert (plist_len p =? 1) && (plist_capacity p =? 7);
  let* p := plist_remove true p 0 fast in
  assert (plist_len p =? 0) && (plist_capacity p =? 7);
  let* p := pl_push p [ph; pw; ph; pw; ph; pw] in
  let* r := pl_walk 9 p in let p := fst r in assert eqs (snd r) [ph; pw; ph; pw; ph; pw];
  let* c := plist_dup true p in
  assert plist_len c ==? plist_len p;
  let* x := plist_get true c 0 in let* y := plist_get true p 0 in assert x ==? y; assert x ==? ph;
  let* p := plist_resize true p 3 in assert plist_len p ==? 3;
  Ok tt.
Example test_plist_passes : test_plist = Ok tt.
Proof. vm_compute. reflexivity. Qed.
Definition test_plist_remove : res unit :=
  let* l := plist_create true 1 in
  let* l := pl_push l [pa; pb; pc; pd; ph; pw; pt] in
  assert plist_len l ==? 7; let* x := plist_get true l 0 in assert x ==? pa;
  let* l := plist_remove true l 0 stable in
  let* x := plist_get true l 0 in assert x ==? pb; assert plist_len l ==? 6;
  let* l := plist_remove true l 0 fast in
  let* x := plist_get true l 0 in assert x ==? pt; assert plist_len l ==? 5;
  let* l := plist_remove true l 0 stable in
  let* x := plist_get true l 0 in assert x ==? pc; assert plist_len l ==? 4;
  let* l := plist_remove true l 0 fast in
  let* x := plist_get true l 0 in assert x ==? pw;
  let* x := plist_get true l 1 in assert x ==? pd;
  let* x := plist_get true l 2 in assert x ==? ph; assert plist_len l ==? 3;
  let* l := plist_shrink true l in assert (plist_len l =? 3) && (plist_capacity l =? 3);
  let* l := plist_remove true l (plist_len l - 1) stable in assert (plist_len l =? 2) && (plist_capacity l =? 3);
  let* l := plist_create true 5 in
  let* l := pl_push l [ph; pw; pt] in
  let* r := plist_pop_get l in let l := fst r in assert snd r ==? pt;
  let* r := plist_pop_get l in let l := fst r in assert snd r ==? pw;
  let* r := plist_pop_get l in let l := fst r in assert snd r ==? ph;
  let* r := plist_pop_get l in let l := fst r in assert snd r ==? 0;
  let* r := plist_pop_get l in assert snd r ==? 0;
  Ok tt.
Example test_plist_remove_passes : test_plist_remove = Ok tt.
Proof. vm_compute. reflexivity. Qed.

(** tests/src/test_span.c. *)
Definition test_span : res unit :=
  let buf := zblk (T "1234567890 hello, world 1234567890 hello, world") ++ repeat (Some 0) 464 in
  let* s := span_from true 0 47 1 in
  let* x := span_get_t true U8 buf s 0 in assert x ==? 49;
  let* x := span_get_t true U8 buf s 1 in assert x ==? 50;
  let* x := span_get_t true U8 buf s 2 in assert x ==? 51;
  let* buf := span_set_t true U8 buf s 88 0 in
  let* x := bbyte buf 0 in assert x ==? 88;
  let* x := span_get_t true U8 buf s 0 in assert x ==? 88;
  let* v := vec_create true 10 4 in
  let* v := push_all v [0; 1; 2; 3; 4; 5; 6; 7; 8; 9] in
  let* x := vec_get_t true I32 v 3 in assert x ==? 3;
  let* s := span_from_to true 0 2 5 4 in
  assert span_len s ==? 3;
  let* x := span_get_t true I32 (a_blk v) s 0 in assert x ==? 2;
  let* x := span_get_t true I32 (a_blk v) s 1 in assert x ==? 3;
  let* x := span_get_t true I32 (a_blk v) s 2 in assert x ==? 4;
  Ok tt.
Example test_span_passes : test_span = Ok tt.
Proof. vm_compute. reflexivity. Qed.

(** tests/src/test_core.c. *)
Definition test_core : res unit :=
  assert index_2d_to_1d 1 0 5 ==? 5;
  let* r := index_1d_to_2d 5 5 in assert (fst r =? 1) && (snd r =? 0);
  assert index_3d_to_1d 1 0 1 4 5 ==? 25;
  let* r := index_1d_to_3d 25 4 5 in let '(row, col, depth) := r in assert (row =? 1) && (col =? 0) && (depth =? 1);
  Ok tt.
Example test_core_passes : test_core = Ok tt.
Proof. vm_compute. reflexivity. Qed.

(** tests/src/test_str.c. *)
Definition slens (s : str) (a b c : Z) : bool := (str_len s =? a) && (str_capacity s =? b) && (str_has_space s =? c).
Definition is (s : str) (t : string) : res bool := let* z := str_z s in Ok (str_equals_z z (T t)).
Notation "'text' s t ; k" := (bind (is s t) (fun b => bind (must b) (fun _ => k))) (at level 200, s at level 9, t at level 9, right associativity, only parsing).
Definition test_str1 : res unit :=
  let s := str_create_static (T "hello, world") in
  text s "hello, world";
  let* b := str_starts_with s (T "hello") in assert b;
  let* b := str_ends_with s (T "world") in assert b;
  let* s := str_create true (T "hello, world!") in
  assert slens s 13 13 0; assert negb (str_is_empty s); text s "hello, world!";
  let* s := str_reserve true s 65 in assert slens s 13 78 65;
  let* s := str_clear s in
  let* s := str_append true s (T "Apples are sweet!") in
  assert slens s 17 78 61; text s "Apples are sweet!";
  let* s := str_append true s (T "Watermellon is red?") in assert slens s 36 78 42;
  let* s := str_insert true s (T "Oranges.") 0 in assert slens s 44 78 34;
  let* s := str_remove true s 4 3 in
  let* r := str_remove_first s (T "Watermellon is red") in let s := fst r in
  let* n := str_can_find 99 s (T "sweet") in assert n ==? 1;
  let* n := str_can_find 99 s (T "Oran") in assert n ==? 1;
  text s "Oran.Apples are sweet!?";
  let* n := str_can_find 99 (str_create_static (T "hi t_hi_s is a test hi, world hi")) (T "hi") in assert n ==? 4;
  let* s := str_shrink true s in assert slens s 23 23 0;
  let* c := str_dup true s in assert slens c 23 23 0;
  let* s := str_clear s in assert slens s 0 23 23; text s "";
  let* c := str_create_len true 10 in assert slens c 10 10 0;
  Ok tt.
Example test_str1_passes : test_str1 = Ok tt.
Proof. vm_compute. reflexivity. Qed.
Definition test_str2 : res unit :=
  let* s := str_create true (T "hello ") in assert slens s 6 6 0;
  let* s := str_appendf true s (T "world") in assert slens s 11 11 0; text s "hello world";
  let* s := str_append true s (T "!") in
  let* s := str_insert true s (T ",") 5 in text s "hello, world!";
  let* s := str_append true s (T " hello ") in
  let* s := str_appendf true s (T "world!") in text s "hello, world! hello world!";
  let* s := str_create true (T "<defs></defs>") in
  let* s := str_insert true s (T "[]") 6 in text s "<defs>[]</defs>";
  let* s := str_insert_n true s (T "123456789") 7 3 in text s "<defs>[123]</defs>";
  let* s := str_insert true s (T "[") 7 in
  let* s := str_insert true s (T "]") 11 in text s "<defs>[[123]]</defs>";
  let* s := str_insertf true s 13 (T "[[456]]") in text s "<defs>[[123]][[456]]</defs>";
  let* s := str_insert_n true s (T "1234567890") 13 3 in text s "<defs>[[123]]123[[456]]</defs>";
  let* s := str_insert_n true s (T "4567890") 16 3 in text s "<defs>[[123]]123456[[456]]</defs>";
  let* s := str_insert_n true s (T "7890") 19 3 in text s "<defs>[[123]]123456789[[456]]</defs>";
  let* s := str_clear s in
  let* s := str_append true s (T "hello ") in
  let* s := str_appendf true s (T "world ") in
  let* s := str_append true s (T "APPEND") in text s "hello world APPEND";
  let* s := str_insert_before true s (T "world") (T "[1, 2, 3] ") in text s "hello [1, 2, 3] world APPEND";
  let* s := str_insert_after true s (T "world") (T " [4, 5, 6]") in text s "hello [1, 2, 3] world [4, 5, 6] APPEND";
  let* s := str_insert_after true s (T "not_found") (T " [1, 2, 3]") in text s "hello [1, 2, 3] world [4, 5, 6] APPEND";
  let* s := str_create_len true 1 in assert slens s 1 1 0;
  let* s := str_append true s (T "hello") in text s "?hello";
  Ok tt.
Example test_str2_passes : test_str2 = Ok tt.
Proof. vm_compute. reflexivity. Qed.
Definition none {A} (o : option A) : bool := match o with None => true | Some _ => false end.
Notation "'some' x := o ; k" := (match o with Some x => k | None => Abort end) (at level 200, x name, o at level 100, right associativity, only parsing).
Definition test_str3 : res unit :=
  let* s := str_take_ownership true (zblk (T "12345, world")) in assert slens s 12 12 0;
  let* s := str_append true s (T "! How are you?") in assert str_len s ==? 26; text s "12345, world! How are you?";
  let* s := str_append true s (T " hello, world; hello again. This is hello!") in
  let* s := str_clear s in
  let* s := str_append true s (T ";My name is Kirillos;How are you?;let's play;") in
  let* r := str_split true 99 s (T ";") in some p := r; assert (length p =? 3)%nat;
  let* r := str_pop_get_first true None s (T "Kirillos") in let '(f, s) := r in some f := f; text f ";My name is ";
  let* r := str_pop_get_last true 99 None s (T "you?;") in let '(f, s) := r in some f := f; text f "let's play;"; text s ";How are ";
  let* t := str_create true (T "hello world of world of wonders!") in
  let* r := str_pop_get_last true 99 None t (T "world") in let '(f, t) := r in some f := f; text f " of wonders!"; text t "hello world of ";
  let* s := str_create true (T "   " ++ [10] ++ T "hello, world" ++ [9] ++ T "  ") in
  let* s := str_strip 99 s in assert str_len s ==? 12; text s "hello, world";
  let junk := [10] ++ T "  ..,!  hello, world  ;;-!  " ++ [9; 10] in
  let set := [10] ++ T " .,;!" ++ [9] ++ T "-" in
  let* s := str_create true junk in
  let* s := str_strip_punct 99 s in assert str_len s ==? 12; text s "hello, world";
  let* s := str_create true junk in
  let* s := str_strip_c 99 s set in assert str_len s ==? 12; text s "hello, world";
  let* s := str_create true junk in
  let* s := str_remove_c s set in assert str_len s ==? 10; text s "helloworld";
  let* s := str_create true (T "Here is a shopping list: apples and oranges, milk and sugar, and vinegar.") in
  let* s := str_remove_all 99 s (T " and") in text s "Here is a shopping list: apples oranges, milk sugar, vinegar.";
  let* s := str_create true (T "hello, world, world!") in
  let* r := str_remove_last true 99 s (T ", world") in let s := fst r in text s "hello, world!"; assert str_len s ==? 13;
  let* s := str_create true (T "A A A") in
  let* s := str_apply s (fun _ _ => 98) in text s "bbbbb";
  let* s := str_clear s in
  let* s := str_appendf true s (T "I have 2 apples") in text s "I have 2 apples";
  let* s := str_clear s in
  let* s := str_appendf true s (T "abc") in
  let* s := str_appendf true s (T "def") in text s "abcdef";
  let* s := str_create_capacity true 1 in
  let* s := str_appendf true s (T "hello, world. hi 5!") in text s "hello, world. hi 5!";
  Ok tt.
Example test_str3_passes : test_str3 = Ok tt.
Proof. vm_compute. reflexivity. Qed.
Definition test_str4 : res unit :=
  let* s := str_create true (T "hello, world!") in
  let* s := str_to_uppercase s in text s "HELLO, WORLD!";
  let* b := str_is_numeric s in assert negb b;
  let* s := str_set true s (T "123") in
  let* b := str_is_numeric s in assert b;
  let* s := str_clear s in
  let* s := str_append true s (T "564.025") in
  let* b := str_is_numeric s in assert b;
  let* r := str_split_between true None (T "https :1.8.8.8@ world") (T ":") (T "@") in some s := fst r; text s "1.8.8.8";
  let* s := str_create true (T "123456789") in assert (str_len s =? 9) && (str_capacity s =? 9);
  let* s := sput s 4 0 in
  let* r := str_validate_len s in let s := fst r in assert snd r ==? 4; assert (str_len s =? 4) && (str_capacity s =? 9);
  let* s := str_create true (T "Hello, World! How are you?") in
  let* i := str_index_of s 111 in assert i ==? 4;
  let* i := str_index_of s 122 in assert i ==? -1;
  let* i := str_index_find s (T "How") in assert i ==? 14;
  let* s := str_create true (T "file.txt") in
  let* r := str_pop_get_first true None s (T "/") in assert none (fst r);
  let* r := str_pop_get_last true 99 None s (T "/") in assert none (fst r);
  let* r := str_pop_get_first true None s (T "file.txt") in assert none (fst r);
  let* r := str_pop_get_last true 99 None s (T "file.txt") in assert none (fst r);
  let* s := str_create true (T "John") in
  let* t := str_dup true s in
  let* b := str_equals s t in assert b;
  let* s := str_create true (T ";apple;orange;potato;mango;strawberry;papaya;kiwi;") in assert (str_len s =? 50) && (str_capacity s =? 50);
  let* s := str_replace_c s (T ";aot") (T ",AO") in
  text s ",Apple,OrAnge,pOOAOO,mAngO,sOrAwberry,pApAyA,kiwi,"; assert (str_len s =? 50) && (str_capacity s =? 50);
  let* s := str_replace true 99 s (T ",") (T ";") in
  text s ";Apple;OrAnge;pOOAOO;mAngO;sOrAwberry;pApAyA;kiwi;"; assert (str_len s =? 50) && (str_capacity s =? 50);
  let* s := str_replace_first true s (T ";") (T ",") in
  let* s := str_replace_first true s (T ";") (T ",") in
  text s ",Apple,OrAnge;pOOAOO;mAngO;sOrAwberry;pApAyA;kiwi;";
  let* s := str_replace_last true 99 s (T ";") (T ",") in
  let* s := str_replace_last true 99 s (T ";") (T ",") in
  text s ",Apple,OrAnge;pOOAOO;mAngO;sOrAwberry;pApAyA,kiwi,";
  let* s := str_create true (T "hello/world/folder") in
  let* s := str_replace true 99 s (T "world") (T "fishfish") in text s "hello/fishfish/folder";
  let* s := str_create true (T "hello, world") in
  let* s := str_set_at true s (T "Artem") 7 in text s "hello, Artem";
  let* s := str_set_at true s (T "A") 11 in text s "hello, ArteA";
  let* s := str_set_c true s 109 (str_len s - 1) in text s "hello, Artem";
  Ok tt.
Example test_str4_passes : test_str4 = Ok tt.
Proof. vm_compute. reflexivity. Qed.
