(** Model of the Windows branch of the text functions of src/vita/system/path.c and of writing and
    reading files (src/vita/system/fileio.c) with the text mode of Windows.  No proofs in this file.

    The functions are those of PathModel.v with the other separator (path.h:40) and, in
    vt_path_validate, the other character to replace (path.c:565-571).  Not modelled: the system
    calls of Windows (CreateDirectory, RemoveDirectory, MoveFile: see WinFsModel.v; GetFileAttributesEx,
    GetModuleFileName), drives and the other syntax of Windows paths; where a file is meant the
    file system of FsModel.v stands for it. *)
From Verif Require Import Base PlistModel StrModel StrModel2 FsModel PathModel.

(** VT_PATH_SEPARATOR, path.h:40 *)
Definition wsep : list Z := [92].

(** vt_path_build, path.c:3-5. *)
Definition wpath_build (dbg : bool) (s : option str) (p : list (list Z)) : res str := str_join dbg s wsep p.
(** vt_path_build_n, path.c:7-25.  The pointers are pushed to a list made for [n] of
    them; here the list is the sequence of strings. *)
Definition wpath_build_n (dbg : bool) (s : option str) (l : list (list Z)) : res str :=
  let* _ := plist_create dbg (zlen l) in
  str_join dbg s wsep l.

(** vt_path_basename, path.c:221-259. *)
Fixpoint wbase_loop (k : nat) (z : list Z) (i : Z) : res (option Z) :=
  match k with
  | O => Ok None
  | S k' =>
      if 0 <? i then
        let* c := bbyte (zblk z) i in
        if (c =? 92) && negb (i =? zlen z - 1) then Ok (Some (i + 1)) else wbase_loop k' z (i - 1)
      else Ok None
  end.
Definition wpath_basename (dbg : bool) (s : option str) (z : list Z) : res (option str) :=
  let sz := str_create_static z in
  let* n := str_can_find (S (length (sb sz))) sz wsep in
  if n =? 0 then Ok s else
  let* st := match s with Some s => Ok s | None => str_create_len dbg (zlen z) end in
  let* ptr := wbase_loop (length z) z (w64 (zlen z - 1)) in
  let* st := if str_len st <? zlen z then str_reserve dbg st (w64 (zlen z - str_len st)) else Ok st in
  match ptr with
  | None => Ok (Some st)
  | Some i => let* st := str_clear st in
              let* st := str_append dbg st (skipn (Z.to_nat i) z) in
              Ok (Some st)
  end.

(** vt_path_pop, path.c:529-556: [b] is the memory of the caller's string. *)
Fixpoint wpop_loop (k : nat) (b : blk) (len : Z) : res blk :=
  match k with
  | O => Ok b
  | S k' =>
      if 0 <? len then
        let* c := bbyte b (len - 1) in
        if c =? 92 then bwrite b (len - 1) [Some 0] else wpop_loop k' b (len - 1)
      else Ok b
  end.
Definition wpath_pop (b : blk) : res blk :=
  let* z := cstr b in
  let s := str_create_static z in
  let len := str_len s in
  let* c := bbyte b (w64 (len - 1)) in
  if c =? 92 then bwrite b (w64 (len - 1)) [Some 0] else
  let* r := str_find s wsep in
  match r with
  | None => Ok b
  | Some _ => wpop_loop (length b) b len
  end.

(** vt_path_validate, path.c:558-580. *)
Fixpoint wvalidate_loop (k : nat) (b : blk) : res blk :=
  match k with
  | O => Ok b
  | S k' =>
      let i := Z.of_nat k' in
      let* c := bbyte b i in
      let* b := if c =? 47 then bwrite b i [Some 92] else Ok b in
      wvalidate_loop k' b
  end.
Definition wpath_validate (b : blk) : res blk :=
  let* z := cstr b in
  wvalidate_loop (length z) b.

(** fprintf and vfprintf to a stream opened in text mode on Windows: a line feed is stored as
    carriage return and line feed.  In binary mode bytes are stored as they are. *)
Definition crlf (l : list Z) : list Z := flat_map (fun c => if c =? 10 then [13; 10] else [c]) l.

(** vt_file_writefc, fileio.c:249-276: [bin] is use_binary_mode; vt_file_write, writeln, append and
    appendln use text mode, vt_file_writeb, writebln, appendb and appendbln binary mode
    (fileio.c:150-196); vt_file_writef and writefln text mode (fileio.c:198-247). *)
Definition wfile_writefc (bin : bool) (fs : fsys) (cwd : path) (z : list Z) (append add_ln : bool) (txt : list Z) : fsys * bool :=
  let x := txt ++ if add_ln then [10] else [] in
  file_writefc fs cwd z append false (if bin then x else crlf x).
(** vt_file_read, fileio.c:3-54, opens with "rb" on Windows: [file_read] of PathModel.v. *)
