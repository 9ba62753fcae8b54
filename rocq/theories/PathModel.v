(** Model of src/vita/system/path.c and src/vita/system/fileio.c (POSIX branch).

    No proofs in this file.  vt_path_rename is in RenameModel.v, vt_path_get_cwd and
    vt_path_get_this_exe_location in LocModel.v, vt_path_dir_free in OwnModel.v. *)
From Verif Require Import Base PlistModel StrModel StrModel2 FsModel.

(** VT_PATH_SEPARATOR, path.h:53 *)
Definition sep : list Z := [47].

(** vt_path_build, path.c:3-5. *)
Definition path_build (dbg : bool) (s : option str) (p : list (list Z)) : res str := str_join dbg s sep p.
(** vt_path_build_n, path.c:7-25.  The pointers are pushed to a list made for [n] of
    them; here the list is the sequence of strings. *)
Definition path_build_n (dbg : bool) (s : option str) (l : list (list Z)) : res str :=
  let* _ := plist_create dbg (zlen l) in
  str_join dbg s sep l.

(** vt_path_basename, path.c:221-259. *)
Fixpoint base_loop (k : nat) (z : list Z) (i : Z) : res (option Z) :=
  match k with
  | O => Ok None
  | S k' =>
      if 0 <? i then
        let* c := bbyte (zblk z) i in
        if (c =? 47) && negb (i =? zlen z - 1) then Ok (Some (i + 1)) else base_loop k' z (i - 1)
      else Ok None
  end.
Definition path_basename (dbg : bool) (s : option str) (z : list Z) : res (option str) :=
  let sz := str_create_static z in
  let* n := str_can_find (S (length (sb sz))) sz sep in
  if n =? 0 then Ok s else
  let* st := match s with Some s => Ok s | None => str_create_len dbg (zlen z) end in
  let* ptr := base_loop (length z) z (w64 (zlen z - 1)) in
  let* st := if str_len st <? zlen z then str_reserve dbg st (w64 (zlen z - str_len st)) else Ok st in
  match ptr with
  | None => Ok (Some st)
  | Some i => let* st := str_clear st in
              let* st := str_append dbg st (skipn (Z.to_nat i) z) in
              Ok (Some st)
  end.

(** vt_path_pop, path.c:529-556: [b] is the memory of the caller's string. *)
Fixpoint pop_loop (k : nat) (b : blk) (len : Z) : res blk :=
  match k with
  | O => Ok b
  | S k' =>
      if 0 <? len then
        let* c := bbyte b (len - 1) in
        if c =? 47 then bwrite b (len - 1) [Some 0] else pop_loop k' b (len - 1)
      else Ok b
  end.
Definition path_pop (b : blk) : res blk :=
  let* z := cstr b in
  let s := str_create_static z in
  let len := str_len s in
  let* c := bbyte b (w64 (len - 1)) in
  if c =? 47 then bwrite b (w64 (len - 1)) [Some 0] else
  let* r := str_find s sep in
  match r with
  | None => Ok b
  | Some _ => pop_loop (length b) b len
  end.

(** vt_path_validate, path.c:558-580. *)
Fixpoint validate_loop (k : nat) (b : blk) : res blk :=
  match k with
  | O => Ok b
  | S k' =>
      let i := Z.of_nat k' in
      let* c := bbyte b i in
      let* b := if c =? 92 then bwrite b i [Some 47] else Ok b in
      validate_loop k' b
  end.
Definition path_validate (b : blk) : res blk :=
  let* z := cstr b in
  validate_loop (length z) b.

(** vt_path_expand_tilda, path.c:468-498; [home] = getenv("HOME"). *)
Definition path_expand_tilda (dbg : bool) (home : option (list Z)) (z : list Z) : res str :=
  let* s := str_create dbg z in
  let* pos := str_index_of s 126 in
  if (str_len s =? 0) || negb (pos =? 0) then Ok s else
  match home with
  | None => Ok s
  | Some h => let* s := str_remove dbg s pos 1 in str_insert dbg s h pos
  end.

(** vt_path_exists, is_dir, is_file, get_file_size, path.c:31-87 (the second stat of vt_path_get_file_size sees the same file system). *)
Definition path_exists (fs : fsys) (cwd : path) (z : list Z) : bool :=
  match fs_stat fs cwd z with Some _ => true | None => false end.
Definition path_is_dir (fs : fsys) (cwd : path) (z : list Z) : bool :=
  match fs_stat fs cwd z with Some EDir => true | _ => false end.
Definition path_is_file (fs : fsys) (cwd : path) (z : list Z) : bool :=
  match fs_stat fs cwd z with Some (EFile _) => true | _ => false end.
Definition path_get_file_size (fs : fsys) (cwd : path) (z : list Z) : Z :=
  match fs_stat fs cwd z with Some e => size_of e | None => -1 end.

(** The filter of path.c:116-118 and 166-168. *)
Definition hidden (ignoreDotFiles : bool) (n : name) : bool :=
  (ignoreDotFiles && match n with c :: _ => c =? 46 | [] => false end) || str_equals_z n [46] || str_equals_z n [46; 46].

(** vt_path_dir_list, path.c:89-137: the names pushed to the (cleared) list; [None] = NULL.
    Simplification: the list of vt_str_t is the list of their texts (vt_str_create and
    vt_plist_push_back are modelled in StrModel.v and PlistModel.v). *)
Definition path_dir_list (fs : fsys) (cwd : path) (z : list Z) (ign : bool) : option (list name) :=
  if negb (path_exists fs cwd z) then None else
  match fs_readdir fs cwd z with
  | None => None
  | Some l => Some (filter (fun n => negb (hidden ign n)) l)
  end.

(** vt_path_dir_list_recurse, path.c:139-203: the paths are pushed behind those already in
    the list [pl].  [rec]: the recursive call.  Simplification: as above; in addition the
    scratch string st (path.c:162-192) is its text. *)
Fixpoint list_loop (rec : list (list Z) -> list Z -> res (option (list (list Z)))) (fs : fsys) (cwd : path) (ign : bool) (z : list Z)
    (names : list name) (pl : list (list Z)) : res (option (list (list Z))) :=
  match names with
  | [] => Ok (Some pl)
  | n :: names' =>
      if hidden ign n then list_loop rec fs cwd ign z names' pl else
      let st := z ++ sep ++ n in
      if path_is_dir fs cwd st then
        let* r := rec pl st in
        match r with
        | None => Ok (Some pl)                       (* break *)
        | Some pl => list_loop rec fs cwd ign z names' (pl ++ [st])
        end
      else list_loop rec fs cwd ign z names' (pl ++ [st])
  end.
Fixpoint dir_list_recurse (fuel : nat) (fs : fsys) (cwd : path) (ign : bool) (pl : list (list Z)) (z : list Z) : res (option (list (list Z))) :=
  match fuel with
  | O => NoFuel
  | S f =>
      if negb (path_exists fs cwd z) then Ok None else
      match fs_readdir fs cwd z with
      | None => Ok None
      | Some names => list_loop (dir_list_recurse f fs cwd ign) fs cwd ign z names pl
      end
  end.

(** vt_path_mkdir, path.c:261-283. *)
Definition path_mkdir (fs : fsys) (cwd : path) (z : list Z) : fsys * bool :=
  if path_exists fs cwd z then (fs, true) else
  match fs_mkdir fs cwd z with Some fs' => (fs', true) | None => (fs, false) end.

(** vt_path_mkdir_parents, path.c:285-364.  The copies are destroyed at the end. *)
Fixpoint mkdir_loop (dbg : bool) (cwd : path) (dirs : list str) (sfull : str) (fs : fsys) : res fsys :=
  match dirs with
  | [] => Ok fs
  | d :: dirs' =>
      let* zd := str_z d in
      let* sfull := str_append dbg sfull zd in
      let* sfull := str_append dbg sfull sep in
      let* zf := str_z sfull in
      mkdir_loop dbg cwd dirs' sfull (fst (path_mkdir fs cwd zf))     (* result not used *)
  end.
Definition path_mkdir_parents (dbg : bool) (fs : fsys) (cwd : path) (z : list Z) : res (fsys * bool) :=
  if path_exists fs cwd z then Ok (fs, true) else
  let* s := str_create dbg z in
  let* sfull := str_create_capacity dbg (w64 (str_len s + 1)) in
  let* sfull := match z with c :: _ => if c =? 47 then str_append dbg sfull sep else Ok sfull | [] => Ok sfull end in
  let* dirs := str_split dbg (S (length (sb s))) s sep in
  match dirs with
  | None => Ok (fs, false)
  | Some dirs => let* fs := mkdir_loop dbg cwd dirs sfull fs in Ok (fs, true)
  end.

(** vt_path_rmdir, path.c:366-383; vt_path_remove, path.c:437-448; [lk] as in
    FsModel.v. *)
Definition path_rmdir (lk : path -> bool) (fs : fsys) (cwd : path) (z : list Z) : fsys * bool :=
  if negb (path_exists fs cwd z) then (fs, false) else
  match fs_rmdir lk fs cwd z with Some fs' => (fs', true) | None => (fs, false) end.
Definition path_remove (lk : path -> bool) (fs : fsys) (cwd : path) (z : list Z) : fsys * bool :=
  if negb (path_exists fs cwd z) then (fs, false) else
  match fs_remove lk fs cwd z with Some fs' => (fs', true) | None => (fs, false) end.

(** vt_path_rmdir_recurse, path.c:385-435. *)
Fixpoint remove_loop (lk : path -> bool) (fs : fsys) (cwd : path) (l : list (list Z)) : fsys * bool :=
  match l with
  | [] => (fs, true)
  | z :: l' =>
      let '(fs, status) := if path_is_dir fs cwd z then path_rmdir lk fs cwd z else path_remove lk fs cwd z in
      if status then remove_loop lk fs cwd l' else (fs, false)
  end.
Definition path_rmdir_recurse (lk : path -> bool) (fuel : nat) (fs : fsys) (cwd : path) (z : list Z) : res (fsys * bool) :=
  if negb (path_exists fs cwd z) then Ok (fs, false) else
  let* l := dir_list_recurse fuel fs cwd false [] z in
  match l with
  | None | Some [] => Ok (path_rmdir lk fs cwd z)
  | Some l =>
      let '(fs, status) := remove_loop lk fs cwd l in
      if status then Ok (fst (path_rmdir lk fs cwd z), true)              (* path.c:419: result not used *)
      else Ok (fs, false)
  end.

(** vt_file_read and vt_file_readb, fileio.c:3-102: [None] = NULL. *)
Definition file_read (dbg : bool) (fs : fsys) (cwd : path) (z : list Z) : res (option str) :=
  match fs_stat fs cwd z with
  | None => Ok None                                                   (* fopen fails *)
  | Some e =>
      let fsize := path_get_file_size fs cwd z in
      if fsize <? 0 then Ok None else
      let* s := str_create_len dbg fsize in
      let d := fread_entry e (sl s) in
      let* s := swrite s 0 (map Some d) in
      if zlen d =? sl s then Ok (Some s) else Ok None
  end.

(** vt_file_read_to_buffer, fileio.c:104-148: [b] is the caller's buffer.  Result: whether
    non-NULL is returned, and the buffer. *)
Definition file_read_to_buffer (dbg : bool) (fs : fsys) (cwd : path) (z : list Z) (b : blk) (buffer_len : Z) : res (bool * blk) :=
  let* _ := dassert dbg (0 <? buffer_len) in
  match fs_stat fs cwd z with
  | None => Ok (false, b)
  | Some e =>
      let fsize := path_get_file_size fs cwd z in
      if fsize <? 0 then Ok (false, b) else
      let n := if buffer_len <=? fsize then buffer_len else fsize in
      let d := fread_entry e n in
      let* b := bwrite b 0 (map Some d) in
      Ok (zlen d =? n, b)
  end.

(** vt_file_writefc, fileio.c:249-276, for the formatted text [txt]; the binary modes are
    the same on POSIX. *)
Definition file_writefc (fs : fsys) (cwd : path) (z : list Z) (append add_ln : bool) (txt : list Z) : fsys * bool :=
  match fs_write fs cwd z append (txt ++ if add_ln then [10] else []) with
  | Some fs' => (fs', true)
  | None => (fs, false)
  end.
(** vt_file_write(b), writeln, append, appendln, fileio.c:150-196 (fmt "%s"). *)
Definition file_write fs cwd z txt := file_writefc fs cwd z false false txt.
Definition file_writeln fs cwd z txt := file_writefc fs cwd z false true txt.
Definition file_append fs cwd z txt := file_writefc fs cwd z true false txt.
Definition file_appendln fs cwd z txt := file_writefc fs cwd z true true txt.
(** vt_file_writef, writefln, fileio.c:198-247. *)
Definition file_writef fs cwd z txt := file_writefc fs cwd z false false txt.
Definition file_writefln fs cwd z txt := file_writefc fs cwd z false true txt.
