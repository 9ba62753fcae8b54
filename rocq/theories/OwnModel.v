(** Which objects (strings, lists, open files and directories) the functions with
    internal temporaries create and destroy.  No proofs in this file.

    An object is an id; [live] holds the ids of the objects not yet destroyed or closed.
    Texts are modelled in StrModel.v and PathModel.v; here they only decide the branches.
    Running out of memory is not modelled. *)
From Coq Require Import Permutation.
From Verif Require Import Base StrModel StrModel2 FsModel PathModel.

Record led := mk_led { nxt : Z; live : list Z }.
Definition l_new (L : led) : Z * led := (nxt L, mk_led (nxt L + 1) (nxt L :: live L)).
(** Destroying what is not live is a double free. *)
Definition l_free (L : led) (x : Z) : res led :=
  if in_dec Z.eq_dec x (live L) then Ok (mk_led (nxt L) (remove Z.eq_dec x (live L))) else UB.
Fixpoint l_free_all (L : led) (l : list Z) : res led :=
  match l with [] => Ok L | x :: l' => let* L := l_free L x in l_free_all L l' end.

(** A vt_plist_t of strings. *)
Record slist := mk_slist { sid : Z; items : list Z; slider : Z }.
(** vt_plist_clear, plist.c; vt_plist_push_back of a new string. *)
Definition sl_clear (p : slist) : slist := mk_slist (sid p) [] (slider p).
Definition sl_push_new (p : slist) (L : led) : slist * led :=
  let '(x, L) := l_new L in (mk_slist (sid p) (items p ++ [x]) (slider p), L).
Definition sl_create (p : option slist) (L : led) : slist * led :=
  match p with Some p => (p, L) | None => let '(x, L) := l_new L in (mk_slist x [] 0, L) end.
(** vt_plist_slide_front, plist.c:296-311. *)
Definition sl_slide_front (p : slist) : slist * option Z :=
  if slider p <? zlen (items p)
  then (mk_slist (sid p) (items p) (slider p + 1), nth_error (items p) (Z.to_nat (slider p)))
  else (mk_slist (sid p) (items p) 0, None).

(** vt_str_split, str.c:927-989; [r] = number of pieces pushed, [None] = no separator found. *)
Fixpoint push_n (n : nat) (p : slist) (L : led) : slist * led :=
  match n with O => (p, L) | S n' => let '(p, L) := sl_push_new p L in push_n n' p L end.
Definition own_split (ps : option slist) (r : option nat) (L : led) : option slist * led :=
  match r with
  | None => (None, L)
  | Some n => let '(p, L) := sl_create ps L in
              let '(p, L) := push_n n (sl_clear p) L in (Some p, L)
  end.

(** vt_str_split_between, str.c:991-1027. *)
Definition own_split_between (s : option Z) (z zl zr : list Z) (L : led) : option Z * led :=
  match strstr z zl with
  | None => (None, L)
  | Some l =>
      match strstr z zr with
      | None => (None, L)
      | Some r =>
          let '(st, L) := match s with Some x => (x, L) | None => l_new L end in
          if l <? r then (Some st, L) else (None, L)
      end
  end.

(** vt_str_pop_get_first and vt_str_pop_get_last, str.c:1084-1189; [c]: there is a part to
    be returned. *)
Definition own_pop_get (sr : option Z) (c : bool) (L : led) : option Z * led :=
  if c then match sr with Some x => (Some x, L) | None => let '(x, L) := l_new L in (Some x, L) end
  else (sr, L).

(** vt_str_insertf, str.c:397-447; [long]: the text does not fit the stack buffer. *)
Definition own_insertf (long : bool) (L : led) : res led :=
  if long then let '(t, L) := l_new L in l_free L t else Ok L.

(** vt_path_dir_list, path.c:89-137. *)
Definition own_dir_list (fs : fsys) (cwd : path) (p : option slist) (z : list Z) (ign : bool) (L : led) : res (option slist * led) :=
  if negb (path_exists fs cwd z) then Ok (None, L) else
  match fs_readdir fs cwd z with
  | None => Ok (None, L)
  | Some names =>
      let '(dir, L) := l_new L in
      let '(pl, L) := sl_create p L in
      let '(pl, L) := push_n (length (filter (fun n => negb (hidden ign n)) names)) (sl_clear pl) L in
      let* L := l_free L dir in
      Ok (Some pl, L)
  end.

(** vt_path_dir_list_recurse, path.c:139-203. *)
Fixpoint own_loop (rec : slist -> list Z -> led -> res (option slist * led)) (fs : fsys) (cwd : path) (ign : bool) (z : list Z)
    (names : list name) (pl : slist) (L : led) : res (slist * led) :=
  match names with
  | [] => Ok (pl, L)
  | n :: names' =>
      if hidden ign n then own_loop rec fs cwd ign z names' pl L else
      let st := z ++ sep ++ n in
      if path_is_dir fs cwd st then
        let* r := rec pl st L in
        match fst r with
        | None => Ok (pl, snd r)                       (* break *)
        | Some pl => let '(pl, L) := sl_push_new pl (snd r) in own_loop rec fs cwd ign z names' pl L
        end
      else let '(pl, L) := sl_push_new pl L in own_loop rec fs cwd ign z names' pl L
  end.
Fixpoint own_recurse (fuel : nat) (fs : fsys) (cwd : path) (ign : bool) (p : option slist) (z : list Z) (L : led) : res (option slist * led) :=
  match fuel with
  | O => NoFuel
  | S f =>
      if negb (path_exists fs cwd z) then Ok (None, L) else
      match fs_readdir fs cwd z with
      | None => Ok (None, L)
      | Some names =>
          let '(dir, L) := l_new L in
          let '(pl, L) := sl_create p L in
          let '(st, L) := l_new L in
          let* r := own_loop (fun pl => own_recurse f fs cwd ign (Some pl)) fs cwd ign z names pl L in
          let* L := l_free (snd r) st in
          let* L := l_free L dir in
          Ok (Some (fst r), L)
      end
  end.

(** vt_path_dir_free, path.c:205-219. *)
Fixpoint free_loop (fuel : nat) (p : slist) (L : led) : res led :=
  match fuel with
  | O => NoFuel
  | S f => match sl_slide_front p with
           | (_, None) => Ok L
           | (p, Some x) => let* L := l_free L x in free_loop f p L
           end
  end.
Definition own_dir_free (p : slist) (L : led) : res led :=
  let* L := if zlen (items p) =? 0 then Ok L else free_loop (S (length (items p))) p L in
  l_free L (sid p).

(** The clean-up of path.c:352-361 and 423-432. *)
Definition free_slist (p : slist) (L : led) : res led :=
  let* L := l_free_all L (items p) in
  l_free L (sid p).

(** vt_path_mkdir_parents, path.c:285-364; [r] = what vt_str_split finds. *)
Definition own_mkdir_parents (exists_ : bool) (r : option nat) (L : led) : res led :=
  if exists_ then Ok L else
  let '(s, L) := l_new L in
  let '(sfull, L) := l_new L in
  let '(dirs, L) := own_split None r L in
  let* L := l_free L s in
  let* L := l_free L sfull in
  match dirs with None => Ok L | Some p => free_slist p L end.

(** vt_path_rmdir_recurse, path.c:385-435. *)
Definition own_rmdir_recurse (fuel : nat) (fs : fsys) (cwd : path) (z : list Z) (L : led) : res led :=
  if negb (path_exists fs cwd z) then Ok L else
  let* r := own_recurse fuel fs cwd false None z L in
  match fst r with None => Ok (snd r) | Some p => free_slist p (snd r) end.

(** vt_file_read and vt_file_readb, fileio.c:3-102: [opened], [sized] and [complete] tell
    whether fopen, stat and fread succeeded. *)
Definition own_file_read (opened sized complete : bool) (L : led) : res (option Z * led) :=
  if negb opened then Ok (None, L) else
  let '(fp, L) := l_new L in
  if negb sized then let* L := l_free L fp in Ok (None, L) else
  let '(s, L) := l_new L in
  let* r := if complete then Ok (Some s, L) else let* L := l_free L s in Ok (None, L) in
  let* L := l_free (snd r) fp in
  Ok (fst r, L).
(** vt_file_read_to_buffer, fileio.c:104-148. *)
Definition own_read_to_buffer (opened sized complete : bool) (L : led) : res led :=
  if negb opened then Ok L else
  let '(fp, L) := l_new L in
  if negb sized then l_free L fp else
  if negb complete then l_free L fp else
  l_free L fp.
(** vt_file_writef, writefln and writefc, fileio.c:198-285. *)
Definition own_file_write (opened : bool) (L : led) : res led :=
  if negb opened then Ok L else
  let '(fp, L) := l_new L in
  l_free L fp.

(** vt_argopt_parse, argopt.c:6-87; [popped]: per argument, whether "=" was found behind a
    name and whether a new string for the caller (VT_TYPE_STR, VT_TYPE_CSTR) is made.  The
    result lists the latter. *)
Fixpoint own_args (popped : list (bool * bool)) (sv ss : option Z) (mine : list Z) (L : led) : option Z * list Z * led :=
  match popped with
  | [] => (ss, mine, L)
  | (eq, mk) :: l =>
      let '(ss, L) := own_pop_get ss eq L in
      let '(mine, L) := if mk then let '(x, L) := l_new L in (mine ++ [x], L) else (mine, L) in
      own_args l sv ss mine L
  end.
Definition own_parse (valid help : bool) (popped : list (bool * bool)) (L : led) : res (list Z * led) :=
  if negb valid then Ok ([], L) else
  if help then Ok ([], L) else
  let '(sv, L) := l_new L in
  let '(ss, L) := l_new L in
  let '(ss, mine, L) := own_args popped (Some sv) (Some ss) [] L in
  let* L := l_free L sv in
  let* L := match ss with Some x => l_free L x | None => Ok L end in
  Ok (mine, L).
