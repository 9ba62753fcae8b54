(** Model of vt_file_writefc (fileio.c:249-276) on a medium that may run out of room.  No
    proofs in this file.

    FsModel.v and PathModel.v assume that writing succeeds.  Here fopen succeeds as there ("w"
    truncates an existing file, "a" keeps it, a missing file is created), but only the first
    [room] bytes of what vfprintf, fprintf and fclose hand to the system reach the file
    (a full disk, a quota, a file size limit).  The C functions report that through their
    results, which vt_file_writefc does not look at.  Room freed by the truncation counts as
    part of [room]. *)
From Verif Require Import Base FsModel PathModel.

(** vt_file_writefc, fileio.c:249-276, for the formatted text [txt]. *)
Definition file_writefc_room (room : Z) (fs : fsys) (cwd : path) (z : list Z) (append add_ln : bool) (txt : list Z) : fsys * bool :=
  match fs_write fs cwd z append (firstn (Z.to_nat room) (txt ++ if add_ln then [10] else [])) with
  | Some fs' => (fs', true)
  | None => (fs, false)
  end.
(** vt_file_writef, vt_file_writefln, fileio.c:198-247: the same without the append mode. *)
Definition file_writef_room room fs cwd z txt := file_writefc_room room fs cwd z false false txt.
Definition file_writefln_room room fs cwd z txt := file_writefc_room room fs cwd z false true txt.
(** vt_file_write, writeln, append, appendln, fileio.c:150-196 (fmt "%s"). *)
Definition file_write_room room fs cwd z txt := file_writefc_room room fs cwd z false false txt.
Definition file_writeln_room room fs cwd z txt := file_writefc_room room fs cwd z false true txt.
Definition file_append_room room fs cwd z txt := file_writefc_room room fs cwd z true false txt.
Definition file_appendln_room room fs cwd z txt := file_writefc_room room fs cwd z true true txt.
