(** Reading a file while other processes work on it (C222, C223).  vt_file_read makes several system calls: fopen, stat of the path (in
    vt_path_get_file_size), and the read calls of fread.  Between any two of them the file may change. *)
From Verif Require Import Base BaseFacts StrModel FsModel PathModel.

(** fread, fileio.c:38 and 86, of [n] bytes from offset [off]: one read call after the other, each with the number of bytes it delivers at most
    and the content of the opened file at that moment, until all bytes are there, a call delivers nothing, or (end of the list) a call fails. *)
Fixpoint fread_live (sched : list (nat * list Z)) (off n : nat) : list Z :=
  match sched with
  | [] => []
  | (k, c) :: sched =>
      match firstn (Nat.min k n) (skipn off c) with
      | [] => []
      | d => d ++ fread_live sched (off + length d) (n - length d)
      end
  end.

(** vt_file_read and vt_file_readb, fileio.c:3-102: [fs1] is the file system when the file is opened, [fs2] when its size is asked for, by its path. *)
Definition live_read (dbg : bool) (fs1 fs2 : fsys) (cwd : path) (z : list Z) (sched : list (nat * list Z)) : res (option str) :=
  match fs_stat fs1 cwd z with
  | None => Ok None                                                   (* fopen fails *)
  | Some _ =>
      let fsize := path_get_file_size fs2 cwd z in
      if fsize <? 0 then Ok None else
      let* s := str_create_len dbg fsize in
      let d := fread_live sched 0 (Z.to_nat (sl s)) in
      let* s := swrite s 0 (map Some d) in
      if zlen d =? sl s then Ok (Some s) else Ok None
  end.

(** vt_file_read_to_buffer, fileio.c:104-148, in the same way: [b] is the caller's buffer; result: whether non-NULL is returned, and the buffer. *)
Definition live_read_to_buffer (dbg : bool) (fs1 fs2 : fsys) (cwd : path) (z : list Z) (b : blk) (buffer_len : Z) (sched : list (nat * list Z)) : res (bool * blk) :=
  let* _ := dassert dbg (0 <? buffer_len) in
  match fs_stat fs1 cwd z with
  | None => Ok (false, b)
  | Some _ =>
      let fsize := path_get_file_size fs2 cwd z in
      if fsize <? 0 then Ok (false, b) else
      let n := if buffer_len <=? fsize then buffer_len else fsize in
      let d := fread_live sched 0 (Z.to_nat n) in
      let* b := bwrite b 0 (map Some d) in
      Ok (zlen d =? n, b)
  end.
