(** Model of parts of src/vita/network/sockets.c not in SockModel.v: numeric addresses,
    closing, and what several calls do together.  No proofs in this file. *)
From Verif Require Import Base NumModel StrModel SockModel.

(** * inet_addr, called in sockets.c:31.  After glibc's inet_aton: one to four numbers written
    as in C, separated by dots, the last one filling the remaining bytes; white space and
    whatever follows it are ignored. *)
Definition is_digit (c : Z) : bool := (48 <=? c) && (c <=? 57).
Definition digit_val (c : Z) : Z :=
  if is_digit c then c - 48 else if (97 <=? c) && (c <=? 102) then c - 87 else if (65 <=? c) && (c <=? 70) then c - 55 else 99.
Fixpoint num_run (base acc : Z) (t : list Z) : Z * list Z :=
  match t with
  | c :: r => if digit_val c <? base then num_run base (base * acc + digit_val c) r else (acc, t)
  | [] => (acc, [])
  end.
(** strtoul with base 0 on a text that begins with a digit.  (Values that do not fit are
    refused by the caller, so no bound is needed here.) *)
Definition strtoul0 (t : list Z) : Z * list Z :=
  match t with
  | 48 :: r =>
    match r with
    | x :: h :: r' => if ((x =? 120) || (x =? 88)) && (digit_val h <? 16) then num_run 16 0 (h :: r') else num_run 8 0 t
    | _ => num_run 8 0 t
    end
  | _ => num_run 10 0 t
  end.
(** The last [n] bytes of a number, most significant first. *)
Fixpoint be_bytes (n : nat) (v : Z) : list Z :=
  match n with O => [] | S n => be_bytes n (v / 256) ++ [v mod 256] end.
(** The value of bytes in memory order on a little-endian machine. *)
Fixpoint le_word (l : list Z) : Z := match l with [] => 0 | b :: l => b + 256 * le_word l end.
(** [k]: how many more dots are allowed; [done]: the bytes read so far. *)
Fixpoint inet_parts (k : nat) (done t : list Z) : option Z :=
  match t with
  | [] => None
  | c :: _ =>
    if negb (is_digit c) then None else
    let '(v, rest) := strtoul0 t in
    if 4294967295 <? v then None else
    match rest with
    | d :: rest' =>
      if d =? 46 then
        match k with
        | O => None
        | S k => if 255 <? v then None else inet_parts k (done ++ [v]) rest'
        end
      else if is_space d && (v <? 256 ^ Z.of_nat (S k)) then Some (le_word (done ++ be_bytes (S k) v)) else None
    | [] => if v <? 256 ^ Z.of_nat (S k) then Some (le_word (done ++ be_bytes (S k) v)) else None
    end
  end.
Definition inet_aton (t : list Z) : option Z := inet_parts 3 [] t.
Definition INADDR_NONE : Z := 4294967295.
Definition inet_addr (t : list Z) : Z := match inet_aton t with Some a => a | None => INADDR_NONE end.
(** vt_socket_make_address, sockets.c:26-33. *)
Definition make_address (port : Z) (t : list Z) : address := socket_make_address port (inet_addr t).

(** * One direction of a TCP connection: the bytes the system has taken and not yet handed out.
    A call of vt_socket_send, vt_socket_receive or vt_socket_receive_timed (sockets.c:127-138,
    159-170, 206-223) and what the system answers: [k] bytes taken or handed out, -1 on error;
    poll's answer.  The result: the value returned and the receiver's buffer. *)
Inductive net_call :=
| NSend (data : list Z) (k : Z)
| NRecv (buf : blk) (len k : Z)
| NRecvTimed (buf : blk) (len ret revents k : Z).
Definition take (k : Z) (q : list Z) : list Z := firstn (Z.to_nat k) q.
Definition drop (k : Z) (q : list Z) : list Z := skipn (Z.to_nat k) q.
Definition answer (q : list Z) (k : Z) : recv_answer := if k <? 0 then RecvError else RecvData (take k q).
Definition net_step (q : list Z) (e : net_call) : res (list Z * Z * blk) :=
  match e with
  | NSend data k => Ok (if k <? 0 then q else q ++ take k data, socket_send k, [])
  | NRecv b len k => let* r := socket_receive b len (answer q k) in Ok (if k <? 0 then q else drop k q, fst r, snd r)
  | NRecvTimed b len ret revents k =>
      let* r := socket_receive_timed b len ret revents (answer q k) in
      let called := (0 <? ret) && negb (Z.land revents 1 =? 0) in
      Ok (if (k <? 0) || negb called then q else drop k q, fst r, snd r)
  end.
Fixpoint net_run (q : list Z) (es : list net_call) : res (list Z * list (Z * blk)) :=
  match es with
  | [] => Ok (q, [])
  | e :: es => let* r := net_step q e in let* s := net_run (fst (fst r)) es in Ok (fst s, (snd (fst r), snd r) :: snd s)
  end.

(** * Descriptors.  The open descriptors of the program and the calls that open and close them:
    vt_socket_startup_server, _startup_client, _accept_client, _close (sockets.c:35-125).
    [fd]: what accept answers.  close takes an int. *)
Inductive fd_call :=
| FServer (tcp : bool) (port : Z) (u : startup)
| FClient (adr : address) (u : startup)
| FAccept (fd : Z)
| FClose (fd : Z).
Definition is_open (l : list Z) (fd : Z) : bool := existsb (Z.eqb fd) l.
Definition fd_remove (fd : Z) (l : list Z) : list Z := filter (fun x => negb (x =? fd)) l.
Definition socket_close (l : list Z) (fd : Z) : list Z * bool :=
  let fd := to_signed 32 fd in if is_open l fd then (fd_remove fd l, true) else (l, false).
(** The value returned: the socket or error code; 1 or 0 for close. *)
Definition fd_step (l : list Z) (c : fd_call) : list Z * Z :=
  match c with
  | FServer tcp port u => let '(r, o, _, _) := startup_server tcp port u in (o ++ l, r)
  | FClient adr u => let '(r, o, _) := startup_client adr u in (o ++ l, r)
  | FAccept fd => let r := accept_client fd in (if fd =? INVALID then l else fd :: l, r)
  | FClose fd => let '(l, ok) := socket_close l fd in (l, if ok then 1 else 0)
  end.
Fixpoint fd_run (l : list Z) (cs : list fd_call) : list Z * list Z :=
  match cs with
  | [] => (l, [])
  | c :: cs => let '(l, r) := fd_step l c in let '(l, rs) := fd_run l cs in (l, r :: rs)
  end.
