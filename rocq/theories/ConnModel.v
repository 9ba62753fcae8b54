(** Both ends of what the socket functions wait for: the end of a connection, and datagrams.  No proofs in this file.

    The functions are those of SockModel.v; here the answers of poll, recv and recvfrom come from the state of the
    connection or from the queue of datagrams (Linux). *)
From Verif Require Import Base NumModel SockModel.
Local Open Scope list_scope.

(** A TCP connection as the receiver sees it: the bytes on their way or waiting, whether the peer closes after them, whether the
    connection was reset. *)
Record conn := mk_conn { pend : list Z; fin : bool; broken : bool }.
(** poll(POLLIN) when it returns: the value and revents; a reset connection is POLLIN | POLLERR | POLLHUP. *)
Definition conn_poll (c : conn) : Z * Z :=
  if broken c then (1, 25) else match pend c with _ :: _ => (1, 1) | [] => if fin c then (1, 1) else (0, 0) end.
(** recv; [k]: how many of the waiting bytes are handed out. *)
Definition conn_recv (c : conn) (k : Z) : recv_answer :=
  if broken c then RecvError else RecvData (firstn (Z.to_nat k) (pend c)).
Definition conn_next (c : conn) (k : Z) : conn :=
  if broken c then c else mk_conn (skipn (Z.to_nat k) (pend c)) (fin c) (broken c).
(** vt_socket_receive_timed, sockets.c:206-223. *)
Definition conn_receive_timed (c : conn) (k : Z) (b : blk) (len : Z) : res (Z * blk) :=
  socket_receive_timed b len (fst (conn_poll c)) (snd (conn_poll c)) (conn_recv c k).
(** vt_socket_receive, sockets.c:159-170; [None]: it waits. *)
Definition conn_receive (c : conn) (k : Z) (b : blk) (len : Z) : option (res (Z * blk)) :=
  match pend c with
  | [] => if fin c || broken c then Some (socket_receive b len (conn_recv c k)) else None
  | _ => Some (socket_receive b len (conn_recv c k))
  end.
(** A program that receives until it gets 0: what it has received; [ks]: how many bytes each call hands out.  [None] if it
    is not done after them or gets an error. *)
Fixpoint drain (c : conn) (ks : list Z) (b : blk) (len : Z) : res (option (list (option Z))) :=
  match ks with
  | [] => Ok None
  | k :: ks' =>
      match conn_receive c k b len with
      | None => Ok None
      | Some r =>
          let* r := r in
          if fst r <? 0 then Ok None else
          if fst r =? 0 then Ok (Some []) else
          let* t := drain (conn_next c k) ks' (snd r) len in
          Ok (match t with Some t => Some (firstn (Z.to_nat (fst r)) (snd r) ++ t) | None => None end)
      end
  end.

(** A UDP socket: the datagrams that have arrived, with their senders.  recvfrom hands out the first and drops what does
    not fit. *)
Notation dgrams := (list (list Z * address)).
(** vt_socket_receive_from, sockets.c:172-191; [None]: it waits. *)
Definition dgram_receive_from (q : dgrams) (b : blk) (len : Z) (adr : address) : option (res (Z * blk * address) * dgrams) :=
  match q with
  | [] => None
  | (d, src) :: q' => Some (socket_receive_from b len (RecvData (firstn (Z.to_nat len) d)) src adr, q')
  end.
(** vt_socket_receive_timed_from, sockets.c:225-242. *)
Definition dgram_receive_timed_from (q : dgrams) (b : blk) (len : Z) (adr : address) : res (Z * blk * address) * dgrams :=
  match q with
  | [] => (socket_receive_timed_from b len 0 0 (RecvData []) adr adr, [])
  | (d, src) :: q' => (socket_receive_timed_from b len 1 1 (RecvData (firstn (Z.to_nat len) d)) src adr, q')
  end.
