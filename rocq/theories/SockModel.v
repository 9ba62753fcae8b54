(** Model of src/vita/network/sockets.c (POSIX part).  No proofs in this file.

    What the operating system answers is an argument of each function.  vt_socket_close and
    inet_addr are in NetModel.v.  Not modelled: vt_socket_init/quit (nothing to do on POSIX), messages. *)
From Verif Require Import Base NumModel.

(** inc/vita/network/sockets.h:39-47; vt_socket_t is int64_t. *)
Definition INVALID : Z := -1.        (* (vt_socket_t)(~0) *)
Definition ERROR_OPTIONS : Z := -1.
Definition ERROR_BIND : Z := -2.
Definition ERROR_LISTEN : Z := -3.
Definition ERROR_CONNECT : Z := -4.
Definition ERROR_SEND : Z := -5.
Definition ERROR_RECEIVE : Z := -6.
Definition ERROR_POLL : Z := -7.

(** recv/recvfrom: error, or the data that arrived (at most the size asked for). *)
Inductive recv_answer := RecvError | RecvData (d : list Z).

(** recv into the buffer; ssize_t result converted to int32_t, sockets.c:159-170. *)
Definition recv_into (b : blk) (len : Z) (a : recv_answer) : res (Z * blk) :=
  match a with
  | RecvError => Ok (-1, b)
  | RecvData d => let* b := bwrite b 0 (map Some d) in Ok (zlen d, b)
  end.
Definition socket_receive (b : blk) (len : Z) (a : recv_answer) : res (Z * blk) :=
  let* r := recv_into b len a in
  let size_received := to_signed 32 (fst r) in
  if size_received <? 0 then Ok (ERROR_RECEIVE, snd r) else Ok (size_received, snd r).

(** An address: port and IPv4 address as stored (network byte order). *)
Record address := mk_address { a_port : Z; a_addr : Z }.
(** vt_socket_receive_from, sockets.c:172-191; [src]: the sender, as recvfrom reports it. *)
Definition socket_receive_from (b : blk) (len : Z) (a : recv_answer) (src adr : address) : res (Z * blk * address) :=
  let* r := recv_into b len a in
  let size_received := to_signed 32 (fst r) in
  if size_received <? 0 then Ok (ERROR_RECEIVE, snd r, adr) else Ok (size_received, snd r, src).

(** poll(pfd, 1, timeout): the return value and revents; POLLIN = 1, POLLERR = 8,
    POLLHUP = 16, POLLNVAL = 32.  vt_socket_poll, sockets.c:193-204. *)
Definition socket_poll (ret : Z) : Z := if ret <? 0 then ERROR_POLL else ret.
(** The timeout given to poll: uint32_t converted to int; negative means no limit. *)
Definition poll_timeout (timeout : Z) : Z := to_signed 32 timeout.

(** vt_socket_receive_timed, sockets.c:206-223. *)
Definition socket_receive_timed (b : blk) (len : Z) (ret revents : Z) (a : recv_answer) : res (Z * blk) :=
  let poll_ret := socket_poll ret in
  if poll_ret <? 0 then Ok (ERROR_POLL, b) else
  if (0 <? poll_ret) && negb (Z.land revents 1 =? 0) then socket_receive b len a
  else Ok (0, b).
(** vt_socket_receive_timed_from, sockets.c:225-242. *)
Definition socket_receive_timed_from (b : blk) (len : Z) (ret revents : Z) (a : recv_answer) (src adr : address) : res (Z * blk * address) :=
  let poll_ret := socket_poll ret in
  if poll_ret <? 0 then Ok (ERROR_POLL, b, adr) else
  if (0 <? poll_ret) && negb (Z.land revents 1 =? 0) then socket_receive_from b len a src adr
  else Ok (0, b, adr).

(** vt_socket_send and vt_socket_send_to, sockets.c:127-157: [ret] is what send/sendto
    returned (-1 or the number of bytes); the destination of send_to is the address given. *)
Definition socket_send (ret : Z) : Z :=
  let size_sent := to_signed 32 ret in
  if size_sent <? 0 then ERROR_SEND else size_sent.
Definition socket_send_to (adr : address) (ret : Z) : address * Z := (adr, socket_send ret).

(** htons on a little-endian machine. *)
Definition htons (v : Z) : Z := let u := v mod 65536 in (u mod 256) * 256 + u / 256.
(** vt_socket_make_address, sockets.c:26-33: the port is an int16_t; [addr] = inet_addr. *)
Definition socket_make_address (port addr : Z) : address := mk_address (htons (to_signed 16 port)) addr.

(** The answers to the calls made at start-up: the descriptor or -1, then the results. *)
Record startup := mk_startup { u_fd : Z; u_opt : Z; u_bind : Z; u_listen : Z; u_connect : Z }.

(** vt_socket_startup_server, sockets.c:35-69.  Result: the value returned, the descriptors
    opened and still open, the port bound (network order), whether listen was called. *)
Definition startup_server (tcp : bool) (port : Z) (u : startup) : Z * list Z * option Z * bool :=
  if u_fd u =? INVALID then (INVALID, [], None, false) else
  if u_opt u <? 0 then (ERROR_OPTIONS, [u_fd u], None, false) else
  if u_bind u <? 0 then (ERROR_BIND, [u_fd u], None, false) else
  if tcp && (u_listen u <? 0) then (ERROR_LISTEN, [u_fd u], Some (htons port), true) else
  (u_fd u, [u_fd u], Some (htons port), tcp).

(** vt_socket_startup_client, sockets.c:71-92.  Result: the value returned, the descriptors
    opened and still open, the address connected to. *)
Definition startup_client (adr : address) (u : startup) : Z * list Z * option address :=
  if u_fd u =? INVALID then (INVALID, [], None) else
  if u_connect u <? 0 then (ERROR_CONNECT, [u_fd u], None) else
  (u_fd u, [u_fd u], Some adr).

(** vt_socket_accept_client, sockets.c:94-109. *)
Definition accept_client (fd : Z) : Z := if fd =? INVALID then INVALID else fd.
