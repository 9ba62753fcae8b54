(** The end of a connection, and datagrams.  Statements only. *)
From Verif Require Import Base BaseFacts NumModel SockModel SockProofs ConnModel ConnProofs.
Local Open Scope list_scope.
Local Open Scope Z_scope.

(** C214: vt_socket_receive_timed answers 0, and leaves the buffer alone, both when nothing has come yet and when the peer has closed the
    connection: no caller can tell the one from the other. *)
Theorem C214_timed_refuted : forall b len k, len <= zlen b -> 0 <= len < 2147483648 ->
  conn_receive_timed (mk_conn [] false false) k b len = Ok (0, b) /\ conn_receive_timed (mk_conn [] true false) k b len = Ok (0, b).
Proof.
  intros b len k Hl Hm. split; [exact (timed_silent b len k false)|]. unfold conn_receive_timed, conn_poll, conn_recv. cbn [pend fin broken fst snd]. unfold socket_receive_timed, socket_poll.
  change (1 <? 0) with false. change ((0 <? 1) && negb (Z.land 1 1 =? 0)) with true. cbv iota. rewrite firstn_nil. rewrite (receive_ok b len []) by (unfold zlen in *; cbn [List.length]; lia). reflexivity.
Qed.
Print Assumptions C214_timed_refuted.
(** vt_socket_receive: it waits while nothing has come and the connection is open; otherwise it answers -6 (VT_SOCKET_STATUS_ERROR_RECEIVE) after a reset,
    the number of bytes handed out, at least 1, while there are some, and 0 once the peer has closed the connection and everything has been received. *)
Theorem C214_receive_partial : forall c k b len, 0 < len < 2147483648 -> len <= zlen b -> (pend c <> [] -> 0 < k <= len /\ k <= zlen (pend c)) ->
  conn_receive c k b len =
    if broken c then Some (Ok (-6, b)) else
    match pend c with
    | [] => if fin c then Some (Ok (0, b)) else None
    | _ => Some (Ok (k, map Some (firstn (Z.to_nat k) (pend c)) ++ skipn (Z.to_nat k) b))
    end.
Proof.
  intros c k b len Hl Hb Hk. destruct (broken c) eqn:E; [now apply conn_broken|]. destruct (pend c) as [|x q] eqn:Ep.
  - destruct (fin c) eqn:Ef; [apply conn_end; trivial; lia|]. unfold conn_receive. now rewrite Ep, Ef, E.
  - destruct Hk as [K1 K2]; [discriminate|]. rewrite (conn_data c k b len); rewrite ?Ep; trivial; try discriminate; lia.
Qed.
Print Assumptions C214_receive_partial.
(** So receiving until 0 gives all the peer has sent, however many bytes each call hands out. *)
Theorem C214_all : forall len ks c b, 0 < len < 2147483648 -> len <= zlen b -> broken c = false -> fin c = true ->
  handed (zlen (pend c)) len ks -> zlen (pend c) < zlen ks -> drain c ks b len = Ok (Some (map Some (pend c))).
Proof. intros. now apply drain_all. Qed.
Print Assumptions C214_all.
Example C214_example : drain (mk_conn [104; 101; 108; 108; 111] true false) [2; 1; 2; 7; 7; 7] [None; None; None] 2 = Ok (Some (map Some [104; 101; 108; 108; 111])) /\
  handed 5 2 [2; 1; 2; 7; 7; 7] /\ conn_receive (mk_conn [] false false) 1 [None] 1 = None /\ conn_receive_timed (mk_conn [1; 2] false true) 1 [None] 1 = Ok (-6, [None]).
Proof. split; [vm_compute; reflexivity|]. split; [|split; vm_compute; reflexivity]. cbn. repeat (split; [lia|]). exact I. Qed.

(** C215: each call of vt_socket_receive_from and vt_socket_receive_timed_from hands out one datagram, the one that arrived first, from its first byte on, with its
    sender; the number returned is that of its bytes that fit.  Missing: what does not fit is dropped, see below. *)
Theorem C215_datagram_partial : forall d src q b len adr, len <= zlen b -> 0 <= len < 2147483648 ->
  let n := Z.min len (zlen d) in
  dgram_receive_from ((d, src) :: q) b len adr = Some (Ok (n, map Some (firstn (Z.to_nat n) d) ++ skipn (Z.to_nat n) b, src), q) /\
  dgram_receive_timed_from ((d, src) :: q) b len adr = (Ok (n, map Some (firstn (Z.to_nat n) d) ++ skipn (Z.to_nat n) b, src), q).
Proof. exact dgram_one. Qed.
Print Assumptions C215_datagram_partial.
(** With none waiting the one waits and the other answers 0 and leaves buffer and address alone.  It does so for an empty datagram too, but stores the sender. *)
Theorem C215_none : forall b len adr src q, 0 <= len < 2147483648 -> len <= zlen b -> dgram_receive_from [] b len adr = None /\ dgram_receive_timed_from [] b len adr = (Ok (0, b, adr), []) /\
  dgram_receive_timed_from (([], src) :: q) b len adr = (Ok (0, b, src), q).
Proof.
  intros b len adr src q Hm Hl. split; [reflexivity|]. split; [reflexivity|]. destruct (dgram_one [] src q b len adr Hl Hm) as [_ X]. cbv zeta in X. change (zlen (@nil Z)) with 0 in X. rewrite Z.min_r in X by lia. exact X.
Qed.
Print Assumptions C215_none.
(** The rest of a long datagram is lost: the next call hands out the next datagram, and the number returned is that of a datagram as long as the buffer. *)
Theorem C215_long_refuted : forall d e src q b len adr, 0 < len < 2147483648 -> len <= zlen b -> len < zlen d -> zlen e = len -> firstn (Z.to_nat len) d = e ->
  dgram_receive_from ((d, src) :: q) b len adr = dgram_receive_from ((e, src) :: q) b len adr.
Proof.
  intros d e src q b len adr Hm Hl Hd He E. destruct (dgram_one d src q b len adr Hl ltac:(lia)) as [-> _]. destruct (dgram_one e src q b len adr Hl ltac:(lia)) as [-> _].
  rewrite (Z.min_l len (zlen d)), (Z.min_l len (zlen e)) by lia. now rewrite <- E, firstn_firstn, Nat.min_id.
Qed.
Print Assumptions C215_long_refuted.
Example C215_example : let a := mk_address 80 1 in let a' := mk_address 81 2 in
  dgram_receive_from [([1; 2; 3], a); ([4], a')] [None; None] 2 (mk_address 0 0) = Some (Ok (2, [Some 1; Some 2], a), [([4], a')]) /\
  dgram_receive_timed_from [([4], a')] [Some 1; Some 2] 2 a = (Ok (1, [Some 4; Some 2], a'), []).
Proof. split; vm_compute; reflexivity. Qed.
