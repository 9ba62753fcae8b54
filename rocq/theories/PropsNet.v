(** Properties of numeric addresses, streams and descriptors (sockets.c, C158-C161). *)
From Verif Require Import Base BaseFacts NumModel StrModel StrSpec NumProofs SockModel SockProofs PropsStr NetModel NetProofs NetSpec.
From Coq Require Import String Ascii.
Local Open Scope list_scope.

(** C158: the address made from the decimal numbers of four bytes with dots between them has these
    bytes in this order in memory, and the port high byte first. *)
Theorem C158_dotted :
  forall port a b c d ta tb tc td tail,
  0 <= port < 65536 -> decimal a ta -> decimal b tb -> decimal c tc -> decimal d td ->
  0 <= a < 256 -> 0 <= b < 256 -> 0 <= c < 256 -> 0 <= d < 256 ->
  tail = [] \/ (exists x r, tail = x :: r /\ white x = true) ->
  let adr := make_address port (ta ++ 46 :: tb ++ 46 :: tc ++ 46 :: td ++ tail) in
  a_addr adr = a + 256 * b + 65536 * c + 16777216 * d /\ a_port adr mod 256 = port / 256 /\ a_port adr / 256 = port mod 256.
Proof.
  intros port a b c d ta tb tc td tail P A B C D HA HB HC HD T. cbv zeta. unfold make_address.
  unfold inet_addr. rewrite (dotted a b c d ta tb tc td tail) by assumption.
  destruct (make_address_ok port (a + 256 * b + 65536 * c + 16777216 * d) P) as (E1 & E2 & E3). now rewrite E3.
Qed.
Print Assumptions C158_dotted.

Example C158_example :
  make_address 8080 (T "127.0.0.1") = mk_address 36895 16777343 /\ decimal 127 (T "127") /\ decimal 0 (T "0") /\
  make_address 80 (T "192.168.1.20 x") = mk_address 20480 335653056 /\ 335653056 = 192 + 256 * 168 + 65536 * 1 + 16777216 * 20.
Proof.
  repeat split; try (vm_compute; reflexivity); try discriminate; try (intros H; exfalso; revert H; vm_compute; discriminate);
  repeat constructor; vm_compute; congruence.
Qed.

(** C159 (false): a text that is no address is refused.  Such a text silently yields the address
    255.255.255.255, which is also a proper address.  Exactly the texts of one to four C numbers
    (also octal and hexadecimal) with dots are read, the last number filling the bytes left. *)
Theorem C159_bad_refuted :
  (forall t, (forall bs, ~ address_text 3 t bs) -> inet_addr t = 4294967295) /\
  (forall t, (match t with [] => true | c :: _ => negb (is_digit c) end) = true -> forall bs, ~ address_text 3 t bs) /\
  address_text 3 (T "255.255.255.255") [255; 255; 255; 255] /\ inet_addr (T "255.255.255.255") = 4294967295.
Proof.
  split; [intros t H; apply bad_address; intros bs A; now apply (H bs), address_iff|]. split.
  - intros t H bs X. apply address_iff in X. pose proof (text_parts 3 t bs X ltac:(lia) []) as E. destruct t as [|c t]; [discriminate|]. cbn [inet_parts] in E. rewrite H in E. discriminate.
  - assert (inet_parts 3 [] (T "255.255.255.255") = Some 4294967295) as E by (vm_compute; reflexivity). split; [|vm_compute; reflexivity]. apply address_iff.
    assert (decimal 255 [50; 53; 53]) as D by (repeat split; [repeat constructor; unfold digit; lia|discriminate|discriminate]).
    apply decimal_number in D. change (T "255.255.255.255") with ([50; 53; 53] ++ 46 :: [50; 53; 53] ++ 46 :: [50; 53; 53] ++ 46 :: [50; 53; 53] ++ []).
    apply addr_dot; [assumption|lia|]. apply addr_dot; [assumption|lia|]. apply addr_dot; [assumption|lia|]. apply (addr_last 0 255); [assumption|lia|now left].
Qed.
Print Assumptions C159_bad_refuted.
Theorem C159_texts_partial :
  forall t a, inet_aton t = Some a <->
  exists b0 b1 b2 b3, address_text 3 t [b0; b1; b2; b3] /\ a = b0 + 256 * b1 + 65536 * b2 + 16777216 * b3.
Proof. exact aton_texts. Qed.
Print Assumptions C159_texts_partial.

Example C159_example :
  inet_addr (T "localhost") = 4294967295 /\ inet_addr (T "1.2.3.4.5") = 4294967295 /\ inet_addr (T "256.0.0.1") = 4294967295 /\
  inet_addr (T "010.0.0.1") = le_word [8; 0; 0; 1] /\ inet_addr (T "1.515") = le_word [1; 0; 2; 3] /\
  inet_addr (T "0xC0a80001") = le_word [192; 168; 0; 1] /\ inet_addr (T "09.0.0.1") = 4294967295.
Proof. repeat split; vm_compute; reflexivity. Qed.

(** C160: whatever part of the data the system takes or hands out at each call, and whatever calls
    fail or time out, the bytes reported as sent are the bytes reported as received followed
    by those still under way: nothing is lost, doubled or reordered. *)
Theorem C160_stream :
  forall es, all_possible [] es ->
  exists q os, net_run [] es = Ok (q, os) /\ zlen os = zlen es /\ sent es os = got es os ++ q.
Proof.
  intros es P. destruct (stream_ok es [] P) as (q & os & E & L & G). exists q, os. repeat split; [assumption| |exact G].
  unfold zlen. now rewrite L.
Qed.
Print Assumptions C160_stream.

Definition c160_calls : list net_call :=
  [NSend (T "hello") 3; NRecvTimed [None; None] 2 0 0 0; NRecv [None; None] 2 2; NSend (T "lo") (-1); NSend (T "lo") 2;
   NRecvTimed [None; None; None; None] 4 1 17 2; NRecvTimed [None] 1 1 8 0; NRecv [None] 1 (-1)].
Example C160_example :
  net_run [] c160_calls =
  Ok ([111], [(3, []); (0, [None; None]); (2, map Some (T "he")); (-5, []); (2, []); (2, map Some (T "ll") ++ [None; None]); (0, [None]); (-6, [None])]) /\
  match net_run [] c160_calls with Ok (_, os) => sent c160_calls os = T "hello" /\ got c160_calls os = T "hell" | _ => False end.
Proof. vm_compute. repeat split. Qed.
Example C160_possible : all_possible [] [NSend (T "hello") 3; NRecv [None; None] 2 2].
Proof.
  split; [vm_compute; intuition discriminate|]. intros q o b E. injection E as <- _ _. split; [vm_compute; intuition discriminate|]. intros; exact I.
Qed.

(** C161 (false): the open sockets are always those the program was given and has not closed.  A
    start that fails after its socket was made leaves the socket open.  Otherwise it holds, for
    every sequence of calls. *)
Theorem C161_open_refuted :
  exists cs, fds_possible [] cs /\ fst (fd_run [] cs) = [3] /\ held [] cs (snd (fd_run [] cs)) = [].
Proof.
  exists [FServer true 80 (mk_startup 3 0 (-1) 0 0)]. split; [|split; vm_compute; reflexivity]. split; [|exact I].
  right. cbn. split; [lia|tauto].
Qed.
Print Assumptions C161_open_refuted.
Theorem C161_open_partial :
  forall cs, fds_possible [] cs -> Forall no_late_failure cs -> fst (fd_run [] cs) = held [] cs (snd (fd_run [] cs)).
Proof. intros cs P N. exact (proj1 (descriptors_ok cs [] P N)). Qed.
Print Assumptions C161_open_partial.
(** Closing succeeds exactly for open sockets, closes that one and no other. *)
Theorem C161_close :
  forall l fd, -2147483648 <= fd < 2147483648 ->
  (snd (socket_close l fd) = true <-> In fd l) /\ ~ In fd (fst (socket_close l fd)) /\
  (forall x, x <> fd -> (In x (fst (socket_close l fd)) <-> In x l)).
Proof.
  intros l fd H. destruct (close_ok l fd H) as (A & B & C & D). split; [|now split].
  destruct (in_dec Z.eq_dec fd l) as [I|I]; [rewrite (A I); tauto|rewrite (B I); split; [discriminate|tauto]].
Qed.
Print Assumptions C161_close.

Definition c161_calls : list fd_call :=
  [FServer true 80 (mk_startup 3 0 0 0 0); FAccept 4; FAccept (-1); FAccept 5; FClose 4; FClose 4; FClose (-4); FClient (mk_address 1 1) (mk_startup 4 0 0 0 0); FClose 3].
Example C161_example :
  fd_run [] c161_calls = ([4; 5], [3; 4; -1; 5; 1; 0; 0; 4; 1]) /\ fds_possible [] c161_calls /\ Forall no_late_failure c161_calls.
Proof.
  split; [vm_compute; reflexivity|]. split; [|unfold c161_calls; repeat constructor; cbn; lia].
  unfold c161_calls. repeat (split; [cbn [fd_possible]|match goal with |- fds_possible ?l ?c => let l' := eval vm_compute in l in change (fds_possible l' c) end]);
    unfold fresh; cbn [u_fd In]; first [exact I|lia|left; reflexivity|right; split; [lia|intuition lia]].
Qed.
