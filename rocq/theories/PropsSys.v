(** Properties of log.c, debug.c and sockets.c.  Statements only; each theorem is followed by
    a non-vacuity example.  [transcript], [fine], [route], ...: LogSpec.v. *)
From Verif Require Import Base BaseFacts StrModel StrSpec NumModel LogModel LogSpec LogProofs SockModel SockProofs.
From Coq Require Import String Ascii.
Local Open Scope list_scope.

Definition T (s : string) : list Z := map (fun a => Z.of_N (N_of_ascii a)) (list_ascii_of_string s).
Definition pl0 : place := mk_place (T "main.c") (T "main") 12.
Definition log1 (l : Z) (m : string) : call := CLog (T "now") None l false None pl0 (T m) [].
Definition check1 (quit : bool) (m : string) : call := CAssert (T "now") false (T "x") (T "CHECK FAILURE") quit pl0 (T m).
(** Files that can be opened in the examples: those not starting with '/'. *)
Definition relative (z : list Z) : bool := match z with a :: _ => negb (a =? 47) | [] => false end.

(** ** C71 Log routing *)
(** Full statement: for all calls with valid levels.  False: a fatal record whose file cannot
    be opened is dropped and the program goes on; a file name of more than 4095 characters is
    cut off (a different file is written). *)
Theorem C71_routing_refuted :
  (exists p, run true relative init [CRedirect 4 (Some (T "/root/log")); log1 4 "dead"; log1 0 "alive"] = Ok (p, Returns) /\
             map fst (p_out p) = [Stderr; Stderr]) /\
  (exists p, run false relative init [CRedirect 4 (Some (T "/root/log")); log1 4 "dead"; log1 0 "alive"] = Ok (p, Returns) /\
             map fst (p_out p) = [Stderr]) /\
  (exists p, run true relative init [CRedirect 0 (Some (repeat 97 4096)); log1 0 "hi"] = Ok (p, Returns) /\
             map fst (p_out p) = [File (repeat 97 4095)]).
Proof.
  split; [|split]; (eexists; split; [vm_compute; reflexivity|]; vm_compute; reflexivity).
Qed.
Print Assumptions C71_routing_refuted.

(** Missing: files that cannot be opened and names of more than 4095 characters. *)
Theorem C71_routing_partial :
  forall dbg can_open cs, Forall (fine can_open) cs ->
  exists p, run dbg can_open init cs = Ok (p, snd (transcript [] cs)) /\ p_out p = fst (transcript [] cs).
Proof. exact run_ok. Qed.
Print Assumptions C71_routing_partial.

Example C71_example :
  let cs := [CRedirectAll (Some (T "all")); CRedirect 1 (Some (T "warn")); log1 0 "a"; log1 1 "b"; CRedirect 1 None; log1 1 "c";
             CDebugRedirect (Some (T "dbg")); check1 false "d"; CDebugDisable true; check1 false "e";
             CLog (T "now") (Some (T "own")) 3 false None pl0 (T "f") []; CLog (T "now") None 5 true (Some (T "x")) pl0 (T "g") [];
             CLog (T "now") None 5 false (Some (T "x")) pl0 (T "h") []; log1 0 "i"] in
  Forall (fine relative) cs /\
  transcript [] cs =
    ([(File (T "all"), T "now  INFO main.c:12: a" ++ [10]); (File (T "warn"), T "now  WARN main.c:12: b" ++ [10]);
      (Stderr, T "now  WARN main.c:12: c" ++ [10]); (File (T "dbg"), T "now CHECK FAILURE [x] main.c:main:12: d" ++ [10]);
      (File (T "own"), T "now ERROR main.c:12: f" ++ [10]); (File (T "all"), T "now ASSERT FAILURE [x] main.c:12: h" ++ [10])], Exits).
Proof.
  split; [|vm_compute; reflexivity].
  cbv zeta. unfold log1, check1.
  repeat match goal with |- Forall _ (_ :: _) => apply Forall_cons | |- Forall _ [] => apply Forall_nil end; cbn [fine];
    repeat match goal with |- 0 <= _ < 6 /\ _ => split; [lia|] end; try exact I; intros z E; try discriminate E; injection E as <-;
    try reflexivity; (split; [repeat constructor; lia|]); (split; [vm_compute; discriminate|]); right; reflexivity.
Qed.

(** ** C72 Checks terminate the program *)
(** Full statement: for all settings.  False: output to a file that cannot be opened closes
    stderr, and a later failed enforcement with output to stderr uses the closed stream. *)
Theorem C72_checks_refuted :
  run true relative init [CDebugRedirect (Some (T "/root/log")); check1 false "a"; CDebugRedirect None; check1 true "b"] = UB /\
  run true relative init [CDebugRedirect (Some (T "/root/log")); check1 false "a"; check1 true "b"] = UB.
Proof. split; vm_compute; reflexivity. Qed.
Print Assumptions C72_checks_refuted.

(** Missing: states in which stderr has been closed in this way and output goes to it. *)
Theorem C72_checks_partial :
  forall can_open p expr tm zexpr subject quit pl msg, p_err p = true ->
  exists p', debug_assert can_open p expr tm zexpr subject quit pl msg = Ok (p', if expr then Returns else if quit then Exits else Returns) /\
  (expr = true -> p' = p).
Proof. exact check_any. Qed.
Print Assumptions C72_checks_partial.
Theorem C72_checks_file_partial :
  forall can_open p expr tm zexpr subject quit pl msg, p_on p = false \/ (exists z, p_dest p = Some z /\ can_open z = true) ->
  exists p', debug_assert can_open p expr tm zexpr subject quit pl msg = Ok (p', if expr then Returns else if quit then Exits else Returns).
Proof. exact check_any2. Qed.
Print Assumptions C72_checks_file_partial.

Example C72_example :
  p_err init = true /\
  (exists p, debug_assert relative init false (T "now") (T "n > 0") (T "ENFORCE FAILURE") true pl0 (T "m") = Ok (p, Exits) /\
             p_out p = [(Stderr, T "now ENFORCE FAILURE [n > 0] main.c:main:12: m" ++ [10])]) /\
  debug_assert relative init true (T "now") (T "n > 0") (T "ENFORCE FAILURE") true pl0 (T "m") = Ok (init, Returns).
Proof.
  split; [reflexivity|]. split; [|vm_compute; reflexivity]. eexists. split; [vm_compute; reflexivity|]. vm_compute. reflexivity.
Qed.

(** ** C91 Debug output falls back to stderr *)
(** Full statement: every message whose file cannot be opened appears on stderr.  False from
    the second message on. *)
Theorem C91_fallback_refuted :
  (exists p, run true relative init [CDebugRedirect (Some (T "/root/log")); check1 false "a"] = Ok (p, Returns) /\ map fst (p_out p) = [Stderr]) /\
  run true relative init [CDebugRedirect (Some (T "/root/log")); check1 false "a"; check1 false "b"] = UB /\
  run true relative init [CDebugRedirect (Some (T "/root/log")); check1 false "a"; CDebugRedirect None; log1 0 "b"] = UB.
Proof.
  split; [|split; vm_compute; reflexivity]. eexists. split; [vm_compute; reflexivity|]. vm_compute. reflexivity.
Qed.
Print Assumptions C91_fallback_refuted.
(** Proved: while stderr is open the message does appear there, whole and last; and stderr
    is closed afterwards, so that writing to it again is undefined.  A message whose file can
    be opened goes to that file and leaves stderr alone. *)
Theorem C91_fallback_partial :
  forall can_open p f t, p_on p = true -> p_dest p = Some f -> can_open f = false -> p_err p = true ->
  exists p', debug_write can_open p t = Ok p' /\ p_out p' = p_out p ++ [(Stderr, t)] /\ p_err p' = false /\
    (forall t', debug_write can_open p' t' = UB) /\ (forall t', debug_write can_open (debug_redirect p' None) t' = UB).
Proof.
  intros can_open p f t On D O E. unfold debug_write, debug_sink, emit. rewrite On, D, O, E. cbn.
  eexists. split; [reflexivity|]. cbn. rewrite ?On, ?D, ?O. cbn. rewrite ?O. repeat split; intros; cbn; rewrite ?O; reflexivity.
Qed.
Print Assumptions C91_fallback_partial.
Theorem C91_file_partial :
  forall can_open p f t, p_on p = true -> p_dest p = Some f -> can_open f = true ->
  exists p', debug_write can_open p t = Ok p' /\ p_out p' = p_out p ++ [(File f, t)] /\ p_err p' = p_err p.
Proof.
  intros can_open p f t On D O. unfold debug_write, debug_sink, emit. rewrite On, D, O. cbn.
  eexists. split; [reflexivity|]. split; reflexivity.
Qed.
Print Assumptions C91_file_partial.

(** ** C73 Timed receive *)
(** Full statement: for all outcomes of poll and recv.  False: an error event without input
    (POLLERR = 8, POLLHUP = 16, POLLNVAL = 32, the latter for a closed descriptor) is reported
    as 0, that is as a timeout; 2^31 bytes and more (not on Linux) as an error. *)
Theorem C73_timed_receive_refuted :
  (forall b len ret revents a, 0 < ret -> Z.odd revents = false -> socket_receive_timed b len ret revents a = Ok (0, b)) /\
  (forall b len d, zlen d <= len -> len <= zlen b -> 2147483648 <= zlen d < 4294967296 ->
   socket_receive b len (RecvData d) = Ok (-6, map Some d ++ skipn (List.length d) b)).
Proof. exact (conj timed_error_event receive_big). Qed.
Print Assumptions C73_timed_receive_refuted.
Theorem C73_timed_receive_witness_refuted :
  exists b, socket_receive_timed b 4 1 32 RecvError = Ok (0, b).
Proof. exists (repeat None 4). vm_compute. reflexivity. Qed.
Print Assumptions C73_timed_receive_witness_refuted.

(** Missing: error events without input, and messages of 2^31 bytes and more. *)
Theorem C73_timed_receive_partial :
  forall b len ret revents a,
  (ret = 0 -> socket_receive_timed b len ret revents a = Ok (0, b)) /\
  (ret < 0 -> socket_receive_timed b len ret revents a = Ok (-7, b)) /\
  (0 < ret -> Z.odd revents = true -> a = RecvError -> socket_receive_timed b len ret revents a = Ok (-6, b)) /\
  (forall d, 0 < ret -> Z.odd revents = true -> a = RecvData d -> zlen d <= len -> len <= zlen b -> zlen d < 2147483648 ->
   socket_receive_timed b len ret revents a = Ok (zlen d, map Some d ++ skipn (List.length d) b)).
Proof. exact timed_receive. Qed.
Print Assumptions C73_timed_receive_partial.
Theorem C73_timed_receive_from_partial :
  forall b len ret revents a src adr,
  (ret = 0 -> socket_receive_timed_from b len ret revents a src adr = Ok (0, b, adr)) /\
  (ret < 0 -> socket_receive_timed_from b len ret revents a src adr = Ok (-7, b, adr)) /\
  (0 < ret -> Z.odd revents = true -> a = RecvError -> socket_receive_timed_from b len ret revents a src adr = Ok (-6, b, adr)) /\
  (forall d, 0 < ret -> Z.odd revents = true -> a = RecvData d -> zlen d <= len -> len <= zlen b -> zlen d < 2147483648 ->
   socket_receive_timed_from b len ret revents a src adr = Ok (zlen d, map Some d ++ skipn (List.length d) b, src)).
Proof. exact timed_receive_from. Qed.
Print Assumptions C73_timed_receive_from_partial.

(** vt_socket_poll: its error code exactly if poll fails, else the number of descriptors ready. *)
Theorem C73_poll : forall ret, -1 <= ret -> (ret = -1 <-> socket_poll ret = -7) /\ (0 <= ret -> socket_poll ret = ret).
Proof. intros ret H. unfold socket_poll, ERROR_POLL. destruct (Z.ltb_spec ret 0); lia. Qed.
Print Assumptions C73_poll.
Example C73_example :
  socket_poll (-1) = -7 /\ socket_poll 0 = 0 /\ socket_poll 2 = 2 /\
  socket_receive_timed [None; None; Some 7] 3 1 17 (RecvData (T "hi")) = Ok (2, [Some 104; Some 105; Some 7]) /\
  socket_receive_timed_from [None; Some 7] 2 1 1 (RecvData (T "h")) (mk_address 5 6) (mk_address 0 0) = Ok (1, [Some 104; Some 7], mk_address 5 6).
Proof. repeat split; vm_compute; reflexivity. Qed.

(** ** C92 The wait is limited *)
(** [poll_timeout t]: the limit in milliseconds poll is given; poll waits without limit for a
    negative one.  Full statement: for all 32-bit limits.  False from 2^31 on. *)
Theorem C92_wait_refuted : forall t, 2147483648 <= t < 4294967296 -> poll_timeout t < 0.
Proof. exact long_wait. Qed.
Print Assumptions C92_wait_refuted.
Theorem C92_wait_witness_refuted : exists t, 0 <= t < 4294967296 /\ poll_timeout t < 0.
Proof. exists 3000000000. vm_compute. repeat split; discriminate. Qed.
Print Assumptions C92_wait_witness_refuted.
(** Missing: limits of 2^31 ms (25 days) and more. *)
Theorem C92_wait_partial : forall t, 0 <= t < 2147483648 -> poll_timeout t = t.
Proof. exact signed32_small. Qed.
Print Assumptions C92_wait_partial.
Example C92_example : poll_timeout 5000 = 5000.
Proof. reflexivity. Qed.

(** ** C93 Starting sockets *)
(** Full statement: a failed start returns a code telling the step that failed and leaves no
    socket open.  False: the descriptor stays open (and is lost), and a failure to set options
    has the same code as a failure to create the socket. *)
Theorem C93_startup_refuted :
  (forall tcp port u, 0 <= u_fd u -> u_opt u < 0 \/ u_bind u < 0 \/ (tcp = true /\ u_listen u < 0) ->
   fst (fst (fst (startup_server tcp port u))) < 0 /\ snd (fst (fst (startup_server tcp port u))) = [u_fd u]) /\
  (forall adr u, 0 <= u_fd u -> u_connect u < 0 -> startup_client adr u = (-4, [u_fd u], None)) /\
  (forall tcp port u, 0 <= u_fd u -> u_opt u < 0 -> fst (fst (fst (startup_server tcp port u))) = INVALID).
Proof. exact (conj server_leak (conj client_leak server_code)). Qed.
Print Assumptions C93_startup_refuted.
Theorem C93_startup_witness_refuted :
  startup_server true 80 (mk_startup 3 0 (-1) 0 0) = (-2, [3], None, false) /\
  startup_server true 80 (mk_startup 3 (-1) 0 0 0) = (-1, [3], None, false) /\ startup_server true 80 (mk_startup (-1) 0 0 0 0) = (-1, [], None, false).
Proof. repeat split; vm_compute; reflexivity. Qed.
Print Assumptions C93_startup_witness_refuted.
(** Missing: closing the socket, and the code for options. *)
Theorem C93_startup_partial :
  (forall tcp port u, 0 <= u_fd u -> u_opt u = 0 -> u_bind u = 0 -> (tcp = true -> u_listen u = 0) ->
   startup_server tcp port u = (u_fd u, [u_fd u], Some (htons port), tcp)) /\
  (forall tcp port u, u_fd u = -1 \/ u_opt u < 0 \/ u_bind u < 0 \/ (tcp = true /\ u_listen u < 0) ->
   fst (fst (fst (startup_server tcp port u))) < 0) /\
  (forall adr u, 0 <= u_fd u -> u_connect u = 0 -> startup_client adr u = (u_fd u, [u_fd u], Some adr)) /\
  (forall adr u, u_fd u = -1 \/ u_connect u < 0 -> fst (fst (startup_client adr u)) < 0).
Proof. exact startups. Qed.
Print Assumptions C93_startup_partial.
(** vt_socket_accept_client: the descriptor of the system, or -1. *)
Theorem C93_accept : forall fd, -1 <= fd -> accept_client fd = fd.
Proof. intros fd H. unfold accept_client, INVALID. destruct (Z.eqb_spec fd (-1)); lia. Qed.
Print Assumptions C93_accept.
Example C93_example :
  accept_client 5 = 5 /\ accept_client (-1) = -1 /\
  startup_server true 80 (mk_startup 3 0 0 0 0) = (3, [3], Some 20480, true) /\ startup_server false 80 (mk_startup 3 0 0 (-1) 0) = (3, [3], Some 20480, false).
Proof. repeat split; vm_compute; reflexivity. Qed.

(** ** C94 Ports in network byte order *)
(** Full statement: the port bound or stored is the one given, high byte first, and a port
    that does not exist is refused.  False: ports are cut to 16 bits. *)
Theorem C94_ports_refuted :
  exists port u, port > 65535 /\ startup_server true port u = startup_server true 80 u /\ fst (fst (fst (startup_server true port u))) = 3.
Proof. exists 65616, (mk_startup 3 0 0 0 0). vm_compute. repeat split. Qed.
Print Assumptions C94_ports_refuted.
(** Missing: ports outside 0..65535. *)
Theorem C94_ports_partial :
  (forall port u q, 0 <= port < 65536 -> snd (fst (startup_server true port u)) = Some q -> q mod 256 = port / 256 /\ q / 256 = port mod 256) /\
  (forall port addr, 0 <= port < 65536 ->
   let adr := socket_make_address port addr in a_port adr mod 256 = port / 256 /\ a_port adr / 256 = port mod 256 /\ a_addr adr = addr).
Proof. exact (conj server_port make_address_ok). Qed.
Print Assumptions C94_ports_partial.
Example C94_example : socket_make_address 8080 1 = mk_address 36895 1 /\ socket_make_address 50000 1 = mk_address 20675 1.
Proof. split; vm_compute; reflexivity. Qed.

(** ** C95 Replying to a sender *)
Theorem C95_reply :
  forall b len d src adr ret n b' adr', zlen d <= len -> len <= zlen b -> zlen d < 2147483648 ->
  socket_receive_from b len (RecvData d) src adr = Ok (n, b', adr') -> n = zlen d /\ adr' = src /\ fst (socket_send_to adr' ret) = src.
Proof. exact reply. Qed.
Print Assumptions C95_reply.
Example C95_example : socket_receive_from [None] 1 (RecvData [65]) (mk_address 9 8) (mk_address 0 0) = Ok (1, [Some 65], mk_address 9 8).
Proof. vm_compute. reflexivity. Qed.

(** ** C96 Sending *)
(** [ret]: -1 or the number of bytes the system took (on Linux less than 2^31). *)
Theorem C96_send :
  forall ret, -1 <= ret < 2147483648 -> socket_send ret = if ret =? -1 then -5 else ret.
Proof. exact send_ok. Qed.
Print Assumptions C96_send.
Example C96_example : socket_send 1000 = 1000 /\ socket_send (-1) = -5 /\ socket_send 0 = 0.
Proof. repeat split; vm_compute; reflexivity. Qed.
