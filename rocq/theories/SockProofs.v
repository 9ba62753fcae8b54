(** Proofs about sockets. *)
From Verif Require Import Base BaseFacts NumModel SockModel.

Lemma signed32_small n : 0 <= n < 2147483648 -> to_signed 32 n = n.
Proof. intros H. unfold to_signed. change (2 ^ 32) with 4294967296. change (2 ^ (32 - 1)) with 2147483648. rewrite Z.mod_small by lia. replace (n <? 2147483648) with true by lia. reflexivity. Qed.
Lemma signed32_big n : 2147483648 <= n < 4294967296 -> to_signed 32 n = n - 4294967296.
Proof. intros H. unfold to_signed. change (2 ^ 32) with 4294967296. change (2 ^ (32 - 1)) with 2147483648. rewrite Z.mod_small by lia. replace (n <? 2147483648) with false by lia. reflexivity. Qed.

Lemma bwrite_prefix b (d : list Z) : zlen d <= zlen b -> bwrite b 0 (map Some d) = Ok (map Some d ++ skipn (length d) b).
Proof.
  intros H. pose proof (zlen_nonneg d). rewrite <- (firstn_skipn (length d) b) at 1.
  pose proof (bwrite_app [] (firstn (length d) b) (skipn (length d) b) 0 (map Some d) eq_refl) as B. cbn [app] in B. apply B.
  unfold zlen in *. rewrite map_length, firstn_length. lia.
Qed.

(** What a receive leaves behind. *)
Lemma receive_ok b len d : zlen d <= len -> len <= zlen b -> zlen d < 2147483648 ->
  socket_receive b len (RecvData d) = Ok (zlen d, map Some d ++ skipn (length d) b).
Proof.
  intros H1 H2 H3. pose proof (zlen_nonneg d). unfold socket_receive. cbn [recv_into]. rewrite bwrite_prefix by lia. cbn [bind fst snd].
  rewrite signed32_small by lia. replace (zlen d <? 0) with false by lia. reflexivity.
Qed.
Lemma receive_error b len : socket_receive b len RecvError = Ok (-6, b).
Proof. reflexivity. Qed.
Lemma receive_from_ok b len d src adr : zlen d <= len -> len <= zlen b -> zlen d < 2147483648 ->
  socket_receive_from b len (RecvData d) src adr = Ok (zlen d, map Some d ++ skipn (length d) b, src).
Proof.
  intros H1 H2 H3. pose proof (zlen_nonneg d). unfold socket_receive_from. cbn [recv_into]. rewrite bwrite_prefix by lia. cbn [bind fst snd].
  rewrite signed32_small by lia. replace (zlen d <? 0) with false by lia. reflexivity.
Qed.
Lemma receive_from_error b len src adr : socket_receive_from b len RecvError src adr = Ok (-6, b, adr).
Proof. reflexivity. Qed.

(** More than 2^31 - 1 bytes: reported as an error although the data arrived. *)
Lemma receive_big b len d : zlen d <= len -> len <= zlen b -> 2147483648 <= zlen d < 4294967296 ->
  socket_receive b len (RecvData d) = Ok (-6, map Some d ++ skipn (length d) b).
Proof.
  intros H1 H2 H3. unfold socket_receive. cbn [recv_into]. rewrite bwrite_prefix by lia. cbn [bind fst snd].
  rewrite signed32_big by lia. replace (zlen d - 4294967296 <? 0) with true by lia. reflexivity.
Qed.

Lemma timed_ok b len ret revents a :
  (ret < 0 -> socket_receive_timed b len ret revents a = Ok (-7, b)) /\
  (ret = 0 -> socket_receive_timed b len ret revents a = Ok (0, b)) /\
  (0 < ret -> Z.odd revents = true -> socket_receive_timed b len ret revents a = socket_receive b len a).
Proof.
  unfold socket_receive_timed, socket_poll. split; [|split].
  - intros H. replace (ret <? 0) with true by lia. reflexivity.
  - intros ->. reflexivity.
  - intros H O. replace (ret <? 0) with false by lia. replace (ret <? 0) with false by lia. replace (0 <? ret) with true by lia. cbn [andb].
    replace (Z.land revents 1 =? 0) with false; [reflexivity|]. symmetry. apply Z.eqb_neq. rewrite <- Z.bit0_odd in O. intros E.
    assert (Z.testbit (Z.land revents 1) 0 = true) as X by (rewrite Z.land_spec, O; reflexivity). rewrite E in X. discriminate.
Qed.
Lemma timed_from_ok b len ret revents a src adr :
  (ret < 0 -> socket_receive_timed_from b len ret revents a src adr = Ok (-7, b, adr)) /\
  (ret = 0 -> socket_receive_timed_from b len ret revents a src adr = Ok (0, b, adr)) /\
  (0 < ret -> Z.odd revents = true -> socket_receive_timed_from b len ret revents a src adr = socket_receive_from b len a src adr).
Proof.
  unfold socket_receive_timed_from, socket_poll. split; [|split].
  - intros H. replace (ret <? 0) with true by lia. reflexivity.
  - intros ->. reflexivity.
  - intros H O. replace (ret <? 0) with false by lia. replace (ret <? 0) with false by lia. replace (0 <? ret) with true by lia. cbn [andb].
    replace (Z.land revents 1 =? 0) with false; [reflexivity|]. symmetry. apply Z.eqb_neq. rewrite <- Z.bit0_odd in O. intros E.
    assert (Z.testbit (Z.land revents 1) 0 = true) as X by (rewrite Z.land_spec, O; reflexivity). rewrite E in X. discriminate.
Qed.
(** Ready, but not for reading (POLLERR, POLLHUP or POLLNVAL only): the same as a timeout. *)
Lemma timed_error_event b len ret revents a : 0 < ret -> Z.odd revents = false -> socket_receive_timed b len ret revents a = Ok (0, b).
Proof.
  intros H O. unfold socket_receive_timed, socket_poll. replace (ret <? 0) with false by lia. replace (ret <? 0) with false by lia.
  replace (Z.land revents 1 =? 0) with true; [now rewrite andb_false_r|]. symmetry. apply Z.eqb_eq.
  change 1 with (Z.ones 1). rewrite Z.land_ones by lia. change (2 ^ 1) with 2. rewrite Zmod_odd, O. reflexivity.
Qed.

Lemma send_ok ret : -1 <= ret < 2147483648 -> socket_send ret = if ret =? -1 then -5 else ret.
Proof.
  intros H. unfold socket_send. destruct (Z.eqb_spec ret (-1)) as [->|N]; [reflexivity|].
  rewrite signed32_small by lia. replace (ret <? 0) with false by lia. reflexivity.
Qed.
Lemma send_big ret : 2147483648 <= ret < 4294967296 -> socket_send ret = -5.
Proof. intros H. unfold socket_send. rewrite signed32_big by lia. replace (ret - 4294967296 <? 0) with true by lia. reflexivity. Qed.
Lemma send_to_reply src ret : fst (socket_send_to src ret) = src.
Proof. reflexivity. Qed.

(** The two bytes of a port, high byte first in memory (little-endian value). *)
Lemma port_bytes p : 0 <= p < 65536 -> htons p mod 256 = p / 256 /\ htons p / 256 = p mod 256.
Proof.
  intros H. unfold htons. rewrite (Z.mod_small p) by lia.
  assert (0 <= p / 256 < 256) as D by (split; [apply Z.div_pos; lia|apply Z.div_lt_upper_bound; lia]).
  split.
  - rewrite Z.add_comm, Z.mod_add, Z.mod_small by lia. reflexivity.
  - rewrite Z.div_add_l, (Z.div_small (p / 256)) by lia. lia.
Qed.
Lemma signed16_mod p : to_signed 16 p mod 65536 = p mod 65536.
Proof.
  unfold to_signed. change (2 ^ 16) with 65536. change (2 ^ (16 - 1)) with 32768. cbv zeta. destruct (p mod 65536 <? 32768).
  - apply Z.mod_mod. lia.
  - rewrite <- (Z.mod_add (p mod 65536 - 65536) 1 65536) by lia. rewrite Z.mul_1_l, Z.sub_add. apply Z.mod_mod. lia.
Qed.
Lemma make_address_ok p a : 0 <= p < 65536 ->
  a_port (socket_make_address p a) mod 256 = p / 256 /\ a_port (socket_make_address p a) / 256 = p mod 256 /\ a_addr (socket_make_address p a) = a.
Proof.
  intros H. cbn [socket_make_address a_port a_addr].
  assert (htons (to_signed 16 p) = htons p) as -> by (unfold htons; now rewrite signed16_mod).
  destruct (port_bytes p H). auto.
Qed.

(** * Start-up *)
Lemma server_ok tcp port u fd : u_fd u = fd -> 0 <= fd -> u_opt u = 0 -> u_bind u = 0 -> (tcp = true -> u_listen u = 0) ->
  startup_server tcp port u = (fd, [fd], Some (htons port), tcp).
Proof.
  intros E1 H E2 E3 L. unfold startup_server, INVALID. rewrite E1, E2, E3. replace (fd =? -1) with false by lia. change (0 <? 0) with false.
  destruct tcp; cbn [andb]; [rewrite L by reflexivity|]; reflexivity.
Qed.
Lemma server_fails tcp port u : -1 <= u_fd u -> u_fd u = -1 \/ u_opt u < 0 \/ u_bind u < 0 \/ (tcp = true /\ u_listen u < 0) ->
  fst (fst (fst (startup_server tcp port u))) < 0 /\
  (snd (fst (fst (startup_server tcp port u))) = [] <-> u_fd u = -1).
Proof.
  intros Hf H. unfold startup_server, INVALID, ERROR_OPTIONS, ERROR_BIND, ERROR_LISTEN.
  destruct (Z.eqb_spec (u_fd u) (-1)) as [E|N]; cbn [fst snd]; [split; [lia|tauto]|].
  destruct (Z.ltb_spec (u_opt u) 0); cbn [fst snd]; [split; [lia|split; [discriminate|contradiction]]|].
  destruct (Z.ltb_spec (u_bind u) 0); cbn [fst snd]; [split; [lia|split; [discriminate|contradiction]]|].
  destruct H as [H|[H|[H|[-> H]]]]; try lia. replace (u_listen u <? 0) with true by lia. cbn [andb fst snd]. split; [lia|split; [discriminate|contradiction]].
Qed.
Lemma client_ok adr u fd : u_fd u = fd -> 0 <= fd -> u_connect u = 0 -> startup_client adr u = (fd, [fd], Some adr).
Proof. intros E1 H E2. unfold startup_client, INVALID. rewrite E1, E2. replace (fd =? -1) with false by lia. reflexivity. Qed.
Lemma client_fails adr u : -1 <= u_fd u -> u_fd u = -1 \/ u_connect u < 0 ->
  fst (fst (startup_client adr u)) < 0 /\ (snd (fst (startup_client adr u)) = [] <-> u_fd u = -1).
Proof.
  intros Hf H. unfold startup_client, INVALID, ERROR_CONNECT.
  destruct (Z.eqb_spec (u_fd u) (-1)) as [E|N]; cbn [fst snd]; [split; [lia|tauto]|].
  destruct H as [H|H]; [contradiction|]. replace (u_connect u <? 0) with true by lia. cbn [fst snd]. split; [lia|split; [discriminate|contradiction]].
Qed.

(** * Summaries *)
Lemma timed_receive b len ret revents a :
  (ret = 0 -> socket_receive_timed b len ret revents a = Ok (0, b)) /\
  (ret < 0 -> socket_receive_timed b len ret revents a = Ok (-7, b)) /\
  (0 < ret -> Z.odd revents = true -> a = RecvError -> socket_receive_timed b len ret revents a = Ok (-6, b)) /\
  (forall d, 0 < ret -> Z.odd revents = true -> a = RecvData d -> zlen d <= len -> len <= zlen b -> zlen d < 2147483648 ->
   socket_receive_timed b len ret revents a = Ok (zlen d, map Some d ++ skipn (length d) b)).
Proof.
  destruct (timed_ok b len ret revents a) as (A & B & C). split; [exact B|]. split; [exact A|]. split.
  - intros H O ->. rewrite C by assumption. apply receive_error.
  - intros d H O -> L1 L2 L3. rewrite C by assumption. now apply receive_ok.
Qed.
Lemma timed_receive_from b len ret revents a src adr :
  (ret = 0 -> socket_receive_timed_from b len ret revents a src adr = Ok (0, b, adr)) /\
  (ret < 0 -> socket_receive_timed_from b len ret revents a src adr = Ok (-7, b, adr)) /\
  (0 < ret -> Z.odd revents = true -> a = RecvError -> socket_receive_timed_from b len ret revents a src adr = Ok (-6, b, adr)) /\
  (forall d, 0 < ret -> Z.odd revents = true -> a = RecvData d -> zlen d <= len -> len <= zlen b -> zlen d < 2147483648 ->
   socket_receive_timed_from b len ret revents a src adr = Ok (zlen d, map Some d ++ skipn (length d) b, src)).
Proof.
  destruct (timed_from_ok b len ret revents a src adr) as (A & B & C). split; [exact B|]. split; [exact A|]. split.
  - intros H O ->. rewrite C by assumption. apply receive_from_error.
  - intros d H O -> L1 L2 L3. rewrite C by assumption. now apply receive_from_ok.
Qed.
Lemma long_wait t : 2147483648 <= t < 4294967296 -> poll_timeout t < 0.
Proof. intros H. unfold poll_timeout. rewrite signed32_big by assumption. lia. Qed.
Lemma server_leak tcp port u : 0 <= u_fd u -> u_opt u < 0 \/ u_bind u < 0 \/ (tcp = true /\ u_listen u < 0) ->
  fst (fst (fst (startup_server tcp port u))) < 0 /\ snd (fst (fst (startup_server tcp port u))) = [u_fd u].
Proof.
  intros Hf H. destruct (server_fails tcp port u ltac:(lia) ltac:(tauto)) as [A B]. split; [exact A|].
  unfold startup_server, INVALID in *. destruct (Z.eqb_spec (u_fd u) (-1)); [lia|].
  destruct (u_opt u <? 0); [reflexivity|]. destruct (u_bind u <? 0); [reflexivity|]. destruct (tcp && (u_listen u <? 0)); reflexivity.
Qed.
Lemma client_leak adr u : 0 <= u_fd u -> u_connect u < 0 -> startup_client adr u = (-4, [u_fd u], None).
Proof. intros Hf H. unfold startup_client, INVALID. replace (u_fd u =? -1) with false by lia. replace (u_connect u <? 0) with true by lia. reflexivity. Qed.
Lemma server_code tcp port u : 0 <= u_fd u -> u_opt u < 0 -> fst (fst (fst (startup_server tcp port u))) = INVALID.
Proof. intros Hf H. unfold startup_server, INVALID. replace (u_fd u =? -1) with false by lia. replace (u_opt u <? 0) with true by lia. reflexivity. Qed.
Lemma startups :
  (forall tcp port u, 0 <= u_fd u -> u_opt u = 0 -> u_bind u = 0 -> (tcp = true -> u_listen u = 0) ->
   startup_server tcp port u = (u_fd u, [u_fd u], Some (htons port), tcp)) /\
  (forall tcp port u, u_fd u = -1 \/ u_opt u < 0 \/ u_bind u < 0 \/ (tcp = true /\ u_listen u < 0) ->
   fst (fst (fst (startup_server tcp port u))) < 0) /\
  (forall adr u, 0 <= u_fd u -> u_connect u = 0 -> startup_client adr u = (u_fd u, [u_fd u], Some adr)) /\
  (forall adr u, u_fd u = -1 \/ u_connect u < 0 -> fst (fst (startup_client adr u)) < 0).
Proof.
  split; [intros; now apply server_ok|]. split.
  - intros tcp port u H. unfold startup_server, INVALID, ERROR_OPTIONS, ERROR_BIND, ERROR_LISTEN.
    destruct (Z.eqb_spec (u_fd u) (-1)); cbn [fst]; [lia|]. destruct (Z.ltb_spec (u_opt u) 0); cbn [fst]; [lia|].
    destruct (Z.ltb_spec (u_bind u) 0); cbn [fst]; [lia|]. destruct H as [H|[H|[H|[-> H]]]]; try lia.
    replace (u_listen u <? 0) with true by lia. cbn. lia.
  - split; [intros; now apply client_ok|]. intros adr u H. unfold startup_client, INVALID, ERROR_CONNECT.
    destruct (Z.eqb_spec (u_fd u) (-1)); cbn [fst]; [lia|]. destruct H as [H|H]; [contradiction|].
    replace (u_connect u <? 0) with true by lia. cbn. lia.
Qed.
Lemma server_port port u q : 0 <= port < 65536 -> snd (fst (startup_server true port u)) = Some q -> q mod 256 = port / 256 /\ q / 256 = port mod 256.
Proof.
  intros H. unfold startup_server. destruct (u_fd u =? INVALID); [discriminate|]. destruct (u_opt u <? 0); [discriminate|].
  destruct (u_bind u <? 0); [discriminate|]. destruct (true && (u_listen u <? 0)); cbn [fst snd]; intros E; injection E as <-; now apply port_bytes.
Qed.
Lemma reply b len d src adr ret n b' adr' : zlen d <= len -> len <= zlen b -> zlen d < 2147483648 ->
  socket_receive_from b len (RecvData d) src adr = Ok (n, b', adr') -> n = zlen d /\ adr' = src /\ fst (socket_send_to adr' ret) = src.
Proof. intros H1 H2 H3. rewrite receive_from_ok by assumption. intros E. injection E as <- _ <-. auto. Qed.
