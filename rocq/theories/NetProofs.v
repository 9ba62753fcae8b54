(** Proofs about numeric addresses, streams and descriptors. *)
From Verif Require Import Base BaseFacts NumModel StrModel StrSpec NumProofs SockModel SockProofs NetModel.

(** * Numeric addresses *)
(** Value of a text of digits in a base, most significant first. *)
Fixpoint rval (base acc : Z) (z : list Z) : Z := match z with [] => acc | c :: z => rval base (base * acc + digit_val c) z end.
Definition digits_in (base : Z) (z : list Z) : Prop := Forall (fun c => digit_val c < base) z.
(** A number as written in C: decimal, octal after 0, hexadecimal after 0x. *)
Definition c_number (v : Z) (z : list Z) : Prop :=
  (exists c z', z = c :: z' /\ is_digit c = true /\ c <> 48 /\ digits_in 10 z /\ v = rval 10 0 z) \/
  (exists z', z = 48 :: z' /\ digits_in 8 z' /\ v = rval 8 0 z') \/
  (exists x z', z = 48 :: x :: z' /\ (x = 120 \/ x = 88) /\ z' <> [] /\ digits_in 16 z' /\ v = rval 16 0 z').
(** An address with at most [k] dots and the bytes it stands for. *)
Inductive addr_text : nat -> list Z -> list Z -> Prop :=
| addr_last k v z tail : c_number v z -> v < 256 ^ Z.of_nat (S k) -> (tail = [] \/ exists c r, tail = c :: r /\ white c = true) ->
    addr_text k (z ++ tail) (be_bytes (S k) v)
| addr_dot k v z t bs : c_number v z -> v <= 255 -> addr_text k t bs -> addr_text (S k) (z ++ 46 :: t) (v :: bs).

Definition stop (rest : list Z) : Prop := match rest with [] => True | c :: _ => 16 <= digit_val c /\ c <> 120 /\ c <> 88 end.
Lemma num_run_split base t : forall acc, exists z rest, t = z ++ rest /\ digits_in base z /\ num_run base acc t = (rval base acc z, rest).
Proof.
  induction t as [|c t IH]; intros acc; [exists [], []; repeat split; constructor|]. cbn [num_run]. destruct (Z.ltb_spec (digit_val c) base).
  - destruct (IH (base * acc + digit_val c)) as (z & rest & -> & D & ->). exists (c :: z), rest. repeat split. now constructor.
  - exists [], (c :: t). repeat split. constructor.
Qed.
Lemma num_run_greedy base z rest : base <= 16 -> digits_in base z -> stop rest -> forall acc, num_run base acc (z ++ rest) = (rval base acc z, rest).
Proof.
  intros B D S. induction D as [|c z D _ IH]; intros acc; cbn [app num_run rval].
  - destruct rest as [|c r]; [reflexivity|]. cbn [num_run]. cbn [stop] in S. replace (digit_val c <? base) with false by lia. reflexivity.
  - replace (digit_val c <? base) with true by lia. apply IH.
Qed.
Lemma digit_val_nonneg c : 0 <= digit_val c.
Proof. unfold digit_val, is_digit. repeat match goal with |- context [if ?b then _ else _] => destruct b eqn:? end; lia. Qed.
Lemma rval_nonneg base z : 0 <= base -> forall acc, 0 <= acc -> 0 <= rval base acc z.
Proof. intros B. induction z as [|c z IH]; intros acc A; [assumption|]. apply IH. pose proof (digit_val_nonneg c). nia. Qed.
Lemma c_number_nonneg v z : c_number v z -> 0 <= v.
Proof. intros [(c & z' & _ & _ & _ & _ & ->)|[(z' & _ & _ & ->)|(x & z' & _ & _ & _ & _ & ->)]]; apply rval_nonneg; lia. Qed.
Lemma c_number_first v z : c_number v z -> exists c z', z = c :: z' /\ is_digit c = true.
Proof. intros [(c & z' & -> & D & _)|[(z' & -> & _)|(x & z' & -> & _)]]; [now exists c, z'|exists 48, z'|exists 48, (x :: z')]; now split. Qed.

Lemma strtoul0_dec c t : c <> 48 -> strtoul0 (c :: t) = num_run 10 0 (c :: t).
Proof. intros H. destruct c as [|p|p]; try reflexivity. do 6 (destruct p; try reflexivity). now elim H. Qed.
Lemma strtoul0_split c t : is_digit c = true -> exists v z rest, strtoul0 (c :: t) = (v, rest) /\ c :: t = z ++ rest /\ c_number v z.
Proof.
  intros D. destruct (Z.eq_dec c 48) as [->|N].
  - assert (exists v z rest, num_run 8 0 (48 :: t) = (v, rest) /\ 48 :: t = z ++ rest /\ c_number v z) as O.
    { cbn [num_run]. change (digit_val 48 <? 8) with true. change (8 * 0 + digit_val 48) with 0. cbn iota.
      destruct (num_run_split 8 t 0) as (z & rest & -> & Dz & ->). exists (rval 8 0 z), (48 :: z), rest. repeat split. right. left. exists z. now repeat split. }
    unfold strtoul0. destruct t as [|x [|h r']]; [exact O|exact O|].
    destruct (((x =? 120) || (x =? 88)) && (digit_val h <? 16)) eqn:X; [|exact O]. apply andb_true_iff in X as [X H].
    cbn [num_run]. rewrite H. change (16 * 0 + digit_val h) with (digit_val h).
    destruct (num_run_split 16 r' (digit_val h)) as (z & rest & -> & Dz & ->). exists (rval 16 (digit_val h) z), (48 :: x :: h :: z), rest.
    repeat split. right. right. exists x, (h :: z). repeat split; [lia|discriminate|constructor; [lia|assumption]].
  - rewrite strtoul0_dec by assumption. destruct (num_run_split 10 (c :: t) 0) as (z & rest & E & Dz & R). rewrite R. exists (rval 10 0 z), z, rest.
    repeat split; [assumption|]. left. destruct z as [|c' z]; [exfalso|injection E as <- _; exists c, z; now repeat split].
    cbn [app] in E. subst rest. cbn [num_run] in R. unfold digit_val in R at 1. rewrite D in R. unfold is_digit in D.
    replace (c - 48 <? 10) with true in R by lia. pose proof (f_equal (fun p => length (snd p)) R) as L. cbn [snd] in L.
    destruct (num_run_split 10 t (10 * 0 + digit_val c)) as (z & rest & E & _ & R'). rewrite R' in L. cbn [snd] in L.
    rewrite E in L. cbn [length] in L. rewrite app_length in L. lia.
Qed.
Lemma strtoul0_greedy v z rest : c_number v z -> stop rest -> strtoul0 (z ++ rest) = (v, rest).
Proof.
  intros [(c & z' & -> & D & N & Dz & ->)|[(z' & -> & Dz & ->)|(x & z' & -> & X & N & Dz & ->)]] S.
  - cbn [app]. rewrite strtoul0_dec by assumption. change (c :: z' ++ rest) with ((c :: z') ++ rest). now apply num_run_greedy.
  - assert (num_run 8 0 ((48 :: z') ++ rest) = (rval 8 0 z', rest)) as O.
    { rewrite (num_run_greedy 8 (48 :: z') rest); [reflexivity|lia|constructor; [reflexivity|assumption]|assumption]. }
    unfold strtoul0. cbn [app] in *. destruct (z' ++ rest) as [|x [|h r]] eqn:E; [exact O|exact O|].
    replace ((x =? 120) || (x =? 88)) with false; [exact O|]. symmetry. destruct z' as [|x' z'].
    + cbn [app] in E. subst rest. cbn [stop] in S. lia.
    + injection E as -> _. inversion Dz as [|? ? G _]. subst. assert (x <> 120 /\ x <> 88); [|lia]. split; intros ->; vm_compute in G; discriminate.
  - unfold strtoul0. destruct z' as [|h z']; [now elim N|]. cbn [app]. inversion Dz as [|? ? G G']. subst.
    replace (((x =? 120) || (x =? 88)) && (digit_val h <? 16)) with true by lia.
    change (h :: z' ++ rest) with ((h :: z') ++ rest). now apply num_run_greedy.
Qed.

Lemma white_space c : white c = is_space c.
Proof. unfold white, in_set, is_space. cbn [existsb]. lia. Qed.
Lemma white_stop c r : white c = true -> stop (c :: r).
Proof. rewrite white_space. unfold is_space, stop, digit_val, is_digit. intros H. repeat match goal with |- context [if ?b then _ else _] => destruct b eqn:? end; lia. Qed.
Lemma parts_text k : forall done t a, inet_parts k done t = Some a -> exists bs, addr_text k t bs /\ a = le_word (done ++ bs).
Proof.
  induction k as [|k IH]; intros done t a H; (destruct t as [|c t]; [discriminate|]); cbn [inet_parts] in H;
    (destruct (is_digit c) eqn:D; [|discriminate]); cbn [negb] in H; destruct (strtoul0_split c t D) as (v & z & rest & R & E & N); rewrite R in H;
    (destruct (Z.ltb_spec 4294967295 v); [discriminate|]); rewrite E; (destruct rest as [|d rest]; [|destruct (Z.eqb_spec d 46) as [->|D4]]).
  - destruct (Z.ltb_spec v (256 ^ Z.of_nat 1)); [|discriminate]. injection H as <-. exists (be_bytes 1 v). split; [|reflexivity]. apply addr_last; [assumption|assumption|now left].
  - discriminate.
  - destruct (is_space d) eqn:W; [|discriminate]. cbn [andb] in H. destruct (Z.ltb_spec v (256 ^ Z.of_nat 1)); [|discriminate]. injection H as <-.
    exists (be_bytes 1 v). split; [|reflexivity]. apply addr_last; [assumption|assumption|right; exists d, rest; now rewrite white_space].
  - destruct (Z.ltb_spec v (256 ^ Z.of_nat (S (S k)))); [|discriminate]. injection H as <-. exists (be_bytes (S (S k)) v). split; [|reflexivity]. apply addr_last; [assumption|assumption|now left].
  - destruct (Z.ltb_spec 255 v); [discriminate|]. destruct (IH _ _ _ H) as (bs & T & ->). exists (v :: bs). split; [now apply addr_dot|]. now rewrite <- app_assoc.
  - destruct (is_space d) eqn:W; [|discriminate]. cbn [andb] in H. destruct (Z.ltb_spec v (256 ^ Z.of_nat (S (S k)))); [|discriminate]. injection H as <-.
    exists (be_bytes (S (S k)) v). split; [|reflexivity]. apply addr_last; [assumption|assumption|right; exists d, rest; now rewrite white_space].
Qed.
Lemma pow_small k : (k <= 3)%nat -> 256 ^ Z.of_nat (S k) <= 4294967296.
Proof. intros H. change 4294967296 with (256 ^ 4). apply Z.pow_le_mono_r; lia. Qed.
Lemma text_parts k t bs : addr_text k t bs -> (k <= 3)%nat -> forall done, inet_parts k done t = Some (le_word (done ++ bs)).
Proof.
  induction 1 as [k v z tail N V T|k v z t bs N V _ IH]; intros K done; destruct (c_number_first v z N) as (c & z' & E & D).
  - pose proof (pow_small k K). assert (stop tail) as S by (destruct T as [->|(d & r & -> & W)]; [exact I|now apply white_stop]).
    pose proof (strtoul0_greedy v z tail N S) as R. subst z. cbn [app] in *.
    destruct k as [|k]; cbn [inet_parts]; rewrite D; cbn [negb]; rewrite R; replace (4294967295 <? v) with false by lia;
      replace (v <? _) with true by lia; (destruct T as [->|(d & r & -> & W)]; [reflexivity|]); rewrite <- white_space, W;
      (replace (d =? 46) with false by (rewrite white_space in W; unfold is_space in W; lia)); reflexivity.
  - assert (stop (46 :: t)) as S by (vm_compute; intuition discriminate). pose proof (strtoul0_greedy v z (46 :: t) N S) as R. subst z. cbn [app] in *.
    cbn [inet_parts]. rewrite D. cbn [negb]. rewrite R. replace (4294967295 <? v) with false by lia. change (46 =? 46) with true. cbn iota.
    replace (255 <? v) with false by lia. rewrite IH by lia. now rewrite <- app_assoc.
Qed.
Lemma aton_iff t a : inet_aton t = Some a <-> exists bs, addr_text 3 t bs /\ a = le_word bs.
Proof.
  split; [apply parts_text|]. intros (bs & T & ->). exact (text_parts 3 t bs T ltac:(lia) []).
Qed.

Lemma decimal_number v z : decimal v z -> c_number v z.
Proof.
  intros (D & N & V & Z0). assert (Forall (fun c => digit_val c < 10) z /\ forall acc, rval 10 acc z = dval acc z) as [D1 D2].
  { clear -D. induction D as [|c z H _ [I1 I2]]; [split; [constructor|reflexivity]|]. assert (digit_val c = c - 48) as E.
    { unfold digit_val, is_digit, digit in *. replace ((48 <=? c) && (c <=? 57)) with true by lia. reflexivity. }
    split; [constructor; [unfold digit in H; lia|assumption]|]. intros acc. cbn [rval dval]. rewrite E. apply I2. }
  destruct z as [|c z]; [now elim N|]. inversion D as [|? ? Dc _]. subst. unfold digit in Dc. destruct (Z.eq_dec c 48) as [->|C].
  - specialize (Z0 eq_refl). injection Z0 as ->. right. left. exists []. repeat split. constructor.
  - left. exists c, z. repeat split; [unfold is_digit; lia|assumption|assumption|now rewrite D2].
Qed.
Lemma be_one v : 0 <= v < 256 -> be_bytes 1 v = [v].
Proof. intros H. cbn. now rewrite Z.mod_small. Qed.
Lemma dotted a b c d ta tb tc td tail :
  decimal a ta -> decimal b tb -> decimal c tc -> decimal d td -> 0 <= a < 256 -> 0 <= b < 256 -> 0 <= c < 256 -> 0 <= d < 256 ->
  tail = [] \/ (exists x r, tail = x :: r /\ white x = true) ->
  inet_aton (ta ++ 46 :: tb ++ 46 :: tc ++ 46 :: td ++ tail) = Some (a + 256 * b + 65536 * c + 16777216 * d).
Proof.
  intros A B C D HA HB HC HD T. apply aton_iff. exists [a; b; c; d]. split.
  - apply decimal_number in A, B, C, D. apply addr_dot; [assumption|lia|]. apply addr_dot; [assumption|lia|]. apply addr_dot; [assumption|lia|].
    rewrite <- (be_one d HD). apply addr_last; [assumption|cbn; lia|assumption].
  - cbn [le_word]. lia.
Qed.
Lemma not_digit t : (match t with [] => true | c :: _ => negb (is_digit c) end) = true -> inet_addr t = INADDR_NONE.
Proof. intros H. unfold inet_addr, inet_aton. destruct t as [|c t]; [reflexivity|]. cbn [inet_parts]. now rewrite H. Qed.
Lemma bad_address t : (forall bs, ~ addr_text 3 t bs) -> inet_addr t = INADDR_NONE.
Proof. intros H. unfold inet_addr. destruct (inet_aton t) as [a|] eqn:E; [|reflexivity]. apply aton_iff in E as (bs & T & _). now elim (H bs). Qed.

(** * Streams *)
(** What the caller of a sequence of calls concludes from the values returned. *)
Fixpoint bytes_of (b : blk) : list Z := match b with Some x :: b => x :: bytes_of b | _ => [] end.
Definition said_sent (e : net_call) (o : Z * blk) : list Z := match e with NSend data _ => take (fst o) data | _ => [] end.
Definition said_got (e : net_call) (o : Z * blk) : list Z := match e with NSend _ _ => [] | _ => take (fst o) (bytes_of (snd o)) end.
Fixpoint sent (es : list net_call) (os : list (Z * blk)) : list Z :=
  match es, os with e :: es, o :: os => said_sent e o ++ sent es os | _, _ => [] end.
Fixpoint got (es : list net_call) (os : list (Z * blk)) : list Z :=
  match es, os with e :: es, o :: os => said_got e o ++ got es os | _, _ => [] end.
(** Calls with buffers of the size given, less than 2^31 bytes, and possible answers of the
    system (which hands out at most what has been sent; poll's answer to one descriptor). *)
Definition possible (q : list Z) (e : net_call) : Prop :=
  match e with
  | NSend data k => zlen data < 2147483648 /\ -1 <= k <= zlen data
  | NRecv b len k => 0 <= len <= zlen b /\ len < 2147483648 /\ -1 <= k <= len /\ k <= zlen q
  | NRecvTimed b len ret revents k => 0 <= len <= zlen b /\ len < 2147483648 /\ -1 <= k <= len /\ k <= zlen q /\ -1 <= ret <= 1
  end.
Fixpoint all_possible (q : list Z) (es : list net_call) : Prop :=
  match es with
  | [] => True
  | e :: es => possible q e /\ forall q' o b, net_step q e = Ok (q', o, b) -> all_possible q' es
  end.
Lemma take_len k (q : list Z) : 0 <= k <= zlen q -> zlen (take k q) = k.
Proof. intros H. unfold take, zlen in *. rewrite firstn_length. lia. Qed.
Lemma bytes_of_map l b : take (zlen l) (bytes_of (map Some l ++ b)) = l.
Proof.
  unfold take, zlen. rewrite Nat2Z.id. induction l as [|x l IH]; [reflexivity|]. cbn [map app bytes_of length firstn]. now rewrite IH.
Qed.
Lemma take_neg k (q : list Z) : k <= 0 -> take k q = [].
Proof. intros H. unfold take. now replace (Z.to_nat k) with 0%nat by lia. Qed.
Lemma recv_step q b len k : 0 <= len <= zlen b -> len < 2147483648 -> -1 <= k <= len -> k <= zlen q ->
  exists r, socket_receive b len (answer q k) = Ok r /\
    take (fst r) (bytes_of (snd r)) ++ (if k <? 0 then q else drop k q) = q.
Proof.
  intros H1 H2 H3 H4. unfold answer. destruct (Z.ltb_spec k 0).
  - rewrite receive_error. eexists. split; [reflexivity|]. cbn [fst snd]. now rewrite take_neg by lia.
  - pose proof (take_len k q ltac:(lia)) as L. rewrite receive_ok by lia. eexists. split; [reflexivity|]. cbn [fst snd].
    rewrite bytes_of_map. apply firstn_skipn.
Qed.
Lemma net_step_ok q e : possible q e -> exists q' o b, net_step q e = Ok (q', o, b) /\ q ++ said_sent e (o, b) = said_got e (o, b) ++ q'.
Proof.
  destruct e as [data k|b len k|b len ret revents k]; cbn [possible net_step said_sent said_got fst snd]; intros P.
  - eexists _, _, _. split; [reflexivity|]. cbn [app]. rewrite send_ok by lia. destruct (Z.ltb_spec k 0).
    + replace (k =? -1) with true by lia. rewrite take_neg by lia. now rewrite app_nil_r.
    + replace (k =? -1) with false by lia. reflexivity.
  - destruct (recv_step q b len k) as (r & E & G); try lia. rewrite E. cbn [bind]. eexists _, _, _. split; [reflexivity|]. cbn [fst snd]. now rewrite app_nil_r.
  - unfold socket_receive_timed, socket_poll. destruct (Z.ltb_spec ret 0) as [R|R].
    + change (ERROR_POLL <? 0) with true. cbn iota. cbn [bind]. eexists _, _, _. split; [reflexivity|]. cbn [fst snd].
      rewrite take_neg by (vm_compute; discriminate). replace (0 <? ret) with false by lia. cbn [andb negb]. rewrite orb_true_r. now rewrite app_nil_r.
    + replace (ret <? 0) with false by lia. destruct ((0 <? ret) && negb (Z.land revents 1 =? 0)) eqn:C.
      * destruct (recv_step q b len k) as (r & E & G); try lia. rewrite E. cbn [bind]. eexists _, _, _. split; [reflexivity|]. cbn [fst snd negb].
        rewrite orb_false_r. now rewrite app_nil_r.
      * cbn [bind]. eexists _, _, _. split; [reflexivity|]. cbn [fst snd negb]. rewrite orb_true_r, take_neg by lia. now rewrite app_nil_r.
Qed.
Lemma stream_ok es : forall q, all_possible q es -> exists q' os, net_run q es = Ok (q', os) /\ length os = length es /\ q ++ sent es os = got es os ++ q'.
Proof.
  induction es as [|e es IH]; intros q P; [exists q, []; repeat split; cbn; now rewrite app_nil_r|].
  destruct P as [P N]. destruct (net_step_ok q e P) as (q1 & o & b & E & G). specialize (N _ _ _ E). destruct (IH q1 N) as (q' & os & R & L & G').
  exists q', ((o, b) :: os). cbn [net_run]. rewrite E. cbn [bind fst snd]. rewrite R. cbn [bind fst snd]. repeat split.
  - cbn [length]. now rewrite L.
  - cbn [sent got]. rewrite app_assoc, G, <- !app_assoc. f_equal. exact G'.
Qed.

(** * Descriptors *)
(** The sockets the caller holds: returned by a call and not closed since. *)
Definition holds (h : list Z) (c : fd_call) (r : Z) : list Z :=
  match c with
  | FClose fd => if r =? 1 then fd_remove fd h else h
  | _ => if r <? 0 then h else r :: h
  end.
Fixpoint held (h : list Z) (cs : list fd_call) (rs : list Z) : list Z :=
  match cs, rs with c :: cs, r :: rs => held (holds h c r) cs rs | _, _ => h end.
(** The system gives out descriptors that are not open. *)
Definition fresh (l : list Z) (fd : Z) : Prop := fd = -1 \/ (0 <= fd < 2147483648 /\ ~ In fd l).
Definition fd_possible (l : list Z) (c : fd_call) : Prop :=
  match c with
  | FServer _ _ u => fresh l (u_fd u)
  | FClient _ u => fresh l (u_fd u)
  | FAccept fd => fresh l fd
  | FClose fd => -2147483648 <= fd < 2147483648
  end.
Fixpoint fds_possible (l : list Z) (cs : list fd_call) : Prop :=
  match cs with [] => True | c :: cs => fd_possible l c /\ fds_possible (fst (fd_step l c)) cs end.
(** No start fails after its socket has been made. *)
Definition no_late_failure (c : fd_call) : Prop :=
  match c with
  | FServer tcp _ u => u_fd u = -1 \/ (0 <= u_opt u /\ 0 <= u_bind u /\ (tcp = true -> 0 <= u_listen u))
  | FClient _ u => u_fd u = -1 \/ 0 <= u_connect u
  | _ => True
  end.
Lemma signed32_id fd : -2147483648 <= fd < 2147483648 -> to_signed 32 fd = fd.
Proof.
  intros H. unfold to_signed. change (2 ^ 32) with 4294967296. change (2 ^ (32 - 1)) with 2147483648.
  destruct (Z_lt_ge_dec fd 0) as [L|G].
  - replace (fd mod 4294967296) with (fd + 4294967296) by (rewrite <- (Z.mod_add fd 1) by lia; rewrite Z.mod_small; lia).
    replace (fd + 4294967296 <? 2147483648) with false by lia. lia.
  - rewrite Z.mod_small by lia. replace (fd <? 2147483648) with true by lia. reflexivity.
Qed.
Lemma is_open_in l fd : is_open l fd = true <-> In fd l.
Proof. unfold is_open. rewrite existsb_exists. split; [intros (x & H & E); apply Z.eqb_eq in E; now subst|intros H; exists fd; split; [assumption|apply Z.eqb_refl]]. Qed.
Lemma close_ok l fd : -2147483648 <= fd < 2147483648 ->
  (In fd l -> socket_close l fd = (fd_remove fd l, true)) /\ (~ In fd l -> socket_close l fd = (l, false)) /\
  ~ In fd (fst (socket_close l fd)) /\ (forall x, x <> fd -> (In x (fst (socket_close l fd)) <-> In x l)).
Proof.
  intros H. unfold socket_close. rewrite signed32_id by assumption. destruct (is_open l fd) eqn:O.
  - apply is_open_in in O. cbn [fst]. unfold fd_remove. split; [reflexivity|]. split; [intros X; now elim X|]. split.
    + rewrite filter_In. intros [_ X]. rewrite Z.eqb_refl in X. discriminate.
    + intros x N. rewrite filter_In. split; [easy|]. intros X. split; [assumption|lia].
  - assert (~ In fd l) by (rewrite <- is_open_in, O; discriminate). cbn [fst]. repeat split; tauto.
Qed.
Lemma fd_step_ok l c : fd_possible l c -> no_late_failure c -> fst (fd_step l c) = holds l c (snd (fd_step l c)).
Proof.
  destruct c as [tcp port u|adr u|fd|fd]; cbn [fd_possible no_late_failure fd_step holds]; intros P N.
  - unfold startup_server, INVALID. destruct P as [E|[P _]]; [rewrite E; reflexivity|]. destruct N as [N|(N1 & N2 & N3)]; [lia|].
    replace (u_fd u =? -1) with false by lia. replace (u_opt u <? 0) with false by lia. replace (u_bind u <? 0) with false by lia.
    replace (tcp && (u_listen u <? 0)) with false by (destruct tcp; [specialize (N3 eq_refl); cbn; lia|reflexivity]).
    cbn [fst snd]. replace (u_fd u <? 0) with false by lia. reflexivity.
  - unfold startup_client, INVALID. destruct P as [E|[P _]]; [rewrite E; reflexivity|]. destruct N as [N|N]; [lia|].
    replace (u_fd u =? -1) with false by lia. replace (u_connect u <? 0) with false by lia. cbn [fst snd]. replace (u_fd u <? 0) with false by lia. reflexivity.
  - unfold accept_client, INVALID. destruct P as [->|[P _]]; [reflexivity|]. replace (fd =? -1) with false by lia. cbn [fst snd]. replace (fd <? 0) with false by lia. reflexivity.
  - destruct (close_ok l fd P) as (A & B & _). destruct (in_dec Z.eq_dec fd l) as [I|I]; [rewrite (A I)|rewrite (B I)]; reflexivity.
Qed.
Lemma descriptors_ok cs : forall l, fds_possible l cs -> Forall no_late_failure cs ->
  fst (fd_run l cs) = held l cs (snd (fd_run l cs)) /\ length (snd (fd_run l cs)) = length cs.
Proof.
  induction cs as [|c cs IH]; intros l P N; [split; reflexivity|]. destruct P as [P Ps]. inversion N as [|? ? N1 N2]. subst.
  pose proof (fd_step_ok l c P N1) as S. cbn [fd_run]. destruct (fd_step l c) as [l1 r]. cbn [fst snd] in *. subst l1.
  destruct (IH _ Ps N2) as [I L]. destruct (fd_run (holds l c r) cs) as [l2 rs]. cbn [fst snd held length] in *. split; [exact I|now rewrite L].
Qed.
