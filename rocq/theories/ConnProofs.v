(** Proofs about ConnModel.v. *)
From Verif Require Import Base BaseFacts NumModel SockModel SockProofs ConnModel.
Local Open Scope list_scope.
Local Open Scope Z_scope.

Lemma timed_silent b len k p : conn_receive_timed (mk_conn [] false p) k b len = if p then Ok (-6, b) else Ok (0, b).
Proof.
  destruct p; unfold conn_receive_timed, conn_poll, conn_recv; cbn [broken fin pend fst snd]; unfold socket_receive_timed, socket_poll.
  - change (1 <? 0) with false. cbn [fst]. change ((0 <? 1) && negb (Z.land 25 1 =? 0)) with true. cbv iota. apply receive_error.
  - reflexivity.
Qed.
Lemma take_len k (l : list Z) : 0 <= k <= zlen l -> zlen (firstn (Z.to_nat k) l) = k.
Proof. intros H. unfold zlen in *. rewrite firstn_length. lia. Qed.

(** One call on a connection with bytes. *)
Lemma conn_data c k b len : pend c <> [] -> broken c = false -> 0 < k <= len -> k <= zlen (pend c) -> len <= zlen b -> len < 2147483648 ->
  conn_receive c k b len = Some (Ok (k, map Some (firstn (Z.to_nat k) (pend c)) ++ skipn (Z.to_nat k) b)).
Proof.
  intros Hp Hb Hk Hkp Hl Hm. unfold conn_receive, conn_recv. rewrite Hb. destruct (pend c) as [|x q] eqn:E; [contradiction|]. rewrite <- E in *.
  pose proof (take_len k (pend c) ltac:(lia)) as T. rewrite (receive_ok b len (firstn (Z.to_nat k) (pend c))) by lia. rewrite T.
  replace (List.length (firstn (Z.to_nat k) (pend c))) with (Z.to_nat k) by (unfold zlen in T; lia). reflexivity.
Qed.
Lemma conn_end c k b len : pend c = [] -> broken c = false -> fin c = true -> len <= zlen b -> 0 <= len < 2147483648 -> conn_receive c k b len = Some (Ok (0, b)).
Proof.
  intros Hp Hb Hf Hl Hm. unfold conn_receive, conn_recv. rewrite Hp, Hb, Hf. cbn [orb]. rewrite firstn_nil. rewrite (receive_ok b len []) by (unfold zlen in *; cbn [List.length]; lia). reflexivity.
Qed.
Lemma conn_broken c k b len : broken c = true -> conn_receive c k b len = Some (Ok (-6, b)).
Proof. intros Hb. unfold conn_receive, conn_recv. rewrite Hb, orb_true_r. destruct (pend c); now rewrite receive_error. Qed.

(** What the calls hand out: some of the waiting bytes, at least one if there are any. *)
Fixpoint handed (n : Z) (len : Z) (ks : list Z) : Prop :=
  match ks with
  | [] => True
  | k :: ks' => (n = 0 \/ 0 < k <= len /\ k <= n) /\ handed (Z.max 0 (n - k)) len ks'
  end.
Lemma drain_all len : 0 < len < 2147483648 -> forall ks c b, broken c = false -> fin c = true -> len <= zlen b -> handed (zlen (pend c)) len ks -> zlen (pend c) < zlen ks ->
  drain c ks b len = Ok (Some (map Some (pend c))).
Proof.
  intros Hl. induction ks as [|k ks IH]; intros c b Hb Hf Hlb H Hk; [unfold zlen in Hk; cbn [List.length] in Hk; lia|]. cbn [drain].
  destruct (list_eq_dec Z.eq_dec (pend c) []) as [E|E].
  - rewrite conn_end by (try assumption; lia). rewrite E. reflexivity.
  - destruct H as [[H0|[H1 H2]] H]; [destruct (pend c); [contradiction|rewrite zlen_cons in H0; pose proof (zlen_nonneg l); lia]|].
    rewrite conn_data by (try assumption; lia). cbn [bind fst snd]. rewrite (proj2 (Z.ltb_ge _ _)) by lia. rewrite (proj2 (Z.eqb_neq _ _)) by lia.
    assert (T : zlen (skipn (Z.to_nat k) (pend c)) = zlen (pend c) - k) by (unfold zlen in *; rewrite skipn_length; lia).
    assert (L : List.length (map Some (firstn (Z.to_nat k) (pend c))) = Z.to_nat k) by (rewrite map_length, firstn_length; unfold zlen in *; lia).
    rewrite (IH (conn_next c k)); unfold conn_next; rewrite ?Hb; cbn [pend fin broken].
    + cbn [bind]. do 2 f_equal. rewrite <- L at 1. rewrite firstn_app, Nat.sub_diag, firstn_all, app_nil_r. cbn [firstn]. rewrite ?app_nil_r. rewrite <- map_app. now rewrite firstn_skipn.
    + reflexivity.
    + exact Hf.
    + unfold zlen in *. rewrite app_length, L, skipn_length. lia.
    + rewrite T. replace (Z.max 0 (zlen (pend c) - k)) with (zlen (pend c) - k) in H by lia. exact H.
    + rewrite T. rewrite zlen_cons in Hk. lia.
Qed.

Lemma dgram_one d src q b len adr : len <= zlen b -> 0 <= len < 2147483648 ->
  let n := Z.min len (zlen d) in
  dgram_receive_from ((d, src) :: q) b len adr = Some (Ok (n, map Some (firstn (Z.to_nat n) d) ++ skipn (Z.to_nat n) b, src), q) /\
  dgram_receive_timed_from ((d, src) :: q) b len adr = (Ok (n, map Some (firstn (Z.to_nat n) d) ++ skipn (Z.to_nat n) b, src), q).
Proof.
  intros Hl Hm n. pose proof (zlen_nonneg d). assert (E : firstn (Z.to_nat len) d = firstn (Z.to_nat n) d).
  { unfold n. destruct (Z.min_spec len (zlen d)) as [[_ ->]|[Hd ->]]; [reflexivity|]. rewrite !firstn_all2; [reflexivity| |]; unfold zlen in *; lia. }
  pose proof (take_len n d ltac:(unfold n; lia)) as T.
  assert (X : socket_receive_from b len (RecvData (firstn (Z.to_nat len) d)) src adr = Ok (n, map Some (firstn (Z.to_nat n) d) ++ skipn (Z.to_nat n) b, src)).
  { rewrite E, (receive_from_ok b len) by (rewrite ?T; unfold n; lia). rewrite T. replace (List.length (firstn (Z.to_nat n) d)) with (Z.to_nat n) by (unfold zlen in T; lia). reflexivity. }
  split; [cbn [dgram_receive_from]; now rewrite X|]. cbn [dgram_receive_timed_from]. unfold socket_receive_timed_from, socket_poll. change (1 <? 0) with false. cbn [fst].
  change ((0 <? 1) && negb (Z.land 1 1 =? 0)) with true. cbv iota. now rewrite X.
Qed.
