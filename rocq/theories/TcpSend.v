(** TCP send against the chip. *)
From Verif Require Export TcpConnect TxFacts.
From Verif Require Import Datasheet ValueFacts.

(** everything transmitted, as one byte string *)
Definition payload (l : list packet) : list byte := concat (map p_data l).
(** addressed as the socket's registers say *)
Definition addressed (m : N -> byte) (p : packet) : Prop :=
  p_sport p = get16 m Sn_PORT /\
  p_ip p = [m Sn_DIPR; m (Sn_DIPR + 1); m (Sn_DIPR + 2); m (Sn_DIPR + 3)] /\
  p_dport p = get16 m Sn_DPORT.
Definition sendok (s : sock) : bool := N.testbit (ir s) 4.
Lemma skipn_skipn_add {A} (l : list A) : forall k j, skipn j (skipn k l) = skipn (k + j) l.
Proof. induction l as [|b l IH]; intros [|k] j; cbn [skipn plus]; auto. now rewrite skipn_nil. Qed.
Lemma ack_of w a a' : w < 65536 -> a < 65536 -> a' < 65536 -> sub16 w a' <= sub16 w a ->
  a' = (a + (sub16 w a - sub16 w a')) mod 65536.
Proof.
  intros Hw Ha Ha' L. pose proof (sub16_cases w a Hw Ha). pose proof (sub16_cases w a' Hw Ha').
  destruct (N.lt_ge_cases (a + (sub16 w a - sub16 w a')) 65536); [rewrite N.mod_small by lia; lia|].
  apply (N.mod_unique _ _ 1); lia.
Qed.
Definition conn_states (z : N) : Prop := z = SOCK_ESTABLISHED \/ z = SOCK_CLOSE_WAIT \/ z = SOCK_CLOSED.

Lemma payload_app l l' : payload (l ++ l') = payload l ++ payload l'.
Proof. unfold payload. now rewrite map_app, concat_app. Qed.

Lemma testbit_lor n m k : N.testbit m k = false -> N.testbit (N.lor n m) k = N.testbit n k.
Proof. intros H. now rewrite N.lor_spec, H, orb_false_r. Qed.

(** without a SEND in progress or a SENDOK due, the network does not raise SENDOK *)
Lemma calm_step x ev : tx_busy x = false -> tx_okdue x = false ->
  tx_busy (sock_step x ev) = false /\ tx_okdue (sock_step x ev) = false /\
  sendok (sock_step x ev) = sendok x /\ tx_end (sock_step x ev) = tx_end x /\ tx_rd (sock_step x ev) = tx_rd x /\
  sent (sock_step x ev) = sent x.
Proof.
  intros H1 H2. unfold sendok. ev_cases ev; try congruence; rewrite ?testbit_lor by reflexivity; auto 10.
Qed.
Lemma calm_sevs i x y : sevs i x y -> tx_busy x = false -> tx_okdue x = false ->
  tx_busy y = false /\ tx_okdue y = false /\ sendok y = sendok x /\ tx_end y = tx_end x /\ tx_rd y = tx_rd x /\
  sent y = sent x.
Proof.
  intros H H1 H2.
  refine (sevs_inv i (fun y => tx_busy y = false /\ tx_okdue y = false /\ sendok y = sendok x /\ tx_end y = tx_end x /\ tx_rd y = tx_rd x /\
  sent y = sent x) _ x y H _).
  - intros z ev _ (Z1 & Z2 & Z3 & Z4 & Z5 & Z6). destruct (calm_step z ev Z1 Z2) as (S1 & S2 & S3 & S4 & S5 & S6).
    split; [exact S1|]. split; [exact S2|]. split; [congruence|]. split; [congruence|]. split; congruence.
  - auto 10.
Qed.
Lemma conn_step x ev : conn_states (sr x) -> conn_states (sr (sock_step x ev)).
Proof. unfold conn_states. intros H. ev_cases ev; auto; bsplit; try (rewrite Heqb in H; intuition discriminate). Qed.
Lemma conn_sevs i x y : sevs i x y -> conn_states (sr x) -> conn_states (sr y).
Proof. apply (sevs_inv i (fun y => conn_states (sr y))). intros z ev _. apply conn_step. Qed.
Lemma sr_lt_step x ev : sr x < 256 -> sr (sock_step x ev) < 256.
Proof. intros H. ev_cases ev; auto; reflexivity. Qed.
Lemma sr_lt_sevs i x y : sevs i x y -> sr x < 256 -> sr y < 256.
Proof. apply (sevs_inv i (fun y => sr y < 256)). intros z ev _. apply sr_lt_step. Qed.

(** ** A SEND of [w] in flight; [x0] is the socket when it was issued *)
Definition flight (x0 : sock) (w : list byte) (y : sock) : Prop :=
  conn_states (sr y) /\ regs y = regs x0 /\ txm y = txm x0 /\
  exists l k, (k <= length w)%nat /\ sent y = sent x0 ++ l /\
    Forall (addressed (regs x0)) l /\ payload l = firstn k w /\
    ((tx_busy y = true /\ tx_okdue y = false /\ sendok y = false /\
        tx_rd y = (tx_rd x0 + N.of_nat k) mod 65536 /\ tx_end y = (tx_rd x0 + len w) mod 65536)
     \/ (tx_busy y = false /\ k = length w /\
          tx_end y = (tx_rd x0 + len w) mod 65536 /\ tx_rd y = tx_end y /\
          ((tx_okdue y = true /\ sendok y = false) \/ (tx_okdue y = false /\ sendok y = true)))
     \/ (tx_busy y = false /\ tx_okdue y = false /\ sendok y = false /\ sr y = SOCK_CLOSED)).

Lemma conn_not_whole z : conn_states z -> (z =? SOCK_UDP) || (z =? SOCK_MACRAW) = false.
Proof. intros [-> | [-> | ->]]; reflexivity. Qed.

Lemma firstn_skipn_app {A} (w : list A) k j : (k + j <= length w)%nat -> firstn k w ++ firstn j (skipn k w) = firstn (k + j) w.
Proof.
  revert w j. induction k as [|k IH]; intros w j H; [reflexivity|].
  destruct w as [|b w]; cbn in H; [lia|]. cbn [firstn skipn plus app]. f_equal. apply IH. lia.
Qed.

Lemma transmit_idle y k : tx_busy y = false -> transmit y k = y.
Proof. intros H. unfold transmit. now rewrite H. Qed.

Lemma flight_step x0 w y ev :
  len w < 65536 -> tx_rd x0 < 65536 -> valid_size (tx_size x0) ->
  ring_read (txm x0) (tx_size x0) (tx_rd x0) (length w) = w ->
  flight x0 w y -> flight x0 w (sock_step y ev).
Proof.
  intros Lw Hr Vz Rw (C & R & M & l & k & Hk & Es & Fa & Pl & St).
  assert (C' : conn_states (sr (sock_step y ev))) by now apply conn_step.
  assert (R' : regs (sock_step y ev) = regs x0 /\ txm (sock_step y ev) = txm x0).
  { rewrite <- R, <- M. ev_cases ev; auto. }
  destruct R' as (R' & M').
  unfold flight. split; [exact C'|]. split; [exact R'|]. split; [exact M'|].
  (* events other than transmission keep the bytes sent so far *)
  destruct ev as [n|n|n|n timeout|n d|n ip port d|d|n k0|n|n advance|n k0|v];
    try (exists l, k; split; [exact Hk|];
      unfold sock_step, rx_append; cbv zeta;
      repeat match goal with |- context [if ?b then _ else _] =>
           lazymatch b with context [if _ then _ else _] => fail | _ => destruct b end end;
      sfields; (split; [exact Es|]); (split; [exact Fa|]); (split; [exact Pl|]);
      unfold sendok in *; sfields; rewrite ?testbit_lor by reflexivity; exact St).
  - (* accepted or refused: not in these states *)
    cbn [sock_step]. exists l, k. split; [exact Hk|].
    destruct (N.eqb_spec (sr y) SOCK_SYNSENT) as [X|_]; [destruct C as [C|[C|C]]; rewrite X in C; discriminate|].
    destruct (N.eqb_spec (sr y) SOCK_LISTEN) as [X|_]; [destruct C as [C|[C|C]]; rewrite X in C; discriminate|].
    auto.
  - 
    cbn [sock_step]. exists l, k. split; [exact Hk|].
    destruct (N.eqb_spec (sr y) SOCK_SYNSENT) as [X|_]; [destruct C as [C|[C|C]]; rewrite X in C; discriminate|].
    auto.
  - (* the peer closes *)
    cbn [sock_step]. exists l, k. split; [exact Hk|].
    destruct (N.eqb_spec (sr y) SOCK_ESTABLISHED) as [X|_]; [|auto]. sfields.
    split; [exact Es|]. split; [exact Fa|]. split; [exact Pl|].
    unfold sendok in *. sfields. rewrite testbit_lor by reflexivity.
    destruct St as [St|[St|(_ & _ & _ & Y)]]; [now left|right; now left|rewrite X in Y; discriminate].
  - (* dropped *)
    cbn [sock_step]. destruct ((sr y =? SOCK_ESTABLISHED) || (sr y =? SOCK_CLOSE_WAIT) || (sr y =? SOCK_FIN_WAIT) || (sr y =? SOCK_LAST_ACK)).
    + exists l, k. split; [exact Hk|]. sfields. split; [exact Es|]. split; [exact Fa|]. split; [exact Pl|].
      destruct (sendok y) eqn:So.
      * right. left. destruct St as [(_ & _ & X & _)|[(B1 & B2 & B3 & B4 & _)|(_ & _ & X & _)]]; try congruence.
        split; [reflexivity|]. split; [exact B2|]. split; [exact B3|]. split; [exact B4|]. right. split; [reflexivity|].
        unfold sendok in *. sfields. rewrite testbit_lor; [exact So|now destruct timeout].
      * right. right. split; [reflexivity|]. split; [reflexivity|]. split; [|reflexivity].
        unfold sendok in *. sfields. rewrite testbit_lor; [exact So|now destruct timeout].
    + exists l, k. auto.
  - (* transmission *)
    cbn [sock_step]. destruct St as [(A1 & A2 & A3 & A4 & A5)|St].
    + unfold transmit. rewrite A1, (conn_not_whole _ C). cbv zeta.
      assert (Rest : sub16 (tx_end y) (tx_rd y) = len w - N.of_nat k).
      { rewrite A4, A5. assert (L : N.of_nat k <= len w) by (unfold len; lia).
        pose proof (N.mod_lt (tx_rd x0 + len w) 65536 ltac:(discriminate)).
        pose proof (sub16_add (tx_rd x0) (len w) Hr Lw) as X.
        rewrite sub16_retire; auto; rewrite X; auto. }
      rewrite Rest. set (j := N.min k0 (len w - N.of_nat k)).
      assert (Hj : j <= len w - N.of_nat k) by (unfold j; lia).
      assert (Hkj : (k + N.to_nat j <= length w)%nat) by (unfold len in Hj; lia).
      assert (Rd : (tx_rd y + j) mod 65536 = (tx_rd x0 + N.of_nat (k + N.to_nat j)) mod 65536).
      { rewrite A4. rewrite N.add_mod_idemp_l by discriminate. f_equal. lia. }
      assert (Dat : j <> 0 -> ring_read (txm y) (tx_size y) (tx_rd y) (N.to_nat j) = firstn (N.to_nat j) (skipn k w)).
      { intros _. assert (Zy : tx_size y = tx_size x0) by (unfold tx_size; now rewrite R).
        rewrite Zy, M, A4, ring_read_wrap by assumption.
        rewrite <- Rw at 1. rewrite skipn_ring_read by lia. rewrite firstn_ring_read by lia. reflexivity. }
      destruct (N.eqb_spec j 0) as [J0|J0].
      * exists l, k. split; [exact Hk|]. destruct (N.eqb_spec j (len w - N.of_nat k)) as [JR|JR]; sfields.
        -- split; [exact Es|]. split; [exact Fa|]. split; [exact Pl|]. right. left.
           split; [reflexivity|]. split; [unfold len in JR; lia|]. split; [exact A5|]. split.
           ++ rewrite Rd, A5. f_equal. unfold len in *. lia.
           ++ left. split; [reflexivity|exact A3].
        -- split; [exact Es|]. split; [exact Fa|]. split; [exact Pl|]. left.
           split; [exact A1|]. split; [exact A2|]. split; [exact A3|]. split; [|exact A5].
           rewrite Rd. f_equal. lia.
      * exists (l ++ [mkPacket (get16 (regs y) Sn_PORT)
             [regs y Sn_DIPR; regs y (Sn_DIPR + 1); regs y (Sn_DIPR + 2); regs y (Sn_DIPR + 3)]
             (get16 (regs y) Sn_DPORT)
             (ring_read (txm y) (tx_size y) (tx_rd y) (N.to_nat j))]), (k + N.to_nat j)%nat.
        split; [exact Hkj|].
        assert (Pl' : payload (l ++ [mkPacket (get16 (regs y) Sn_PORT)
             [regs y Sn_DIPR; regs y (Sn_DIPR + 1); regs y (Sn_DIPR + 2); regs y (Sn_DIPR + 3)]
             (get16 (regs y) Sn_DPORT)
             (ring_read (txm y) (tx_size y) (tx_rd y) (N.to_nat j))]) = firstn (k + N.to_nat j) w).
        { rewrite payload_app, Pl. unfold payload at 1. cbn [map concat p_data]. rewrite app_nil_r, Dat by assumption.
          now apply firstn_skipn_app. }
        assert (Fa' : Forall (addressed (regs x0)) (l ++ [mkPacket (get16 (regs y) Sn_PORT)
             [regs y Sn_DIPR; regs y (Sn_DIPR + 1); regs y (Sn_DIPR + 2); regs y (Sn_DIPR + 3)]
             (get16 (regs y) Sn_DPORT)
             (ring_read (txm y) (tx_size y) (tx_rd y) (N.to_nat j))])).
        { apply Forall_app. split; [exact Fa|]. constructor; [|constructor]. rewrite R. split; [reflexivity|]. split; reflexivity. }
        destruct (N.eqb_spec j (len w - N.of_nat k)) as [JR|JR]; sfields; (split; [now rewrite Es, app_assoc|]);
          (split; [exact Fa'|]); (split; [exact Pl'|]).
        -- right. left. split; [reflexivity|]. split; [unfold len in JR; lia|]. split; [exact A5|]. split.
           ++ rewrite Rd, A5. f_equal. unfold len in *. lia.
           ++ left. split; [reflexivity|exact A3].
        -- left. split; [exact A1|]. split; [exact A2|]. split; [exact A3|]. split; [exact Rd|exact A5].
    + assert (B : tx_busy y = false) by (destruct St as [(B & _)|(B & _)]; exact B). rewrite transmit_idle by exact B.
      exists l, k. split; [exact Hk|]. split; [exact Es|]. split; [exact Fa|]. split; [exact Pl|]. now right.
  - (* SENDOK *)
    cbn [sock_step]. destruct (tx_okdue y) eqn:Od.
    + exists l, k. split; [exact Hk|]. sfields. split; [exact Es|]. split; [exact Fa|]. split; [exact Pl|].
      destruct St as [(_ & X & _)|[(B1 & B2 & B3 & B4 & _)|(_ & X & _)]]; try congruence.
      right. left. split; [exact B1|]. split; [exact B2|]. split; [exact B3|]. split; [exact B4|]. right.
      split; [reflexivity|]. unfold sendok. sfields. rewrite N.lor_spec. change (N.testbit IR_SENDOK 4) with true. apply orb_true_r.
    + exists l, k. rewrite Od. auto.
  - (* send timeout *)
    cbn [sock_step]. destruct (tx_busy y) eqn:B; [|exists l, k; rewrite B; auto].
    destruct St as [(A1 & A2 & A3 & A4 & A5)|[(X & _)|(X & _)]]; [|congruence|congruence].
    rewrite (conn_not_whole _ C). exists l, k. split; [exact Hk|].
    destruct advance; sfields; (split; [exact Es|]); (split; [exact Fa|]); (split; [exact Pl|]); right; right;
      (split; [reflexivity|]); (split; [exact A2|]); (split; [|reflexivity]); unfold sendok in *; sfields; rewrite testbit_lor; auto.
Qed.
Lemma flight_sevs i x0 w y z :
  len w < 65536 -> tx_rd x0 < 65536 -> valid_size (tx_size x0) ->
  ring_read (txm x0) (tx_size x0) (tx_rd x0) (length w) = w ->
  sevs i y z -> flight x0 w y -> flight x0 w z.
Proof.
  intros H1 H2 H3 H4. apply (sevs_inv i (flight x0 w)). intros u ev _. now apply flight_step.
Qed.

(** ** The call *)
(** no SEND in progress, none reported as finished *)
Definition ready (x : sock) : Prop :=
  txv x /\ tx_busy x = false /\ tx_okdue x = false /\ sendok x = false /\ tx_end x = tx_rd x /\ sr x < 256.
Lemma ready_sevs i x y : sevs i x y -> ready x -> ready y.
Proof.
  intros H (V & B & O & S & E & L). destruct (calm_sevs i x y H B O) as (B' & O' & S' & E' & R' & _).
  split; [now apply (sevs_txv i x y H)|]. split; [exact B'|]. split; [exact O'|]. split; [congruence|]. split; [congruence|].
  now apply (sr_lt_sevs i x).
Qed.
Lemma unsent_sevs i x y : sevs i x y -> tx_busy x = false -> tx_okdue x = false -> unsent y = unsent x.
Proof.
  intros H B O. destruct (calm_sevs i x y H B O) as (_ & _ & _ & E & _ & _). destruct (sevs_wr i x y H) as (W & Z & _).
  unfold unsent. now rewrite E, W, Z, (sevs_txm i x y H).
Qed.

Definition send_of (x : sock) : sock := set_tx_okdue (set_tx_busy (set_tx_end x (tx_wr x)) true) false.
Lemma do_send i x : do_command i x (command_u8 CmSend) = if is_sending_state (sr x) then send_of x else x.
Proof. reflexivity. Qed.
Lemma send_of_txv x : txv x -> txv (send_of x).
Proof.
  intros (Vz & H1 & H2 & H3 & H4 & H5). pose proof (tx_wr_lt x) as Hw. pose proof (valid_le _ Vz).
  unfold txv. change (tx_wr (send_of x)) with (tx_wr x). change (tx_size (send_of x)) with (tx_size x).
  change (tx_end (send_of x)) with (tx_wr x). change (tx_rd (send_of x)) with (tx_rd x). change (tx_ack (send_of x)) with (tx_ack x).
  rewrite (sub16_self (tx_wr x)) by exact Hw. split; [exact Vz|]. split; [auto|]. split; [auto|]. split; [auto|].
  split; [|exact H5]. pose proof (sub16_chain (tx_wr x) (tx_end x) (tx_rd x) Hw H3 H1 ltac:(lia)) as E. lia.
Qed.
Lemma rxrel_send x : rxrel x (send_of x).
Proof. apply rxrel_same; reflexivity. Qed.
Lemma rxrel_clear_sendok x : rxrel x (set_ir x (N.ldiff (ir x) (interrupt_u8 InSendOk))).
Proof.
  apply rxrel_same; try reflexivity. unfold recvf. sfields. rewrite N.ldiff_spec.
  change (N.testbit (interrupt_u8 InSendOk) 2) with false. apply andb_true_r.
Qed.

Lemma unsent_flight x : txv x -> tx_end x = tx_rd x ->
  len (unsent x) < 65536 /\ tx_wr x = (tx_rd x + len (unsent x)) mod 65536 /\
  ring_read (txm x) (tx_size x) (tx_rd x) (length (unsent x)) = unsent x.
Proof.
  intros (Vz & H1 & H2 & H3 & H4 & H5) E. pose proof (tx_wr_lt x) as Hw.
  assert (L : len (unsent x) = sub16 (tx_wr x) (tx_rd x)).
  { unfold unsent, len. rewrite ring_read_length, E. lia. }
  split; [rewrite L; apply sub16_lt|]. split; [rewrite L; symmetry; now apply add_sub16|].
  unfold unsent. rewrite ring_read_length, E. reflexivity.
Qed.
Lemma flight_start x : txv x -> tx_end x = tx_rd x -> tx_busy x = false -> tx_okdue x = false -> sendok x = false ->
  conn_states (sr x) -> flight x (unsent x) (if is_sending_state (sr x) then send_of x else x).
Proof.
  intros V E B O So C. destruct (unsent_flight x V E) as (L & W & _).
  assert (H1 : tx_rd x < 65536) by apply V.
  destruct (is_sending_state (sr x)) eqn:S.
  - split; [exact C|]. split; [reflexivity|]. split; [reflexivity|]. exists [], 0%nat. split; [lia|].
    split; [unfold send_of; sfields; now rewrite app_nil_r|]. split; [constructor|]. split; [reflexivity|]. left.
    split; [reflexivity|]. split; [reflexivity|]. split; [exact So|].
    split; [change (N.of_nat 0) with 0; rewrite N.add_0_r; symmetry; now apply N.mod_small|exact W].
  - split; [exact C|]. split; [reflexivity|]. split; [reflexivity|]. exists [], 0%nat. split; [lia|].
    split; [now rewrite app_nil_r|]. split; [constructor|]. split; [reflexivity|]. right. right.
    split; [exact B|]. split; [exact O|]. split; [exact So|].
    destruct C as [C|[C|C]]; [rewrite C in S; discriminate|rewrite C in S; discriminate|exact C].
Qed.

Lemma sendok_cleared x : sendok (set_ir x (N.ldiff (ir x) (interrupt_u8 InSendOk))) = false.
Proof. unfold sendok. sfields. rewrite N.ldiff_spec. change (N.testbit (interrupt_u8 InSendOk) 4) with true. apply andb_false_r. Qed.

(** only TX_WR changes among the registers *)
Definition same_but_wr (x x' : sock) : Prop :=
  forall a, a <> Sn_TX_WR -> a <> Sn_TX_WR + 1 -> regs x' a = regs x a.
Lemma addressed_ext m m' p : (forall a, a <> Sn_TX_WR -> a <> Sn_TX_WR + 1 -> m' a = m a) -> addressed m' p -> addressed m p.
Proof.
  intros H. unfold addressed, get16. rewrite !H by discriminate. auto.
Qed.

(** the unacknowledged bytes: some acknowledged, [w] added at the end, the others as they were *)
Definition txgrow (x : sock) (w : list byte) (x' : sock) : Prop :=
  txv x' /\ exists k, (k <= length (unacked x ++ w))%nat /\ unacked x' = skipn k (unacked x ++ w).
Lemma txgrow_trans x w y w' z : txgrow x w y -> txgrow y w' z -> txgrow x (w ++ w') z.
Proof.
  intros (_ & k & K1 & K2) (V & j & J1 & J2). split; [exact V|]. exists (k + j)%nat.
  rewrite K2 in J1, J2. rewrite app_length, skipn_length in J1. rewrite !app_length in *.
  split; [lia|]. rewrite J2, app_assoc, <- skipn_skipn_add. f_equal.
  rewrite (skipn_app k (unacked x ++ w) w'). f_equal. replace (k - length (unacked x ++ w))%nat with 0%nat; [reflexivity|].
  rewrite app_length. lia.
Qed.
Lemma txgrow_sevs i x y : sevs i x y -> txv x -> txgrow x [] y.
Proof.
  intros H V. destruct (sevs_txv i x y H V) as [V' L]. destruct (sevs_wr i x y H) as (W & Z & _).
  split; [exact V'|]. rewrite app_nil_r. rewrite W in L.
  exists (N.to_nat (sub16 (tx_wr x) (tx_ack x) - sub16 (tx_wr x) (tx_ack y))).
  unfold unacked. rewrite W, Z, (sevs_txm i x y H), ring_read_length. split; [lia|].
  rewrite skipn_ring_read by lia.
  replace (N.to_nat (sub16 (tx_wr x) (tx_ack x)) - N.to_nat (sub16 (tx_wr x) (tx_ack x) - sub16 (tx_wr x) (tx_ack y)))%nat
    with (N.to_nat (sub16 (tx_wr x) (tx_ack y))) by lia.
  rewrite N2Nat.id, <- (ring_read_wrap _ _ (tx_ack x + _)) by apply V. f_equal.
  pose proof (tx_wr_lt x). destruct V as (_ & _ & A & _). destruct V' as (_ & _ & A' & _).
  now apply ack_of.
Qed.
Lemma txgrow_same x y : txv y -> unacked y = unacked x -> txgrow x [] y.
Proof. intros V E. split; [exact V|]. exists 0%nat. rewrite app_nil_r, E. split; [lia|reflexivity]. Qed.

(** how the socket may differ after sending packets [l] *)
Definition sent_more (x : sock) (l : list packet) (x' : sock) : Prop :=
  rxrel x x' /\ same_but_wr x x' /\ dialled x' = dialled x /\ sent x' = sent x ++ l /\ Forall (addressed (regs x)) l.
(** everything up to and including [w] has been transmitted *)
Definition send_done (x : sock) (w : list byte) (x' : sock) : Prop :=
  exists l, sent_more x l x' /\ payload l = unsent x ++ w /\ txgrow x w x' /\ ready x' /\ tx_wr x' = tx_rd x' /\
    tx_wr x' = (tx_wr x + len w) mod 65536 /\ conn_states (sr x').
(** a prefix of it has been transmitted *)
Definition send_stuck (x : sock) (w : list byte) (x' : sock) : Prop :=
  exists l k, sent_more x l x' /\ (k <= length (unsent x ++ w))%nat /\ payload l = firstn k (unsent x ++ w) /\ txgrow x w x'.

Section Send.
  Context (e : env) (i : N).
  Hypothesis NF : no_faults e.
  Hypothesis Hi : i < 8.

  Lemma wp_wait_send_ok (Q : outcome (res unit berr) -> sys -> Prop) : forall fuel s,
    (forall s1, sevs i (sk i s) (sk i s1) -> sendok (sk i s1) = true -> Q (Done (Ok tt)) s1) ->
    (forall s1, sevs i (sk i s) (sk i s1) -> Q Looping s1) ->
    wp e (wait_send_ok fuel (socket_new i)) Q s.
  Proof.
    induction fuel as [|fuel IH]; intros s H HL; cbn [wait_send_ok]; [apply HL, sevs_refl|].
    apply wp_try, (wp_has_interrupt e i NF Hi InSendOk 4); [reflexivity|reflexivity|]. intros s1 N1. cbv beta iota.
    fold (sendok (sk i s1)). destruct (sendok (sk i s1)) eqn:So; [now apply wp_ret, H|].
    apply IH; intros s2 N2; [intros Hs; apply H; auto|apply HL]; eapply sevs_trans; eauto.
  Qed.

  (** the data is in the buffer: SEND, wait, clear the flag *)
  Lemma wp_send_finish {R} fuel (h : berr -> R) (k : prog R) (Q : outcome R -> sys -> Prop) s :
    ready (sk i s) -> conn_states (sr (sk i s)) ->
    (forall x0 z s3, sevs i (sk i s) x0 -> rxrel (sk i s) (sk i s3) -> txgrow (sk i s) [] (sk i s3) -> dialled (sk i s3) = dialled (sk i s) -> flight x0 (unsent (sk i s)) z -> sendok z = true -> txv z -> sr z < 256 ->
       sk i s3 = set_ir z (N.ldiff (ir z) (interrupt_u8 InSendOk)) -> wp e k Q s3) ->
    (forall x0 s1, sevs i (sk i s) x0 -> rxrel (sk i s) (sk i s1) -> txgrow (sk i s) [] (sk i s1) -> dialled (sk i s1) = dialled (sk i s) -> flight x0 (unsent (sk i s)) (sk i s1) -> Q Looping s1) ->
    wp e (try c <- command (socket_new i) CmSend else h ;;
          try d <- wait_send_ok fuel (socket_new i) else h ;;
          try e <- reset_interrupt (socket_new i) InSendOk else h ;;
          k) Q s.
  Proof.
    intros Rd C H HL. apply wp_try, wp_command; auto. intros x s1 N1 E1. cbv beta iota.
    rewrite do_send in E1.
    pose proof (ready_sevs _ _ _ N1 Rd) as Rx. pose proof Rx as (Vx & Bx & Ox & Sx & Ex & Lx).
    pose proof (conn_sevs _ _ _ N1 C) as Cx.
    pose proof (flight_start x Vx Ex Bx Ox Sx Cx) as F. rewrite <- E1 in F.
    assert (U : unsent x = unsent (sk i s)). { destruct Rd as (_ & B & O & _). now apply (unsent_sevs i). }
    rewrite U in F. destruct (unsent_flight x Vx Ex) as (L1 & L2 & L3). rewrite U in L1, L2, L3.
    assert (V1 : txv (sk i s1)). { rewrite E1. destruct (is_sending_state (sr x)); [now apply send_of_txv|exact Vx]. }
    assert (R1 : rxrel (sk i s) (sk i s1)).
    { eapply rxrel_trans; [now apply (rxrel_sevs i); eauto|]. rewrite E1.
      destruct (is_sending_state (sr x)); [apply rxrel_send|apply rxrel_same; reflexivity]. }
    assert (G1 : txgrow (sk i s) [] (sk i s1)).
    { apply (txgrow_trans _ [] x []); [apply (txgrow_sevs i); [exact N1|apply Rd]|]. apply txgrow_same; [exact V1|]. rewrite E1.
      now destruct (is_sending_state (sr x)). }
    assert (D1 : dialled (sk i s1) = dialled (sk i s)).
    { rewrite E1. rewrite <- (sevs_dialled _ _ _ N1). now destruct (is_sending_state (sr x)). }
    assert (Sr1 : sr (sk i s1) < 256). { rewrite E1. destruct (is_sending_state (sr x)); exact Lx. }
    assert (Hrd : tx_rd x < 65536) by apply Vx. assert (Hvz : valid_size (tx_size x)) by apply Vx.
    apply wp_try, wp_wait_send_ok.
    - intros s2 N2 So. cbv beta iota.
      apply wp_try, wp_reset_interrupt; auto. intros z s3 N3 E3. cbv beta iota.
      assert (N4 : sevs i (sk i s1) z) by (eapply sevs_trans; eauto).
      apply (H x z); auto.
      + eapply rxrel_trans; [exact R1|]. eapply rxrel_trans; [now apply (rxrel_sevs i); eauto|]. rewrite E3. apply rxrel_clear_sendok.
      + apply (txgrow_trans _ [] (sk i s1) []); [exact G1|]. apply (txgrow_trans _ [] z []); [now apply (txgrow_sevs i)|].
        rewrite E3. apply txgrow_same; [|reflexivity]. now apply (sevs_txv i _ _ N4).
      + rewrite E3. change (dialled z = dialled (sk i s)). now rewrite (sevs_dialled _ _ _ N4).
      + apply (flight_sevs i x _ (sk i s1)); auto.
      + apply (sevs_ir i _ _ 4 N3). exact So.
      + now apply (sevs_txv i _ _ N4).
      + now apply (sr_lt_sevs i _ _ N4).
    - intros s2 N2. apply (HL x); auto.
      + eapply rxrel_trans; [exact R1|now apply (rxrel_sevs i)].
      + apply (txgrow_trans _ [] (sk i s1) []); [exact G1|now apply (txgrow_sevs i)].
      + now rewrite (sevs_dialled _ _ _ N2).
      + apply (flight_sevs i x _ (sk i s1)); auto.
  Qed.

  Lemma wp_tcp_send_data fuel w (Q : outcome (res N terr) -> sys -> Prop) s :
    ready (sk i s) -> conn_states (sr (sk i s)) -> len w <= tx_fsr (sk i s) ->
    (forall s', send_done (sk i s) w (sk i s') -> Q (Done (Ok (len w))) s') ->
    (forall s', send_stuck (sk i s) w (sk i s') -> Q Looping s') ->
    wp e (tcp_send_data fuel (mkTcp (socket_new i)) w) Q s.
  Proof.
    intros Rd C L H HL. unfold tcp_send_data. cbn [t_socket]. cbv zeta.
    pose proof Rd as (V & B & O & So & E & Ls). pose proof (valid_le _ (proj1 V)) as Hz.
    assert (Lw : len w < 65536) by (unfold tx_fsr in L; lia).
    apply wp_stage; auto; [apply V|]. intros y s3 N1 E3.
    pose proof (ready_sevs _ _ _ N1 Rd) as Ry. pose proof Ry as (Vy & By & Oy & Soy & Ey & Lsy).
    assert (Ly : len w <= tx_fsr y) by (pose proof (sevs_fsr _ _ _ N1 V); lia).
    destruct (staged_txv y w Vy Ly) as (V3 & A3 & U3).
    assert (U4 : unsent (sk i s3) = unsent (sk i s) ++ w) by (rewrite E3, U3; f_equal; now apply (unsent_sevs i)).
    assert (R3 : ready (sk i s3)). { rewrite E3. split; [exact V3|]. split; [exact By|]. split; [exact Oy|]. split; [exact Soy|]. split; [exact Ey|exact Lsy]. }
    assert (G3 : txgrow (sk i s) w (sk i s3)).
    { apply (txgrow_trans _ [] y w); [now apply (txgrow_sevs i)|]. rewrite E3. split; [exact V3|]. exists 0%nat. split; [lia|exact A3]. }
    assert (C3 : conn_states (sr (sk i s3))) by (rewrite E3; now apply (conn_sevs i _ _ N1)).
    assert (X3 : rxrel (sk i s) (sk i s3)).
    { eapply rxrel_trans; [now apply (rxrel_sevs i); eauto|]. rewrite E3. apply staged_rxrel. }
    assert (Sent3 : sent (sk i s3) = sent (sk i s)). { rewrite E3. now destruct (calm_sevs _ _ _ N1 B O) as (_ & _ & _ & _ & _ & ?). }
    assert (Dl3 : dialled (sk i s3) = dialled (sk i s)). { rewrite E3. exact (sevs_dialled _ _ _ N1). }
    assert (Rg3 : same_but_wr (sk i s) (sk i s3)).
    { intros a Ha Hb. rewrite E3. unfold staged_of. cbn [regs set_regs]. rewrite tx_regs_other by assumption. now rewrite (sevs_regs _ _ _ N1). }
    (* what a flight from here says in terms of the start of the call *)
    assert (Fl : forall x0 z, sevs i (sk i s3) x0 -> flight x0 (unsent (sk i s3)) z ->
      conn_states (sr z) /\ same_but_wr (sk i s) z /\ regs z = regs (sk i s3) /\
      exists l k, (k <= length (unsent (sk i s3)))%nat /\ sent z = sent (sk i s) ++ l /\ Forall (addressed (regs (sk i s))) l /\
        payload l = firstn k (unsent (sk i s3)) /\
        (sendok z = true -> k = length (unsent (sk i s3)) /\ tx_busy z = false /\ tx_okdue z = false /\ tx_rd z = tx_end z /\
           tx_end z = (tx_rd x0 + len (unsent (sk i s3))) mod 65536)).
    { intros x0 z N4 (F1 & F2 & F3 & l & k & F4 & F5 & F6 & F7 & F8).
      assert (Rz : regs z = regs (sk i s3)) by (rewrite F2; now apply (sevs_regs i)).
      split; [exact F1|]. split; [intros a Ha Hb; rewrite Rz; now apply Rg3|]. split; [exact Rz|].
      exists l, k. split; [exact F4|]. split. { rewrite F5. f_equal. destruct R3 as (_ & b & o & _). destruct (calm_sevs _ _ _ N4 b o) as (_ & _ & _ & _ & _ & Es). congruence. }
      split. { eapply Forall_impl; [|exact F6]. intros p Hp. eapply addressed_ext; [|exact Hp]. intros a Ha Hb. rewrite (sevs_regs _ _ _ N4). now apply Rg3. }
      split; [exact F7|]. intros Sz. destruct F8 as [(_ & _ & X & _)|[(K1 & K2 & K3 & K4 & [(_ & X)|(K5 & _)])|(_ & _ & X & _)]]; try congruence.
      auto. }
    apply wp_send_finish; auto.
    - intros x0 z s4 N4 X4 G4 D4 F4 So4 V4 Ls4 E4. apply wp_ret.
      destruct (Fl x0 z N4 F4) as (C4 & Sb4 & Rg4 & l & k & K1 & K2 & K3 & K4 & K5).
      destruct (K5 So4) as (K6 & K7 & K8 & K9 & K10).
      apply H. exists l. split.
      { split; [eapply rxrel_trans; eauto|]. split; [rewrite E4; exact Sb4|]. split; [congruence|].
        split; [rewrite E4; exact K2|exact K3]. }
      split; [rewrite K4, K6, firstn_all; exact U4|].
      split; [rewrite <- (app_nil_r w); now apply (txgrow_trans _ _ (sk i s3))|].
      assert (Wz : tx_wr z = tx_wr (sk i s3)) by (unfold tx_wr; now rewrite Rg4).
      assert (Ez : tx_wr z = tx_end z).
      { rewrite K10, Wz. destruct R3 as (V3' & b3 & o3 & _ & e3 & _). destruct (unsent_flight (sk i s3) V3' e3) as (_ & W3 & _).
        rewrite W3. destruct (calm_sevs _ _ _ N4 b3 o3) as (_ & _ & _ & _ & Er & _). now rewrite Er. }
      rewrite E4. split.
      { split; [exact V4|]. split; [exact K7|]. split; [exact K8|]. split; [apply sendok_cleared|]. split; [symmetry; exact K9|exact Ls4]. }
      split; [change (tx_wr z = tx_rd z); congruence|].
      split; [|exact C4]. change (tx_wr z = (tx_wr (sk i s) + len w) mod 65536). rewrite Wz, E3.
      rewrite (proj1 (staged_fields y w)). f_equal. f_equal. apply (proj1 (sevs_wr i _ _ N1)).
    - intros x0 s4 N4 X4 G4 D4 F4.
      destruct (Fl x0 _ N4 F4) as (C4 & Sb4 & Rg4 & l & k & K1 & K2 & K3 & K4 & K5).
      apply HL. exists l, k. split.
      { split; [eapply rxrel_trans; eauto|]. split; [exact Sb4|]. split; [congruence|]. split; [exact K2|exact K3]. }
      rewrite <- U4. split; [exact K1|]. split; [exact K4|]. rewrite <- (app_nil_r w). now apply (txgrow_trans _ _ (sk i s3)).
  Qed.

  Lemma wp_tcp_is_connected (Q : outcome (res bool terr) -> sys -> Prop) s :
    sr (sk i s) < 256 ->
    (forall s1, sevs i (sk i s) (sk i s1) -> Q (Done (Ok (sr (sk i s1) =? SOCK_ESTABLISHED))) s1) ->
    wp e (tcp_is_connected (mkTcp (socket_new i))) Q s.
  Proof.
    intros L H. unfold tcp_is_connected. cbn [t_socket].
    apply wp_try, wp_get_status; auto. intros s1 N1. cbv beta iota. apply wp_ret.
    rewrite u8_small by now apply (sr_lt_sevs i _ _ N1). now apply H.
  Qed.

  Lemma send_done_before x0 x w x' : sevs i x0 x -> ready x0 -> send_done x w x' -> send_done x0 w x'.
  Proof.
    intros N R0 (l & (M1 & M2 & M3 & M4 & M5) & H1 & Hg & H2 & H3 & H4 & H5). destruct R0 as (V & B & O & _).
    assert (Hg' : txgrow x0 w x') by (apply (txgrow_trans _ [] x w); [now apply (txgrow_sevs i)|exact Hg]).
    destruct (calm_sevs _ _ _ N B O) as (_ & _ & _ & _ & _ & Es). destruct (sevs_wr _ _ _ N) as (W & _).
    pose proof (sevs_regs _ _ _ N) as Rg.
    exists l. split.
    { split; [eapply rxrel_trans; [now apply (rxrel_sevs i); eauto|auto]|]. split; [unfold same_but_wr in *; now rewrite <- Rg|].
      split; [now rewrite M3, (sevs_dialled _ _ _ N)|]. split; [congruence|now rewrite <- Rg]. }
    rewrite <- (unsent_sevs i x0 x N B O), <- W. auto 10.
  Qed.
  Lemma send_stuck_before x0 x w x' : sevs i x0 x -> ready x0 -> send_stuck x w x' -> send_stuck x0 w x'.
  Proof.
    intros N R0 (l & k & (M1 & M2 & M3 & M4 & M5) & H1 & H2 & Hg). destruct R0 as (V & B & O & _).
    assert (Hg' : txgrow x0 w x') by (apply (txgrow_trans _ [] x w); [now apply (txgrow_sevs i)|exact Hg]).
    destruct (calm_sevs _ _ _ N B O) as (_ & _ & _ & _ & _ & Es). pose proof (sevs_regs _ _ _ N) as Rg.
    exists l, k. split.
    { split; [eapply rxrel_trans; [now apply (rxrel_sevs i); eauto|auto]|]. split; [unfold same_but_wr in *; now rewrite <- Rg|].
      split; [now rewrite M3, (sevs_dialled _ _ _ N)|]. split; [congruence|now rewrite <- Rg]. }
    rewrite <- (unsent_sevs i x0 x N B O). auto.
  Qed.

  Lemma wp_tcp_send fuel data (Q : outcome (res N (nberr terr)) -> sys -> Prop) s :
    ready (sk i s) ->
    (forall n s', n <= len data -> send_done (sk i s) (take n data) (sk i s') -> Q (Done (Ok n)) s') ->
    (forall s', sevs i (sk i s) (sk i s') -> sr (sk i s') <> SOCK_ESTABLISHED -> Q (Done (Err (NbOther TNotConnected))) s') ->
    (forall n s', n <= len data -> send_stuck (sk i s) (take n data) (sk i s') -> Q Looping s') ->
    wp e (tcp_send fuel (mkTcp (socket_new i)) data) Q s.
  Proof.
    intros Rd H HE HL. unfold tcp_send, tcp_socket_send. cbn [t_socket].
    apply wp_try, wp_try, wp_tcp_is_connected; [apply Rd|]. intros s1 N1. cbv beta iota.
    destruct (sr (sk i s1) =? SOCK_ESTABLISHED) eqn:Est; cbn [negb];
      [apply N.eqb_eq in Est|apply N.eqb_neq in Est; apply wp_ret; now apply HE].
    pose proof (ready_sevs _ _ _ N1 Rd) as R1.
    apply wp_try, wp_get_tx_free_size; auto; [apply R1|].
    intros x s2 v N2 N2' Hv _. cbv beta iota.
    assert (N3 : sevs i (sk i s) (sk i s2)) by (eapply sevs_trans; [exact N1|]; eapply sevs_trans; eauto).
    pose proof (ready_sevs _ _ _ N3 Rd) as R2.
    assert (C2 : conn_states (sr (sk i s2))) by (apply (conn_sevs i _ _ N2'), (conn_sevs i _ _ N2); left; exact Est).
    assert (G : forall w n (Q' : outcome (res N terr) -> sys -> Prop), w = take n data -> n <= len data -> n <= v ->
       (forall s', Q (Done (Ok n)) s' -> Q' (Done (Ok n)) s') -> (forall s', Q Looping s' -> Q' Looping s') ->
       wp e (tcp_send_data fuel (mkTcp (socket_new i)) w) Q' s2).
    { intros w n Q' -> Hn Hnv HQ HQL. assert (Ln : len (take n data) = n) by (rewrite len_take; lia).
      apply wp_tcp_send_data; auto; [lia| |].
      - intros s' D. rewrite Ln. apply HQ, H; [exact Hn|]. eapply send_done_before; eauto.
      - intros s' D. apply HQL, (HL n); [exact Hn|]. eapply send_stuck_before; eauto. }
    destruct (N.ltb_spec (len data) v) as [Hlt|Hge].
    - apply (G _ (len data)); [now rewrite take_len|lia|lia| |]; intros s' HQ; exact HQ.
    - apply wp_slice_to; [|lia]. intros _. apply (G _ v); [reflexivity|lia|lia| |]; intros s' HQ; exact HQ.
  Qed.
End Send.
