(** Sending on a UDP or MACRAW socket: one SEND is one packet. *)
From Verif Require Export TcpSend.
From Verif Require Import Datasheet ValueFacts.

Definition pkt_mode (z : N) : Prop := z = SOCK_UDP \/ z = SOCK_MACRAW.
Definition tmof (s : sock) : bool := N.testbit (ir s) 3.
Lemma pkt_whole z : pkt_mode z -> (z =? SOCK_UDP) || (z =? SOCK_MACRAW) = true.
Proof. intros [-> | ->]; reflexivity. Qed.
Lemma pkt_not_conn z : pkt_mode z -> z =? SOCK_SYNSENT = false /\ z =? SOCK_ESTABLISHED = false /\
  (z =? SOCK_ESTABLISHED) || (z =? SOCK_CLOSE_WAIT) || (z =? SOCK_FIN_WAIT) || (z =? SOCK_LAST_ACK) = false /\ is_sending_state z = true.
Proof. intros [-> | ->]; auto. Qed.

Lemma pkt_not_waiting z : pkt_mode z -> (z =? SOCK_SYNSENT) || (z =? SOCK_LISTEN) = false.
Proof. intros [-> | ->]; reflexivity. Qed.

(** the packet a socket with registers [m] makes of [d] *)
Definition packet_of (m : N -> byte) (d : list byte) : packet :=
  mkPacket (get16 m Sn_PORT) [m Sn_DIPR; m (Sn_DIPR + 1); m (Sn_DIPR + 2); m (Sn_DIPR + 3)] (get16 m Sn_DPORT) d.

(** nothing staged, nothing in progress: how every send starts and ends *)
Definition rested (x : sock) : Prop :=
  pkt_mode (sr x) /\ valid_size (tx_size x) /\ tx_busy x = false /\
  tx_rd x = tx_wr x /\ tx_ack x = tx_wr x /\ tx_end x = tx_wr x.
(** what a send or the network leaves alone between two sends *)
Lemma rested_step x ev : rested x -> rested (sock_step x ev) /\ sent (sock_step x ev) = sent x /\ regs (sock_step x ev) = regs x /\
  (sendok (sock_step x ev) || tx_okdue (sock_step x ev)) = (sendok x || tx_okdue x) /\ tmof (sock_step x ev) = tmof x.
Proof.
  intros R. pose proof R as (P & V & B & E1 & E2 & E3). destruct (pkt_not_conn _ P) as (P1 & P2 & P3 & _). pose proof (pkt_not_waiting _ P) as P0.
  assert (A : forall c, rested (rx_append x c) /\ sent (rx_append x c) = sent x /\ regs (rx_append x c) = regs x /\
    (sendok (rx_append x c) || tx_okdue (rx_append x c)) = (sendok x || tx_okdue x) /\ tmof (rx_append x c) = tmof x).
  { intros c. unfold rx_append. destruct (len c <=? rx_size x - rx_rsr x); [|auto].
    split; [exact R|]. split; [reflexivity|]. split; [reflexivity|]. unfold sendok, tmof. sfields.
    rewrite !testbit_lor by reflexivity. auto. }
  destruct ev as [n|n|n|n timeout|n d|n ip port d|d|n k0|n|n advance|n k0|v]; cbn [sock_step]; rewrite ?P3, ?P0, ?P1, ?P2, ?B; auto.
  - destruct (_ && _); auto.
  - destruct (_ && _); auto.
  - rewrite transmit_idle by exact B. auto.
  - destruct (tx_okdue x) eqn:O; [|rewrite O; auto]. split; [exact R|]. split; [reflexivity|]. split; [reflexivity|]. unfold sendok, tmof. sfields.
    rewrite (testbit_lor _ _ 3) by reflexivity. rewrite N.lor_spec. change (N.testbit IR_SENDOK 4) with true.
    rewrite !orb_true_r. split; reflexivity.
  - pose proof (tx_wr_lt x) as L. rewrite E1, E2, sub16_self by exact L. rewrite N.min_0_r, N.add_0_r, N.mod_small by exact L.
    split; [|auto]. split; [exact P|]. split; [exact V|]. split; [exact B|]. split; [exact E1|]. split; [reflexivity|exact E3].
Qed.
Lemma rested_sevs i x y : sevs i x y -> rested x -> rested y /\ sent y = sent x /\ regs y = regs x /\
  (sendok y || tx_okdue y) = (sendok x || tx_okdue x) /\ tmof y = tmof x /\ sr y = sr x.
Proof.
  intros H R. assert (S : sr y = sr x).
  { apply (sevs_sr_fixed i x y H). destruct R as ([-> | ->] & _); auto. }
  refine (sevs_inv i (fun y => rested y /\ sent y = sent x /\ regs y = regs x /\
    (sendok y || tx_okdue y) = (sendok x || tx_okdue x) /\ tmof y = tmof x /\ sr y = sr x) _ x y H _); [|auto 10].
  intros z ev Hev (Z1 & Z2 & Z3 & Z4 & Z5 & Z6). destruct (rested_step z ev Z1) as (Y1 & Y2 & Y3 & Y4 & Y5).
  split; [exact Y1|]. split; [congruence|]. split; [congruence|]. split; [congruence|]. split; [congruence|].
  rewrite <- Z6. apply (sevs_sr_fixed i z). { exists [ev]. split; [constructor; [exact Hev|constructor]|reflexivity]. }
  destruct Z1 as ([-> | ->] & _); auto.
Qed.
(** all of the buffer is free *)
Lemma rested_fsr x : rested x -> tx_fsr x = tx_size x.
Proof. intros (_ & _ & _ & _ & E & _). unfold tx_fsr. rewrite E, sub16_self by apply tx_wr_lt. lia. Qed.
Lemma rested_txv x : rested x -> txv x.
Proof.
  intros (_ & V & _ & E1 & E2 & E3). pose proof (tx_wr_lt x) as L. unfold txv. rewrite E1, E2, E3, !sub16_self by exact L.
  split; [exact V|]. split; [exact L|]. split; [exact L|]. split; [exact L|]. split; lia.
Qed.
Lemma rested_unsent x : rested x -> unsent x = [].
Proof. intros (_ & _ & _ & _ & _ & E). unfold unsent. rewrite E, sub16_self by apply tx_wr_lt. reflexivity. Qed.

(** ** A SEND of [w] in flight; [x0] is the socket right after the command *)
Definition launched (x0 : sock) (w : list byte) : Prop :=
  pkt_mode (sr x0) /\ valid_size (tx_size x0) /\ tx_busy x0 = true /\ tx_okdue x0 = false /\
  tx_rd x0 < 65536 /\ tx_ack x0 = tx_rd x0 /\ tx_end x0 = tx_wr x0 /\ sub16 (tx_wr x0) (tx_rd x0) = len w /\ 0 < len w /\
  ring_read (txm x0) (tx_size x0) (tx_rd x0) (length w) = w.
Definition aloft (x0 : sock) (w : list byte) (y : sock) : Prop :=
  sr y = sr x0 /\ regs y = regs x0 /\ txm y = txm x0 /\ tx_end y = tx_end x0 /\
  ((* still in progress *)
   (tx_busy y = true /\ tx_rd y = tx_rd x0 /\ tx_ack y = tx_rd x0 /\ sent y = sent x0 /\ tx_okdue y = false /\
      sendok y = sendok x0 /\ tmof y = tmof x0) \/
   (* transmitted *)
   (tx_busy y = false /\ tx_rd y = tx_wr x0 /\ tx_ack y = tx_wr x0 /\ sent y = sent x0 ++ [packet_of (regs x0) w] /\
      (sendok y || tx_okdue y) = true /\ tmof y = tmof x0) \/
   (* given up *)
   (tx_busy y = false /\ sent y = sent x0 /\ tx_okdue y = false /\ sendok y = sendok x0 /\ tmof y = true /\
      (tx_rd y = tx_wr x0 /\ tx_ack y = tx_wr x0 \/ tx_rd y = tx_rd x0 /\ tx_ack y = tx_rd x0))).
Lemma aloft_start x0 w : launched x0 w -> aloft x0 w x0.
Proof. intros (P & V & B & O & L & A & _). unfold aloft. auto 20. Qed.
Lemma aloft_step x0 w y ev : launched x0 w -> aloft x0 w y -> aloft x0 w (sock_step y ev).
Proof.
  intros (P & V & B & O & L & A & E & Sw & Lw & Rw) Y. pose proof Y as (Y1 & Y2 & Y3 & Y4 & Y5). pose proof (tx_wr_lt x0) as Lx.
  pose proof P as Py. rewrite <- Y1 in Py. destruct (pkt_not_conn _ Py) as (P1 & P2 & P3 & _). pose proof (pkt_not_waiting _ Py) as P0.
  assert (Ap : forall c, aloft x0 w (rx_append y c)).
  { intros c. unfold rx_append. destruct (len c <=? rx_size y - rx_rsr y); [|exact Y]. cbv zeta.
    unfold aloft, sendok, tmof in *. sfields. rewrite !testbit_lor by reflexivity. exact Y. }
  destruct ev as [n|n|n|n timeout|n d|n ip port d|d|n k0|n|n advance|n k0|v]; cbn [sock_step]; rewrite ?P3, ?P0, ?P1, ?P2; auto.
  - destruct (_ && _); auto.
  - destruct (_ && _); auto.
  - (* transmission *)
    destruct Y5 as [(B1 & B2 & B3 & B4 & B5 & B6 & B7)|Y5].
    + unfold transmit. rewrite B1, (pkt_whole _ Py). cbv zeta.
      assert (Ew : sub16 (tx_end y) (tx_rd y) = len w) by (rewrite Y4, E, B2; exact Sw).
      rewrite Ew. destruct (N.eqb_spec (len w) 0); [lia|]. rewrite N.eqb_refl.
      assert (Er : (tx_rd y + len w) mod 65536 = tx_wr x0) by (rewrite B2, <- Sw; now apply add_sub16).
      rewrite Er. unfold aloft. sfields.
      split; [exact Y1|]. split; [exact Y2|]. split; [exact Y3|]. split; [exact Y4|]. right. left.
      split; [reflexivity|]. split; [reflexivity|]. split; [reflexivity|]. split.
      { rewrite B4. unfold packet_of. rewrite Y2, Y3, B2. replace (tx_size y) with (tx_size x0) by (unfold tx_size; now rewrite Y2).
        replace (N.to_nat (len w)) with (length w) by (unfold len; lia). now rewrite Rw. }
      split; [apply orb_true_r|]. exact B7.
    + rewrite transmit_idle by (destruct Y5 as [(B1 & _)|(B1 & _)]; exact B1). exact Y.
  - (* SENDOK *)
    destruct (tx_okdue y) eqn:Od; [|exact Y].
    destruct Y5 as [(_ & _ & _ & _ & B5 & _)|[(B1 & B2 & B3 & B4 & B5 & B6)|(_ & _ & B5 & _)]]; try congruence.
    unfold aloft, sendok, tmof in *. sfields. split; [exact Y1|]. split; [exact Y2|]. split; [exact Y3|]. split; [exact Y4|]. right. left.
    split; [exact B1|]. split; [exact B2|]. split; [exact B3|]. split; [exact B4|].
    rewrite (testbit_lor _ _ 3) by reflexivity. split; [|exact B6]. rewrite N.lor_spec. change (N.testbit IR_SENDOK 4) with true.
    now rewrite orb_true_r.
  - (* given up *)
    destruct (tx_busy y) eqn:Bz; [|exact Y].
    destruct Y5 as [(B1 & B2 & B3 & B4 & B5 & B6 & B7)|[(B1 & _)|(B1 & _)]]; try congruence.
    rewrite (pkt_whole _ Py). unfold aloft, sendok, tmof in *. destruct advance; sfields;
      (split; [exact Y1|]); (split; [exact Y2|]); (split; [exact Y3|]); (split; [exact Y4|]); right; right;
      (split; [reflexivity|]); (split; [exact B4|]); (split; [exact B5|]); rewrite (testbit_lor _ _ 4) by reflexivity;
      (split; [exact B6|]); rewrite N.lor_spec; change (N.testbit IR_TIMEOUT 3) with true; rewrite orb_true_r;
      (split; [reflexivity|]); [left; rewrite Y4, E; auto|right; auto].
  - (* acknowledgement: nothing to acknowledge *)
    assert (Ea : tx_ack y = tx_rd y /\ tx_rd y < 65536).
    { destruct Y5 as [(_ & B2 & B3 & _)|[(_ & B2 & B3 & _)|(_ & _ & _ & _ & _ & [(B2 & B3)|(B2 & B3)])]]; rewrite B2, B3; auto. }
    destruct Ea as [Ea Lr]. rewrite Ea, sub16_self by exact Lr. rewrite N.min_0_r, N.add_0_r, N.mod_small by exact Lr.
    rewrite <- Ea. replace (set_tx_ack y (tx_ack y)) with y by now destruct y. exact Y.
Qed.
Lemma aloft_sevs i x0 w y z : launched x0 w -> sevs i y z -> aloft x0 w y -> aloft x0 w z.
Proof. intros H. apply (sevs_inv i (aloft x0 w)). intros u ev _. now apply aloft_step. Qed.
Lemma aloft_rd x0 w y : aloft x0 w y -> tx_rd y = tx_wr x0 \/ tx_rd y = tx_rd x0.
Proof. intros (_ & _ & _ & _ & [(_ & H & _)|[(_ & H & _)|(_ & _ & _ & _ & _ & [(H & _)|(H & _)])]]); auto. Qed.
Lemma aloft_stays i x0 w y z : launched x0 w -> sevs i y z -> aloft x0 w y -> tx_rd y = tx_wr x0 -> tx_rd z = tx_wr x0.
Proof.
  intros (P & V & B & O & L & A & E & Sw & Lw & Rw) H Y Hr.
  assert (Ne : tx_rd x0 <> tx_wr x0) by (intros X; rewrite X, sub16_self in Sw by apply tx_wr_lt; lia).
  assert (I : idle y). { unfold idle. destruct Y as (_ & _ & _ & _ & [(_ & X & _)|[(X & _)|(X & _)]]); auto. congruence. }
  destruct (sevs_idle i y z H I) as (_ & X & _). congruence.
Qed.

(** after staging [w] in a rested socket and the SEND command *)
Definition fresh_ok (x : sock) : bool := sendok x || tx_okdue x.
Lemma do_send_pkt i x : pkt_mode (sr x) -> do_command i x (command_u8 CmSend) = set_tx_okdue (set_tx_busy (set_tx_end x (tx_wr x)) true) false.
Proof.
  intros P. destruct (pkt_not_conn _ P) as (_ & _ & _ & S). unfold do_command.
  change (command_u8 CmSend =? CR_OPEN) with false. change (command_u8 CmSend =? CR_LISTEN) with false.
  change (command_u8 CmSend =? CR_CONNECT) with false. change (command_u8 CmSend =? CR_DISCON) with false.
  change (command_u8 CmSend =? CR_CLOSE) with false. change (command_u8 CmSend =? CR_SEND) with true. cbv iota. now rewrite S.
Qed.
Lemma staged_launched y w x0 : rested y -> 0 < len w -> len w <= tx_size y ->
  x0 = set_tx_okdue (set_tx_busy (set_tx_end (staged_of y w) (tx_wr (staged_of y w))) true) false -> launched x0 w.
Proof.
  intros R L0 L. intros ->. pose proof R as (P & V & B & E1 & E2 & E3).
  pose proof (rested_txv y R) as T. pose proof (rested_fsr y R) as F. rewrite <- F in L.
  destruct (staged_txv y w T L) as (T' & _ & U'). rewrite (rested_unsent y R) in U'. cbn [List.app] in U'.
  destruct (staged_fields y w) as (W1 & Z1 & _). pose proof (tx_wr_lt y) as Lw. pose proof (valid_le _ V) as Hz. rewrite F in L.
  assert (Sw : sub16 (tx_wr (staged_of y w)) (tx_rd y) = len w).
  { rewrite W1, E1. apply sub16_add; [exact Lw|lia]. }
  unfold launched. sfields.
  change (tx_wr (set_tx_okdue (set_tx_busy (set_tx_end (staged_of y w) (tx_wr (staged_of y w))) true) false)) with (tx_wr (staged_of y w)).
  change (tx_size (set_tx_okdue (set_tx_busy (set_tx_end (staged_of y w) (tx_wr (staged_of y w))) true) false)) with (tx_size (staged_of y w)).
  change (tx_rd (staged_of y w)) with (tx_rd y). change (tx_ack (staged_of y w)) with (tx_ack y). change (sr (staged_of y w)) with (sr y).
  split; [exact P|]. split; [rewrite Z1; exact V|]. split; [reflexivity|]. split; [reflexivity|].
  split; [rewrite E1; exact Lw|]. split; [congruence|]. split; [reflexivity|]. split; [exact Sw|]. split; [exact L0|].
  unfold unsent in U'. change (tx_end (staged_of y w)) with (tx_end y) in U'. rewrite E3, <- E1 in U'. rewrite Sw in U'.
  replace (N.to_nat (len w)) with (length w) in U' by (unfold len; lia). exact U'.
Qed.

(** ** What a send leaves alone *)
(** what arrives in one piece on a UDP or MACRAW socket *)
Definition atom (m : N) (c : list byte) : Prop :=
  (m = SOCK_UDP -> exists ip p d, len ip = 4 /\ p < 65536 /\ len d < 65536 /\ c = udp_record ip p d) /\
  (m = SOCK_MACRAW -> exists d, len d < 65534 /\ c = raw_record d).
Definition rxgrow (x x' : sock) : Prop := rxv x -> rxv x' /\ exists cs,
  pending x' = pending x ++ concat cs /\ rxlog x' = rxlog x ++ concat cs /\ Forall (atom (sr x)) cs.
Lemma rxgrow_trans x y z : sr y = sr x -> rxgrow x y -> rxgrow y z -> rxgrow x z.
Proof.
  intros S A B V. destruct (A V) as (Vy & cs & P1 & L1 & F1). destruct (B Vy) as (Vz & ds & P2 & L2 & F2).
  split; [exact Vz|]. exists (cs ++ ds). rewrite concat_app, P2, P1, L2, L1, !app_assoc. split; [reflexivity|]. split; [reflexivity|].
  apply Forall_app. split; [exact F1|]. now rewrite <- S.
Qed.
Lemma rxgrow_same x x' : rx_base x' = rx_base x -> rx_size x' = rx_size x -> rx_wr x' = rx_wr x ->
  rxm x' = rxm x -> rxlog x' = rxlog x -> rxgrow x x'.
Proof.
  intros E1 E2 E3 E4 E5 V. unfold rxv, pending, rx_rsr in *. rewrite E1, E2, E3, E4, E5. split; [exact V|].
  exists []. cbn [concat]. rewrite !app_nil_r. auto.
Qed.
Lemma rxgrow_sevs i x y : pkt_mode (sr x) -> sevs i x y -> rxgrow x y.
Proof.
  intros P H V.
  assert (G : sr y = sr x /\ rxv y /\ exists cs, pending y = pending x ++ concat cs /\ rxlog y = rxlog x ++ concat cs /\ Forall (atom (sr x)) cs).
  { refine (sevs_inv i (fun y => sr y = sr x /\ rxv y /\ exists cs, pending y = pending x ++ concat cs /\ rxlog y = rxlog x ++ concat cs /\ Forall (atom (sr x)) cs) _ x y H _).
    - intros z ev Hev (Sz & Vz & cs & Q1 & Q2 & Q3).
      assert (Sz' : sr (sock_step z ev) = sr x).
      { rewrite <- Sz. apply (sevs_sr_fixed i z _ (sevs_one i z ev Hev)). rewrite Sz. destruct P as [-> | ->]; auto. }
      destruct (rx_step z ev Vz) as (Vz' & [(ch & A & P1 & P2 & _)|(P1 & P2)]); (split; [exact Sz'|]); (split; [exact Vz'|]).
      + exists (cs ++ [ch]). rewrite P1, P2, Q1, Q2, concat_app. cbn [concat]. rewrite app_nil_r, !app_assoc. split; [reflexivity|]. split; [reflexivity|].
        apply Forall_app. split; [exact Q3|]. constructor; [|constructor]. rewrite <- Sz.
        destruct A as [n d A1|n ip p d A1 A2 A3 A4|d A1 A2]; rewrite A1.
        * exfalso. rewrite <- Sz, A1 in P. destruct P; discriminate.
        * split; [intros _; exists ip, p, d; auto|discriminate].
        * split; [discriminate|intros _; exists d; auto].
      + exists cs. rewrite P1, P2. auto.
    - split; [reflexivity|]. split; [exact V|]. exists []. cbn [concat]. rewrite !app_nil_r. auto. }
  apply G.
Qed.

Definition kept (x x' : sock) : Prop :=
  rxrel x x' /\ same_but_wr x x' /\ dialled x' = dialled x /\ sr x' = sr x /\ rxgrow x x'.
Lemma kept_trans x y z : kept x y -> kept y z -> kept x z.
Proof.
  intros (A1 & A2 & A3 & A4 & A5) (B1 & B2 & B3 & B4 & B5). split; [eapply rxrel_trans; eauto|].
  split; [intros a H1 H2; rewrite B2 by assumption; auto|]. split; [congruence|]. split; [congruence|]. now apply (rxgrow_trans x y).
Qed.
Lemma kept_sevs i x y : pkt_mode (sr x) -> sevs i x y -> kept x y.
Proof.
  intros P H. split; [now apply (rxrel_sevs i)|]. split; [intros a _ _; now rewrite (sevs_regs i x y H)|].
  split; [now apply (sevs_dialled i)|]. split; [apply (sevs_sr_fixed i x y H); destruct P as [-> | ->]; auto|]. now apply (rxgrow_sevs i).
Qed.
Definition sent_of (u : sock) (w : list byte) : sock :=
  set_tx_okdue (set_tx_busy (set_tx_end (staged_of u w) (tx_wr (staged_of u w))) true) false.
Lemma kept_sent_of u w : kept u (sent_of u w).
Proof.
  destruct (staged_fields u w) as (_ & _ & E1 & E2). split; [now apply rxrel_same|]. split; [|split; [reflexivity|split; [reflexivity|now apply rxgrow_same]]].
  intros a H1 H2. unfold sent_of, staged_of. sfields. now apply tx_regs_other.
Qed.
Lemma kept_clear x m : N.testbit m 2 = false -> kept x (set_ir x (N.ldiff (ir x) m)).
Proof.
  intros H. split; [|split; [intros a _ _; reflexivity|split; [reflexivity|split; [reflexivity|now apply rxgrow_same]]]].
  apply rxrel_same; try reflexivity. unfold recvf. sfields. now rewrite N.ldiff_spec, H, andb_true_r.
Qed.
Lemma packet_of_ext m m' w : (forall a, a <> Sn_TX_WR -> a <> Sn_TX_WR + 1 -> m' a = m a) -> packet_of m' w = packet_of m w.
Proof. intros H. unfold packet_of, get16. now rewrite !H by discriminate. Qed.

(** network activity after staging might as well have come before *)
Lemma staged_sevs i y w z : idle y -> sevs i (staged_of y w) z -> exists u, sevs i y u /\ z = staged_of u w.
Proof.
  intros I H. unfold staged_of in H.
  destruct (sevs_set_regs i (set_txm y (ring_write (txm y) (tx_size y) (tx_wr y) w)) _ z (tx_regs_sizes (regs y) _) I H) as (v & V1 & ->).
  destruct (sevs_set_txm i y _ v I V1) as (u & U1 & ->). exists u. split; [exact U1|].
  destruct (sevs_wr i y u U1) as (W & Z & _). unfold staged_of. now rewrite (sevs_txm i y u U1), (sevs_regs i y u U1), W, Z.
Qed.

Section Launch.
  Context (e : env) (i : N).
  Hypothesis NF : no_faults e.
  Hypothesis Hi : i < 8.

  (** the SEND command, given what was staged from a rested socket *)
  Lemma wp_send_cmd w (R : outcome (res unit berr) -> sys -> Prop) x y s :
    rested x -> 0 < len w -> len w <= tx_size x -> sevs i x y -> sk i s = staged_of y w ->
    (forall u s', sevs i x u -> rested u -> sk i s' = sent_of u w -> launched (sent_of u w) w -> R (Done (Ok tt)) s') ->
    wp e (command (socket_new i) CmSend) R s.
  Proof.
    intros R0 L0 L N1 E3 H. destruct (rested_sevs i _ _ N1 R0) as (Ry & _). pose proof Ry as (_ & _ & By & _).
    apply wp_command; auto. intros z s4 N2 E4. rewrite E3 in N2.
    destruct (staged_sevs i y w z By N2) as (u & U1 & ->).
    assert (Nu : sevs i x u) by (eapply sevs_trans; eauto).
    destruct (rested_sevs i _ _ Nu R0) as (Ru & _). destruct (sevs_wr i _ _ Nu) as (_ & Zu & _).
    apply (H u); auto.
    - rewrite E4, do_send_pkt by apply Ru. reflexivity.
    - apply (staged_launched u w); auto; [now rewrite Zu].
  Qed.
End Launch.
