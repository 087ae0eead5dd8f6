(** A UDP socket in use: from its first successful bind or connect on, through any sequence
    of API calls. *)
From Verif Require Export UdpReceive FrameFacts.
From Verif Require Import Datasheet TcpSession.

(** the destination registers hold [d] *)
Definition dest_regs (m : N -> byte) (d : addr4) : Prop :=
  [m Sn_DIPR; m (Sn_DIPR + 1); m (Sn_DIPR + 2); m (Sn_DIPR + 3)] = octets (a_ip d) /\ get16 m Sn_DPORT = a_port d.
(** the destination the driver remembers is the one the chip has *)
Definition coherent (dest : option addr4) (m : N -> byte) : Prop :=
  match dest with Some d => dest_regs m d | None => True end.
Lemma coherent_ext dest m m' : (forall a, 0x0C <= a < 0x12 -> m' a = m a) -> coherent dest m -> coherent dest m'.
Proof.
  intros H. unfold coherent, dest_regs, get16, Sn_DIPR, Sn_DPORT. destruct dest as [d|]; [|auto].
  rewrite !H by lia. auto.
Qed.
Lemma port_ext m m' : (forall a, 4 <= a < 6 -> m' a = m a) -> get16 m' Sn_PORT = get16 m Sn_PORT.
Proof. intros H. unfold get16, Sn_PORT. now rewrite !H by lia. Qed.

(** an open UDP socket between two calls *)
Definition uinv (dest : option addr4) (port : N) (x : sock) : Prop :=
  sr x = SOCK_UDP /\ rested x /\ rready x /\ (exists q, queue x q) /\ get16 (regs x) Sn_PORT = port /\ coherent dest (regs x).

Lemma uinv_sevs i dest port x y : sevs i x y -> uinv dest port x -> uinv dest port y.
Proof.
  intros N (U1 & U2 & U3 & (q & U4) & U5 & U6). destruct (rested_sevs i x y N U2) as (R & _ & G & _ & _ & S).
  destruct (sevs_queue i x y q N U1 (proj1 U3) U4) as (q' & Q & _).
  split; [congruence|]. split; [exact R|]. split; [now apply (rready_sevs i x)|]. split; [eauto|]. rewrite G. auto.
Qed.
Lemma rxrel_queue x x' : rxrel x x' -> rxv x -> exists ch, pending x' = pending x ++ ch /\ rxlog x' = rxlog x ++ ch.
Proof. intros (_ & _ & _ & _ & H) V. destruct (H V) as (_ & ch & P1 & P2 & _). eauto. Qed.

(** ** Setting the destination *)
Definition dest_of (y : sock) (r : addr4) : sock :=
  set_regs y (puts (puts (regs y) Sn_DIPR (octets (a_ip r))) Sn_DPORT (to_be (a_port r))).
Lemma dest_of_regs y r a : a < 0x0C \/ 0x12 <= a -> regs (dest_of y r) a = regs y a.
Proof.
  intros H. unfold dest_of. sfields. rewrite !puts_other; [reflexivity| |]; unfold Sn_DIPR, Sn_DPORT;
    [change (len (octets (a_ip r))) with 4|change (len (to_be (a_port r))) with 2]; lia.
Qed.
Lemma dest_of_dest y r : a_port r < 65536 -> dest_regs (regs (dest_of y r)) r.
Proof.
  intros H. unfold dest_of, dest_regs. sfields. split; [|now apply puts_get16].
  rewrite !(puts_other _ _ Sn_DPORT) by (left; reflexivity). destruct (a_ip r) as [a b c d]. reflexivity.
Qed.
Lemma dest_of_facts y r : sr (dest_of y r) = sr y /\ sent (dest_of y r) = sent y /\ (rested y -> rested (dest_of y r)) /\
  (rready y -> rready (dest_of y r)) /\ pending (dest_of y r) = pending y /\ rxlog (dest_of y r) = rxlog y /\
  fresh_ok (dest_of y r) = fresh_ok y /\ tmof (dest_of y r) = tmof y /\ tx_size (dest_of y r) = tx_size y /\ recvf (dest_of y r) = recvf y /\
  get16 (regs (dest_of y r)) Sn_PORT = get16 (regs y) Sn_PORT.
Proof.
  assert (W : tx_wr (dest_of y r) = tx_wr y) by (unfold tx_wr, get16; now rewrite !dest_of_regs by (right; discriminate)).
  assert (Z : tx_size (dest_of y r) = tx_size y) by (unfold tx_size; now rewrite !dest_of_regs by (right; discriminate)).
  assert (D : rx_rd (dest_of y r) = rx_rd y) by (unfold rx_rd, get16; now rewrite !dest_of_regs by (right; discriminate)).
  assert (X : rx_size (dest_of y r) = rx_size y) by (unfold rx_size; now rewrite !dest_of_regs by (right; discriminate)).
  split; [reflexivity|]. split; [reflexivity|]. split.
  { intros (P & V & B & E). split; [exact P|]. rewrite Z, W. auto. }
  split. { intros (V & E). unfold rready, rxv in *. rewrite D, X. auto. }
  split. { unfold pending. now rewrite X. }
  do 3 (split; [reflexivity|]). split; [exact Z|]. split; [reflexivity|]. apply port_ext. intros a Ha. apply dest_of_regs. lia.
Qed.
Lemma uinv_dest dest port y r : a_port r < 65536 -> uinv dest port y -> uinv (Some r) port (dest_of y r).
Proof.
  intros Hr (U1 & U2 & U3 & (q & U4 & U4') & U5 & U6). destruct (dest_of_facts y r) as (F1 & F2 & F3 & F4 & F5 & _ & _ & _ & _ & _ & F11).
  split; [congruence|]. split; [auto|]. split; [auto|]. split; [exists q; split; [congruence|exact U4']|]. split; [congruence|].
  now apply dest_of_dest.
Qed.

(** ** Setting the local port *)
Definition port_of (y : sock) (p : N) : sock := set_regs y (puts (regs y) Sn_PORT (to_be p)).
Lemma port_of_regs y p a : a < 4 \/ 6 <= a -> regs (port_of y p) a = regs y a.
Proof.
  intros H. unfold port_of. sfields. apply puts_other. unfold Sn_PORT. change (len (to_be p)) with 2. lia.
Qed.
Lemma uinv_port dest port y p : p < 65536 -> uinv dest port y -> uinv dest p (port_of y p).
Proof.
  intros Hp (U1 & (P & V & B & E) & (Vr & Er) & (q & U4 & U4') & U5 & U6).
  assert (W : tx_wr (port_of y p) = tx_wr y) by (unfold tx_wr, get16; now rewrite !port_of_regs by (right; discriminate)).
  assert (Z : tx_size (port_of y p) = tx_size y) by (unfold tx_size; now rewrite !port_of_regs by (right; discriminate)).
  assert (D : rx_rd (port_of y p) = rx_rd y) by (unfold rx_rd, get16; now rewrite !port_of_regs by (right; discriminate)).
  assert (X : rx_size (port_of y p) = rx_size y) by (unfold rx_size; now rewrite !port_of_regs by (right; discriminate)).
  split; [exact U1|]. split. { split; [exact P|]. rewrite Z, W. auto. }
  split. { unfold rready, rxv in *. rewrite D, X. auto. }
  split. { exists q. split; [|exact U4']. unfold pending in *. now rewrite X. }
  split; [unfold port_of; sfields; now apply puts_get16|].
  apply (coherent_ext dest (regs y)); [|exact U6]. intros a Ha. apply port_of_regs. lia.
Qed.

(** ** Right after OPEN *)
Lemma open_regs_at port p m a : a <> Sn_MR -> a <> Sn_IMR -> a < 4 \/ 6 <= a -> open_regs port p m a = m a.
Proof.
  intros H1 H2 H3. unfold open_regs. rewrite !(puts_other [_]) by (change (len [_]) with 1; lia).
  destruct port as [v|]; [|reflexivity]. apply puts_other. change (len (to_be v)) with 2. unfold Sn_PORT. lia.
Qed.
Lemma open_regs_port p pr m : p < 65536 -> get16 (open_regs (Some p) pr m) Sn_PORT = p.
Proof.
  intros H. unfold open_regs. rewrite (port_ext (puts m Sn_PORT (to_be p))); [now apply puts_get16|].
  intros a Ha. rewrite !(puts_other [_]); [reflexivity| |]; change (len [_]) with 1; unfold Sn_MR, Sn_IMR; lia.
Qed.
Definition udp_opened (x : sock) (port : N) : sock := opened x (open_regs (Some port) MR_UDP (regs x)) SOCK_UDP.
Lemma uinv_opened x port dest : port < 65536 -> valid_size (tx_size x) -> valid_size (rx_size x) -> coherent dest (regs x) ->
  uinv dest port (udp_opened x port) /\ queue (udp_opened x port) [] /\ fresh_ok (udp_opened x port) = false /\ tmof (udp_opened x port) = false /\
  regs (udp_opened x port) Sn_IMR = u8 open_mask /\ sent (udp_opened x port) = sent x /\ rxlog (udp_opened x port) = [].
Proof.
  intros Hp Vt Vr C. unfold udp_opened. set (rg := open_regs _ _ _).
  assert (R1 : rg Sn_TXBUF_SIZE = regs x Sn_TXBUF_SIZE) by (apply open_regs_size; auto).
  assert (R2 : rg Sn_RXBUF_SIZE = regs x Sn_RXBUF_SIZE) by (apply open_regs_size; auto).
  destruct (opened_sizes x rg SOCK_UDP R1 R2) as [Z1 Z2].
  destruct (fresh_opened x rg SOCK_UDP Vt Vr ltac:(reflexivity) R1 R2) as (_ & F2 & _ & _ & F5).
  destruct (opened_tx x rg SOCK_UDP) as (T1 & T2 & T3 & T4 & _ & _ & _ & T8 & T9 & T10 & T11 & _).
  pose proof (opened_ir x rg SOCK_UDP 4 ltac:(reflexivity)) as I4. pose proof (opened_ir x rg SOCK_UDP 3 ltac:(reflexivity)) as I3.
  assert (G : forall a, a < 0x24 -> regs (opened x rg SOCK_UDP) a = rg a) by (intros a Ha; apply opened_regs; lia).
  assert (GI : regs (opened x rg SOCK_UDP) Sn_IMR = rg Sn_IMR) by (apply opened_regs; right; left; reflexivity).
  assert (S : sr (opened x rg SOCK_UDP) = SOCK_UDP) by reflexivity.
  generalize dependent (opened x rg SOCK_UDP). intros o Z1 Z2 F2 F5 T1 T2 T3 T4 T8 T9 T10 T11 I4 I3 G GI S.
  assert (Q : queue o []) by (split; [now rewrite <- F5, T10|constructor]).
  split; [|split; [exact Q|]].
  - split; [exact S|]. split. { split; [left; exact S|]. rewrite Z1. auto. }
    split; [exact F2|]. split; [eauto|]. split.
    + rewrite (port_ext rg) by (intros a Ha; apply G; lia). now apply open_regs_port.
    + apply (coherent_ext dest (regs x)); [|exact C]. intros a Ha. rewrite G by lia. apply open_regs_at; unfold Sn_MR, Sn_IMR; lia.
  - split; [unfold fresh_ok, sendok; now rewrite I4, T9|]. split; [exact I3|]. split; [rewrite GI; reflexivity|]. auto.
Qed.

(** a write to plain registers, whatever the socket is doing *)
Lemma regs_write e i : forall d a s, a + len d < 65536 -> forallb plain (map (fun j => a + N.of_nat j) (seq 0 (length d))) = true ->
  regs (sk i (write_bytes e (BSB_REG i) a d s)) = puts (regs (sk i s)) a d.
Proof.
  induction d as [|b d IH]; intros a s Ha HP; [reflexivity|]. rewrite len_cons in Ha. cbn [write_bytes puts].
  cbn [length seq map forallb] in HP. apply andb_true_iff in HP as [H1 H2]. change (N.of_nat 0) with 0 in H1. rewrite N.add_0_r in H1.
  unfold next_addr. rewrite N.mod_small by lia. rewrite IH; [|lia|].
  - unfold sk at 1, on_chip. cbn [s_chip]. rewrite wbyte_reg, sock_wr_plain by exact H1. cbn [regs set_regs].
    fold (sk i (tick e s)). now rewrite (sevs_regs i _ _ (tick_sevs i e s)).
  - rewrite <- H2, <- seq_shift, map_map. f_equal. apply map_ext. intros j. lia.
Qed.

Section Calls.
  Context (e : env) (i : N).
  Hypothesis NF : no_faults e.
  Hypothesis Hi : i < 8.

  Lemma wp_set_source_port_any v (R : outcome (res unit berr) -> sys -> Prop) s :
    (forall s1, regs (sk i s1) = puts (regs (sk i s)) Sn_PORT (to_be v) -> R (Done (Ok tt)) s1) ->
    wp e (set_source_port (socket_new i) v) R s.
  Proof.
    intros H. unfold set_source_port, write_frame. rewrite so_reg by exact Hi. unfold wp. cbn [run]. unfold bus_write. rewrite NF. cbn [run fst snd].
    apply H. apply regs_write; reflexivity.
  Qed.

  Lemma wp_udp_set_destination dest port r (Q : outcome (UdpSocket * res unit uerr) -> sys -> Prop) s :
    idle (sk i s) ->
    (forall y s', sevs i (sk i s) y -> sk i s' = dest_of y r \/ (sk i s' = y /\ dest = Some r) ->
       Q (Done (mkUdp (socket_new i) (Some r) port, Ok tt)) s') ->
    wp e (udp_set_destination (mkUdp (socket_new i) dest port) r) Q s.
  Proof.
    intros I H. unfold udp_set_destination. cbn [u_dest u_socket u_port].
    assert (K : wp e (try a <- set_destination_ip (socket_new i) (a_ip r) else (fun e => (mkUdp (socket_new i) dest port, Err (UOther e))) ;;
         try b <- set_destination_port (socket_new i) (a_port r) else (fun e => (mkUdp (socket_new i) dest port, Err (UOther e))) ;;
         Ret (mkUdp (socket_new i) (Some r) port, Ok tt)) Q s).
    { apply wp_try, wp_set_destination_ip; auto. intros y s1 N1 E1. cbv beta iota. destruct (sevs_idle i _ _ N1 I) as (Iy & _).
      apply wp_try, wp_set_destination_port; auto; [rewrite E1; exact Iy|]. intros z s2 N2 E2. cbv beta iota. apply wp_ret.
      rewrite E1 in N2.
      destruct (sevs_set_regs i y _ z (puts_sizes (octets (a_ip r)) (regs y) Sn_DIPR ltac:(destruct (a_ip r); reflexivity)) Iy N2) as (u & U1 & U2).
      apply (H u); [eapply sevs_trans; eauto|]. left. rewrite E2, U2. unfold dest_of. rewrite (sevs_regs i _ _ U1). reflexivity. }
    destruct dest as [d|]; [|exact K]. destruct (addr4_eqb d r) eqn:Ed; [|exact K]. cbn [negb].
    apply addr4_eqb_eq in Ed. subst d. apply wp_ret. apply (H (sk i s)); [apply sevs_refl|]. right. auto.
  Qed.

  Lemma wp_udp_connect dest port r (Q : outcome (UdpSocket * res unit uerr) -> sys -> Prop) s :
    (forall x y s', sevs i (sk i s) x -> sevs i (udp_opened x port) y -> sk i s' = dest_of y r \/ (sk i s' = y /\ dest = Some r) ->
       Q (Done (mkUdp (socket_new i) (Some r) port, Ok tt)) s') ->
    wp e (udp_connect (mkUdp (socket_new i) dest port) (V4 r)) Q s.
  Proof.
    intros H. unfold udp_connect. apply wp_try, wp_udp_open; auto. intros x s1 N1 E1. cbv beta iota. fold (udp_opened x port) in E1.
    apply wp_udp_set_destination.
    { rewrite E1. unfold udp_opened. destruct (opened_tx x (open_regs (Some port) MR_UDP (regs x)) SOCK_UDP) as (_ & _ & _ & _ & _ & _ & _ & T & _). exact T. }
    intros y s2 N2 E2. rewrite E1 in N2. now apply (H x y).
  Qed.
  Lemma wp_udp_bind dest port p (Q : outcome (UdpSocket * res unit uerr) -> sys -> Prop) s :
    (forall x s', regs x = puts (regs (sk i s)) Sn_PORT (to_be p) -> (idle (sk i s) -> sent x = sent (sk i s)) -> sk i s' = udp_opened x p ->
       Q (Done (mkUdp (socket_new i) dest p, Ok tt)) s') ->
    wp e (udp_bind (mkUdp (socket_new i) dest port) p) Q s.
  Proof.
    intros H. unfold udp_bind, udp_set_port. cbn [u_socket u_dest u_port]. apply wp_bind, wp_try.
    assert (K : wp e (set_source_port (socket_new i) p) (fun o s1 => o = Done (Ok tt) /\ regs (sk i s1) = puts (regs (sk i s)) Sn_PORT (to_be p) /\
       (idle (sk i s) -> idle (sk i s1) /\ sent (sk i s1) = sent (sk i s))) s).
    { assert (K1 : wp e (set_source_port (socket_new i) p) (fun o s1 => o = Done (Ok tt) /\ regs (sk i s1) = puts (regs (sk i s)) Sn_PORT (to_be p)) s).
      { apply wp_set_source_port_any. auto. }
      destruct (tx_busy (sk i s)) eqn:B.
      - eapply wp_mono; [|exact K1]. intros o s1 (A1 & A2). split; [exact A1|]. split; [exact A2|]. intros I. unfold idle in I. congruence.
      - apply wp_set_source_port; auto. intros y s1 N1 E1. split; [reflexivity|]. rewrite E1. destruct (sevs_idle i _ _ N1 B) as (Iy & _ & _ & Sy).
        cbn [regs set_regs sent]. rewrite (sevs_regs i _ _ N1). split; [reflexivity|]. intros _. split; [exact Iy|exact Sy]. }
    eapply wp_mono; [|exact K]. intros o s1 (-> & R1 & I1). cbv beta iota. apply wp_ret. cbn [fst snd].
    apply wp_try, wp_udp_open; auto. intros x s2 N2 E2. cbv beta iota. apply wp_ret. apply (H x).
    - now rewrite (sevs_regs i _ _ N2).
    - intros I. destruct (I1 I) as (I2 & S2). destruct (sevs_idle i _ _ N2 I2) as (_ & _ & _ & S3). congruence.
    - exact E2.
  Qed.
End Calls.

(** ** Sending and receiving on an open socket *)
Lemma atoms_records cs : Forall (atom SOCK_UDP) cs -> exists q, concat cs = records q /\ Forall wf_dgram q.
Proof.
  induction 1 as [|c cs (H & _) _ (q & E & F)]; [exists []; split; [reflexivity|constructor]|].
  destruct (H eq_refl) as (ip & p & d & H1 & H2 & H3 & ->). exists (mkDgram ip p d :: q).
  split; [unfold records in *; cbn [concat map]; now rewrite E|]. constructor; [now split|exact F].
Qed.
Lemma kept_queue x x' q : kept x x' -> sr x = SOCK_UDP -> rxv x -> queue x q ->
  exists q', queue x' (q ++ q') /\ rxlog x' = rxlog x ++ records q'.
Proof.
  intros (_ & _ & _ & _ & G) S V (Q1 & Q2). destruct (G V) as (_ & cs & P1 & P2 & F). rewrite S in F.
  destruct (atoms_records cs F) as (q' & E & W). exists q'. rewrite P2, E. split; [|reflexivity].
  split; [rewrite P1, Q1, E, records_app; reflexivity|]. apply Forall_app. auto.
Qed.
Lemma uinv_kept dest port x x' : kept x x' -> rested x' -> uinv dest port x -> uinv dest port x'.
Proof.
  intros K R (U1 & U2 & U3 & (q & U4) & U5 & U6). destruct (kept_queue x x' q K U1 (proj1 U3) U4) as (q' & Q & _).
  destruct K as (K1 & K2 & _ & K4 & _).
  split; [congruence|]. split; [exact R|]. split; [now apply (rready_rxrel x)|]. split; [eauto|]. split.
  - rewrite <- U5. apply port_ext. intros a Ha. apply K2; unfold Sn_TX_WR; lia.
  - apply (coherent_ext dest (regs x)); [|exact U6]. intros a Ha. apply K2; unfold Sn_TX_WR; lia.
Qed.
Lemma uinv_pkeep dest port x x' : pkeep x x' -> rready x' -> (exists q, queue x' q) -> uinv dest port x -> uinv dest port x'.
Proof.
  intros (K1 & K2 & K3 & K4 & K5 & K6 & K7) R Q (U1 & U2 & U3 & U4 & U5 & U6).
  split; [congruence|]. split; [exact K1|]. split; [exact R|]. split; [exact Q|]. split.
  - rewrite <- U5. apply port_ext. intros a Ha. apply K7; unfold Sn_RX_RD; lia.
  - apply (coherent_ext dest (regs x)); [|exact U6]. intros a Ha. apply K7; unfold Sn_RX_RD; lia.
Qed.

(** the datagram carrying [d] from [port] to [r] *)
Definition sent_to (port : N) (r : addr4) (d : list byte) : packet := mkPacket port (octets (a_ip r)) (a_port r) d.
Lemma uinv_packet r port x w : uinv (Some r) port x -> packet_of (regs x) w = sent_to port r w.
Proof. intros (_ & _ & _ & _ & U5 & U6 & U7). unfold packet_of, sent_to. now rewrite U5, U6, U7. Qed.
Lemma uinv_packets r port x cs : uinv (Some r) port x -> map (packet_of (regs x)) cs = map (sent_to port r) cs.
Proof. intros U. apply map_ext. intros w. now apply uinv_packet. Qed.

(** the outcomes of a send of [buf] to [r], from socket state [x] *)
Definition usend_ok (port : N) (r : addr4) (buf : list byte) (x x' : sock) : Prop := exists cs ps,
  cut_into (tx_size x) buf cs /\ sent x' = sent x ++ ps /\ part ps (map (sent_to port r) cs) /\
  (tmof x = true -> tmof x' = true) /\ (tmof x' = false -> ps = map (sent_to port r) cs) /\
  (fresh_ok x = false -> len buf <= tx_size x -> ps = map (sent_to port r) cs).
Definition usend_timeout (port : N) (r : addr4) (buf : list byte) (x x' : sock) : Prop := exists cs rest ps,
  buf = concat cs ++ rest /\ cs <> [] /\ cut_so_far (tx_size x) cs rest /\
  sent x' = sent x ++ ps /\ part ps (map (sent_to port r) cs) /\ (tmof x = false -> (length ps < length cs)%nat).
Definition usend_waiting (port : N) (r : addr4) (buf : list byte) (x x' : sock) : Prop := exists cs rest ps,
  buf = concat cs ++ rest /\ cut_so_far (tx_size x) cs rest /\
  sent x' = sent x ++ ps /\ part ps (map (sent_to port r) cs).
(** what is queued only grows during a send *)
Definition qgrow (x x' : sock) : Prop := forall q, queue x q -> exists q', queue x' (q ++ q') /\ rxlog x' = rxlog x ++ records q'.

Section Api.
  Context (e : env) (i : N).
  Hypothesis NF : no_faults e.
  Hypothesis Hi : i < 8.

  Lemma wp_udp_send_known fuel r port buf (Q : outcome (res unit (nberr uerr)) -> sys -> Prop) s :
    uinv (Some r) port (sk i s) ->
    (forall s', uinv (Some r) port (sk i s') -> qgrow (sk i s) (sk i s') -> usend_ok port r buf (sk i s) (sk i s') -> Q (Done (Ok tt)) s') ->
    (forall s', uinv (Some r) port (sk i s') -> qgrow (sk i s) (sk i s') -> usend_timeout port r buf (sk i s) (sk i s') ->
       Q (Done (Err (NbOther UWriteTimeout))) s') ->
    (forall s', qgrow (sk i s) (sk i s') -> usend_waiting port r buf (sk i s) (sk i s') -> Q Looping s') ->
    wp e (udp_send fuel (mkUdp (socket_new i) (Some r) port) buf) Q s.
  Proof.
    intros U HO HT HL. pose proof U as (U1 & U2 & U3 & _).
    assert (G : forall x', kept (sk i s) x' -> qgrow (sk i s) x') by (intros x' K q Qq; now apply kept_queue; [|apply U1|apply U3|]).
    unfold udp_send. apply wp_udp_send_all; auto.
    - intros s' (cs & ps & C1 & C2 & (C3 & C4 & C5) & C6 & C7 & C8). rewrite (uinv_packets r port _ cs U) in C5, C7, C8.
      apply HO; [now apply (uinv_kept _ _ (sk i s))|now apply G|]. exists cs, ps. do 5 (split; [assumption|]).
      intros F L. apply C8; [exact F|]. destruct (N.eq_dec (len buf) 0) as [Z|Z].
      + destruct buf as [|b buf]; [|rewrite len_cons in Z; lia]. rewrite (cut_zero _ _ C1). cbn. lia.
      + rewrite (cut_one _ _ _ C1) by lia. cbn. lia.
    - intros s' (cs & rest & ps & C1 & C2 & C3 & C4 & (C5 & C6 & C7) & C8). rewrite (uinv_packets r port _ cs U) in C7.
      apply HT; [now apply (uinv_kept _ _ (sk i s))|now apply G|]. exists cs, rest, ps. auto 10.
    - intros s' (cs & rest & ps & C1 & C2 & (C5 & C6 & C7)). rewrite (uinv_packets r port _ cs U) in C7.
      apply HL; [now apply G|]. exists cs, rest, ps. auto 10.
  Qed.
  Lemma wp_udp_send_unknown fuel port buf (Q : outcome (res unit (nberr uerr)) -> sys -> Prop) s :
    sr (sk i s) = SOCK_UDP ->
    (forall s', sevs i (sk i s) (sk i s') -> Q (Done (Err (NbOther UDestinationNotSet))) s') ->
    wp e (udp_send fuel (mkUdp (socket_new i) None port) buf) Q s.
  Proof.
    intros Su H. unfold udp_send, udp_send_all. cbn [u_socket u_dest]. apply wp_try, wp_get_status; auto. intros s1 N1. cbv beta iota.
    rewrite (sevs_sr_fixed i _ _ N1), Su by (rewrite Su; auto). change (udp_status_gate (u8 SOCK_UDP)) with (@Ok unit (nberr uerr) tt). cbv iota.
    apply wp_ret. auto.
  Qed.

  Definition aimed (dest : option addr4) (r : addr4) (x x1 : sock) : Prop :=
    exists y, sevs i x y /\ (x1 = dest_of y r \/ (x1 = y /\ dest = Some r)).
  Lemma aimed_facts dest port r x x1 : a_port r < 65536 -> uinv dest port x -> aimed dest r x x1 ->
    uinv (Some r) port x1 /\ qgrow x x1 /\ sent x1 = sent x /\ fresh_ok x1 = fresh_ok x /\ tmof x1 = tmof x /\ tx_size x1 = tx_size x.
  Proof.
    intros Hr U (y & N & D). pose proof (uinv_sevs i _ _ _ _ N U) as Uy. pose proof U as (U1 & U2 & U3 & _).
    destruct (rested_sevs i x y N U2) as (_ & E1 & E2 & E3 & E4 & _). destruct (dest_of_facts y r) as (F1 & F2 & _ & _ & F5 & F6 & F7 & F8 & F9 & _).
    assert (G : qgrow x y) by (intros q Qq; now apply (sevs_queue i); [| | apply U3|]).
    assert (Z : tx_size y = tx_size x) by (unfold tx_size; now rewrite E2).
    unfold fresh_ok in *. destruct D as [-> |(-> & ->)]; [split; [now apply (uinv_dest dest)|split]|split; [exact Uy|split; [exact G|auto]]].
    - intros q Qq. destruct (G q Qq) as (q' & (Q1 & Q2) & Q3). exists q'. split; [split; [now rewrite F5|exact Q2]|now rewrite F6].
    - rewrite F2, F7, F8, F9. auto.
  Qed.
  Lemma qgrow_trans x y z : qgrow x y -> qgrow y z -> qgrow x z.
  Proof.
    intros A B q Qx. destruct (A q Qx) as (q1 & Q1 & L1). destruct (B _ Q1) as (q2 & Q2 & L2). exists (q1 ++ q2).
    rewrite app_assoc. split; [exact Q2|]. rewrite L2, L1, records_app. symmetry. apply app_assoc.
  Qed.
  Lemma wp_udp_send_to fuel dest r port buf (Q : outcome (UdpSocket * res unit (nberr uerr)) -> sys -> Prop) s :
    a_port r < 65536 -> uinv dest port (sk i s) ->
    (forall s', uinv (Some r) port (sk i s') -> qgrow (sk i s) (sk i s') -> usend_ok port r buf (sk i s) (sk i s') ->
       Q (Done (mkUdp (socket_new i) (Some r) port, Ok tt)) s') ->
    (forall s', uinv (Some r) port (sk i s') -> qgrow (sk i s) (sk i s') -> usend_timeout port r buf (sk i s) (sk i s') ->
       Q (Done (mkUdp (socket_new i) (Some r) port, Err (NbOther UWriteTimeout))) s') ->
    (forall s', qgrow (sk i s) (sk i s') -> usend_waiting port r buf (sk i s) (sk i s') -> Q Looping s') ->
    wp e (udp_send_to fuel (mkUdp (socket_new i) dest port) (V4 r) buf) Q s.
  Proof.
    intros Hr U HO HT HL. unfold udp_send_to, udp_send_to_v4. pose proof U as (_ & (_ & _ & B & _) & _).
    apply wp_bind, wp_udp_set_destination; auto. intros y s1 N1 E1. cbn [fst snd].
    destruct (aimed_facts dest port r (sk i s) (sk i s1) Hr U (ex_intro _ y (conj N1 E1))) as (U1 & G1 & S1 & F1 & T1 & Z1).
    apply wp_bind. fold (udp_send fuel (mkUdp (socket_new i) (Some r) port) buf). apply wp_udp_send_known; auto.
    - intros s' U' G' (cs & ps & C1 & C2 & C3 & C4 & C5 & C6). apply wp_ret, HO; [exact U'|eapply qgrow_trans; eauto|].
      exists cs, ps. rewrite <- Z1, <- S1, <- F1, <- T1. auto 10.
    - intros s' U' G' (cs & rest & ps & C1 & C2 & C3 & C4 & C5 & C6). apply wp_ret, HT; [exact U'|eapply qgrow_trans; eauto|].
      exists cs, rest, ps. rewrite <- Z1, <- S1, <- T1. auto 10.
    - intros s' G' (cs & rest & ps & C1 & C2 & C3 & C4). apply HL; [eapply qgrow_trans; eauto|].
      exists cs, rest, ps. rewrite <- Z1, <- S1. auto 10.
  Qed.

  Lemma wp_udp_receive_api fuel dest port buf q0 (Q : outcome (list byte * res (N * sockaddr) (nberr uerr)) -> sys -> Prop) s :
    uinv dest port (sk i s) -> queue (sk i s) q0 ->
    (forall n o buf' s', uinv dest port (sk i s') -> urecv (sk i s) q0 buf n o buf' (sk i s') -> Q (Done (buf', Ok (n, V4 o))) s') ->
    (forall s', sevs i (sk i s) (sk i s') -> (recvf (sk i s) = false \/ q0 = []) -> Q (Done (buf, Err WouldBlock)) s') ->
    (forall s', sevs i (sk i s) (sk i s') -> buf = [] -> Q (Done (buf, Err (NbOther UBufferOverflow))) s') ->
    (forall s' g q q1, sevs i (sk i s) (sk i s') -> q0 ++ q1 = g :: q -> queue (sk i s') (q0 ++ q1) -> len buf < len (g_data g) ->
       Q (Panicked P_udp_recv_slice) s') ->
    (forall s', sevs i (sk i s) (sk i s') -> Q Looping s') ->
    wp e (udp_receive fuel (mkUdp (socket_new i) dest port) buf) Q s.
  Proof.
    intros U Q0 HO HW HB HP HL. pose proof U as (U1 & U2 & U3 & _). unfold udp_receive. apply wp_bind, (wp_udp_receive e i NF Hi dest port fuel buf q0); auto.
    - intros n h buf' s' C. apply wp_ret. cbn [fst snd]. apply HO; [|exact C].
      destruct C as (C1 & C2 & g & q & later & q' & _ & _ & C3 & _). apply (uinv_pkeep _ _ (sk i s)); eauto.
  Qed.
End Api.

(** ** Any sequence of API calls *)
(** the destination last named by the program for handle [h], and the port last bound or set *)
Definition named1 (h : nat) (dest : option addr4) (o : op) : option addr4 :=
  match o with
  | OpUdpConnect h' (V4 r) => if Nat.eqb h' h then Some r else dest
  | OpUdpSendTo h' (V4 r) _ => if Nat.eqb h' h then Some r else dest
  | _ => dest
  end.
Definition bound1 (h : nat) (port : N) (o : op) : N :=
  match o with OpUdpBind h' p | OpUdpSetPort h' p => if Nat.eqb h' h then p else port | _ => port end.
Definition named (h : nat) (dest : option addr4) (ops : list op) : option addr4 := fold_left (named1 h) ops dest.
Definition bound (h : nat) (port : N) (ops : list op) : N := fold_left (bound1 h) ops port.
(** calls that neither give up handle [h] nor reset the chip; ports are u16 values *)
Definition keeps_udp (h : nat) (o : op) : Prop :=
  match o with
  | OpUdpClose h' | OpForget h' => h' <> h
  | OpUdpConnect h' (V4 r) | OpUdpSendTo h' (V4 r) _ => a_port r < 65536
  | OpUdpBind h' p | OpUdpSetPort h' p => p < 65536
  | OpDevice QResetDevice => False
  | _ => True
  end.

Lemma valid_kept i x y : sevs i x y -> valid_size (tx_size x) -> valid_size (rx_size x) -> valid_size (tx_size y) /\ valid_size (rx_size y).
Proof. intros N Vt Vr. destruct (sevs_wr i x y N) as (_ & Z1 & _ & Z2). now rewrite Z1, Z2. Qed.

(** opening, from any state of the socket *)
Lemma connect_opens e i dest port r s (Q : outcome (UdpSocket * res unit uerr) -> sys -> Prop) : no_faults e -> i < 8 -> port < 65536 -> a_port r < 65536 -> valid_size (tx_size (sk i s)) -> valid_size (rx_size (sk i s)) ->
  (dest = Some r -> coherent dest (regs (sk i s))) ->
  (forall s', uinv (Some r) port (sk i s') -> regs (sk i s') Sn_IMR = u8 open_mask -> (idle (sk i s) -> sent (sk i s') = sent (sk i s)) ->
     Q (Done (mkUdp (socket_new i) (Some r) port, Ok tt)) s') ->
  wp e (udp_connect (mkUdp (socket_new i) dest port) (V4 r)) Q s.
Proof.
  intros NF Hi Hp Hr Vt Vr C H. apply wp_udp_connect; auto. intros x y s' N1 N2 E. pose proof (sevs_regs i _ _ N1) as G.
  destruct (valid_kept i _ _ N1 Vt Vr) as (Vt' & Vr').
  assert (D : exists d0, coherent d0 (regs x) /\ (sk i s' = dest_of y r \/ sk i s' = y /\ d0 = Some r)).
  { destruct E as [E|(E & Ed)]; [exists None; split; [exact Logic.I|auto]|]. exists dest. rewrite G. auto. }
  destruct D as (d0 & C0 & E0).
  destruct (uinv_opened x port d0 Hp Vt' Vr' C0) as (U & _ & _ & _ & M & S & _).
  generalize dependent (udp_opened x port). intros o N2 U M S.
  destruct (aimed_facts i d0 port r o (sk i s') Hr U (ex_intro _ y (conj N2 E0))) as (U' & _ & S' & _).
  apply H; [exact U'| |].
  - destruct E as [-> |(-> & _)]; [rewrite dest_of_regs by (right; discriminate)|]; now rewrite (sevs_regs i _ _ N2).
  - intros I. destruct (sevs_idle i _ _ N1 I) as (_ & _ & _ & S1). congruence.
Qed.
Lemma bind_opens e i dest port p s (Q : outcome (UdpSocket * res unit uerr) -> sys -> Prop) : no_faults e -> i < 8 -> p < 65536 -> valid_size (tx_size (sk i s)) -> valid_size (rx_size (sk i s)) ->
  coherent dest (regs (sk i s)) ->
  (forall s', uinv dest p (sk i s') -> regs (sk i s') Sn_IMR = u8 open_mask -> (idle (sk i s) -> sent (sk i s') = sent (sk i s)) ->
     Q (Done (mkUdp (socket_new i) dest p, Ok tt)) s') ->
  wp e (udp_bind (mkUdp (socket_new i) dest port) p) Q s.
Proof.
  intros NF Hi Hp Vt Vr C H. apply wp_udp_bind; auto. intros x s' G Sx E.
  assert (G' : forall a, 6 <= a -> regs x a = regs (sk i s) a).
  { intros a Ha. rewrite G. apply puts_other. change (len (to_be p)) with 2. unfold Sn_PORT. lia. }
  assert (Vt' : valid_size (tx_size x)) by (unfold tx_size in *; now rewrite G' by discriminate).
  assert (Vr' : valid_size (rx_size x)) by (unfold rx_size in *; now rewrite G' by discriminate).
  assert (C' : coherent dest (regs x)) by (apply (coherent_ext dest (regs (sk i s))); [intros a Ha; apply G'; lia|exact C]).
  destruct (uinv_opened x p dest Hp Vt' Vr' C') as (U & _ & _ & _ & M & S & _).
  generalize dependent (udp_opened x p). intros o E U M S. apply H; rewrite E; auto. intros I. rewrite S. auto.
Qed.
Lemma uinv_valid dest port x : uinv dest port x -> valid_size (tx_size x) /\ valid_size (rx_size x) /\ coherent dest (regs x) /\ idle x.
Proof. intros (_ & (_ & V & B & _) & ((Vr & _) & _) & _ & _ & C). auto. Qed.

(** set_port on an open socket *)
Lemma set_port_keeps e i dest port p s (Q : outcome (UdpSocket * res unit uerr) -> sys -> Prop) : no_faults e -> i < 8 -> p < 65536 ->
  uinv dest port (sk i s) ->
  (forall s', uinv dest p (sk i s') -> sent (sk i s') = sent (sk i s) -> Q (Done (mkUdp (socket_new i) dest p, Ok tt)) s') ->
  wp e (udp_set_port (mkUdp (socket_new i) dest port) p) Q s.
Proof.
  intros NF Hi Hp U H. destruct (uinv_valid _ _ _ U) as (_ & _ & _ & B). unfold udp_set_port. cbn [u_socket u_dest u_port].
  apply wp_try, wp_set_source_port; auto. intros y s1 N1 E1. apply wp_ret. fold (port_of y p) in E1. apply H; rewrite E1.
  - apply (uinv_port dest port); [exact Hp|]. now apply (uinv_sevs i _ _ (sk i s)).
  - apply (sevs_idle i _ _ N1 B).
Qed.

Definition udp_handle (i : N) (dest : option addr4) (port : N) : handle := HUdp (mkUdp (socket_new i) dest port).
Lemma step_udp e fuel a o s a' out s' h i dest port :
  i < 8 -> port < 65536 -> pool_inv a -> lookup h (handles a) = Some (udp_handle i dest port) ->
  keeps_udp h o -> uinv dest port (sk i s) ->
  run e (step fuel a o) s = (Done (a', out), s') -> (op_handle o = Some h -> out_berr out = None) ->
  bound1 h port o < 65536 /\ pool_inv a' /\ lookup h (handles a') = Some (udp_handle i (named1 h dest o) (bound1 h port o)) /\
  uinv (named1 h dest o) (bound1 h port o) (sk i s').
Proof.
  intros Hi Hp I L K S R NB.
  split. { destruct o; cbn [bound1]; auto; destruct (Nat.eqb h0 h); auto. }
  split; [now apply (run_step_inv e fuel a o s a' out s')|].
  assert (Dec : op_handle o = Some h \/ op_handle o <> Some h).
  { destruct (op_handle o) as [h'|]; [|right; discriminate]. destruct (Nat.eq_dec h' h) as [->|]; [left; reflexivity|right; congruence]. }
  destruct Dec as [E|E].
  - apply run_step_nofail in R; [|now apply NB]. pose proof (nofail_no_faults e) as NF. destruct (uinv_valid _ _ _ S) as (Vt & Vr & C & _).
    destruct o as [|h'| |h' r'|h' d|h' b|h'| |h' r'|h' pt|h' d|h' r' d|h' b|h'|h'| |q|h' pt|h' q]; cbn [op_handle] in E; try discriminate E; injection E as ->;
      cbn [step keeps_udp] in *; try (now elim K); rewrite L in R; unfold udp_handle in R;
      try (cbn [run] in R; injection R as <- <- <-; cbn [named1 bound1]; split; assumption).
    + (* connect *)
      apply run_bind_done in R as (res & s1 & R1 & R). cbn [run] in R. injection R as <- <- <-. cbn [bound1 named1]. rewrite Nat.eqb_refl.
      destruct r' as [r'|].
      * assert (X : res = (mkUdp (socket_new i) (Some r') port, Ok tt) /\ uinv (Some r') port (sk i s1)).
        { refine (wp_run (nofail e) _ (fun o s' => forall v, o = Done v -> v = _ /\ uinv (Some r') port (sk i s')) s (Done res) s1 R1 _ res eq_refl).
          apply connect_opens; auto. intros s2 U _ _ v [= <-]. auto. }
        destruct X as [-> U]. split; [|exact U]. cbn [fst handles put]. eapply lookup_update_same; eauto.
      * cbn [udp_connect run] in R1. injection R1 as <- <-. cbn [fst handles put]. split; [|exact S]. eapply lookup_update_same; eauto.
    + (* bind *)
      apply run_bind_done in R as (res & s1 & R1 & R). cbn [run] in R. injection R as <- <- <-. cbn [bound1 named1]. rewrite Nat.eqb_refl.
      assert (X : res = (mkUdp (socket_new i) dest pt, Ok tt) /\ uinv dest pt (sk i s1)).
      { refine (wp_run (nofail e) _ (fun o s' => forall v, o = Done v -> v = _ /\ uinv dest pt (sk i s')) s (Done res) s1 R1 _ res eq_refl).
        apply bind_opens; auto. intros s2 U _ _ v [= <-]. auto. }
      destruct X as [-> U]. split; [|exact U]. cbn [fst handles put]. eapply lookup_update_same; eauto.
    + (* send *)
      apply run_bind_done in R as (res & s1 & R1 & R). cbn [run] in R. injection R as <- <- <-. cbn [bound1 named1]. split; [exact L|].
      refine (wp_run (nofail e) _ (fun o s' => forall v, o = Done v -> uinv dest port (sk i s')) s (Done res) s1 R1 _ res eq_refl).
      destruct dest as [r|].
      * apply wp_udp_send_known; auto. intros; discriminate.
      * apply wp_udp_send_unknown; auto; [apply S|]. intros s2 N v _. now apply (uinv_sevs i _ _ (sk i s)).
    + (* send_to *)
      apply run_bind_done in R as (res & s1 & R1 & R). cbn [run] in R. injection R as <- <- <-. cbn [bound1 named1]. rewrite Nat.eqb_refl.
      destruct r' as [r'|].
      * assert (X : fst res = mkUdp (socket_new i) (Some r') port /\ uinv (Some r') port (sk i s1)).
        { refine (wp_run (nofail e) _ (fun o s' => forall v, o = Done v -> fst v = mkUdp (socket_new i) (Some r') port /\ uinv (Some r') port (sk i s')) s (Done res) s1 R1 _ res eq_refl).
          apply wp_udp_send_to; auto.
          - intros s2 U _ _ v [= <-]. auto.
          - intros s2 U _ _ v [= <-]. auto.
          - intros; discriminate. }
        destruct X as [-> U]. split; [|exact U]. cbn [handles put]. eapply lookup_update_same; eauto.
      * cbn [udp_send_to run] in R1. injection R1 as <- <-. cbn [fst handles put]. split; [|exact S]. eapply lookup_update_same; eauto.
    + (* receive *)
      apply run_bind_done in R as (res & s1 & R1 & R). cbn [run] in R. injection R as <- <- <-. cbn [bound1 named1]. split; [exact L|].
      refine (wp_run (nofail e) _ (fun o s' => forall v, o = Done v -> uinv dest port (sk i s')) s (Done res) s1 R1 _ res eq_refl).
      pose proof S as (_ & _ & _ & (q0 & Q0) & _). apply (wp_udp_receive_api _ i NF Hi fuel dest port b q0); auto.
      * intros s2 N _ v _. now apply (uinv_sevs i _ _ (sk i s)).
      * intros s2 N _ v _. now apply (uinv_sevs i _ _ (sk i s)).
      * intros; discriminate.
      * intros; discriminate.
    + (* set_port *)
      apply run_bind_done in R as (res & s1 & R1 & R). cbn [run] in R. injection R as <- <- <-. cbn [bound1 named1]. rewrite Nat.eqb_refl.
      assert (X : res = (mkUdp (socket_new i) dest pt, Ok tt) /\ uinv dest pt (sk i s1)).
      { refine (wp_run (nofail e) _ (fun o s' => forall v, o = Done v -> v = _ /\ uinv dest pt (sk i s')) s (Done res) s1 R1 _ res eq_refl).
        apply set_port_keeps; auto. intros s2 U _ v [= <-]. auto. }
      destruct X as [-> U]. split; [|exact U]. cbn [fst handles put]. eapply lookup_update_same; eauto.
  - assert (D0 : named1 h dest o = dest).
    { unfold named1. destruct o; try reflexivity; destruct remote; try reflexivity; cbn [op_handle] in E;
        (destruct (Nat.eqb_spec h0 h) as [->|]; [now elim E|reflexivity]). }
    assert (P0 : bound1 h port o = port).
    { unfold bound1. destruct o; try reflexivity; cbn [op_handle] in E; (destruct (Nat.eqb_spec h0 h) as [->|]; [now elim E|reflexivity]). }
    rewrite D0, P0. split; [now apply (step_lookup e fuel a o s a' out s')|].
    assert (Hs : spares i (step fuel a o)).
    { eapply spares_step; eauto. intros ->. exact K. }
    pose proof (run_spares e i _ Hs s) as N. rewrite R in N. cbn [snd] in N. now apply (uinv_sevs i _ _ (sk i s)).
Qed.
Lemma run_ops_udp e fuel h i : i < 8 -> forall ops a s a' outs s' dest port,
  port < 65536 -> pool_inv a -> lookup h (handles a) = Some (udp_handle i dest port) ->
  Forall (keeps_udp h) ops -> uinv dest port (sk i s) ->
  run e (run_ops fuel a ops) s = (Done (a', outs), s') -> no_bus_error h ops outs ->
  bound h port ops < 65536 /\ pool_inv a' /\ lookup h (handles a') = Some (udp_handle i (named h dest ops) (bound h port ops)) /\
  uinv (named h dest ops) (bound h port ops) (sk i s').
Proof.
  intros Hi. induction ops as [|o ops IH]; intros a s a' outs s' dest port Hp I L K S R NB; cbn [run_ops] in R.
  - injection R as <- <- <-. auto.
  - apply run_bind_done in R as ([a1 o1] & s1 & R1 & R). apply run_bind_done in R as ([a2 o2] & s2 & R2 & R).
    cbn [run fst snd] in *. injection R as <- <- <-. inversion K as [|? ? K1 K2]; subst. cbn [no_bus_error] in NB. destruct NB as [NB1 NB2].
    destruct (step_udp e fuel a o s a1 o1 s1 h i dest port Hi Hp I L K1 S R1 NB1) as (P1 & I1 & L1 & S1).
    exact (IH a1 s1 a2 o2 s2 _ _ P1 I1 L1 K2 S1 R2 NB2).
Qed.

(** ** The situation of a UDP socket in use, for the theorems *)
(** A program made the calls [ops0], any of which may have reported a bus error; its UDP handle
    [h] (socket [i]) remembered no destination, or one the chip's registers hold.  Then a bind or
    connect on [h] returned Ok (a connect to a remote other than the remembered one writes the
    registers afresh, so then they may hold anything), and the calls [ops] followed, none of which closed the handle or reset the chip; no call on [h]
    reported a bus error.  [dest] is the destination last named for [h], [port] its local port. *)
Definition udp_session (e : env) (fuel h : nat) (i : N) (dest : option addr4) (port : N) (a : History.app) (s : sys) : Prop :=
  exists ho s00 ops0 a0 outs0 s0 u o1 a1 s1 ops outs,
    run e (run_ops fuel (app_new ho) ops0) s00 = (Done (a0, outs0), s0) /\
    lookup h (handles a0) = Some (HUdp u) /\ index (u_socket u) = i /\ u_port u < 65536 /\
    (coherent (u_dest u) (regs (socks (s_chip s0) i)) \/ (exists r, o1 = OpUdpConnect h (V4 r) /\ u_dest u <> Some r)) /\
    valid_size (tx_size (socks (s_chip s0) i)) /\ valid_size (rx_size (socks (s_chip s0) i)) /\
    ((exists r, o1 = OpUdpConnect h (V4 r)) \/ (exists p, o1 = OpUdpBind h p)) /\
    run e (step fuel a0 o1) s0 = (Done (a1, RUdpUnit (Ok tt)), s1) /\
    run e (run_ops fuel a1 ops) s1 = (Done (a, outs), s) /\
    Forall (keeps_udp h) (o1 :: ops) /\ no_bus_error h ops outs /\
    dest = named h (u_dest u) (o1 :: ops) /\ port = bound h (u_port u) (o1 :: ops).

Lemma udp_starts e fuel a o s a' s' h i dest port :
  i < 8 -> port < 65536 -> pool_inv a -> lookup h (handles a) = Some (udp_handle i dest port) ->
  coherent dest (regs (sk i s)) \/ (exists r, o = OpUdpConnect h (V4 r) /\ dest <> Some r) ->
  valid_size (tx_size (sk i s)) -> valid_size (rx_size (sk i s)) ->
  (exists r, o = OpUdpConnect h (V4 r)) \/ (exists p, o = OpUdpBind h p) -> keeps_udp h o ->
  run e (step fuel a o) s = (Done (a', RUdpUnit (Ok tt)), s') ->
  bound1 h port o < 65536 /\ pool_inv a' /\ lookup h (handles a') = Some (udp_handle i (named1 h dest o) (bound1 h port o)) /\
  uinv (named1 h dest o) (bound1 h port o) (sk i s') /\ regs (sk i s') Sn_IMR = u8 open_mask.
Proof.
  intros Hi Hp I L C Vt Vr Ho K R. pose proof (run_step_inv e fuel a o s a' _ s' I R) as I'.
  apply run_step_nofail in R; [|reflexivity]. pose proof (nofail_no_faults e) as NF.
  destruct Ho as [(r & ->)|(p & ->)]; cbn [step keeps_udp named1 bound1] in *; rewrite ?Nat.eqb_refl; rewrite L in R; unfold udp_handle in R;
    apply run_bind_done in R as (res & s1 & R1 & R); cbn [run] in R; injection R as <- _ <-.
  - assert (X : res = (mkUdp (socket_new i) (Some r) port, Ok tt) /\ uinv (Some r) port (sk i s1) /\ regs (sk i s1) Sn_IMR = u8 open_mask).
    { refine (wp_run (nofail e) _ (fun o s' => forall v, o = Done v -> v = _ /\ uinv (Some r) port (sk i s') /\ regs (sk i s') Sn_IMR = u8 open_mask) s (Done res) s1 R1 _ res eq_refl).
      apply connect_opens; auto; [|intros s2 U M _ v [= <-]; auto].
      destruct C as [C|(r' & E & Nd)]; [auto|]. injection E as <-. intros D. now elim Nd. }
    destruct X as [-> U]. split; [exact Hp|]. split; [exact I'|]. split; [|exact U]. cbn [fst handles put]. eapply lookup_update_same; eauto.
  - assert (X : res = (mkUdp (socket_new i) dest p, Ok tt) /\ uinv dest p (sk i s1) /\ regs (sk i s1) Sn_IMR = u8 open_mask).
    { refine (wp_run (nofail e) _ (fun o s' => forall v, o = Done v -> v = _ /\ uinv dest p (sk i s') /\ regs (sk i s') Sn_IMR = u8 open_mask) s (Done res) s1 R1 _ res eq_refl).
      apply bind_opens; auto; [|intros s2 U M _ v [= <-]; auto].
      destruct C as [C|(r' & E & _)]; [exact C|discriminate E]. }
    destruct X as [-> U]. split; [exact K|]. split; [exact I'|]. split; [|exact U]. cbn [fst handles put]. eapply lookup_update_same; eauto.
Qed.
Lemma udp_session_facts e fuel h i dest port a s : udp_session e fuel h i dest port a s ->
  i < 8 /\ port < 65536 /\ pool_inv a /\ lookup h (handles a) = Some (udp_handle i dest port) /\ uinv dest port (sk i s).
Proof.
  intros (ho & s00 & ops0 & a0 & outs0 & s0 & u & o1 & a1 & s1 & ops & outs & R0 & L & Ei & Hp & C & Vt & Vr & Ho & R1 & R2 & K & NB & -> & ->).
  pose proof (run_ops_inv e fuel ops0 _ _ _ _ _ (pool_inv_new ho) R0) as I.
  destruct (pi_lookup _ _ _ I L) as (j & Hj & Ej & _). cbn [handle_socket] in Ej. rewrite Ej in Ei. cbn [index socket_new] in Ei. subst j.
  destruct u as [so dest port]. cbn [u_socket u_dest u_port] in *. subst so. inversion K as [|? ? K1 K2]; subst.
  destruct (udp_starts e fuel a0 o1 s0 a1 s1 h i dest port Hj Hp I L C Vt Vr Ho K1 R1) as (P1 & I1 & L1 & U1 & _).
  destruct (run_ops_udp e fuel h i Hj ops a1 s1 a outs s _ _ P1 I1 L1 K2 U1 R2 NB) as (P2 & I2 & L2 & U2).
  auto.
Qed.
Lemma udp_session_next e fuel h i dest port a s o a' out s' : udp_session e fuel h i dest port a s ->
  keeps_udp h o -> run e (step fuel a o) s = (Done (a', out), s') -> (op_handle o = Some h -> out_berr out = None) ->
  udp_session e fuel h i (named1 h dest o) (bound1 h port o) a' s'.
Proof.
  intros (ho & s00 & ops0 & a0 & outs0 & s0 & u & o1 & a1 & s1 & ops & outs & R0 & L & Ei & Hp & C & Vt & Vr & Ho & R1 & R2 & K & NB & -> & ->) Ko R3 NB3.
  pose proof (run_ops_outs e fuel _ _ _ _ _ _ R2) as Le. destruct (accepted_snoc h o out ops outs Le) as (_ & _ & A3).
  exists ho, s00, ops0, a0, outs0, s0, u, o1, a1, s1, (ops ++ [o]), (outs ++ [out]).
  do 9 (split; [assumption|]). split; [now apply (run_ops_snoc e fuel o _ _ _ a outs s)|].
  split. { rewrite app_comm_cons. apply Forall_app. auto. }
  split; [auto|]. unfold named, bound. rewrite app_comm_cons, !fold_left_app. auto.
Qed.
Lemma udp_opened_imr x p : regs (udp_opened x p) Sn_IMR = u8 open_mask.
Proof. unfold udp_opened. rewrite opened_regs by (right; left; reflexivity). reflexivity. Qed.
Lemma udp_opened_regs x p : p < 65536 -> sr (udp_opened x p) = SOCK_UDP /\ get16 (regs (udp_opened x p)) Sn_PORT = p /\
  regs (udp_opened x p) Sn_IMR = u8 open_mask /\ (forall a, 0x0C <= a < 0x12 -> regs (udp_opened x p) a = regs x a).
Proof.
  intros Hp. split; [reflexivity|]. split; [|split; [apply udp_opened_imr|]].
  - rewrite (port_ext (open_regs (Some p) MR_UDP (regs x))); [now apply open_regs_port|]. intros a Ha. unfold udp_opened. apply opened_regs. lia.
  - intros a Ha. unfold udp_opened. rewrite opened_regs by lia. apply open_regs_at; unfold Sn_MR, Sn_IMR; lia.
Qed.
