(** C91: what the errors of the calls say about the chip. *)
From Verif Require Import Verdicts Properties_errors TcpConnect Cases.
From Verif Require Import Datasheet.

(** the sockets show statuses of the datasheet; so they do after a reset of the chip *)
Definition plain_status (c : chip) : Prop := forall j, In (u8 (sr (socks c j))) known_status.
Lemma plain_shows c : plain_status c <-> shows c.
Proof.
  split; intros H j; specialize (H j).
  - intros E. now apply known_status_spec in E.
  - destruct (in_dec Byte.byte_eq_dec (u8 (sr (socks c j))) known_status) as [Y|N]; [exact Y|]. apply known_status_spec in N. contradiction.
Qed.

Lemma torn_zero x y : from_be [hi x; lo y] = 0 -> x mod 65536 < 256 /\ y mod 256 = 0.
Proof. unfold hi, lo, from_be. cbn [fold_left]. rewrite !b2n_u8. lia. Qed.
Lemma low_bit x k : k < 8 -> N.testbit (b2n (u8 x)) k = N.testbit x k.
Proof. intros H. rewrite b2n_u8. change 256 with (2 ^ 8). now apply N.mod_pow2_bits_low. Qed.

(** ** C91, TCP *)
(** A send or receive that says NotConnected ends with the read of one byte, and at that byte the
    chip had the socket in a state other than ESTABLISHED; the chip is as the network left it.
    connect never says UnsupportedMode: it has just opened the socket itself. *)
Theorem C91_tcp_errors e fuel ho s0 ops a outs s o a' r s' x :
  run e (run_ops fuel (app_new ho) ops) s0 = (Done (a, outs), s) ->
  run e (step fuel a o) s = (Done (a', r), s') -> tcp_error r = Some x ->
  match x with
  | TNotConnected => exists h d t, (o = OpTcpSend h d \/ o = OpTcpReceive h d) /\ lookup h (handles a) = Some (HTcp t) /\
      s_tick s' = S (s_tick s) /\ s_chip s' = nsteps (s_chip s) (happens e (s_tick s)) /\
      sr (socks (s_chip s') (index (t_socket t))) <> SOCK_ESTABLISHED
  | TUnsupportedMode => False
  | _ => True
  end.
Proof.
  intros R0 R E. destruct (run_performs _ _ _ _ _ R0) as (tr0 & X & _). destruct (run_performs _ _ _ _ _ R) as (tr & Y & P).
  destruct (C86_tcp_errors _ _ _ _ _ _ X _ _ _ _ Y x E) as (i & H & C). destruct x; try exact I.
  - destruct C as ((h & d & Ho) & b & -> & Hb). cbn [performs] in P. destruct P as (buf & s1 & L & B & ->).
    destruct (read_one _ _ _ _ _ _ _ L B) as (E1 & E2 & E3).
    assert (Hh : op_handle o = Some h) by (destruct Ho as [-> | ->]; reflexivity). destruct (H h Hh) as (t & Lk & <-).
    exists h, d, t. split; [exact Ho|]. split; [exact Lk|]. split; [exact E2|]. split; [exact E1|]. intros F. apply Hb. rewrite E3.
    change (4 * index (t_socket t) + 1) with (BSB_REG (index (t_socket t))). rewrite rbyte_reg. change (sock_rd ?z 3) with (u8 (sr z)). rewrite F. reflexivity.
  - destruct C as ((h & q & ->) & _). destruct (H h eq_refl) as (t & Lk & Ei). pose proof (run_ops_inv e fuel ops _ _ _ _ _ (pool_inv_new ho) R0) as I.
    destruct (pi_lookup _ _ _ I Lk) as (j & Hj & Ej & _). cbn [handle_socket] in Ej. destruct t as [t]. cbn [t_socket] in *. subst t.
    cbn [step] in R. rewrite Lk in R. apply run_bind_done in R as (z & s1 & R1 & R2). injection R2 as _ <- <-.
    cbn [tcp_error] in E. destruct z as [z|[|z]]; try discriminate E. injection E as ->.
    refine (TcpSession.session_call ErrorFacts.ent e _ (fun o _ => o <> Done (Err (NbOther TUnsupportedMode))) s _ s1 (ErrorFacts.es_tcp_connect fuel _ _) R1 _ _ eq_refl).
    { intros v [= <-]. reflexivity. }
    apply wp_tcp_connect; auto using nofail_no_faults. intros y s2 _. cbv zeta. repeat split; intros; discriminate.
Qed.
Print Assumptions C91_tcp_errors.

(** ** C91, UDP *)
(** Full statement: SocketNotOpen only when the socket is not an open UDP socket of the chip,
    UnrecognisedStatus never, BufferFull only when the TX buffer has no room, WriteTimeout only with
    the TIMEOUT flag up and SENDOK down (and TIMEOUT is cleared), BufferOverflow only with received
    data.  All proved but the one for BufferFull, which is false ([C91_buffer_full_refuted]): the two
    bytes of the free size are read one after the other.  What holds: less than 256 bytes were free at
    the first, a multiple of 256 at the second, and none were if nothing happened to the socket in
    between. *)
Theorem C91_udp_errors_partial e fuel ho s0 ops a outs s o a' r s' x :
  plain_status (s_chip s0) ->
  run e (run_ops fuel (app_new ho) ops) s0 = (Done (a, outs), s) ->
  run e (step fuel a o) s = (Done (a', r), s') -> udp_error r = Some x ->
  exists i, (forall h, op_handle o = Some h -> exists u, lookup h (handles a) = Some (HUdp u) /\ index (u_socket u) = i) /\
  match x with
  | USocketNotOpen => sr (socks (s_chip s') i) <> SOCK_UDP
  | UUnrecognisedStatus => False
  | UBufferFull => exists t c, s_tick s' = S t /\ s_chip s' = nsteps c (happens e t) /\
      tx_fsr (socks c i) mod 65536 < 256 /\ tx_fsr (socks (s_chip s') i) mod 256 = 0 /\
      (Forall (fun ev => ev_sock ev <> Some i) (happens e t) -> tx_fsr (socks (s_chip s') i) mod 65536 = 0)
  | UWriteTimeout => exists t c0, s_tick s' = S (S (S t)) /\
      let c1 := nsteps c0 (happens e t) in let c2 := nsteps c1 (happens e (S t)) in
      N.testbit (ir (socks c1 i)) 4 = false /\ N.testbit (ir (socks c2 i)) 3 = true /\
      N.testbit (ir (socks (s_chip s') i)) 3 = false
  | UBufferOverflow => exists t c, s_tick s' = S t /\ s_chip s' = nsteps c (happens e t) /\
      (rx_rsr (socks c i) <> 0 \/ rx_rsr (socks (s_chip s') i) <> 0)
  | _ => True
  end.
Proof.
  intros K R0 R E. destruct (run_performs _ _ _ _ _ R0) as (tr0 & X & _). destruct (run_performs _ _ _ _ _ R) as (tr & Y & P).
  apply plain_shows in K. pose proof (shows_run _ _ _ _ _ R0 K) as K1. pose proof (shows_run _ _ _ _ _ R K1) as K2.
  destruct (C86_udp_errors _ _ _ _ _ _ X _ _ _ _ Y x E) as (i & H & C). exists i. split; [exact H|]. cbv zeta in C. clear H X Y R R0 E.
  change (4 * i + 1) with (BSB_REG i) in C. destruct x; try exact I.
  - destruct C as (_ & tr1 & b & -> & Hb). apply performs_app in P as (s1 & _ & P). cbn [performs] in P. destruct P as (buf & s2 & L & B & ->).
    destruct (read_one _ _ _ _ _ _ _ L B) as (E1 & E2 & E3). rewrite rbyte_reg in E3. change (b = u8 (sr (socks (s_chip s2) i))) in E3. apply Hb. rewrite E3. apply plain_shows, K2.
  - destruct C as (h & -> & tr1 & v & -> & Lv & Hv). apply performs_app in P as (s1 & _ & P). cbn [performs] in P. destruct P as (buf & s2 & L & B & ->).
    destruct (read_two _ _ _ _ _ _ _ (eq_trans L Lv) B) as (E1 & E2 & ->). exists (S (s_tick s1)), (nsteps (s_chip s1) (happens e (s_tick s1))).
    split; [exact E2|]. split; [exact E1|]. rewrite !rbyte_reg in Hv. change (sock_rd ?z 0x26) with (hi (rx_rsr z)) in Hv. change (sock_rd ?z (next_addr 0x26)) with (lo (rx_rsr z)) in Hv.
    destruct (N.eq_dec (rx_rsr (socks (s_chip s2) i)) 0) as [Z|]; [|now right]. left. intros F. apply Hv. rewrite F, Z. reflexivity.
  - destruct C as (_ & tr1 & v & -> & Lv & Hv). apply performs_app in P as (s1 & _ & P). cbn [performs] in P. destruct P as (buf & s2 & L & B & ->).
    destruct (read_two _ _ _ _ _ _ _ (eq_trans L Lv) B) as (E1 & E2 & ->). exists (S (s_tick s1)), (nsteps (s_chip s1) (happens e (s_tick s1))).
    split; [exact E2|]. split; [exact E1|]. rewrite !rbyte_reg in Hv. change (sock_rd ?z 0x20) with (hi (tx_fsr z)) in Hv. change (sock_rd ?z (next_addr 0x20)) with (lo (tx_fsr z)) in Hv.
    apply torn_zero in Hv as [H1 H2]. split; [exact H1|]. split; [exact H2|]. intros Q. rewrite E1 in H2 |- *. rewrite (nsteps_aside _ _ _ Q) in H2 |- *. lia.
  - destruct C as (_ & tr1 & b & -> & Hb & _). apply performs_app in P as (s1 & _ & P). cbn [performs] in P. destruct P as (buf & s2 & L & B & ->).
    destruct (read_one _ _ _ _ _ _ _ L B) as (E1 & E2 & E3). rewrite rbyte_reg in E3. change (b = u8 (sr (socks (s_chip s2) i))) in E3. intros F. apply Hb. rewrite E3, F. reflexivity.
  - destruct C as (_ & tr1 & f1 & f2 & -> & Hf1 & Hf2). apply performs_app in P as (s1 & _ & P). cbn [performs] in P.
    destruct P as (buf & s2 & L & B & buf2 & s3 & L2 & B2 & s4 & B3 & ->).
    destruct (read_one _ _ _ _ _ _ _ L B) as (E1 & E2 & ->). destruct (read_one _ _ _ _ _ _ _ L2 B2) as (E3 & E4 & ->). destruct (write_one _ _ _ _ _ _ B3) as (E5 & E6).
    rewrite rbyte_reg in Hf1, Hf2. change (sock_rd ?z 2) with (u8 (ir z)) in Hf1, Hf2. rewrite low_bit in Hf1, Hf2 by lia.
    exists (s_tick s1), (s_chip s1). split; [congruence|]. cbv zeta. rewrite <- E1, <- E2, <- E3. split; [exact Hf1|]. split; [exact Hf2|].
    rewrite E5, wbyte_reg. change (sock_wr i ?z 2 x08) with (set_ir z (N.ldiff (ir z) 8)). cbn [ir set_ir]. rewrite N.ldiff_spec. change (N.testbit 8 3) with true. apply andb_false_r.
Qed.
Print Assumptions C91_udp_errors_partial.

(** a send breaks off after the SEND command (one failed bus call); the chip has the datagram
    ready, 255 bytes are free.  While the next send reads the free size the datagram leaves, and
    2048 bytes are free: the read mixes 0x00FF and 0x0800 to 0x0000. *)
Definition full_ops : list op :=
  [OpUdpSocket; OpUdpConnect 0 (V4 (Addr4 (Ip4 x0a x00 x00 x09) 80)); OpUdpSend 0 (repeat x41 (N.to_nat 1793))].
Definition full_env : env := with_fault 16 0 (script [(N.to_nat 1819, [EvTransmit 0 0])]).
Theorem C91_buffer_full_refuted : exists a outs s s',
  plain_status (s_chip sys0) /\
  run full_env (run_ops 9 (app_new Dhcp) full_ops) sys0 = (Done (a, outs), s) /\
  run full_env (step 9 a (OpUdpSend 0 [x42])) s = (Done (a, RUdpSend (Err (NbOther UBufferFull))), s') /\
  (* the call made no bus write and met no bus error; at each of its three bytes there was room *)
  s_tick s' = (s_tick s + 3)%nat /\ s_chip s' = alone full_env (s_chip s) (s_tick s) 3 /\
  Forall (fun k => 255 <= tx_fsr (socks (alone full_env (s_chip s) (s_tick s) k) 0)) [0; 1; 2; 3]%nat.
Proof.
  assert (X : exists a outs s, run full_env (run_ops 9 (app_new Dhcp) full_ops) sys0 = (Done (a, outs), s) /\
    (let q := run full_env (step 9 a (OpUdpSend 0 [x42])) s in fst q = Done (a, RUdpSend (Err (NbOther UBufferFull)))) /\
    s_tick s = N.to_nat 1817 /\ s_tick (snd (run full_env (step 9 a (OpUdpSend 0 [x42])) s)) = N.to_nat 1820 /\
    only_reads full_env (step 9 a (OpUdpSend 0 [x42])) s = true /\ forallb (fun k => 255 <=? tx_fsr (socks (alone full_env (s_chip s) (s_tick s) k) 0)) [0; 1; 2; 3]%nat = true).
  { eexists _, _, _. split; [apply run_snd; vm_compute; reflexivity|]. split; [vm_compute; reflexivity|]. split; [vm_compute; reflexivity|]. split; [vm_compute; reflexivity|]. split; vm_compute; reflexivity. }
  destruct X as (a & outs & s & R & Q & T & T' & W & F). cbv zeta in Q. apply run_snd in Q. exists a, outs, s, (snd (run full_env (step 9 a (OpUdpSend 0 [x42])) s)).
  split; [intros j; left; reflexivity|]. split; [exact R|]. split; [exact Q|].
  destruct (only_reads_alone _ _ _ W) as (n & Tn & Cn). assert (n = 3%nat) as -> by (rewrite T, T' in Tn; lia). split; [exact Tn|]. split; [exact Cn|].
  rewrite forallb_forall in F. apply Forall_forall. intros k Hk. apply N.leb_le, F, Hk.
Qed.
Print Assumptions C91_buffer_full_refuted.


(** cases: a send on a connection the peer has closed; a send on a socket that was only created; a
    receive into an empty buffer; a datagram the chip gives up on; a send while 2048 bytes wait *)
Definition verdict (e : env) (ops : list op) (o : op) : option (option terr * option uerr) :=
  match run e (run_ops 9 (app_new Dhcp) ops) sys0 with
  | (Done (a, _), s) => match fst (run e (step 9 a o) s) with Done (_, r) => Some (tcp_error r, udp_error r) | _ => None end
  | _ => None
  end.
Definition to9 : sockaddr := V4 (Addr4 (Ip4 x0a x00 x00 x09) 80).
Example C91_case :
  verdict (script [(20%nat, [EvEstablished 0]); (21%nat, [EvPeerFin 0])]) [OpTcpSocket; OpTcpConnect 0 to9] (OpTcpSend 0 [x41]) = Some (Some TNotConnected, None) /\
  verdict quiet [OpUdpSocket] (OpUdpSend 0 [x41]) = Some (None, Some USocketNotOpen) /\
  verdict (script [(14%nat, [EvDatagram 0 [x0a; x00; x00; x09] 80 [x41]])]) [OpUdpSocket; OpUdpConnect 0 to9] (OpUdpReceive 0 []) = Some (None, Some UBufferOverflow) /\
  verdict (script [(26%nat, [EvSendTimeout 0 true])]) [OpUdpSocket; OpUdpConnect 0 to9] (OpUdpSend 0 [x41]) = Some (None, Some UWriteTimeout) /\
  verdict (with_fault 16 0 quiet) [OpUdpSocket; OpUdpConnect 0 to9; OpUdpSend 0 (repeat x41 (N.to_nat 2048))] (OpUdpSend 0 [x42]) = Some (None, Some UBufferFull).
Proof. repeat split; vm_compute; reflexivity. Qed.
