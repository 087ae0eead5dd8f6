(** C74-C77, C79: whole programs, down to the wires. *)
From Verif Require Import Dotted.
From Verif Require Import System UdpWire PipeSession Cases SpiChip.
From Verif Require Deaf RawStays.
From Verif Require Import Datasheet.

(** ** C74 *)
(** Once initialisation has succeeded, every socket's buffers are 2 KiB each way at every
    moment of every Device program, bus errors, panics and endless polling included. *)
Theorem C74_sizes :
  forall e assertion ho m fuel ops s oc s',
    run e (device_program assertion ho m fuel ops) s = (oc, s') -> (forall x, oc <> Done (Err x)) ->
    forall i, i < 8 ->
      b2n (regs (socks (s_chip s') i) Sn_TXBUF_SIZE) * 1024 = 2048 /\
      b2n (regs (socks (s_chip s') i) Sn_RXBUF_SIZE) * 1024 = 2048.
Proof.
  intros e assertion ho m fuel ops s oc s' R NE i Hi. unfold device_program, try_ in R. rewrite run_bind in R.
  destruct (run e (initialize_with_host assertion ho m) s) as [o s0] eqn:R0. cbn [fst snd] in R.
  destruct o as [[d|x]|w| |]; cbn [cast] in R.
  - destruct (init_start e assertion ho m s d s0 0 R0) as (Ip & _).
    pose proof (ops_sizes e i fuel ops _ s0 Hi Ip (init_sizes e assertion ho m s d s0 i R0)) as T.
    rewrite run_bind in R. destruct (run e (run_ops _ _ _) s0) as [o s1]. cbn [fst snd] in *.
    assert (s' = s1) as -> by (destruct o; cbn [run] in R; congruence). destruct T as [T1 T2]. unfold sk in T1, T2. rewrite T1, T2. split; reflexivity.
  - cbn [run] in R. injection R as <- <-. now contradiction (NE x).
  - exfalso. destruct (run_returns e _ (returns_init assertion ho m) s) as (? & ? & H). congruence.
  - exfalso. destruct (run_returns e _ (returns_init assertion ho m) s) as (? & ? & H). congruence.
  - exfalso. destruct (run_returns e _ (returns_init assertion ho m) s) as (? & ? & H). congruence.
Qed.
Print Assumptions C74_sizes.
(** ten sockets' worth of calls, a chip reset, and a bus error in the middle of the last frame *)
Example C74_case : exists a s',
  run (with_fault 12 1 quiet) (device_program true Dhcp mode_default 5
    [OpTakeSocket; OpSocket 0 (KSetTxRead 30); OpUdpSocket; OpUdpBind 1 7; OpDevice QResetDevice; OpSocket 0 (KSetSourcePort 77)]) sys0 =
  (Done (Ok (a, [RSocket (Some 0%nat); RSockop (KUnit (Ok tt)); RUdpSocket (Ok 1%nat); RUdpUnit (Ok tt);
                 RDevice (DUnit (Ok tt)); RSockop (KUnit (Err 7))])), s').
Proof. eexists _, _. apply run_snd. vm_compute. reflexivity. Qed.

(** ** C75 *)
(** From the bytes on the four wires: a Device program that initialised the chip, connected a TCP
    handle and then went on without closing it, resetting the chip or meeting a bus error on that
    handle.  Between the return of the connect and the end of the program the chip has sent
    exactly the bytes the sends accepted, in order, all to the peer; and the bytes the receives
    delivered, followed by those still in the chip, are exactly the peer's bytes. *)
Theorem C75_tcp :
  forall e chk ho m fuel h r ops0 ops s00 a outs0 outs st s,
    spi_run e (over_four_wire (device_program chk ho m fuel (ops0 ++ OpTcpConnect h (V4 r) :: ops))) (WaitHi, s00) =
      (Done (Ok (a, outs0 ++ RTcpConnect (Ok tt) :: outs)), (st, s)) ->
    length outs0 = length ops0 -> a_port r < 65536 -> Forall (leaves_open h) ops -> no_bus_error h ops outs ->
    exists i a1 s1, i < 8 /\
      spi_run e (over_four_wire (device_program chk ho m fuel (ops0 ++ [OpTcpConnect h (V4 r)]))) (WaitHi, s00) =
        (Done (Ok (a1, outs0 ++ [RTcpConnect (Ok tt)])), (WaitHi, s1)) /\
      (exists t, lookup h (handles a1) = Some (HTcp t) /\ index (t_socket t) = i) /\
      (exists l, sent (socks (s_chip s) i) = sent (socks (s_chip s1) i) ++ l /\ concat (map p_data l) = accepted h ops outs /\
         Forall (fun p => p_sport p = 49849 + i /\ p_ip p = dotted (a_ip r) /\ p_dport p = a_port r) l) /\
      rxlog (socks (s_chip s) i) = delivered h ops outs ++ pending (socks (s_chip s) i).
Proof.
  intros e chk ho m fuel h r ops0 ops s00 a outs0 outs st s R L Hr K NB. apply four_wire_device_done in R as (-> & R).
  destruct (device_session _ _ _ _ _ _ _ _ _ _ _ _ _ _ R L Hr K NB) as (i & a1 & s1 & Hi & Lk & R1 & T).
  exists i, a1, s1. split; [exact Hi|]. split; [rewrite four_wire_device, R1; reflexivity|].
  split; [exists (mkTcp (socket_new i)); auto|].
  destruct (session_facts _ _ _ _ _ _ _ _ _ _ T) as (_ & _ & _ & _ & _ & _ & _ & Lg & l & L1 & L2 & L3).
  split; [exists l; auto|exact Lg].
Qed.
Print Assumptions C75_tcp.

(** The same for MACRAW: between initialisation and the end of a program none of whose calls met
    a bus error, the frames sent are exactly those written with success, one packet each; and the
    reads have handed over the received frames in order. *)
Theorem C75_macraw :
  forall e mc fuel ops s00 outs st s,
    spi_run e (over_four_wire (macraw_program mc fuel ops)) (WaitHi, s00) = (Done (Ok outs), (st, s)) -> Forall raw_ok outs ->
    exists s1, spi_run e (over_four_wire (macraw_program mc fuel [])) (WaitHi, s00) = (Done (Ok []), (WaitHi, s1)) /\
      map p_data (sent (socks (s_chip s) 0)) = map p_data (sent (socks (s_chip s1) 0)) ++ RawSession.written ops outs /\
      exists taken rest, rxlog (socks (s_chip s) 0) = concat (map raw_record (taken ++ rest)) /\
        pending (socks (s_chip s) 0) = concat (map raw_record rest) /\ Forall (fun f => len f < 65534) (taken ++ rest) /\ handed ops outs taken.
Proof.
  intros e mc fuel ops s00 outs st s R F. apply four_wire_macraw_done in R as (-> & R).
  destruct (macraw_program_reached _ _ _ _ _ _ _ R F) as (d & s1 & R1 & H). exists s1. split.
  - rewrite (four_wire_sim e _ _ _ s00 (pt_macraw_program mc fuel [])). unfold macraw_program, try_. rewrite run_bind, R1. reflexivity.
  - destruct (macraw_reached_inv _ _ _ _ _ _ _ H) as (_ & T & t & q & A & (B & W) & C & W'). split; [exact T|]. exists t, q.
    split; [exact A|]. split; [exact B|]. split; [apply Forall_app; split; assumption|exact C].
Qed.
Print Assumptions C75_macraw.

(** connect, send 3, receive 2 of the peer's 4, send 1, over the wires *)
Lemma spi_case {A} (p : outcome A * (spi_state * sys)) o (P : sys -> Prop) :
  fst p = o -> P (snd (snd p)) -> exists st s, p = (o, (st, s)) /\ P s.
Proof. destruct p as [o' [st s]]. cbn. intros -> H. eauto. Qed.
Definition c75_net : env := mkEnv (fun t => if Nat.eqb t 50 then [EvTcpData 0 [x61; x62; x63; x64]]
  else [EvEstablished 0; EvTransmit 0 2; EvSendOk 0; EvAck 0 1]) (fun _ => None).
Definition c75_peer : addr4 := Addr4 (Ip4 x0a x00 x00 x02) 80.
Definition c75_ops : list op := [OpTcpSend 0 [x01; x02; x03]; OpTcpReceive 0 [x00; x00]; OpTcpSend 0 [x04]].
Definition c75_outs : list out := [RTcpSend (Ok 3); RTcpReceive [x61; x62] (Ok 2); RTcpSend (Ok 1)].
Example C75_case : exists a st s,
  spi_run c75_net (over_four_wire (device_program true
      (manual_new (Mac x02 x03 x04 x05 x06 x07) (Ip4 x0a x00 x00 x05) (Ip4 x0a x00 x00 x01) (Ip4 xff x00 x00 x00))
      mode_default 60 ([OpTcpSocket] ++ OpTcpConnect 0 (V4 c75_peer) :: c75_ops))) (WaitHi, sys0) =
    (Done (Ok (a, [RTcpSocket (Ok 0%nat)] ++ RTcpConnect (Ok tt) :: c75_outs)), (st, s)) /\
  (Forall (leaves_open 0) c75_ops /\ no_bus_error 0 c75_ops c75_outs /\
   map p_data (sent (socks (s_chip s) 0)) = [[x01; x02]; [x03]; [x04]] /\ pending (socks (s_chip s) 0) = [x63; x64]).
Proof.
  eexists. apply spi_case; [vm_compute; reflexivity|]. split; [repeat constructor; cbn; auto|]. split; [cbn; auto|].
  split; vm_compute; reflexivity.
Qed.
Example C75_macraw_case : exists st s,
  spi_run (mkEnv (fun t => if Nat.eqb t 36 then [EvFrame [x31; x32]] else [EvTransmit 0 1; EvSendOk 0]) (fun _ => None))
    (over_four_wire (macraw_program (Mac x02 x03 x04 x05 x06 x07) 30 [RwWrite [x61; x62]; RwRead [x00; x00; x00]; RwWrite []])) (WaitHi, sys0) =
  (Done (Ok [RwSent (Ok 2); RwFrame [x31; x32; x00] (Ok 2); RwSent (Ok 0)]), (st, s)) /\
  map p_data (sent (socks (s_chip s) 0)) = [[x61; x62]].
Proof. apply spi_case; vm_compute; reflexivity. Qed.

(** ** C76 *)
(** Full statement: over ThreeWire, as over FourWire, a successful initialisation has written
    the addresses to the chip.  Refuted for every configuration whose gateway is not 0.0.0.0 and
    has a multiple of 8 as its third octet (192.168.0.1, 10.0.0.1): the write mask of ThreeWire is
    2 where the chip expects 4, so every frame of the initialisation is a read to the chip, and
    the gateway's third octet arrives as the control byte of a read without end.  From then on the
    chip ignores the bus: whatever the program does, the chip only changes by what the network
    does.  Initialisation reports success all the same. *)
Theorem C76_three_wire_refuted :
  (forall e checked chk mc ip g sn m fuel ops s,
     g <> Ip4 x00 x00 x00 x00 -> b2n (ip2 g) mod 8 = 0 ->
     let s' := snd (snd (spi_run e (over_three_wire checked (device_program chk (manual_new mc ip g sn) m fuel ops)) (WaitHi, s))) in
     (s_tick s <= s_tick s')%nat /\
     s_chip s' = nsteps (s_chip s) (flat_map (happens e) (seq (s_tick s) (s_tick s' - s_tick s)))) /\
  (forall e checked chk ho m s, no_faults e -> (chk = true -> com (s_chip s) VERSIONR = x04) ->
     exists d x', spi_run e (over_three_wire checked (initialize_with_host chk ho m)) (WaitHi, s) = (Done (Ok d), x')).
Proof.
  split.
  - intros e checked chk mc ip g sn m fuel ops s Hz Hg. exact (Deaf.deaf_device e checked chk mc ip g sn m fuel ops s Hz Hg).
  - intros e checked [] ho m s NF V; [now apply Deaf.says_init_checked; auto|].
    destruct (Deaf.says_init e checked NF ho m (WaitHi, s)) as (r & x' & R & (d & ->)). eauto.
Qed.
Print Assumptions C76_three_wire_refuted.
(** What does hold: initialisation always reports success when no bus call fails and the version
    register, if checked, reads 4 -- and then over FourWire the addresses are in the chip (C25).
    A gateway whose third octet has bit 2 set makes the chip take the rest of the traffic as data:
    here everything after the gateway goes to socket 0's transmit memory. *)
Example C76_case :
  let h g := manual_new (Mac x02 x03 x04 x05 x06 x07) (Ip4 xc0 xa8 x00 x05) g (Ip4 xff xff xff x00) in
  (* no register has changed *)
  (let r := spi_run quiet (over_three_wire true (device_program true (h (Ip4 xc0 xa8 x00 x01)) mode_default 10 [OpUdpSocket; OpDevice QMac])) (WaitHi, sys0) in
   map (com (s_chip (snd (snd r)))) [0x01; 0x02; 0x09; 0x0F] = [x00; x00; x00; x00]) /\
  (* the start of the subnet mask's frame in the transmit memory *)
  (let r := spi_run quiet (over_three_wire true (initialize_with_host true (h (Ip4 xc0 xa8 x14 x01)) mode_default)) (WaitHi, sys0) in
   map (txm (socks (s_chip (snd (snd r))) 0)) [0xa8; 0xa9; 0xaa; 0xab; 0xac] = [x01; x00; x05; x03; xff]).
Proof. split; vm_compute; reflexivity. Qed.

(** ** C77 *)
(** From the bytes on the four wires: a Device program initialises the chip and makes the calls
    [ops0]; after them handle [h] is a UDP socket that has never had a destination.  It is bound or
    connected, and the program goes on without closing it, resetting the chip or meeting a bus
    error on [h].  Every datagram the chip has sent since is a whole 2048-byte piece (the last one
    what is left) of the buffer of one send, in order, from the bound port to the remote that send
    meant (see [udp_sends] in UdpWire.v); the socket is still open in UDP mode; unless [h] was opened again, the datagrams received since
    are, in order, those the receives took and those that wait, a receive taking the one it
    returned and losing those behind it (see [udp_gets], C50). *)
Theorem C77_udp :
  forall e chk ho m fuel h so port ops0 o1 ops s00 a0 outs0 st0 s0 a outs st s,
    spi_run e (over_four_wire (device_program chk ho m fuel ops0)) (WaitHi, s00) = (Done (Ok (a0, outs0)), (st0, s0)) ->
    lookup h (handles a0) = Some (HUdp (mkUdp so None port)) -> port < 65536 ->
    (exists r, o1 = OpUdpConnect h (V4 r)) \/ (exists p, o1 = OpUdpBind h p) ->
    spi_run e (over_four_wire (device_program chk ho m fuel (ops0 ++ o1 :: ops))) (WaitHi, s00) =
      (Done (Ok (a, outs0 ++ RUdpUnit (Ok tt) :: outs)), (st, s)) ->
    Forall (keeps_udp h) (o1 :: ops) -> no_bus_error h ops outs ->
    let i := index so in
    exists a1 s1, i < 8 /\
      spi_run e (over_four_wire (device_program chk ho m fuel (ops0 ++ [o1]))) (WaitHi, s00) =
        (Done (Ok (a1, outs0 ++ [RUdpUnit (Ok tt)])), (WaitHi, s1)) /\
      (exists pss, sent (socks (s_chip s) i) = sent (socks (s_chip s1) i) ++ concat pss /\
         udp_sends h (named1 h None o1) (bound1 h port o1) ops outs pss) /\
      sr (socks (s_chip s) i) = SOCK_UDP /\
      (Forall (stays_open h) ops ->
       exists gss left, rxlog (socks (s_chip s) i) = concat (map record_of (concat gss ++ left)) /\
         pending (socks (s_chip s) i) = concat (map record_of left) /\ Forall wf_dgram (concat gss ++ left) /\ udp_gets h ops outs gss).
Proof.
  intros e chk ho m fuel h so port ops0 o1 ops s00 a0 outs0 st0 s0 a outs st s R0 L Hp Ho R K NB i.
  apply four_wire_device_done in R0 as (-> & R0). apply four_wire_device_done in R as (-> & R).
  apply run_device_ok in R0 as (d & t0 & Ri & R0). apply run_device_ok in R as (d' & t0' & Ri' & R).
  rewrite Ri in Ri'. injection Ri' as <- <-.
  pose proof (run_ops_outs _ _ _ _ _ _ _ _ R0) as Le.
  apply System.run_ops_app in R as (a0' & s0' & R0' & R); [|now symmetry]. rewrite R0 in R0'. injection R0' as <- <-.
  apply run_ops_cons in R as (a1 & s1 & R1 & R).
  pose proof (init_start _ _ _ _ _ _ _ 0 Ri) as (Ip0 & _). pose proof (run_ops_inv _ _ _ _ _ _ _ _ Ip0 R0) as Ip.
  destruct (pi_lookup _ _ _ Ip L) as (j & Hj & Ej & _). cbn [handle_socket u_socket] in Ej. subst so. subst i. cbn [index socket_new].
  assert (Z : two_k (sk j s0)).
  { pose proof (ops_sizes (four_wire_env e) j fuel ops0 _ t0 Hj Ip0 (init_sizes _ chk ho m s00 d t0 j Ri)) as Z. now rewrite R0 in Z. }
  assert (Hd : exists ho', d = ds_new ho').
  { apply InitFacts.run_init in Ri as (? & ? & h' & _ & _ & _ & _ & _ & ->). eauto. }
  destruct Hd as (ho' & ->). inversion K as [|? ? K1 K2]; subst.
  assert (V : valid_size (tx_size (sk j s0)) /\ valid_size (rx_size (sk j s0))).
  { unfold valid_size, tx_size, rx_size. destruct Z as [-> ->]. split; right; left; reflexivity. }
  destruct V as (Vt & Vr).
  destruct (open_queue _ _ _ _ _ _ _ _ _ None port Hj Hp Ip L (or_introl I) Vt Vr Ho K1 R1) as (q & Q & Lq).
  assert (T : udp_session (four_wire_env e) fuel h j (named1 h None o1) (bound1 h port o1) a1 s1).
  { exists ho', t0, ops0, a0, outs0, s0, (mkUdp (socket_new j) None port), o1, a1, s1, [], [].
    split; [exact R0|]. split; [exact L|]. split; [reflexivity|]. split; [exact Hp|]. split; [left; exact I|]. split; [exact Vt|]. split; [exact Vr|].
    split; [exact Ho|]. split; [exact R1|]. split; [reflexivity|]. split; [now constructor|]. split; [exact I|]. split; reflexivity. }
  exists a1, s1. split; [exact Hj|]. split.
  { rewrite four_wire_device. rewrite (run_device_intro _ _ _ _ _ _ _ a1 (outs0 ++ [RUdpUnit (Ok tt)]) s1 _ t0 Ri); [reflexivity|].
    eapply run_ops_snoc; eauto. }
  split.
  - destruct (session_sends _ _ _ _ _ _ _ _ _ _ _ _ T (step_two_k _ _ _ _ _ _ _ _ _ Hj Ip Z R1) K2 R NB) as (pss & S1 & S2). eauto.
  - split.
    { apply (udp_session_facts (four_wire_env e) fuel h j (named h None (o1 :: ops)) (bound h port (o1 :: ops)) a s).
      exists ho', t0, ops0, a0, outs0, s0, (mkUdp (socket_new j) None port), o1, a1, s1, ops, outs.
      split; [exact R0|]. split; [exact L|]. split; [reflexivity|]. split; [exact Hp|]. split; [left; exact I|]. split; [exact Vt|]. split; [exact Vr|].
      split; [exact Ho|]. split; [exact R1|]. split; [exact R|]. split; [exact K|]. split; [exact NB|]. split; reflexivity. }
    intros St. destruct (session_gets _ _ _ _ _ _ _ _ _ _ _ _ _ T K2 St R NB Q) as (gss & left & new & E & (Q1 & _) & Lg & W & G).
    exists gss, left. split; [|split; [exact Q1|split; [rewrite <- E; apply Forall_app; split; [apply Q|exact W]|exact G]]]. fold (records (concat gss ++ left)). rewrite <- E, records_app, <- Lq. exact Lg.
Qed.
Print Assumptions C77_udp.

(** bind, 2050 bytes to one remote (a full piece and two bytes), three to another; two datagrams
    arrive, the first receive takes the first and loses the other *)
Definition c77_host := manual_new (Mac x02 x03 x04 x05 x06 x07) (Ip4 x0a x00 x00 x05) (Ip4 x0a x00 x00 x01) (Ip4 xff x00 x00 x00).
Definition c77_net : env := mkEnv (fun t => if Nat.eqb t 60 then [EvDatagram 0 [x01; x02; x03; x04] 53 [x41; x42]; EvDatagram 0 [x01; x02; x03; x04] 54 [x43]]
  else [EvTransmit 0 2; EvSendOk 0]) (fun _ => None).
Definition c77_dest : addr4 := Addr4 (Ip4 x0a x00 x00 x07) 81.
Definition c77_ops : list op := [OpUdpSendTo 0 (V4 c75_peer) (repeat x61 2050); OpUdpSendTo 0 (V4 c77_dest) [x01; x02; x03];
  OpUdpReceive 0 [x00; x00]; OpUdpReceive 0 [x00; x00]].
Definition c77_outs : list out := [RUdpSend (Ok tt); RUdpSend (Ok tt); RUdpReceive [x41; x42] (Ok (2, V4 (Addr4 (Ip4 x01 x02 x03 x04) 53)));
  RUdpReceive [x00; x00] (Err WouldBlock)].
Example C77_case :
  (exists a0 st s, spi_run c77_net (over_four_wire (device_program true c77_host mode_default 60 [OpUdpSocket])) (WaitHi, sys0) =
     (Done (Ok (a0, [RUdpSocket (Ok 0%nat)])), (st, s)) /\ lookup 0 (handles a0) = Some (HUdp (mkUdp (socket_new 0) None 49849))) /\
  exists a st s,
  spi_run c77_net (over_four_wire (device_program true c77_host mode_default 60 ([OpUdpSocket] ++ OpUdpBind 0 7 :: c77_ops))) (WaitHi, sys0) =
    (Done (Ok (a, [RUdpSocket (Ok 0%nat)] ++ RUdpUnit (Ok tt) :: c77_outs)), (st, s)) /\
  (Forall (keeps_udp 0) (OpUdpBind 0 7 :: c77_ops) /\ Forall (stays_open 0) c77_ops /\ no_bus_error 0 c77_ops c77_outs /\
   map (fun p => (p_sport p, p_dport p, len (p_data p))) (sent (socks (s_chip s) 0)) = [(7, 80, 2048); (7, 80, 2); (7, 81, 3)]).
Proof.
  split.
  - eexists. apply spi_case; [vm_compute; reflexivity|reflexivity].
  - eexists. apply spi_case; [vm_compute; reflexivity|]. split; [repeat constructor|]. split; [repeat constructor; discriminate|]. split; [cbn; auto|].
    vm_compute. reflexivity.
Qed.

(** ** C79 *)
(** Once initialize_macraw has succeeded ([s1]), and at every moment of every MACRAW program after it, bus
    errors, panics and endless polling included: socket 0 is open in MACRAW mode with MAC
    filtering and the whole 16 KiB each way; the other sockets are closed, without memory, and
    have sent and taken in nothing since; the MAC address is the one given. *)
Theorem C79_macraw_stays :
  forall e mc fuel ops s oc s',
    run e (macraw_program mc fuel ops) s = (oc, s') -> (forall x, oc <> Done (Err x)) ->
    exists d s1, run e (initialize_macraw mc) s = (Done (Ok d), s1) /\
    (let x := socks (s_chip s') 0 in
     sr x = SOCK_MACRAW /\ N.land (b2n (regs x Sn_MR)) 15 = MR_MACRAW /\ N.testbit (b2n (regs x Sn_MR)) 7 = true /\
     b2n (regs x Sn_TXBUF_SIZE) * 1024 = 16384 /\ b2n (regs x Sn_RXBUF_SIZE) * 1024 = 16384) /\
    (forall j, 1 <= j < 8 -> let x := socks (s_chip s') j in
     sr x = SOCK_CLOSED /\ b2n (regs x Sn_TXBUF_SIZE) = 0 /\ b2n (regs x Sn_RXBUF_SIZE) = 0 /\
     sent x = sent (socks (s_chip s1) j) /\ rxlog x = rxlog (socks (s_chip s1) j)) /\
    map (com (s_chip s')) [SHAR; SHAR + 1; SHAR + 2; SHAR + 3; SHAR + 4; SHAR + 5] = [m0 mc; m1 mc; m2 mc; m3 mc; m4 mc; m5 mc].
Proof.
  intros e mc fuel ops s oc s' R NE. unfold macraw_program, try_ in R. rewrite run_bind in R.
  destruct (run e (initialize_macraw mc) s) as [o s1] eqn:R0. cbn [fst snd] in R.
  destruct o as [[d|x]|w| |]; cbn [cast] in R.
  - exists d, s1. split; [reflexivity|]. pose proof (RawStays.raw_program_stays e mc fuel ops s d s1 R0) as T.
    rewrite run_bind in R. destruct (run e (run_raw _ _ _) s1) as [o s2]. cbn [fst snd] in *.
    assert (s' = s2) as -> by (destruct o; cbn [run] in R; congruence). destruct T as ((T1 & T2 & T3 & T4) & Tj & Tm).
    split; [cbv zeta; rewrite T1, T2, T3, T4; vm_compute; repeat split|]. split; [|destruct mc; exact Tm].
    intros j Hj. destruct (Tj j Hj) as (U1 & U2 & U3 & _ & _ & U4 & U5). cbv zeta. rewrite U1, U2, U3, U4, U5. vm_compute. repeat split.
  - cbn [run] in R. injection R as <- <-. now contradiction (NE x).
  - exfalso. destruct (run_returns e _ (returns_macraw mc) s) as (? & ? & H). congruence.
  - exfalso. destruct (run_returns e _ (returns_macraw mc) s) as (? & ? & H). congruence.
  - exfalso. destruct (run_returns e _ (returns_macraw mc) s) as (? & ? & H). congruence.
Qed.
Print Assumptions C79_macraw_stays.
(** the bus fails in the middle of a frame being written and of one being read *)
Example C79_case : exists s' outs, run (mkEnv (fun t => if Nat.eqb t 60 then [EvFrame [x41; x42; x43]] else []) (fun j => if Nat.eqb j 23 then Some (2%nat, 7) else if Nat.eqb j 28 then Some (1%nat, 8) else None))
    (macraw_program (Mac x02 x03 x04 x05 x06 x07) 9 [RwWrite [x61; x62; x63; x64]; RwEnable x04; RwRead (repeat x00 9)]) sys0 = (Done (Ok outs), s') /\
  outs = [RwSent (Err 7); RwUnit (Ok tt); RwFrame (repeat x00 9) (Err 8)] /\ txm (socks (s_chip s') 0) 1 = x62.
Proof. eexists _, _. split; [apply run_snd; vm_compute; reflexivity|]. split; vm_compute; reflexivity. Qed.
