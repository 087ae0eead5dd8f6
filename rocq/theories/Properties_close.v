(** C96: how a TCP connection ends. *)
From Verif Require Import Dotted TcpLimits Cases Liveness Datasheet.
From Verif Require Import Life LifeFacts LifeWire LifeCalls Goodbye NetFacts.
From Verif Require Import Properties_stream Properties_chip Properties_whole.

(** The full statement: close tells the peer that nothing more will come (DISCON, a FIN) and gives
    the socket up only once everything send accepted was acknowledged.  What holds: everything send
    accepted has left once, to the peer, and nothing else has; the socket is closed and free, and
    nothing leaves any more. *)
Theorem C96_close_partial e fuel h i r x1 acc del a s a' s' :
  tcp_session e fuel h i r x1 acc del a s ->
  run e (step fuel a (OpTcpClose h)) s = (Done (a', RTcpClose (Ok tt)), s') ->
  (exists l, sent (socks (s_chip s') i) = sent x1 ++ l /\ concat (map p_data l) = acc /\
     Forall (fun p => p_sport p = 49849 + i /\ p_ip p = dotted (a_ip r) /\ p_dport p = a_port r) l) /\
  (forall n, let x := socks (alone e (s_chip s') (s_tick s') n) i in
     sr x = SOCK_CLOSED /\ sent x = sent (socks (s_chip s') i)) /\
  N.testbit (ds_sockets (dev a')) i = true /\ lookup h (handles a') = None.
Proof.
  intros T R. destruct (C35_stream _ _ _ _ _ _ _ _ _ _ T) as (l & L1 & L2 & L3).
  destruct (session_facts _ _ _ _ _ _ _ _ _ _ T) as (Hi & I & L & (Rd & _)). destruct Rd as (_ & B & _).
  apply run_step_nofail in R; [|reflexivity].
  assert (C : wp (nofail e) (tcp_socket_close (mkTcp (socket_new i)))
      (fun o s1 => o = Done (Ok tt) /\ exists z, sk i s1 = closed_of z /\ sent z = sent (sk i s)) s).
  { unfold tcp_socket_close. cbn [t_socket]. apply wp_try. unfold set_mode, write_frame. rewrite so_reg by exact Hi. apply wp_wr1; [apply nofail_no_faults|].
    intros y s1 N1 E1. apply wp_ret. apply wp_try, wp_command; auto using nofail_no_faults. intros z s2 N2 E2. rewrite do_close in E2.
    apply wp_ret. split; [reflexivity|]. exists z. split; [exact E2|].
    destruct (sevs_idle i _ _ N1 B) as (B1 & _ & _ & S1). rewrite E1 in N2. destruct (sevs_idle i _ _ N2 B1) as (_ & _ & _ & S2). now rewrite S2, <- S1. }
  cbn [step] in R. rewrite L in R. apply run_bind_done in R as ([d q] & s1 & R1 & R). cbn [run fst snd] in R. injection R as <- -> <-.
  unfold tcp_close in R1. apply run_try_ok in R1 as [([] & s2 & R2 & R1)|(y & _ & [=])]. cbn [t_socket] in R1.
  unfold release_socket in R1. cbn [index socket_new] in R1. destruct (N.ltb_spec i 8); [|lia]. cbn [run] in R1. injection R1 as <- <-.
  destruct (wp_run _ _ _ _ _ _ R2 C) as [_ (z & E1 & E2)].
  split; [|split].
  - exists l. change (socks (s_chip s2) i) with (sk i s2). rewrite E1. change (sent (closed_of z)) with (sent z). rewrite E2. auto.
  - intros n. pose proof (alone_sevs e i n (s_chip s2) (s_tick s2)) as N. change (socks (s_chip s2) i) with (sk i s2) in N |- *. rewrite E1 in N |- *.
    apply (quiet_sevs i _ _ (quiet_closed z)) in N as (b & ->). split; reflexivity.
  - cbn [dev handles consume ds_sockets]. split; [apply N.setbit_eq|]. clear. induction (handles a) as [|[j y] l IH]; cbn [History.remove lookup]; [reflexivity|].
    destruct (Nat.eqb_spec j h) as [->|Hj]; [exact IH|]. cbn [lookup]. destruct (Nat.eqb_spec j h); [contradiction|exact IH].
Qed.
Print Assumptions C96_close_partial.

(** ... but close gives CLOSE, which drops the connection.  Here two bytes were accepted and sent
    once, the peer has acknowledged none of them, and the chip would send them again until it does;
    after the close it will not. *)
Definition one_send : env := script [(20%nat, [EvEstablished 0]); (40%nat, [EvTransmit 0 65535; EvSendOk 0])].
Theorem C96_close_refuted : exists x1 s a' s',
  tcp_session one_send 30 0 0 peer x1 [x61; x62] [] app1 s /\
  sr (socks (s_chip s) 0) = SOCK_ESTABLISHED /\ unacked (socks (s_chip s) 0) = [x61; x62] /\
  run one_send (step 30 app1 (OpTcpClose 0)) s = (Done (a', RTcpClose (Ok tt)), s') /\
  unacked (socks (s_chip s') 0) = [x61; x62] /\
  forall n, sr (socks (alone one_send (s_chip s') (s_tick s') n) 0) = SOCK_CLOSED /\
    sent (socks (alone one_send (s_chip s') (s_tick s') n) 0) = [mkPacket 49849 [x0a; x00; x00; x02] 8080 [x61; x62]].
Proof.
  assert (T : tcp_session one_send 30 0 0 peer (socks (s_chip (connected one_send)) 0) [x61; x62] [] app1 (afterwards one_send [OpTcpSend 0 [x61; x62]])).
  { apply (simple_session one_send [OpTcpSend 0 [x61; x62]] [RTcpSend (Ok 2)]); try (vm_compute; reflexivity); repeat constructor. }
  assert (R : exists a', run one_send (step 30 app1 (OpTcpClose 0)) (afterwards one_send [OpTcpSend 0 [x61; x62]]) =
     (Done (a', RTcpClose (Ok tt)), snd (run one_send (step 30 app1 (OpTcpClose 0)) (afterwards one_send [OpTcpSend 0 [x61; x62]])))).
  { eexists. apply run_snd. vm_compute. reflexivity. }
  destruct R as (a' & R). eexists. eexists. exists a'. eexists. split; [exact T|].
  split; [vm_compute; reflexivity|]. split; [vm_compute; reflexivity|]. split; [exact R|]. destruct (C96_close_partial _ _ _ _ _ _ _ _ _ _ _ _ T R) as (_ & H & _).
  split; [vm_compute; reflexivity|]. intros n. destruct (H n) as (H1 & H2). split; [exact H1|]. rewrite H2. vm_compute. reflexivity.
Qed.
Print Assumptions C96_close_refuted.

(** No program ever says goodbye: over the whole life of a chip, whatever the network and the bus
    do, no socket is ever waiting for the end of a connection in order (FIN_WAIT 0x18, LAST_ACK
    0x1d ...), nor listening (0x14), unless the program gave DISCON or LISTEN itself through
    Socket::command.  The states are SOCK_CLOSED, INIT, SYNSENT, ESTABLISHED, CLOSE_WAIT, UDP and
    MACRAW. *)
Theorem C96_never_disconnects :
  forall e chk fuel ops s o s',
    Forall (fun q => forall h c, q = LCall (OpSocket h (KCommand c)) -> c <> CmDiscon /\ c <> CmListen) ops ->
    (forall n, In (sr (socks (s_chip s) n)) [0x00; 0x13; 0x15; 0x17; 0x1c; 0x22; 0x42]) ->
    run e (run_life chk fuel life_new ops) s = (o, s') ->
    forall n, In (sr (socks (s_chip s') n)) [0x00; 0x13; 0x15; 0x17; 0x1c; 0x22; 0x42].
Proof.
  intros e chk fuel ops s o s' F H R n. pose proof (life_nobye_run e chk fuel ops life_new s wired_new) as K. rewrite R in K. apply K; [|exact H].
  eapply Forall_impl; [|exact F]. intros q Hq h c E. destruct (Hq h c E). auto.
Qed.
Print Assumptions C96_never_disconnects.
(** A chip that is a MACRAW device, is reset, dials twice, sends, closes and dials again: socket 0
    ends closed, socket 1 connected *)
Example C96_case_life :
  Forall (fun q => forall h c, q = LCall (OpSocket h (KCommand c)) -> c <> CmDiscon /\ c <> CmListen) full_life /\
  (forall n, In (sr (socks (s_chip sys0) n)) [0x00; 0x13; 0x15; 0x17; 0x1c; 0x22; 0x42]) /\
  sr (socks (s_chip (snd full_run)) 0) = 0x00 /\ sr (socks (s_chip (snd full_run)) 1) = 0x17.
Proof.
  split; [repeat constructor; discriminate|]. split; [intros n; cbn; tauto|]. split; vm_compute; reflexivity.
Qed.
(** A program that takes a socket itself and gives it the commands through Socket::command does
    reach FIN_WAIT, 0x18: the hypothesis is needed.  (A TcpSocket keeps its socket to itself.) *)
Definition polite_life : list lop :=
  [LInit (IDhcp (Mac x02 x00 x00 x00 x00 x01)) mode_default; LCall OpTakeSocket; LCall (OpSocket 0 (KSetMode PrTcp));
   LCall (OpSocket 0 (KCommand CmOpen)); LCall (OpSocket 0 (KCommand CmConnect)); LCall (OpSocket 0 KStatus); LCall (OpSocket 0 (KCommand CmDiscon))].
Example C96_case_discon : sr (socks (s_chip (snd (run answering (run_life true 9 life_new polite_life) sys0))) 0) = 0x18.
Proof. vm_compute. reflexivity. Qed.
