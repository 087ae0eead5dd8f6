(** C103: the first datagram after connect or bind; C104: the example program of the README. *)
From Verif Require Import FirstSend UdpCalls Cases TcpSession ErrorFacts InitFacts PipeSession PipeCalls ProgFacts HistoryFacts LifeFacts Commands Stays SizeFacts.
From Verif Require Import Datasheet.
From Verif Require Properties_udp Properties_chip.

(** ** C103 *)
(** In every program, on every network, whatever other handles do and whatever the bus does to them:
    the first send or send_to of a handle after its connect or bind tells the truth about a buffer
    that fits.  It returns Ok if and only if this datagram left, alone and whole, for the remote asked
    for, and WriteTimeout if and only if nothing left.  (Not so of a later send: C45, C47.) *)
Theorem C103_first_send e fuel h i dest port a s o r buf a' out s' :
  udp_opened_only e fuel h i dest port a s -> sends_buf h dest o r buf -> 0 < len buf <= tx_size (socks (s_chip s) i) ->
  run e (step fuel a o) s = (Done (a', out), s') -> out_berr out = None ->
  (out = RUdpSend (Ok tt) /\ sent (socks (s_chip s') i) = sent (socks (s_chip s) i) ++ [mkPacket port (dotted (a_ip r)) (a_port r) buf]) \/
  (out = RUdpSend (Err (NbOther UWriteTimeout)) /\ sent (socks (s_chip s') i) = sent (socks (s_chip s) i)).
Proof.
  intros T B L R NB. pose proof (opened_only_session _ _ _ _ _ _ _ _ T) as T'. pose proof (opened_only_unspent _ _ _ _ _ _ _ _ T) as (U1 & U2 & U3 & _).
  destruct (Properties_udp.C47_timeout_partial e fuel h i dest port a s o r buf a' out s' T' B R NB U2 U3 U1 L) as (C1 & C2).
  destruct (udp_send_call _ _ _ _ _ _ _ _ _ _ _ _ _ T' B R) as [(a1 & [= <- ->] & _)|[(a1 & [= <- ->] & _)|([=] & _)]].
  - intros a1 ou [= <- <-]. exact NB.
  - left. split; [reflexivity|]. now apply C2.
  - right. split; [reflexivity|]. now apply C1.
Qed.
Print Assumptions C103_first_send.

(** ** C104 *)
(** The README's program, for any addresses, mode, remote and data: set the device up with
    initialize_manual, take a UDP socket, connect it, send, close it.  From whatever state the chip
    was in and on whatever network: if no call met a bus error and send came back, then the chip has
    the addresses asked for, and exactly this datagram left the socket, from port 49849, or send said
    that it timed out and nothing left; and the socket is free again. *)
Theorem C104_readme e chk mc ip m s d s0 fuel r buf a outs s' :
  run e (initialize_manual chk mc ip m) s = (Done (Ok d), s0) ->
  run e (run_ops fuel (mkApp d [] 0) [OpUdpSocket; OpUdpConnect 0 (V4 r); OpUdpSend 0 buf; OpUdpClose 0]) s0 = (Done (a, outs), s') ->
  a_port r < 65536 -> 0 < len buf <= 2048 -> (forall o, In o outs -> out_berr o = None) ->
  fld (s_chip s') SHAR 6 = [m0 mc; m1 mc; m2 mc; m3 mc; m4 mc; m5 mc] /\ fld (s_chip s') SIPR 4 = [ip0 ip; ip1 ip; ip2 ip; ip3 ip] /\
  ds_sockets (dev a) = 255 /\ handles a = [] /\
  exists said left, outs = [RUdpSocket (Ok 0%nat); RUdpUnit (Ok tt); RUdpSend said; RUdpUnit (Ok tt)] /\
    sent (socks (s_chip s') 0) = sent (socks (s_chip s0) 0) ++ left /\
    (said = Ok tt /\ left = [mkPacket 49849 [ip0 (a_ip r); ip1 (a_ip r); ip2 (a_ip r); ip3 (a_ip r)] (a_port r) buf] \/
     said = Err (NbOther UWriteTimeout) /\ left = []).
Proof.
  intros R0 R Hr Hb NB.
  destruct (Properties_chip.init_manual e chk mc ip _ _ m s d s0 R0) as (_ & _ & _ & _ & A1 & A2 & _ & (n & Hs) & ho & ->).
  assert (X0 : sk 0 s0 = sock_reset (socks (alone e (s_chip s) (s_tick s) n) 0)) by apply Hs.
  assert (KA : forall x k, GAR <= x -> x + N.of_nat k <= SIPR + 4 -> fld (s_chip s') x k = fld (s_chip s0) x k).
  { intros x k H1 H2. apply com_list_ext. intros y Hy.
    pose proof (run_ops_addr_keep e y fuel [OpUdpSocket; OpUdpConnect 0 (V4 r); OpUdpSend 0 buf; OpUdpClose 0] (mkApp (ds_new ho) [] 0) s0) as K. rewrite R in K.
    apply K; [unfold addr_range; lia|intros ? ? []|repeat constructor; discriminate]. }
  rewrite !KA by now vm_compute. split; [exact A1|]. split; [exact A2|].
  set (a0 := mkApp (mkDS ho 254) [(0%nat, udp_handle 0 None 49849)] 1).
  assert (RS : run e (step fuel (mkApp (ds_new ho) [] 0) OpUdpSocket) s0 = (Done (a0, RUdpSocket (Ok 0%nat)), s0)) by reflexivity.
  cbn [run_ops] in R. apply run_bind_done in R as ([b1 o1] & t1 & R1 & R). rewrite RS in R1. injection R1 as <- <- <-.
  apply run_bind_done in R as ([b o] & t & R & RR). cbn [run fst snd] in RR, R. injection RR as <- <- <-.
  apply run_bind_done in R as ([a1 o1] & s1 & R1 & R). apply run_bind_done in R as ([b2 o2] & t2 & R & RR). cbn [run fst snd] in RR, R. injection RR as <- <- <-.
  apply run_bind_done in R as ([a2 o3] & s2 & R2 & R). apply run_bind_done in R as ([b3 o4] & t3 & R & RR). cbn [run fst snd] in RR, R. injection RR as <- <- <-.
  apply run_bind_done in R as ([a3 o5] & s3 & R3 & R). cbn [run fst snd bind] in R. injection R as <- <- <-.
  assert (P0 : pool_inv a0) by exact (run_step_inv e fuel _ _ s0 a0 _ s0 (pool_inv_new ho) RS).
  assert (L0 : lookup 0 (handles a0) = Some (udp_handle 0 None 49849)) by reflexivity.
  (* connect *)
  assert (V : valid_size (tx_size (sk 0 s0)) /\ valid_size (rx_size (sk 0 s0))) by (rewrite X0; split; right; left; reflexivity).
  assert (E1 : o1 = RUdpUnit (Ok tt) /\ sent (sk 0 s1) = sent (sk 0 s0)).
  { assert (B1 : out_berr o1 = None) by (apply NB; cbn; auto). pose proof R1 as R1'. apply run_step_nofail in R1'; [|exact B1].
    cbn [step] in R1'. rewrite L0 in R1'. unfold udp_handle in R1'. apply run_bind_done in R1' as (res & t & Rc & RR). cbn [run] in RR. injection RR as _ <- <-.
    enough (W : wp (nofail e) (udp_connect (mkUdp (socket_new 0) None 49849) (V4 r)) (fun o t => forall v, o = Done v -> snd v = Ok tt /\ sent (sk 0 t) = sent (sk 0 s0)) s0).
    { destruct (wp_run _ _ _ _ _ _ Rc W res eq_refl) as (-> & ->). auto. }
    apply connect_opens; auto using nofail_no_faults; try reflexivity; try apply V; try discriminate. intros t' _ _ Se v [= <-]. split; [reflexivity|]. apply Se. rewrite X0. reflexivity. }
  destruct E1 as (-> & E1).
  assert (T : udp_opened_only e fuel 0 0 (Some r) 49849 a1 s1).
  { exists ho, s0, [OpUdpSocket], a0, [RUdpSocket (Ok 0%nat)], s0, (mkUdp (socket_new 0) None 49849), (OpUdpConnect 0 (V4 r)), a1, s1, [], [].
    split; [reflexivity|]. split; [reflexivity|]. split; [reflexivity|]. split; [reflexivity|]. split; [left; exact I|].
    split; [apply V|]. split; [apply V|]. split; [left; eauto|]. split; [exact R1|]. split; [reflexivity|]. split; [repeat constructor; exact Hr|]. repeat split. constructor. }
  destruct (udp_session_facts _ _ _ _ _ _ _ _ (opened_only_session _ _ _ _ _ _ _ _ T)) as (_ & _ & P1 & L1 & U1).
  assert (Z : tx_size (sk 0 s1) = 2048).
  { assert (Z : two_k (sk 0 s1)).
    { pose proof (ops_sizes e 0 fuel [OpUdpConnect 0 (V4 r)] a0 s0 eq_refl P0) as Z. cbn [run_ops] in Z. rewrite run_bind, R1 in Z. cbn in Z. apply Z. rewrite X0. split; reflexivity. }
    unfold tx_size. destruct Z as (-> & _). reflexivity. }
  assert (B : sends_buf 0 (Some r) (OpUdpSend 0 buf) r buf) by now constructor.
  assert (NB2 : out_berr o3 = None) by (apply NB; cbn; auto).
  pose proof (C103_first_send e fuel 0 0 (Some r) 49849 a1 s1 _ r buf a2 o3 s2 T B ltac:(change (0 < len buf <= tx_size (sk 0 s1)); now rewrite Z) R2 NB2) as F.
  assert (S2 : a2 = a1 /\ idle (sk 0 s2)).
  { split.
    - cbn [step] in R2. rewrite L1 in R2. unfold udp_handle in R2. apply run_bind_done in R2 as (res & t & _ & RR). cbn [run] in RR. now injection RR as <- _ _.
    - destruct (udp_send_call _ _ _ _ _ _ _ _ _ _ _ _ _ (opened_only_session _ _ _ _ _ _ _ _ T) B R2) as [(z & _ & _ & U)|[(z & _ & _ & U)|([=] & _)]];
        [intros ? ? [= <- <-]; exact NB2| |]; apply (uinv_valid _ _ _ U). }
  destruct S2 as (-> & I2). pose proof (sent_close e fuel a1 0 0 (Some r) 49849 s2 a3 o5 s3 eq_refl P1 L1 I2 R3) as E3.
  (* close *)
  assert (C : o5 = RUdpUnit (Ok tt) /\ ds_sockets (dev a3) = 255 /\ handles a3 = []).
  { assert (D1 : dev a1 = mkDS ho 254 /\ handles a1 = [(0%nat, udp_handle 0 (Some r) 49849)]).
    { cbn [step] in R1. rewrite L0 in R1. unfold udp_handle in R1. apply run_bind_done in R1 as (res & t & _ & RR). cbn [run] in RR. injection RR as <- _ _.
      split; [reflexivity|]. cbn in L1 |- *. injection L1 as ->. reflexivity. }
    destruct D1 as (D1 & D2).
    assert (B5 : out_berr o5 = None) by (apply NB; cbn; auto). cbn [step] in R3. rewrite L1 in R3. unfold udp_handle in R3. unfold udp_close in R3.
    apply run_bind_done in R3 as (res & t & Rc & RR). cbn [run] in RR. injection RR as <- <- <-.
    unfold try_ in Rc. apply run_bind_done in Rc as ([v|x] & t' & Rx & RR); cbn [u_socket] in RR.
    - rewrite D1 in RR. cbn in RR. injection RR as <- <-. cbn. rewrite D2. auto.
    - cbn [run] in RR. injection RR as <- <-. cbn in B5. unfold udp_socket_close, try_ in Rx. cbv zeta in Rx.
      apply run_bind_done in Rx as ([w|w] & t1 & _ & Rx); [|cbn [run] in Rx; injection Rx as <- _; discriminate B5].
      apply run_bind_done in Rx as ([w2|w2] & t2 & _ & Rx); cbn [run] in Rx; [discriminate Rx|]. injection Rx as <- _. discriminate B5. }
  destruct C as (-> & C1 & C2). split; [exact C1|]. split; [exact C2|].
  change (socks (s_chip s3) 0) with (sk 0 s3). change (socks (s_chip s0) 0) with (sk 0 s0). rewrite E3, <- E1.
  destruct F as [(-> & F)|(-> & F)]; do 2 eexists; (split; [reflexivity|]); (split; [|]).
  - exact F.
  - left. split; reflexivity.
  - change (sk 0 s2) with (socks (s_chip s2) 0). rewrite F. symmetry. apply app_nil_r.
  - right. split; reflexivity.
Qed.
Print Assumptions C104_readme.
(** the addresses and the text of the README, on a network that takes every datagram, and on one
    where nobody answers *)
Definition hello : list byte := [x68; x65; x6c; x6c; x6f; x0a].
Definition host : ipv4 := Ip4 xc0 xa8 x56 x4f.
Definition there : addr4 := Addr4 (Ip4 xc0 xa8 x56 x26) 8000.
Definition readme : list op := [OpUdpSocket; OpUdpConnect 0 (V4 there); OpUdpSend 0 hello; OpUdpClose 0].
Definition nobody : env := mkEnv (fun _ => [EvSendTimeout 0 true]) (fun _ => None).
Notation set_up e := (run e (initialize_manual true (Mac x00 x01 x02 x03 x04 x05) host mode_default) sys0).
Definition ready_device : DeviceState := match fst (set_up quiet) with Done (Ok d) => d | _ => mkDS Dhcp 0 end.
Example C104_case : exists a s0 s1 t0 t1,
  set_up Properties_udp.prompt = (Done (Ok ready_device), s0) /\
  run Properties_udp.prompt (run_ops 20 (mkApp ready_device [] 0) readme) s0 = (Done (a, [RUdpSocket (Ok 0%nat); RUdpUnit (Ok tt); RUdpSend (Ok tt); RUdpUnit (Ok tt)]), s1) /\
  sent (socks (s_chip s1) 0) = [mkPacket 49849 [xc0; xa8; x56; x26] 8000 hello] /\
  set_up nobody = (Done (Ok ready_device), t0) /\
  run nobody (run_ops 20 (mkApp ready_device [] 0) readme) t0 = (Done (a, [RUdpSocket (Ok 0%nat); RUdpUnit (Ok tt); RUdpSend (Err (NbOther UWriteTimeout)); RUdpUnit (Ok tt)]), t1).
Proof.
  do 5 eexists. split; [apply run_snd; vm_compute; reflexivity|]. split; [apply run_snd; vm_compute; reflexivity|]. split; [vm_compute; reflexivity|].
  split; [apply run_snd; vm_compute; reflexivity|]. apply run_snd; vm_compute; reflexivity.
Qed.
(** C103: the handle is bound, its port is changed, a datagram is received, another handle is bound;
    then the first send_to *)
Definition busy_net : env := script ((18%nat, [EvDatagram 0 [x01; x02; x03; x04] 53 [x41; x42; x43]]) :: map (fun n => (n, [EvTransmit 0 65535; EvSendOk 0])) (seq 20 200)).
Definition before : list op := [OpUdpSetPort 0 5001; OpUdpSocket; OpUdpBind 1 77; OpUdpReceive 0 [x00; x00; x00]].
Notation bound_app := (mkApp (mkDS Dhcp 252) [(0%nat, HUdp (mkUdp (socket_new 0) None 5001)); (1%nat, HUdp (mkUdp (socket_new 1) None 77))] 2).
Example C103_case : exists s s', udp_opened_only busy_net 30 0 0 None 5001 bound_app s /\
  sends_buf 0 None (OpUdpSendTo 0 (V4 there) hello) there hello /\ 0 < len hello <= tx_size (socks (s_chip s) 0) /\
  run busy_net (step 30 bound_app (OpUdpSendTo 0 (V4 there) hello)) s =
    (Done (put bound_app 0 (HUdp (mkUdp (socket_new 0) (Some there) 5001)), RUdpSend (Ok tt)), s').
Proof.
  eexists (snd (run busy_net (run_ops 30 (Properties_udp.uapp None 5000) before) (Properties_udp.uopen busy_net (OpUdpBind 0 5000)))), _. split.
  { exists Dhcp, sys0, [OpUdpSocket], (Properties_udp.uapp None 49849), [RUdpSocket (Ok 0%nat)], sys0, (mkUdp (socket_new 0) None 49849), (OpUdpBind 0 5000), (Properties_udp.uapp None 5000),
      (Properties_udp.uopen busy_net (OpUdpBind 0 5000)), before, [RUdpUnit (Ok tt); RUdpSocket (Ok 1%nat); RUdpUnit (Ok tt); RUdpReceive [x41; x42; x43] (Ok (3, V4 (Addr4 (Ip4 x01 x02 x03 x04) 53)))].
    split; [reflexivity|]. split; [reflexivity|]. split; [reflexivity|]. split; [reflexivity|]. split; [left; exact I|].
    split; [right; left; vm_compute; reflexivity|]. split; [right; left; vm_compute; reflexivity|]. split; [right; eexists; reflexivity|].
    split; [unfold Properties_udp.uopen; apply run_snd; vm_compute; reflexivity|]. split; [apply run_snd; vm_compute; reflexivity|].
    split; [repeat constructor|]. split; [cbn; auto 10|]. split; [reflexivity|]. split; [reflexivity|]. repeat constructor. }
  split; [constructor; reflexivity|]. split; [vm_compute; split; [reflexivity|discriminate]|]. apply run_snd. vm_compute. reflexivity.
Qed.
