(** C102: what has arrived waits until it is asked for. *)
From Verif Require Import Stays Cases Life.

(** Claim: what a socket has received waits in the chip until the program receives it or closes
    the socket.  Proved for every program of a Device, every network and every bus error, whatever
    the calls return and also if one of them aborts or never returns: as long as no call is a
    receive, connect, bind or close of that socket, gives its handle up, or issues such a command to
    it through the raw Socket, and reset_device is not called, what was waiting is still first in the
    queue, and what arrived since follows it.  In particular sends, the calls on other sockets and
    refused calls lose nothing.  False if the program may also connect or bind a UDP socket. *)
Theorem C102_waits_partial :
  forall e chk k m s00 d s0 fuel ops0 a outs0 s h y ops oc s',
    run e (run_setup chk k m) s00 = (Done (Ok d), s0) ->
    run e (run_ops fuel (mkApp d [] 0) ops0) s0 = (Done (a, outs0), s) ->
    lookup h (handles a) = Some y ->
    Forall (fun o => match o with
      | OpReleaseSocket h' | OpForget h' | OpTcpConnect h' _ | OpTcpReceive h' _ | OpTcpClose h'
      | OpUdpConnect h' _ | OpUdpBind h' _ | OpUdpReceive h' _ | OpUdpClose h' => h' <> h
      | OpSocket h' (KCommand c) => h' <> h \/ In c [CmListen; CmSend]
      | OpDevice QResetDevice => False
      | _ => True
      end) ops ->
    run e (run_ops fuel a ops) s = (oc, s') ->
    let x := socks (s_chip s) (index (handle_socket y)) in let x' := socks (s_chip s') (index (handle_socket y)) in
    exists more, NetFacts.pending x' = NetFacts.pending x ++ more.
Proof.
  intros e chk k m s00 d s0 fuel ops0 a outs0 s h y ops oc s' R0 R1 L F R2 x x'.
  assert (P : pool_inv a) by exact (proj1 (setup_queued e chk k m s00 d s0 fuel ops0 a outs0 s 0 eq_refl R0 R1)).
  destruct (pi_lookup _ _ _ P L) as (i & Hi & Ey & _). unfold x, x'. rewrite Ey. change (index (socket_new i)) with i.
  destruct (setup_queued e chk k m s00 d s0 fuel ops0 a outs0 s i Hi R0 R1) as (_ & Q).
  exact (proj2 (keeps_ops e fuel h i _ Hi ops a y s oc s' P L Ey F R2 Q)).
Qed.
Print Assumptions C102_waits_partial.

(** The program binds UDP handle 0, and three bytes arrive. *)
Definition manual : setup := IManual (Mac x02 x00 x00 x00 x00 x01) (Ip4 x0a x00 x00 x02).
Definition udp_in (d : list byte) : nevent := EvDatagram 0 [x0a; x00; x00; x07] 53 d.
Definition waiting : list op := [OpUdpSocket; OpUdpBind 0 5000; OpDevice QVersion].
Definition busy : env := script ([(30%nat, [udp_in [x41; x42; x43]]); (36%nat, [udp_in [x44]])] ++ map (fun n => (n, [EvTransmit 0 65535; EvSendOk 0])) (seq 40 60)).
Notation up e := (run e (run_setup true manual mode_default) sys0).
Definition device : DeviceState := match fst (up quiet) with Done (Ok d) => d | _ => dev (app_new Dhcp) end.
Notation then_ e ops p := (run e (run_ops 30 (mkApp device [] 0) ops) (snd p)).
Definition bound_app : History.app := match fst (then_ busy waiting (up busy)) with Done (a, _) => a | _ => app_new Dhcp end.
Example C102_case : exists s0 s a s',
  run busy (run_setup true manual mode_default) sys0 = (Done (Ok device), s0) /\
  run busy (run_ops 30 (mkApp device [] 0) waiting) s0 = (Done (bound_app, [RUdpSocket (Ok 0%nat); RUdpUnit (Ok tt); RDevice (DByte (Ok x04))]), s) /\
  NetFacts.pending (socks (s_chip s) 0) = [x0a; x00; x00; x07; x00; x35; x00; x03; x41; x42; x43] /\
  run busy (run_ops 30 bound_app [OpUdpSendTo 0 (V4 (Addr4 (Ip4 x0a x00 x00 x09) 80)) [x50; x51]]) s = (Done (a, [RUdpSend (Ok tt)]), s') /\
  NetFacts.pending (socks (s_chip s') 0) = [x0a; x00; x00; x07; x00; x35; x00; x03; x41; x42; x43] ++ [x0a; x00; x00; x07; x00; x35; x00; x01; x44] /\
  sent (socks (s_chip s') 0) <> [].
Proof.
  do 4 eexists. split; [apply run_snd; vm_compute; reflexivity|]. split; [apply run_snd; vm_compute; reflexivity|]. split; [vm_compute; reflexivity|].
  split; [apply run_snd; vm_compute; reflexivity|]. split; [vm_compute; reflexivity|]. vm_compute. discriminate.
Qed.

(** A UDP connect, or a second bind, opens the socket anew: the datagram that was waiting is gone,
    although the bus works and the call returns Ok, and the next receive finds nothing. *)
Definition one : env := script [(30%nat, [udp_in [x41; x42; x43]])].
Theorem C102_waits_refuted : exists s0 a s,
  run one (run_setup true manual mode_default) sys0 = (Done (Ok device), s0) /\
  run one (run_ops 30 (mkApp device [] 0) waiting) s0 = (Done (a, [RUdpSocket (Ok 0%nat); RUdpUnit (Ok tt); RDevice (DByte (Ok x04))]), s) /\
  NetFacts.pending (socks (s_chip s) 0) = [x0a; x00; x00; x07; x00; x35; x00; x03; x41; x42; x43] /\
  forall o, o = OpUdpConnect 0 (V4 (Addr4 (Ip4 x0a x00 x00 x07) 53)) \/ o = OpUdpBind 0 5000 ->
    exists a' s', run one (run_ops 30 a [o; OpUdpReceive 0 (repeat x00 16)]) s =
      (Done (a', [RUdpUnit (Ok tt); RUdpReceive (repeat x00 16) (Err WouldBlock)]), s') /\
      NetFacts.pending (socks (s_chip s') 0) = [].
Proof.
  exists (snd (up one)), bound_app, (snd (then_ one waiting (up one))). split; [apply run_snd; vm_compute; reflexivity|].
  split; [apply run_snd; vm_compute; reflexivity|]. split; [vm_compute; reflexivity|].
  intros o [->| ->]; do 2 eexists; (split; [apply run_snd; vm_compute; reflexivity|vm_compute; reflexivity]).
Qed.
Print Assumptions C102_waits_refuted.

(** A raw device: frames wait while the program writes frames and switches interrupts, whatever the
    bus does. *)
Theorem C102_frames_wait :
  forall e mc s d s0 fuel pre outs s1 ops oc s2,
    run e (initialize_macraw mc) s = (Done (Ok d), s0) -> run e (run_raw fuel d pre) s0 = (Done outs, s1) ->
    Forall (fun o => forall f, o <> RwRead f) ops -> run e (run_raw fuel d ops) s1 = (oc, s2) ->
    exists more, NetFacts.pending (socks (s_chip s2) 0) = NetFacts.pending (socks (s_chip s1) 0) ++ more.
Proof.
  intros e mc s d s0 fuel pre outs s1 ops oc s2 R0 R1 F R2. destruct (raw_queued e mc s d s0 fuel pre outs s1 R0 R1) as (-> & Q).
  exact (proj2 (raw_keeps e fuel ops s1 oc s2 _ F R2 Q)).
Qed.
Print Assumptions C102_frames_wait.
Definition busy_air : env := script (map (fun n => (n, [EvFrame [x41; x42; x43]; EvTransmit 0 65535; EvSendOk 0])) (seq 29 40)).
Example C102_frames_case : exists s0 s1 outs s2,
  run busy_air (initialize_macraw (Mac x02 x00 x00 x00 x00 x01)) sys0 = (Done (Ok (mkRaw (socket_new 0))), s0) /\
  run busy_air (run_raw 40 (mkRaw (socket_new 0)) [RwEnable x04; RwClear; RwEnable x04; RwClear]) s0 = (Done outs, s1) /\
  run busy_air (run_raw 40 (mkRaw (socket_new 0)) [RwWrite [x61; x62]; RwDisable]) s1 = (Done [RwSent (Ok 2); RwUnit (Ok tt)], s2) /\
  (0 < len (NetFacts.pending (socks (s_chip s1) 0)) < len (NetFacts.pending (socks (s_chip s2) 0))).
Proof.
  do 4 eexists. split; [apply run_snd; vm_compute; reflexivity|]. split; [apply run_snd; vm_compute; reflexivity|]. split; [apply run_snd; vm_compute; reflexivity|].
  vm_compute. split; reflexivity.
Qed.
