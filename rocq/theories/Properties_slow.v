(** C95: what the program gets does not depend on how long the chip takes over a command. *)
From Verif Require Import Datasheet Slow SlowFacts SlowSend Chip Exec Cases History RawDevice Uninit Device.
From Verif Require Import Properties_stream Properties_raw.

(** ** False of the code *)
(** nothing is taken from byte [from] of the bus on until byte [upto] *)
Definition held (l : list (nat * list nevent)) (from upto : nat) : senv :=
  mkSenv (script l) (fun t _ => negb (Nat.leb from t && Nat.ltb t upto)).

(** TCP: the peer sends a, b and then c.  The chip is still busy with the RECV of the first
    receive when the second one reads how much there is: that returns three bytes, of which the
    last two are whatever the memory of the chip held. *)
Definition tcp_held : senv := held
  [(20%nat, [EvEstablished 0]); (21%nat, [EvTcpData 0 [x61; x62]]); (35%nat, [EvTcpData 0 [x63]])] 33 41.
Definition tcp_reads : list op := [OpTcpConnect 0 (V4 peer); OpTcpReceive 0 [x00; x00]; OpTcpReceive 0 [x00; x00; x00; x00]].
Theorem C95_tcp_refuted : exists w s,
  slow_run tcp_held (run_ops 30 app1 tcp_reads) (rested sys0) =
    (Done (app1, [RTcpConnect (Ok tt); RTcpReceive [x61; x62] (Ok 2); RTcpReceive [x63; x03; x04; x00] (Ok 3)]), w) /\
  run (at_once tcp_held) (run_ops 30 app1 tcp_reads) sys0 =
    (Done (app1, [RTcpConnect (Ok tt); RTcpReceive [x61; x62] (Ok 2); RTcpReceive [x63; x00; x00; x00] (Ok 1)]), s).
Proof.
  eexists. eexists. split.
  - vm_compute. reflexivity.
  - apply run_snd. vm_compute. reflexivity.
Qed.
Print Assumptions C95_tcp_refuted.

(** MACRAW: one frame arrives, and nothing else ever.  The program reads it and looks for
    another while the chip is still busy with the RECV: it gets frames that were never sent,
    also after the chip has taken the RECV. *)
Definition frame_held : senv := held [(25%nat, [EvFrame [x61; x62; x63]])] 38 43.
Definition frame_reads : prog (list rawout) :=
  do d <- initialize_macraw my_mac ;;
  match d with
  | Ok d => run_raw 30 d [RwRead [x00; x00; x00; x00]; RwRead [x00; x00; x00; x00]; RwRead [x00; x00; x00; x00]]
  | Err _ => Ret []
  end.
Theorem C95_macraw_refuted : exists w s,
  slow_run frame_held frame_reads (rested sys0) =
    (Done [RwFrame [x61; x62; x63; x00] (Ok 3); RwFrame [x07; x08; x09; x00] (Ok 3); RwFrame [x0c; x0d; x0e; x0f] (Ok 4)], w) /\
  run (at_once frame_held) frame_reads sys0 =
    (Done [RwFrame [x61; x62; x63; x00] (Ok 3); RwFrame [x00; x00; x00; x00] (Ok 0); RwFrame [x00; x00; x00; x00] (Ok 0)], s).
Proof.
  eexists. eexists. split.
  - vm_compute. reflexivity.
  - apply run_snd. vm_compute. reflexivity.
Qed.
Print Assumptions C95_macraw_refuted.

(** ** What holds *)
(** The full statement: every program, against every chip however slow, comes to the same end as
    against the chip that obeys at once.  Here under the condition that no socket is touched, by
    the bus or by the network, while a command to it waits ([w_late]).  Then the chip ends in the
    same state too, but for the commands that still wait at the end. *)
Theorem C95_in_time_partial :
  forall A (p : prog A) e s o w,
    slow_run e p (rested s) = (o, w) -> w_late w = false ->
    exists s', run (at_once e) p s = (o, s') /\
      s_tick (w_sys w) = s_tick s' /\ com (s_chip (w_sys w)) = com (s_chip s') /\
      forall i, (forall v, ~ In (i, v) (w_wait w)) -> socks (s_chip (w_sys w)) i = socks (s_chip s') i.
Proof.
  intros A p e s o w R L. destruct (in_time e p s (rested s) o w) as (s' & R' & S & St & _); [repeat split|exact R|exact L|].
  exists s'. split; [exact R'|]. split; [symmetry; exact St|]. destruct S as [S1 S2]. split; [rewrite obey_all_com in S1; symmetry; exact S1|].
  intros i H. rewrite S2, obey_all_sock. rewrite obeyed_none; [reflexivity|]. unfold waits_for.
  destruct (existsb _ (w_wait w)) eqn:E; [|reflexivity]. apply existsb_exists in E as ([j v] & Hin & Ej). cbn [fst] in Ej.
  apply N.eqb_eq in Ej. subst j. destruct (H v Hin).
Qed.
Print Assumptions C95_in_time_partial.
(** If every command is taken before the next byte on the bus, the condition is met. *)
Theorem C95_next_byte :
  forall A (p : prog A) e s, (forall t i, takes e t i = true) ->
    exists w, slow_run e p (rested s) = (fst (run (at_once e) p s), w) /\ w_late w = false.
Proof.
  intros A p e s H. destruct (slow_run e p (rested s)) as [o w] eqn:R. pose proof (prompt_late e H p (rested s) o w R) as L.
  destruct (in_time e p s (rested s) o w) as (s' & R' & _); [repeat split|exact R|apply L; reflexivity|].
  rewrite R'. exists w. split; [reflexivity|]. apply L; reflexivity.
Qed.
Print Assumptions C95_next_byte.
(** A SEND may wait longer.  Nothing the driver does while it waits for SENDOK counts ([w_upset]):
    reading the status, the flags, the free size, anything else but Sn_CR; filling the TX buffer;
    clearing flags.  Only another command, and moving the TX write pointer, do.  The end is then
    the one against a chip that obeys at once, on a network that does the same things but for
    some of the turns at which something of a SEND would go out. *)
Theorem C95_late_send_partial :
  forall A (p : prog A) e s o w,
    slow_run e p (rested s) = (o, w) -> w_upset w = false ->
    exists e' s',
      run e' p s = (o, s') /\
      (forall j, fails e' j = fails (at_once e) j) /\
      (forall t, exists keep, happens e' t = filter keep (happens (at_once e) t) /\
         forall ev, keep ev = false -> (exists n k, ev = EvTransmit n k) \/ (exists n b, ev = EvSendTimeout n b)) /\
      s_tick (w_sys w) = s_tick s' /\ com (s_chip (w_sys w)) = com (s_chip s') /\
      (* [tx_end] is what the chip keeps of the last SEND while it goes out *)
      forall i, (forall v, ~ In (i, v) (w_wait w)) ->
        set_tx_end (socks (s_chip (w_sys w)) i) (tx_end (socks (s_chip s') i)) = socks (s_chip s') i /\
        (tx_busy (socks (s_chip s') i) = true -> socks (s_chip (w_sys w)) i = socks (s_chip s') i).
Proof.
  intros A p e s o w R U. destruct (late_sends e p s (rested s) o w) as (f & s' & R' & (S1 & S2) & St & _); [|exact R|exact U|].
  { split; [split; [reflexivity|intros n; apply eqv_refl]|split; reflexivity]. }
  exists (muted f (at_once e)), s'. split; [exact R'|]. split; [reflexivity|]. split.
  { intros t. eexists. split; [reflexivity|]. intros ev H. apply negb_false_iff, andb_prop in H as [H _].
    destruct ev; try discriminate H; [left|right]; eauto. }
  split; [symmetry; exact St|]. split; [rewrite <- S1, obey_all_com; reflexivity|].
  intros i H. specialize (S2 i). rewrite obey_all_sock, obeyed_none in S2.
  - destruct S2 as (t & E & B). rewrite E. split; [reflexivity|]. cbn [set_tx_end tx_busy]. intros By. rewrite (B By). now destruct (socks (s_chip (w_sys w)) i).
  - unfold waits_for. destruct (existsb _ (w_wait w)) eqn:E; [|reflexivity]. apply existsb_exists in E as ([j v] & Hin & Ej). cbn [fst] in Ej.
    apply N.eqb_eq in Ej. subst j. destruct (H v Hin).
Qed.
Print Assumptions C95_late_send_partial.
(** UDP send: the SEND waits for thirty bytes on the bus, while send keeps asking for its SENDOK;
    every time the network is ready to take the datagram there is none *)
Definition send_held : senv :=
  mkSenv (mkEnv (fun _ => [EvTransmit 0 65535; EvSendOk 0]) (fun _ => None)) (fun t _ => negb (Nat.leb 20 t && Nat.ltb t 50)).
Example C95_case_send : exists a w,
  slow_run send_held (run_ops 30 (app_new Dhcp) [OpUdpSocket; OpUdpConnect 0 (V4 peer); OpUdpSend 0 [x61; x62]]) (rested sys0) =
    (Done (a, [RUdpSocket (Ok 0%nat); RUdpUnit (Ok tt); RUdpSend (Ok tt)]), w) /\
  w_upset w = false /\ w_late w = true /\ w_wait w = [] /\ s_tick (w_sys w) = 58%nat /\
  sent (socks (s_chip (w_sys w)) 0) = [mkPacket 49849 [x0a; x00; x00; x02] 8080 [x61; x62]].
Proof. eexists. eexists. split; [vm_compute; reflexivity|]. repeat split. Qed.
(** However slow the chip: what happens is one of the executions of Exec.v, so everything proved
    over those (C14, C15, C22, C34, C61, C84, C94 ...) holds of it as well. *)
Theorem C95_any_delay :
  forall A (p : prog A) e s o w, slow_run e p (rested s) = (o, w) -> exists tr, exec p tr o.
Proof. intros A p e s o w. apply slow_exec. Qed.
Print Assumptions C95_any_delay.

(** A UDP socket is opened; the OPEN waits while the program asks the chip for its addresses
    and is taken before the socket is used again. *)
Definition open_held : senv := held [(20%nat, [EvDatagram 0 [x0a; x00; x00; x09] 80 [x41; x42; x43]])] 5 19.
Definition bind_ops : list op := [OpUdpSocket; OpUdpBind 0 5000; OpDevice QMac].
Definition bound_app : History.app :=
  mkApp (mkDS Dhcp 254) [(0%nat, HUdp (mkUdp (socket_new 0) None 5000))] 1.
Example C95_case : exists w w',
  slow_run open_held (run_ops 30 (app_new Dhcp) bind_ops) (rested sys0) =
    (Done (bound_app, [RUdpSocket (Ok 0%nat); RUdpUnit (Ok tt); RDevice (DMac (Ok (Mac x00 x00 x00 x00 x00 x00)))]), w) /\
  w_wait w = [(0, x01)] /\
  slow_run open_held (run_ops 30 bound_app [OpDevice QIp; OpUdpReceive 0 [x00; x00; x00]]) w =
    (Done (bound_app, [RDevice (DIp (Ok (Ip4 x00 x00 x00 x00))); RUdpReceive [x41; x42; x43] (Ok (3, V4 (Addr4 (Ip4 x0a x00 x00 x09) 80)))]), w') /\
  w_late w' = false /\ w_wait w' = [].
Proof.
  eexists. eexists. split; [|split; [|split; [|split]]].
  - vm_compute. reflexivity.
  - reflexivity.
  - vm_compute. reflexivity.
  - reflexivity.
  - reflexivity.
Qed.
(** one byte later the driver takes the socket it has just opened for a closed one *)
Theorem C95_udp_refuted : exists w s,
  slow_run (held [] 5 20) (run_ops 30 (app_new Dhcp) (bind_ops ++ [OpDevice QIp; OpUdpReceive 0 [x00; x00; x00]])) (rested sys0) =
    (Done (bound_app, [RUdpSocket (Ok 0%nat); RUdpUnit (Ok tt); RDevice (DMac (Ok (Mac x00 x00 x00 x00 x00 x00)));
       RDevice (DIp (Ok (Ip4 x00 x00 x00 x00))); RUdpReceive [x00; x00; x00] (Err (NbOther USocketNotOpen))]), w) /\
  run quiet (run_ops 30 (app_new Dhcp) (bind_ops ++ [OpDevice QIp; OpUdpReceive 0 [x00; x00; x00]])) sys0 =
    (Done (bound_app, [RUdpSocket (Ok 0%nat); RUdpUnit (Ok tt); RDevice (DMac (Ok (Mac x00 x00 x00 x00 x00 x00)));
       RDevice (DIp (Ok (Ip4 x00 x00 x00 x00))); RUdpReceive [x00; x00; x00] (Err WouldBlock)]), s).
Proof.
  eexists. eexists. split.
  - vm_compute. reflexivity.
  - apply run_snd. vm_compute. reflexivity.
Qed.
Print Assumptions C95_udp_refuted.
