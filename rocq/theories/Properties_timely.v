(** C109, C110: programs that read in time get everything. *)
From Verif Require Import Dotted.
From Verif Require Import Timely Cases TcpSession UdpSession UdpReceive UdpCalls.
From Verif Require Import Datasheet.
From Verif Require Properties_stream Properties_udp.

(** ** C109.  C39 is refuted: what a receive leaves behind, because its buffer is too small or because
    it arrives during the call, is not noticed before more arrives.  Here: a program none of whose
    receives left anything behind gets every byte.  In time is a receive whose buffer has room for
    all that waits and during which nothing more arrives ([tcp_timely]: all receives since the
    connect were).  One more such receive returns everything that waits; with what the receives
    before it delivered that is all that has arrived since the connect, and nothing is left. *)
Theorem C109_tcp_in_time e fuel h i r x1 acc del a s b a' out s' :
  tcp_timely e fuel h i r x1 acc del a s ->
  run e (step fuel a (OpTcpReceive h b)) s = (Done (a', out), s') -> out_berr out = None ->
  len (pending (socks (s_chip s) i)) <= len b -> rxlog (socks (s_chip s') i) = rxlog (socks (s_chip s) i) ->
  (exists b' n, out = RTcpReceive b' (Ok n) /\ n = len (pending (socks (s_chip s) i)) /\
     rxlog (socks (s_chip s') i) = del ++ take n b' /\ pending (socks (s_chip s') i) = [] /\
     tcp_timely e fuel h i r x1 acc (del ++ take n b') a' s') \/
  (out = RTcpReceive b (Err (NbOther TNotConnected)) /\ tcp_timely e fuel h i r x1 acc del a' s').
Proof.
  intros T R NB Lb Lg. pose proof (timely_session _ _ _ _ _ _ _ _ _ _ T) as T0.
  pose proof (timely_next e fuel h i r x1 acc del a s (OpTcpReceive h b) a' out s' T Logic.I R (fun _ => NB)) as Tn.
  assert (C : forall b0, OpTcpReceive h b = OpTcpReceive h b0 -> len (pending (sk i s)) <= len b0 /\ rxlog (sk i s') = rxlog (sk i s)) by (intros b0 [= <-]; auto).
  specialize (Tn C). destruct (receive_timely _ _ _ _ _ _ _ _ _ _ _ _ _ _ T0 (timely_settled _ _ _ _ _ _ _ _ _ _ T) R NB Lb Lg) as (_ & [(b' & -> & E & P)| ->]);
    cbn [accepted1 delivered1] in Tn; rewrite ?Nat.eqb_refl, ?app_nil_r in Tn.
  - left. exists b', (len (pending (sk i s))). split; [reflexivity|]. split; [reflexivity|].
    pose proof (timely_session _ _ _ _ _ _ _ _ _ _ Tn) as Tn0.
    destruct (session_facts _ _ _ _ _ _ _ _ _ _ Tn0) as (_ & _ & _ & _ & _ & _ & _ & L & _). rewrite P, app_nil_r in L.
    split; [exact L|]. split; [exact P|exact Tn].
  - right. auto.
Qed.
Print Assumptions C109_tcp_in_time.

(** At any moment between two calls of such a program: if something waits, its flag is up, so that
    the next receive notices it. *)
Theorem C109_tcp_noticed e fuel h i r x1 acc del a s : tcp_timely e fuel h i r x1 acc del a s ->
  rxlog (socks (s_chip s) i) = del ++ pending (socks (s_chip s) i) /\
  (pending (socks (s_chip s) i) <> [] -> N.testbit (ir (socks (s_chip s) i)) 2 = true).
Proof.
  intros T. split.
  - destruct (session_facts _ _ _ _ _ _ _ _ _ _ (timely_session _ _ _ _ _ _ _ _ _ _ T)) as (_ & _ & _ & _ & _ & _ & _ & L & _). exact L.
  - intros N. destruct (timely_settled _ _ _ _ _ _ _ _ _ _ T) as [F|P]; [exact F|now elim N].
Qed.
Print Assumptions C109_tcp_noticed.

(** three bytes arrive and are read, then two more: a four-byte buffer each time *)
Definition in_turn : env := script [(20%nat, [EvEstablished 0]); (21%nat, [EvTcpData 0 [x61; x62; x63]]); (50%nat, [EvTcpData 0 [x64; x65]])].
Definition read_wait : list op := OpDevice QVersion :: OpTcpReceive 0 (repeat x00 4) :: repeat (OpDevice QVersion) 20.
Example C109_case : exists x1 s s', tcp_timely in_turn 30 0 0 Properties_stream.peer x1 [] [x61; x62; x63] Properties_stream.app1 s /\
  pending (socks (s_chip s) 0) = [x64; x65] /\
  run in_turn (step 30 Properties_stream.app1 (OpTcpReceive 0 (repeat x00 4))) s =
    (Done (Properties_stream.app1, RTcpReceive [x64; x65; x00; x00] (Ok 2)), s') /\
  rxlog (socks (s_chip s') 0) = [x61; x62; x63; x64; x65] /\ rxlog (socks (s_chip s) 0) = [x61; x62; x63; x64; x65].
Proof.
  exists (socks (s_chip (Properties_stream.connected in_turn)) 0), (Properties_stream.afterwards in_turn read_wait). eexists. split.
    exists Dhcp, sys0, [OpTcpSocket], Properties_stream.app1, [RTcpSocket (Ok 0%nat)], sys0, (mkTcp (socket_new 0)), (Properties_stream.connected in_turn), read_wait,
      (RDevice (DByte (Ok x04)) :: RTcpReceive [x61; x62; x63; x00] (Ok 3) :: repeat (RDevice (DByte (Ok x04))) 20).
    split; [reflexivity|]. split; [reflexivity|]. split; [reflexivity|].
    split; [right; left; vm_compute; reflexivity|]. split; [right; left; vm_compute; reflexivity|]. split; [reflexivity|].
    split; [unfold Properties_stream.connected; apply run_snd; vm_compute; reflexivity|]. split; [reflexivity|].
    split; [unfold Properties_stream.afterwards; apply run_snd; vm_compute; reflexivity|]. split; [repeat constructor|]. split; [cbn; repeat split; discriminate|].
    split; [reflexivity|]. split; [reflexivity|]. unfold read_wait.
    eapply ti_cons; [apply run_snd; vm_compute; reflexivity|discriminate|].
    eapply ti_cons; [apply run_snd; vm_compute; reflexivity|intros b [= <-]; split; [vm_compute; discriminate|vm_compute; reflexivity]|].
    do 20 (eapply ti_cons; [apply run_snd; vm_compute; reflexivity|discriminate|]). constructor.
  - split; [vm_compute; reflexivity|]. split; [apply run_snd; vm_compute; reflexivity|]. split; vm_compute; reflexivity.
Qed.

(** ** C110.  C50 is refuted: a receive that finds two datagrams returns the first and drops the
    second.  Here: a program each of whose receives found at most one datagram, and during none of
    whose receives another arrived ([udp_timely]), gets every datagram: all that arrived since the
    bind or connect are those its receives returned, one per successful receive and in order,
    followed by those that wait; and if any waits, the flag is up. *)
Theorem C110_udp_in_time e fuel h i dest port ops outs a s : udp_timely e fuel h i dest port ops outs a s ->
  exists gss left, udp_gets h ops outs gss /\ Forall (fun gs => (length gs <= 1)%nat) gss /\
    rxlog (socks (s_chip s) i) = concat (map record_of (concat gss ++ left)) /\
    pending (socks (s_chip s) i) = concat (map record_of left) /\
    (left <> [] -> N.testbit (ir (socks (s_chip s) i)) 2 = true).
Proof.
  intros T. destruct (udp_timely_facts _ _ _ _ _ _ _ _ _ _ T) as (gss & left & G & F & (Q & W) & L & S).
  exists gss, left. split; [exact G|]. split; [exact F|]. split; [exact L|]. split; [exact Q|].
  intros N. destruct S as [S|S]; [exact S|]. elim N. apply records_nil; [exact W|]. unfold pending in *. congruence.
Qed.
Print Assumptions C110_udp_in_time.

(** The next receive in time: it returns the datagram that waits, or says WouldBlock when none does
    (an empty buffer is refused); nothing is left. *)
Theorem C110_udp_next e fuel h i dest port ops outs a s b a' out s' q : udp_timely e fuel h i dest port ops outs a s ->
  run e (step fuel a (OpUdpReceive h b)) s = (Done (a', out), s') -> out_berr out = None -> b <> [] ->
  queue (socks (s_chip s) i) q -> (length q <= 1)%nat -> rxlog (socks (s_chip s') i) = rxlog (socks (s_chip s) i) ->
  pending (socks (s_chip s') i) = [] /\
  ((exists g b' n r, q = [g] /\ out = RUdpReceive b' (Ok (n, V4 r)) /\ dotted (a_ip r) = g_ip g /\ a_port r = g_port g /\ take (len (g_data g)) b' = g_data g) \/
   (q = [] /\ out = RUdpReceive b (Err WouldBlock))).
Proof.
  intros T R NB Nb Q L Lg. destruct (udp_timely_facts _ _ _ _ _ _ _ _ _ _ T) as (_ & _ & _ & _ & _ & _ & S).
  destruct (udp_receive_timely _ _ _ _ _ _ _ _ _ _ _ _ _ (udp_timely_session _ _ _ _ _ _ _ _ _ _ T) S Q L R NB Lg) as (_ & X).
  destruct X as [(g & b' & n & r & E & Eo & F1 & F2 & F3 & _ & _ & Q1)|[(-> & -> & Q1)|(_ & E & _)]].
  - split; [apply Q1|]. left. exists g, b', n, r. auto.
  - split; [apply Q1|]. right. auto.
  - now elim Nb.
Qed.
Print Assumptions C110_udp_next.

(** one datagram arrives and is read, then another *)
Definition datagrams : env := script [(13%nat, [Properties_udp.arrival [x41; x42; x43]]); (60%nat, [Properties_udp.arrival [x44]])].
Definition uread_wait : list op := OpDevice QVersion :: OpUdpReceive 0 (repeat x00 3) :: repeat (OpDevice QVersion) 40.
Example C110_case : exists s s', let a := Properties_udp.uapp (Some Properties_udp.peer) 49849 in exists outs,
  udp_timely datagrams 30 0 0 (Some Properties_udp.peer) 49849 uread_wait outs a s /\
  queue (socks (s_chip s) 0) [mkDgram [x01; x02; x03; x04] 53 [x44]] /\
  run datagrams (step 30 a (OpUdpReceive 0 [x00])) s = (Done (a, RUdpReceive [x44] (Ok (1, V4 (Addr4 (Ip4 x01 x02 x03 x04) 53)))), s') /\
  rxlog (socks (s_chip s') 0) = rxlog (socks (s_chip s) 0).
Proof.
  pose (o1 := OpUdpConnect 0 (V4 Properties_udp.peer)).
  exists (Properties_udp.uafter datagrams o1 (Properties_udp.uapp (Some Properties_udp.peer) 49849) uread_wait). eexists. cbv zeta.
  exists (RDevice (DByte (Ok x04)) :: RUdpReceive [x41; x42; x43] (Ok (3, V4 (Addr4 (Ip4 x01 x02 x03 x04) 53))) :: repeat (RDevice (DByte (Ok x04))) 40). split.
  - exists Dhcp, sys0, [OpUdpSocket], (Properties_udp.uapp None 49849), [RUdpSocket (Ok 0%nat)], sys0, (mkUdp (socket_new 0) None 49849), o1,
      (Properties_udp.uapp (Some Properties_udp.peer) 49849), (Properties_udp.uopen datagrams o1).
    split; [reflexivity|]. split; [reflexivity|]. split; [reflexivity|]. split; [reflexivity|]. split; [left; exact Logic.I|].
    split; [right; left; vm_compute; reflexivity|]. split; [right; left; vm_compute; reflexivity|]. split; [left; eexists; reflexivity|].
    split; [unfold Properties_udp.uopen; apply run_snd; vm_compute; reflexivity|]. split; [unfold Properties_udp.uafter; apply run_snd; vm_compute; reflexivity|].
    split; [repeat constructor|]. split; [cbn; repeat split; discriminate|]. split; [reflexivity|]. split; [reflexivity|].
    split; [repeat constructor; discriminate|]. unfold uread_wait.
    eapply ut_cons; [apply run_snd; vm_compute; reflexivity|discriminate|].
    eapply ut_cons; [apply run_snd; vm_compute; reflexivity| |].
    { intros b [= <-]. split; [|vm_compute; reflexivity]. exists [mkDgram [x01; x02; x03; x04] 53 [x41; x42; x43]]. split; [|cbn; lia].
      split; [vm_compute; reflexivity|repeat constructor]. }
    do 40 (eapply ut_cons; [apply run_snd; vm_compute; reflexivity|discriminate|]). constructor.
  - split; [split; [vm_compute; reflexivity|repeat constructor]|]. split; [apply run_snd; vm_compute; reflexivity|]. vm_compute; reflexivity.
Qed.
