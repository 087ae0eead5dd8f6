(** C125: everything a call that is refused, or panics, did on the bus. *)
From Verif Require Import History RawHistory ExecFacts BytesFacts ValueFacts CallFacts Transcript Answers Nays Properties_transcript.
From Coq Require Import Lia.

Local Notation W b a d := (EWrite b a d (Ok tt)) (only parsing).
Local Notation R b a d := (ERead b a d (Ok tt)) (only parsing).

Lemma blocks i : i < 8 -> register (socket_new i) = 4 * i + 1 /\ tx_buffer (socket_new i) = 4 * i + 2 /\ rx_buffer (socket_new i) = 4 * i + 3 /\ index (socket_new i) = i.
Proof. intros Hi. unfold socket_new. cbn [register tx_buffer rx_buffer index]. lia. Qed.

(** ** C125.  An error that does not come from the bus is answered on exactly the following traffic,
    and a panic likewise.  C123 says the same of success. *)

(** TCP send and receive: the status, and it is not ESTABLISHED.  Nothing else is ever refused. *)
Theorem C125_tcp_send : forall i d x tr, i < 8 -> (forall e, x <> NbOther (TOther e)) ->
  (exists fuel, exec (tcp_send fuel (mkTcp (socket_new i)) d) tr (Done (Err x))) <-> x = NbOther TNotConnected /\ exists st, st <> x17 /\ tr = [R (4 * i + 1) 0x03 [st]].
Proof.
  intros i d x tr Hi N. destruct (blocks i Hi) as (E1 & _). split.
  - intros (fuel & X). apply tcp_send_nay in X; [|exact N]. cbn [t_socket] in X. rewrite E1 in X. exact X.
  - intros (-> & st & Ns & ->). exists 0%nat. unfold tcp_send. rewrite <- (app_nil_r [_]). apply exec_bind_intro with (a := Err TNotConnected); [|constructor].
    unfold tcp_socket_send. rewrite <- E1. apply conn_refused. rewrite (proj2 (not_17 st) Ns). constructor.
Qed.
Print Assumptions C125_tcp_send.
Theorem C125_tcp_receive : forall i d d' x tr, i < 8 -> (forall e, x <> NbOther (TOther e)) ->
  (exists fuel, exec (tcp_receive fuel (mkTcp (socket_new i)) d) tr (Done (d', Err x))) <->
  x = NbOther TNotConnected /\ d' = d /\ exists st, st <> x17 /\ tr = [R (4 * i + 1) 0x03 [st]].
Proof.
  intros i d d' x tr Hi N. destruct (blocks i Hi) as (E1 & _). split.
  - intros (fuel & X). apply tcp_receive_nay in X; [|exact N]. cbn [t_socket] in X. rewrite E1 in X. exact X.
  - intros (-> & -> & st & Ns & ->). exists 0%nat. unfold tcp_receive. rewrite <- (app_nil_r [_]). apply exec_bind_intro with (a := (d, Err TNotConnected)); [|constructor].
    unfold tcp_socket_receive. rewrite <- E1. apply conn_refused. rewrite (proj2 (not_17 st) Ns). constructor.
Qed.
Print Assumptions C125_tcp_receive.
(** TCP connect: an IPv6 address before anything else; the opening, and then a status that is UDP,
    MACRAW or no status.  A peer that refuses or does not answer is no error. *)
Theorem C125_tcp_connect : forall i a x tr, i < 8 -> (forall e, x <> NbOther (TOther e)) ->
  (exists fuel, exec (tcp_connect fuel (mkTcp (socket_new i)) a) tr (Done (Err x))) <->
  (a = V6 /\ x = NbOther TUnsupportedAddress /\ tr = []) \/
  (a <> V6 /\ x = NbOther TUnsupportedMode /\ exists st, ~ In st [x00; x13; x14; x15; x16; x17; x18; x1a; x1b; x1c; x1d] /\
   tr = [W (4 * i + 1) 0x01 [x10]; W (4 * i + 1) 0x02 [xff]; W (4 * i + 1) 0x04 (to_be (49849 + i)); W (4 * i + 1) 0x00 [x01]; W (4 * i + 1) 0x2c [x00]; W (4 * i + 1) 0x01 [x01];
         R (4 * i + 1) 0x03 [st]]).
Proof.
  assert (K : forall st, ~ In st [x00; x13; x14; x15; x16; x17; x18; x1a; x1b; x1c; x1d] <-> ~ In st known \/ st = x22 \/ st = x42).
  { intros st. unfold known. cbn [In]. split; [intros H|intros H Z].
    - destruct (Coq.Strings.Byte.byte_eq_dec st x22) as [->|N1]; [auto|]. destruct (Coq.Strings.Byte.byte_eq_dec st x42) as [->|N2]; [auto|]. left. intros Z. apply H. clear H. intuition congruence.
    - destruct H as [H|[->| ->]]; [apply H; clear H; tauto| |]; clear - Z; intuition discriminate. }
  intros i a x tr Hi N. destruct (blocks i Hi) as (E1 & _ & _ & E4). split.
  - intros (fuel & X). destruct a as [r|].
    + apply connect_nay in X as (-> & st & Hs & ->); [|exact N]. right. split; [discriminate|]. split; [reflexivity|]. exists st. split; [now apply K|]. cbn [t_socket]. rewrite E1, E4. reflexivity.
    + cbn [tcp_connect] in X. apply ret_on in X as [-> X]. injection X as ->. left. auto.
  - intros [(-> & -> & ->)|(Na & -> & st & Hs & ->)]; [exists 0%nat; constructor|]. destruct a as [r|]; [|now elim Na]. apply K in Hs. exists 0%nat. unfold tcp_connect. cbn [t_socket].
    change ([?a; ?b; ?c; ?d; ?e; ?f; ?g]) with ([a; b; c; d; e; f] ++ [g]). apply to_try with (a := tt).
    + unfold tcp_open, set_mode, command, reset_interrupt, set_interrupt_mask, set_source_port. cbn [t_socket]. rewrite E1, E4. do 6 gw. constructor.
    + rewrite <- (app_nil_r [_]). apply exec_bind_intro with (a := Err TUnsupportedMode); [|constructor]. unfold tcp_socket_connect. rewrite <- E1. apply gate_make.
      destruct Hs as [Hs|[->| ->]]; [|constructor|constructor]. destruct (status_try_from st) eqn:E; [|constructor]. elim Hs. apply known_status. congruence.
Qed.
Print Assumptions C125_tcp_connect.

(** A status that is not that of an open UDP socket, and what the UDP calls answer to it. *)
Definition not_open (st : byte) (x : nberr uerr) : Prop :=
  In st [x00; x13; x14; x15; x16; x17; x18; x1a; x1b; x1c; x1d; x42] /\ x = NbOther USocketNotOpen \/
  ~ In st [x00; x13; x14; x15; x16; x17; x18; x1a; x1b; x1c; x1d; x22; x42] /\ x = NbOther UUnrecognisedStatus.
(** UDP receive: the status; or the flags without RECV; or RECV and a size of 0, or a buffer with no room. *)
Theorem C125_udp_receive : forall i dst port d d' x tr, i < 8 -> (forall e, x <> NbOther (UOther e)) ->
  (exists fuel, exec (udp_receive fuel (mkUdp (socket_new i) dst port) d) tr (Done (d', Err x))) <->
  d' = d /\
  ((exists st, not_open st x /\ tr = [R (4 * i + 1) 0x03 [st]]) \/
   (exists f, N.testbit (b2n f) 2 = false /\ x = WouldBlock /\ tr = [R (4 * i + 1) 0x03 [x22]; R (4 * i + 1) 0x02 [f]]) \/
   (exists f l w, N.testbit (b2n f) 2 = true /\ Forall (fun q => fst q <> snd q /\ both q) l /\ length w = 2%nat /\
      (from_be w = 0 /\ x = WouldBlock \/ from_be w <> 0 /\ d = [] /\ x = NbOther UBufferOverflow) /\
      tr = [R (4 * i + 1) 0x03 [x22]; R (4 * i + 1) 0x02 [f]] ++ flat_map (fun q => [R (4 * i + 1) 0x26 (fst q); R (4 * i + 1) 0x26 (snd q)]) (l ++ [(w, w)]))).
Proof.
  intros i dst port d d' x tr Hi N. destruct (blocks i Hi) as (E1 & _). split.
  - intros (fuel & X). apply udp_receive_nay in X; [|exact N]. cbn [u_socket] in X. rewrite E1 in X. exact X.
  - intros (-> & H). set (u := mkUdp (socket_new i) dst port).
    assert (Y : forall fuel, exec (udp_socket_receive fuel u d) tr (Done (d, Err x)) -> exists fuel, exec (udp_receive fuel u d) tr (Done (d, Err x))).
    { intros fuel Y. exists fuel. unfold udp_receive. rewrite <- (app_nil_r tr). apply exec_bind_intro with (a := (d, Err x)); [exact Y|constructor]. }
    destruct H as [(st & G & ->)|[(f & B & -> & ->)|(f & l & w & B & F & Lw & Hw & ->)]].
    + apply (Y 0%nat). unfold udp_socket_receive. rewrite <- E1. apply gate_make. apply gate_nay in G. rewrite G. constructor.
    + apply (Y 0%nat). unfold udp_socket_receive. rewrite <- E1. apply to_udp. change (udp_status_gate x22) with (@Ok unit (nberr uerr) tt). cbv iota.
      unfold has_interrupt. gr. change (byte0 [f]) with f. change (interrupt_u8 InReceive) with 4. rewrite land_bit, B. constructor.
    + apply (Y (1 + length l)%nat). unfold udp_socket_receive. rewrite <- E1. cbn [List.app]. apply to_udp. change (udp_status_gate x22) with (@Ok unit (nberr uerr) tt). cbv iota.
      unfold has_interrupt. gr. change (byte0 [f]) with f. change (interrupt_u8 InReceive) with 4. rewrite land_bit, B. cbn [negb].
      match goal with |- exec _ ?t _ => rewrite <- (app_nil_r t) end. apply to_try with (a := from_be w); [apply (size_make (socket_new i) w Lw l F); lia|].
      destruct Hw as [(W0 & ->)|(W0 & -> & ->)]; [rewrite (proj2 (N.eqb_eq _ _) W0); constructor|]. rewrite (proj2 (N.eqb_neq _ _) W0). constructor.
Qed.
Print Assumptions C125_udp_receive.

(** One datagram that is refused: by the status, for want of space, or because it timed out, after
    it was copied and SEND was given.  [d] is what was to go. *)
Definition datagram_refused (i : N) (d : list byte) (x : nberr uerr) (tr : list event) : Prop :=
  (exists st, not_open st x /\ tr = [R (4 * i + 1) 0x03 [st]]) \/
  (exists f, length f = 2%nat /\ from_be f = 0 /\ x = NbOther UBufferFull /\ tr = [R (4 * i + 1) 0x03 [x22]; R (4 * i + 1) 0x20 f]) \/
  (exists f p l q q' c c', x = NbOther UWriteTimeout /\ length f = 2%nat /\ length p = 2%nat /\ from_be f <> 0 /\
    Forall (fun a => from_be (fst a) <> from_be (snd a) /\ both a) l /\ both (q, q') /\ from_be q = from_be q' /\ N.testbit (b2n c) 4 = false /\ N.testbit (b2n c') 3 = true /\
    let n := N.min (len d) (from_be f) in
    tr = [R (4 * i + 1) 0x03 [x22]; R (4 * i + 1) 0x20 f; R (4 * i + 1) 0x24 p; W (4 * i + 2) (from_be p) (firstn (N.to_nat n) d);
          W (4 * i + 1) 0x24 (to_be ((from_be p + n) mod 65536)); W (4 * i + 1) 0x01 [x20]] ++
         flat_map (fun a => [R (4 * i + 1) 0x22 (fst a); R (4 * i + 1) 0x24 (snd a)]) (l ++ [(q, q')]) ++
         [R (4 * i + 1) 0x02 [c]; R (4 * i + 1) 0x02 [c']; W (4 * i + 1) 0x02 [x08]]).
(** Some datagrams as in a send that succeeds, then one refused. *)
Inductive some_out (i : N) (x : nberr uerr) : N -> list byte -> list event -> Prop :=
| refused cap d tr : d <> [] -> datagram_refused i (firstn (N.to_nat (N.min cap (len d))) d) x tr -> some_out i x cap d tr
| one_out cap d d1 d2 f p l q q' fin f' rest : d <> [] -> d = d1 ++ d2 -> length f = 2%nat -> length p = 2%nat -> length f' = 2%nat -> from_be f <> 0 ->
    len d1 = N.min (N.min cap (len d)) (from_be f) ->
    Forall (fun a => from_be (fst a) <> from_be (snd a) /\ both a) l -> both (q, q') -> from_be q = from_be q' ->
    (exists c, N.testbit (b2n c) 4 = true /\ fin = [R (4 * i + 1) 0x02 [c]; W (4 * i + 1) 0x02 [x10]]) \/
    (exists c c', N.testbit (b2n c) 4 = false /\ N.testbit (b2n c') 3 = false /\ fin = [R (4 * i + 1) 0x02 [c]; R (4 * i + 1) 0x02 [c']]) ->
    some_out i x (from_be f') d2 rest ->
    some_out i x cap d
      ([R (4 * i + 1) 0x03 [x22]; R (4 * i + 1) 0x20 f; R (4 * i + 1) 0x24 p; W (4 * i + 2) (from_be p) d1;
        W (4 * i + 1) 0x24 (to_be ((from_be p + len d1) mod 65536)); W (4 * i + 1) 0x01 [x20]] ++
       flat_map (fun a => [R (4 * i + 1) 0x22 (fst a); R (4 * i + 1) 0x24 (snd a)]) (l ++ [(q, q')]) ++ fin ++ [R (4 * i + 1) 0x20 f'] ++ rest).
Lemma refused_stops i d x tr : batch_stops (4 * i + 1) (4 * i + 2) d x tr <-> datagram_refused i d x tr.
Proof.
  unfold batch_stops, datagram_refused. cbv zeta. split; (intros [H|[H|H]]; [left; exact H|right; left; exact H|right; right]).
  - destruct H as (f & p & l & q & q' & fin & -> & Lf & Lp & F0 & Hl & Lq & Eq & (c & c' & B & B' & ->) & ->). exists f, p, l, q, q', c, c'. pose proof (from_be_lt f Lf). rewrite small_sum by lia. repeat (split; [assumption || reflexivity|]). reflexivity.
  - destruct H as (f & p & l & q & q' & c & c' & -> & Lf & Lp & F0 & Hl & Lq & Eq & B & B' & ->). exists f, p, l, q, q'. eexists. pose proof (from_be_lt f Lf). rewrite small_sum by lia. repeat (split; [assumption || reflexivity|]).
    split; [exists c, c'; auto|reflexivity].
Qed.
Lemma stops_some i x cap d tr : stops (4 * i + 1) (4 * i + 2) x cap d tr <-> some_out i x cap d tr.
Proof.
  split.
  - induction 1 as [cap d tr Nd B|cap d d1 d2 f p l q q' fin f' rest Nd Ed Lf Lp Lf' F0 L1 Hl Lq Eq St S IH]; [apply refused; [exact Nd|now apply refused_stops]|].
    pose proof (from_be_lt f Lf). rewrite small_sum by lia. exact (one_out i x cap d d1 d2 f p l q q' fin f' rest Nd Ed Lf Lp Lf' F0 L1 Hl Lq Eq St IH).
  - induction 1 as [cap d tr Nd B|cap d d1 d2 f p l q q' fin f' rest Nd Ed Lf Lp Lf' F0 L1 Hl Lq Eq St S IH]; [apply stop_now; [exact Nd|now apply refused_stops]|].
    pose proof (from_be_lt f Lf). rewrite <- small_sum by lia. exact (stop_later _ _ x cap d d1 d2 f p l q q' fin f' rest Nd Ed Lf Lp Lf' F0 L1 Hl Lq Eq St IH).
Qed.
Definition send_refused (i : N) (d : list byte) (x : nberr uerr) (tr : list event) : Prop :=
  (exists st, not_open st x /\ tr = [R (4 * i + 1) 0x03 [st]]) \/
  (exists f rest, length f = 2%nat /\ tr = [R (4 * i + 1) 0x03 [x22]; R (4 * i + 1) 0x20 f] ++ rest /\
   (from_be f = 0 /\ x = NbOther UBufferFull /\ rest = [] \/ from_be f <> 0 /\ some_out i x (from_be f) d rest)).
(** UDP send on a connected handle. *)
Theorem C125_udp_send : forall i r port d x tr, i < 8 -> (forall e, x <> NbOther (UOther e)) ->
  (exists fuel, exec (udp_send fuel (mkUdp (socket_new i) (Some r) port) d) tr (Done (Err x))) <->
  send_refused i d x tr.
Proof.
  intros i r port d x tr Hi N. destruct (blocks i Hi) as (E1 & E2 & _). set (u := mkUdp (socket_new i) (Some r) port). unfold udp_send. split.
  - intros (fuel & X). apply (udp_send_nay fuel u d tr x ltac:(discriminate) N) in X. cbn [u_socket u] in X. rewrite E1, E2 in X.
    destruct X as [X|(f & rest & Lf & -> & H)]; [left; exact X|]. right. exists f, rest. split; [exact Lf|]. split; [reflexivity|]. destruct H as [H|[F0 H]]; [now left|]. right. split; [exact F0|now apply stops_some].
  - intros H. apply (udp_send_refused u d x tr ltac:(discriminate)). cbn [u_socket u]. rewrite E1, E2.
    destruct H as [X|(f & rest & Lf & -> & H)]; [left; exact X|]. right. exists f, rest. split; [exact Lf|]. split; [reflexivity|]. destruct H as [H|[F0 H]]; [now left|]. right. split; [exact F0|now apply stops_some].
Qed.
Print Assumptions C125_udp_send.
(** ... and on one that is not: the status is all that is read. *)
Theorem C125_udp_send_unconnected : forall i port d x tr, i < 8 -> (forall e, x <> NbOther (UOther e)) ->
  (exists fuel, exec (udp_send fuel (mkUdp (socket_new i) None port) d) tr (Done (Err x))) <->
  exists st, (not_open st x \/ st = x22 /\ x = NbOther UDestinationNotSet) /\ tr = [R (4 * i + 1) 0x03 [st]].
Proof.
  intros i port d x tr Hi N. destruct (blocks i Hi) as (E1 & _). unfold udp_send, udp_send_all. cbn [u_socket u_dest]. split.
  - intros (fuel & X). unfold get_status in X. rdx X w L. apply Waits.one_byte in L as (st & ->). change (byte0 [st]) with st in X. rewrite E1. exists st.
    destruct (udp_status_gate st) as [a|e] eqn:G; apply ret_on in X as [-> [= ->]]; (split; [|reflexivity]); [right; apply gate_udp in G; auto|left; now apply gate_nay].
  - intros (st & H & ->). exists 0%nat. rewrite <- E1. apply gate_make. destruct H as [G|[-> ->]]; [|constructor]. apply gate_nay in G. rewrite G. constructor.
Qed.
Print Assumptions C125_udp_send_unconnected.

(** UDP send_to: IPv6 before anything else; otherwise the destination, unless it is the cached one, is
    written and remembered whatever becomes of the send. *)
Theorem C125_udp_send_to : forall i dst port a d u' x tr, i < 8 -> (forall e, x <> NbOther (UOther e)) ->
  (exists fuel, exec (udp_send_to fuel (mkUdp (socket_new i) dst port) a d) tr (Done (u', Err x))) <->
  (a = V6 /\ x = NbOther UUnsupportedAddress /\ u' = mkUdp (socket_new i) dst port /\ tr = []) \/
  (exists r to rest, a = V4 r /\ u' = mkUdp (socket_new i) (Some r) port /\ tr = to ++ rest /\ send_refused i d x rest /\
   (dst = Some r /\ to = [] \/ dst <> Some r /\ to = [W (4 * i + 1) 0x0c (octets (a_ip r)); W (4 * i + 1) 0x10 (to_be (a_port r))])).
Proof.
  intros i dst port a d u' x tr Hi N. destruct (blocks i Hi) as (E1 & _). split.
  - intros (fuel & X). destruct a as [r|]; cbn [udp_send_to] in X; [|apply ret_on in X as [-> X]; injection X as -> ->; left; auto]. right. exists r.
    unfold udp_send_to_v4, udp_set_destination in X. cbn [u_dest u_socket u_port] in X.
    assert (Y : forall t, exec (do q <- udp_send_all fuel (mkUdp (socket_new i) (Some r) port) d ;; Ret (mkUdp (socket_new i) (Some r) port, q)) t (Done (u', Err x)) ->
      u' = mkUdp (socket_new i) (Some r) port /\ send_refused i d x t).
    { intros t Y. apply exec_bind_done in Y as (t1 & q & t2 & -> & Y1 & Y2). apply ret_on in Y2 as [-> Y2]. injection Y2 as -> <-. rewrite app_nil_r. split; [reflexivity|].
      apply (C125_udp_send i r port d x t1 Hi N). exists fuel. exact Y1. }
    apply exec_bind_done in X as (t1 & q & t2 & -> & X1 & X2).
    destruct (match dst with Some dest => negb (addr4_eqb dest r) | None => true end) eqn:E.
    + unfold set_destination_ip, set_destination_port in X1. cbn [u_socket] in X1. 
      assert (Q : (exists e, snd q = Err (UOther e)) \/ q = (mkUdp (socket_new i) (Some r) port, Ok tt) /\ t1 = [W (4 * i + 1) 0x0c (octets (a_ip r)); W (4 * i + 1) 0x10 (to_be (a_port r))]).
      { clear - X1 E1. rewrite E1 in X1. destruct q as [v [[]|e]]; [|destruct e; try (left; eexists; reflexivity)]; wr X1; wr X1; apply ret_on in X1 as [-> X1]; try discriminate X1. injection X1 as ->. right. auto. }
      destruct Q as [(e & Q)|[-> ->]].
      * rewrite Q in X2. apply ret_on in X2 as [-> X2]. injection X2 as _ ->. now elim (N e).
      * cbn [fst snd] in X2. apply Y in X2 as [-> X2]. eexists. exists t2. repeat (split; [reflexivity || exact X2|]). right. split; [|reflexivity]. intros ->. rewrite (proj2 (addr4_eqb_eq r r) eq_refl) in E. discriminate E.
    + destruct dst as [a|]; [|discriminate E]. apply negb_false_iff in E. apply addr4_eqb_eq in E. subst a. apply ret_on in X1 as [-> ->]. cbn [fst snd] in X2. apply Y in X2 as [-> X2].
      exists [], t2. repeat (split; [reflexivity || exact X2|]). left. auto.
  - intros [(-> & -> & -> & ->)|(r & to & rest & -> & -> & -> & S & Ht)]; [exists 0%nat; constructor|].
    apply (C125_udp_send i r port d x rest Hi N) in S as (fuel & S). exists fuel. cbn [udp_send_to]. unfold udp_send_to_v4. apply exec_bind_intro with (a := (mkUdp (socket_new i) (Some r) port, Ok tt)).
    + unfold udp_set_destination. cbn [u_dest]. destruct Ht as [[-> ->]|[Nd ->]].
      * rewrite (proj2 (addr4_eqb_eq r r) eq_refl). constructor.
      * assert (E : match dst with Some a => negb (addr4_eqb a r) | None => true end = true).
        { destruct dst as [a|]; [|reflexivity]. destruct (addr4_eqb a r) eqn:E; [|reflexivity]. apply addr4_eqb_eq in E. congruence. }
        rewrite E. cbn [u_socket]. unfold set_destination_ip, set_destination_port. rewrite E1. apply to_write. apply to_write. constructor.
    + cbn [fst snd]. rewrite <- (app_nil_r rest). apply exec_bind_intro with (a := Err x); [exact S|constructor].
Qed.
Print Assumptions C125_udp_send_to.

(** The only panics of these two reads: a datagram whose header gives more than the buffer has room for; one byte in the
    buffer of a MACRAW socket.  No write has been done. *)
Theorem C125_udp_panic : forall i dst port d w tr, i < 8 ->
  (exists fuel, exec (udp_receive fuel (mkUdp (socket_new i) dst port) d) tr (Panicked w)) <->
  w = P_udp_recv_slice /\ exists f l z p h, N.testbit (b2n f) 2 = true /\ Forall (fun q => fst q <> snd q /\ both q) l /\ length z = 2%nat /\ from_be z <> 0 /\ d <> [] /\
  length p = 2%nat /\ length h = 8%nat /\ len d < from_be (skipn 6 h) /\
  tr = [R (4 * i + 1) 0x03 [x22]; R (4 * i + 1) 0x02 [f]] ++ flat_map (fun q => [R (4 * i + 1) 0x26 (fst q); R (4 * i + 1) 0x26 (snd q)]) (l ++ [(z, z)]) ++
       [R (4 * i + 1) 0x28 p; R (4 * i + 3) (from_be p) h].
Proof.
  intros i dst port d w tr Hi. destruct (blocks i Hi) as (E1 & _ & E3 & _). split.
  - intros (fuel & X). apply udp_receive_panic in X. cbn [u_socket] in X. rewrite E1, E3 in X. exact X.
  - intros (-> & f & l & z & p & h & B & F & Lz & Z0 & D0 & Lp & Lh & Hl & ->). exists (1 + length l)%nat.
    pose proof (udp_receive_panics (mkUdp (socket_new i) dst port) d f l z p h B F Lz Z0 D0 Lp Lh Hl (1 + length l)%nat ltac:(lia)) as X. cbn [u_socket] in X. rewrite E1, E3 in X. exact X.
Qed.
Print Assumptions C125_udp_panic.
Theorem C125_raw_panic : forall frame w tr,
  (exists fuel, exec (raw_read_frame fuel (mkRaw (socket_new 0)) frame) tr (Panicked w)) <->
  w = P_raw_assert /\ exists l p h, Forall (fun q => fst q <> snd q /\ both q) l /\ length p = 2%nat /\
  tr = flat_map (fun q => [R 1 0x26 (fst q); R 1 0x26 (snd q)]) (l ++ [([x00; x01], [x00; x01])]) ++ [R 1 0x28 p; R 3 (from_be p) [h]].
Proof.
  intros frame w tr. split.
  - intros (fuel & X). apply raw_read_panic in X as (-> & l & z & p & h & F & Lz & Z1 & Lp & ->). split; [reflexivity|]. exists l, p, h. split; [exact F|]. split; [exact Lp|].
    destruct z as [|b1 [|b2 [|]]]; try discriminate Lz. assert (Ew : [b1; b2] = [x00; x01]) by (rewrite <- to_be_from_be, Z1; reflexivity). rewrite Ew. reflexivity.
  - intros (-> & l & p & h & F & Lp & ->). exists (1 + length l)%nat. exact (raw_read_panics (mkRaw (socket_new 0)) frame l [x00; x01] p h F eq_refl eq_refl Lp _ (le_n _)).
Qed.
Print Assumptions C125_raw_panic.

(** a send of three bytes of which the first two go out and the third times out *)
Example C125_case_send : exists fuel tr, exec (udp_send fuel (mkUdp (socket_new 2) (Some (Addr4 (Ip4 x0a x00 x00 x01) 53)) 80) [x61; x62; x63]) tr (Done (Err (NbOther UWriteTimeout))).
Proof.
  exists 5%nat. eexists. apply (replay_eq _ [([x22], Ok tt); ([x00; x02], Ok tt);
    ([x22], Ok tt); ([x00; x02], Ok tt); ([x00; x00], Ok tt); ([], Ok tt); ([], Ok tt); ([], Ok tt); ([x00; x00], Ok tt); ([x00; x02], Ok tt); ([x00; x02], Ok tt); ([x00; x02], Ok tt); ([x10], Ok tt); ([], Ok tt); ([x00; x02], Ok tt);
    ([x22], Ok tt); ([x00; x02], Ok tt); ([x00; x02], Ok tt); ([], Ok tt); ([], Ok tt); ([], Ok tt); ([x00; x03], Ok tt); ([x00; x03], Ok tt); ([x00], Ok tt); ([x08], Ok tt); ([], Ok tt)]).
  vm_compute. reflexivity.
Qed.
(** a socket that is listening, and a UDP handle that has no destination, and one whose socket has no space *)
Example C125_case_tcp :
  (exists fuel tr, exec (tcp_send fuel (mkTcp (socket_new 7)) [x61]) tr (Done (Err (NbOther TNotConnected)))) /\
  (exists fuel tr, exec (tcp_receive fuel (mkTcp (socket_new 7)) [x61]) tr (Done ([x61], Err (NbOther TNotConnected)))) /\
  (exists fuel tr, exec (udp_send fuel (mkUdp (socket_new 1) None 80) [x61]) tr (Done (Err (NbOther UDestinationNotSet)))) /\
  (exists fuel tr u', exec (udp_send_to fuel (mkUdp (socket_new 1) None 80) (V4 (Addr4 (Ip4 x0a x00 x00 x01) 53)) [x61]) tr (Done (u', Err (NbOther UBufferFull)))).
Proof.
  split; [|split; [|split]]; exists 0%nat; eexists.
  - apply (replay_eq _ [([x14], Ok tt)]). vm_compute. reflexivity.
  - apply (replay_eq _ [([x14], Ok tt)]). vm_compute. reflexivity.
  - apply (replay_eq _ [([x22], Ok tt)]). vm_compute. reflexivity.
  - eexists. apply (replay_eq _ [([], Ok tt); ([], Ok tt); ([x22], Ok tt); ([x00; x00], Ok tt)]). vm_compute. reflexivity.
Qed.
(** a buffer with no room, a status no chip reports, a connect on a UDP socket *)
Example C125_case_others :
  (exists fuel tr, exec (udp_receive fuel (mkUdp (socket_new 0) None 80) []) tr (Done ([], Err (NbOther UBufferOverflow)))) /\
  (exists fuel tr, exec (udp_receive fuel (mkUdp (socket_new 0) None 80) [x01]) tr (Done ([x01], Err (NbOther UUnrecognisedStatus)))) /\
  (exists fuel tr, exec (tcp_connect fuel (mkTcp (socket_new 3)) (V4 (Addr4 (Ip4 x0a x00 x00 x01) 53))) tr (Done (Err (NbOther TUnsupportedMode)))) /\
  (exists fuel tr w, exec (udp_receive fuel (mkUdp (socket_new 0) None 80) [x01]) tr (Panicked w)) /\
  (exists fuel tr w, exec (raw_read_frame fuel (mkRaw (socket_new 0)) [x01]) tr (Panicked w)).
Proof.
  split; [|split; [|split; [|split]]].
  - exists 3%nat. eexists. apply (replay_eq _ [([x22], Ok tt); ([x04], Ok tt); ([x00; x09], Ok tt); ([x00; x09], Ok tt)]). vm_compute. reflexivity.
  - exists 3%nat. eexists. apply (replay_eq _ [([x99], Ok tt)]). vm_compute. reflexivity.
  - exists 3%nat. eexists. apply (replay_eq _ (repeat ([], Ok tt) 6 ++ [([x22], Ok tt)])). vm_compute. reflexivity.
  - exists 3%nat. eexists. eexists. apply (replay_eq _ [([x22], Ok tt); ([x04], Ok tt); ([x00; x0a], Ok tt); ([x00; x0a], Ok tt); ([x00; x00], Ok tt); ([x0a; x00; x00; x01; x00; x35; x00; x02], Ok tt)]). vm_compute. reflexivity.
  - exists 3%nat. eexists. eexists. apply (replay_eq _ [([x00; x01], Ok tt); ([x00; x01], Ok tt); ([x00; x00], Ok tt); ([x00], Ok tt)]). vm_compute. reflexivity.
Qed.
