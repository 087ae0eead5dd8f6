(** C111: answering the sender of a datagram. *)
From Verif Require Import Dotted.
From Verif Require Import UdpWire Cases UdpSession UdpReceive UdpCalls ProgFacts.
From Verif Require Import Datasheet.
From Verif Require Properties_udp.

(** ** C111.  Full statement: an answer made of what receive returned, the first [n] bytes of the
    buffer, sent with send_to to the address returned, goes to the sender of the datagram and
    contains what they sent and nothing else.  Proved: all of it goes to the sender, from the port
    of the handle, and it starts with what they sent.  It is that and nothing else exactly if the
    buffer is as long as the datagram (C49: receive counts what is waiting, not what is in the datagram). *)
Theorem C111_reply_partial e fuel h i dest port a s q0 buf a1 buf' n r s1 a2 out s2 :
  udp_session e fuel h i dest port a s -> two_k (socks (s_chip s) i) -> queue (socks (s_chip s) i) q0 ->
  run e (step fuel a (OpUdpReceive h buf)) s = (Done (a1, RUdpReceive buf' (Ok (n, V4 r))), s1) ->
  run e (step fuel a1 (OpUdpSendTo h (V4 r) (take n buf'))) s1 = (Done (a2, out), s2) -> out_berr out = None ->
  exists g later new cs more ps, q0 ++ new = g :: later /\
    sent (socks (s_chip s2) i) = sent (socks (s_chip s) i) ++ ps /\
    part ps (map (fun c => mkPacket port (g_ip g) (g_port g) c) cs) /\
    cut_into 2048 (take n buf') (cs ++ more) /\ (out = RUdpSend (Ok tt) -> more = []) /\
    take (len (g_data g)) (take n buf') = g_data g /\
    (take n buf' = g_data g <-> len buf = len (g_data g)).
Proof.
  intros T Z Q0 R1 R2 NB. destruct (udp_session_facts _ _ _ _ _ _ _ _ T) as (Hi & Hp & Ip & _ & U).
  destruct (udp_receive_call _ _ _ _ _ _ _ _ _ _ _ _ T Q0 R1) as [(n1 & r1 & b1 & [= <- <- <- ->] & C)|[([=] & _)|[([=] & _)|[([=] & _)|([=] & _)]]]].
  { intros a3 ou [= <- <-]. reflexivity. }
  destruct C as (K & _ & g & q & later & q' & E & W & _ & _ & (S1 & S2) & Lg & En & F1 & _ & F3).
  assert (Hr : a_port r1 < 65536).
  { rewrite S2. rewrite E in W. exact (proj1 (proj2 (Forall_inv W))). }
  assert (Lr : len (records (g :: q)) >= 8 + len (g_data g)).
  { rewrite E in W. pose proof (Forall_inv W) as Wg. unfold records. cbn [map concat]. rewrite len_app, len_record by exact Wg. lia. }
  assert (Bn : len (g_data g) <= n <= len buf /\ (n = len (g_data g) <-> len buf = len (g_data g))) by lia. clear En.
  pose proof (udp_session_next e fuel h i dest port _ s (OpUdpReceive h buf) _ _ s1 T Logic.I R1 ltac:(reflexivity)) as T1. cbn [named1 bound1] in T1.
  pose proof (step_two_k _ _ _ _ _ _ _ _ _ Hi Ip Z R1) as Z1.
  destruct (udp_packets _ _ _ _ _ _ _ _ (OpUdpReceive h buf) _ _ T Logic.I R1) as (p0 & P1 & _ & P3). { intros _ a3 ou [= <- <-]. reflexivity. }
  assert (p0 = []). { destruct p0 as [|p p0]; [reflexivity|]. destruct P3 as (x & y & B); [discriminate|]. inversion B. }
  subst p0. rewrite app_nil_r in P1.
  assert (B : sends_buf h dest (OpUdpSendTo h (V4 r1) (take n buf')) r1 (take n buf')) by now constructor.
  destruct (sends_out _ _ _ _ _ _ _ _ (OpUdpSendTo h (V4 r1) (take n buf')) _ _ _ T1 Hr Z1 R2 (fun _ => NB)) as (ps & E2 & H2).
  specialize (H2 [] [] [] (us_nil h _ _)).
  inversion H2 as [|? ? ? ? ? ? ? r2 buf2 cs more ? B2 Cu Mo Pa _|? ? ? ? ? ? ? No _]; subst; [|now elim (No r1 (take n buf'))].
  inversion B2; subst. exists g, (q ++ later), q', cs, more, ps. split; [exact E|]. split; [unfold sk in *; now rewrite E2, P1|].
  split; [now rewrite <- S1, <- S2|]. split; [exact Cu|]. split; [exact Mo|]. split.
  - rewrite <- F1 at 2. unfold take. rewrite firstn_firstn. f_equal. lia.
  - split; intros H.
    + apply (f_equal len) in H. rewrite len_take in H. lia.
    + rewrite <- F1. f_equal. lia.
Qed.
Print Assumptions C111_reply_partial.

(** False otherwise: two datagrams of different senders wait.  The first says [41 42 43], the second
    [50 51 52]; the buffer has room for 14 bytes.  The answer to the first sender contains the address
    of the second and all that they said. *)
Definition two_senders : env := mkEnv (fun t => (if Nat.eqb t 13
  then [EvDatagram 0 [x01; x02; x03; x04] 53 [x41; x42; x43]; EvDatagram 0 [x09; x08; x07; x06] 1000 [x50; x51; x52]] else []) ++
  [EvTransmit 0 65535; EvSendOk 0]) (fun _ => None).
Lemma two_senders_session : udp_session two_senders 30 0 0 (Some Properties_udp.peer) 49849 (Properties_udp.uapp (Some Properties_udp.peer) 49849)
  (Properties_udp.uafter two_senders (OpUdpConnect 0 (V4 Properties_udp.peer)) (Properties_udp.uapp (Some Properties_udp.peer) 49849) [OpDevice QVersion]).
Proof.
  exact (Properties_udp.simple_udp two_senders (OpUdpConnect 0 (V4 Properties_udp.peer)) (Properties_udp.uapp (Some Properties_udp.peer) 49849) [OpDevice QVersion]
      (Properties_udp.uapp (Some Properties_udp.peer) 49849) [RDevice (DByte (Ok x04))] ltac:(vm_compute; reflexivity) ltac:(vm_compute; reflexivity)
      (or_introl (ex_intro _ Properties_udp.peer eq_refl)) ltac:(repeat constructor) ltac:(cbn; auto)).
Qed.
Theorem C111_reply_refuted : exists s s1 s2, let a := Properties_udp.uapp (Some Properties_udp.peer) 49849 in
  let r := Addr4 (Ip4 x01 x02 x03 x04) 53 in
  let said := [x41; x42; x43] ++ udp_record [x09; x08; x07; x06] 1000 [x50; x51; x52] in
  udp_session two_senders 30 0 0 (Some Properties_udp.peer) 49849 a s /\ two_k (socks (s_chip s) 0) /\
  queue (socks (s_chip s) 0) [mkDgram [x01; x02; x03; x04] 53 [x41; x42; x43]; mkDgram [x09; x08; x07; x06] 1000 [x50; x51; x52]] /\
  run two_senders (step 30 a (OpUdpReceive 0 (repeat x00 14))) s = (Done (a, RUdpReceive said (Ok (14, V4 r))), s1) /\
  run two_senders (step 30 a (OpUdpSendTo 0 (V4 r) (take 14 said))) s1 = (Done (Properties_udp.uapp (Some r) 49849, RUdpSend (Ok tt)), s2) /\
  sent (socks (s_chip s2) 0) = sent (socks (s_chip s) 0) ++ [mkPacket 49849 [x01; x02; x03; x04] 53 said].
Proof.
  exists (Properties_udp.uafter two_senders (OpUdpConnect 0 (V4 Properties_udp.peer)) (Properties_udp.uapp (Some Properties_udp.peer) 49849) [OpDevice QVersion]).
  eexists _, _. cbv zeta. split.
  { exact two_senders_session. }
  split; [split; vm_compute; reflexivity|].
  split; [split; [vm_compute; reflexivity|repeat constructor]|].
  split; [apply run_snd; vm_compute; reflexivity|]. split; [apply run_snd; vm_compute; reflexivity|]. vm_compute. reflexivity.
Qed.
Print Assumptions C111_reply_refuted.
(** a buffer as long as the datagram: the answer is what was sent *)
Example C111_case : exists s s1 s2, let a := Properties_udp.uapp (Some Properties_udp.peer) 49849 in
  let r := Addr4 (Ip4 x01 x02 x03 x04) 53 in
  udp_session two_senders 30 0 0 (Some Properties_udp.peer) 49849 a s /\
  run two_senders (step 30 a (OpUdpReceive 0 (repeat x00 3))) s = (Done (a, RUdpReceive [x41; x42; x43] (Ok (3, V4 r))), s1) /\
  run two_senders (step 30 a (OpUdpSendTo 0 (V4 r) [x41; x42; x43])) s1 = (Done (Properties_udp.uapp (Some r) 49849, RUdpSend (Ok tt)), s2) /\
  sent (socks (s_chip s2) 0) = sent (socks (s_chip s) 0) ++ [mkPacket 49849 [x01; x02; x03; x04] 53 [x41; x42; x43]].
Proof.
  exists (Properties_udp.uafter two_senders (OpUdpConnect 0 (V4 Properties_udp.peer)) (Properties_udp.uapp (Some Properties_udp.peer) 49849) [OpDevice QVersion]).
  eexists _, _. cbv zeta. split; [apply two_senders_session|].
  split; [apply run_snd; vm_compute; reflexivity|]. split; [apply run_snd; vm_compute; reflexivity|]. vm_compute. reflexivity.
Qed.
