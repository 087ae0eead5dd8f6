(** C65-C70: what a call that reports a bus error leaves behind.  The sessions of the TCP and
    UDP theorems ([tcp_session], [udp_session]) end at the first bus error on the handle; here
    is what the failing call itself has done to the chip, the peer and the caller's buffer.
    A new connect or bind starts a new session from any such state. *)
From Verif Require Import Dotted.
From Verif Require Import UdpCalls RawCalls TcpLimits Cases Liveness ErrorFacts Recovery RecoverySend RecoveryRaw.
From Verif Require Properties_stream Properties_udp Properties_raw.
From Verif Require Import Datasheet.

Lemma run_snd {A} e (p : prog A) s o : fst (run e p s) = o -> run e p s = (o, snd (run e p s)).
Proof. destruct (run e p s). cbn. now intros ->. Qed.

(** ** C65 *)
(** Full statement: a TCP receive that reports a bus error has taken nothing out of the
    connection, so that the caller can repeat it.  Proved: it took the first [n] bytes and they
    are at the front of the buffer, the rest of the buffer as it was ([n] = 0 is "took
    nothing", then the buffer may be scribbled on); nothing is lost or duplicated between the
    buffer and the chip, and the sending side is as it was.  [n] is not reported. *)
Theorem C65_receive_error_partial e fuel h i r x1 acc del a s buf a' out s' :
  tcp_session e fuel h i r x1 acc del a s ->
  run e (step fuel a (OpTcpReceive h buf)) s = (Done (a', out), s') -> out_berr out <> None ->
  let x := socks (s_chip s) i in let x' := socks (s_chip s') i in
  a' = a /\ exists buf' er n, out = RTcpReceive buf' (Err (NbOther (TOther er))) /\ length buf' = length buf /\
    n <= len buf /\ rxlog x' = del ++ take n buf' ++ pending x' /\
    (n = 0 \/ (drop n buf' = drop n buf /\ rx_rd x' = rx_base x')) /\
    sent x' = sent x /\ unsent x' = [].
Proof.
  intros T R Er. destruct (session_facts _ _ _ _ _ _ _ _ _ _ T) as (Hi & I & L & S). pose proof S as (Rd & Rr & U & _ & Lg & _).
  cbv zeta. fold (sk i s) (sk i s').
  refine (wp_run e _ (fun o s' => forall a' out, o = Done (a', out) -> out_berr out <> None -> a' = a /\ exists buf' er n,
    out = RTcpReceive buf' (Err (NbOther (TOther er))) /\ length buf' = length buf /\
    n <= len buf /\ rxlog (sk i s') = del ++ take n buf' ++ pending (sk i s') /\
    (n = 0 \/ (drop n buf' = drop n buf /\ rx_rd (sk i s') = rx_base (sk i s'))) /\
    sent (sk i s') = sent (sk i s) /\ unsent (sk i s') = []) s _ s' R _ a' out eq_refl Er).
  cbn [step]. rewrite L. apply wp_bind. apply wp_tcp_receive_any; [exact Hi|exact Rd|exact Rr| | |].
  - intros d' s1 r1 E1. apply wp_ret. intros a1 o1 [= <- <-] E2. elim E2. exact E1.
  - intros d' s1 er (B1 & (_ & B2 & B3 & _) & _ & ch & n & B4 & B5 & B6 & B7 & B8). apply wp_ret. intros a1 o1 [= <- <-] _. split; [reflexivity|].
    cbn [fst snd]. exists d', er, n. split; [reflexivity|]. split; [unfold len in B1; lia|]. split; [exact B4|].
    destruct B8 as [(-> & _)|(B8 & B9)].
    + split. { rewrite B6, B7, Lg, <- app_assoc. reflexivity. }
      split; [now left|]. split; [exact B3|congruence].
    + assert (Lt : len (take n (pending (sk i s) ++ ch)) = n) by (rewrite len_take; lia). split.
      { rewrite B6, B7, Lg, B8, <- app_assoc. f_equal. rewrite take_app_le, (take_all n) by lia. symmetry. apply take_drop. }
      split; [right; split; [|exact B9]|split; [exact B3|congruence]]. rewrite B8. rewrite <- Lt at 1. rewrite drop_app_exact. reflexivity.
  - intros s1 a1 o1 [=].
Qed.
Print Assumptions C65_receive_error_partial.

(** If the chip's read pointer is where the data starts after such an error, the connection
    goes on: the next receive delivers what follows. *)
Theorem C65_resume_partial e fuel h i r x1 acc del a s buf buf' er n s' fuel2 buf2 buf2' m s2 :
  tcp_session e fuel h i r x1 acc del a s ->
  run e (step fuel a (OpTcpReceive h buf)) s = (Done (a, RTcpReceive buf' (Err (NbOther (TOther er)))), s') ->
  rx_rd (socks (s_chip s') i) = rx_base (socks (s_chip s') i) ->
  n <= len buf -> rxlog (socks (s_chip s') i) = del ++ take n buf' ++ pending (socks (s_chip s') i) ->
  run e (step fuel2 a (OpTcpReceive h buf2)) s' = (Done (a, RTcpReceive buf2' (Ok m)), s2) ->
  m <= len buf2 /\ rxlog (socks (s_chip s2) i) = del ++ take n buf' ++ take m buf2' ++ pending (socks (s_chip s2) i).
Proof.
  intros T R E Hn Lr R2. destruct (session_facts _ _ _ _ _ _ _ _ _ _ T) as (Hi & I & L & S). pose proof S as (Rd & Rr & _).
  assert (K : txkeep (sk i s) (sk i s') /\ rxv (sk i s')).
  { refine (wp_run e _ (fun o s' => forall out, o = Done (a, out) -> out_berr out <> None -> txkeep (sk i s) (sk i s') /\ rxv (sk i s')) s _ s' R _ _ eq_refl _); [|discriminate].
    cbn [step]. rewrite L. apply wp_bind. apply wp_tcp_receive_any; [exact Hi|exact Rd|exact Rr| | |].
    - intros d' s1 r1 E1. apply wp_ret. intros o1 [= <-] E2. elim E2. exact E1.
    - intros d' s1 er1 (_ & B2 & B3 & _). apply wp_ret. auto.
    - intros s1 o1 [=]. }
  destruct K as (K & V). fold (sk i s') (sk i s2) in *.
  assert (Si : session_inv i r x1 acc (del ++ take n buf') (sk i s')).
  { apply (session_keep i Hi r x1 acc del (sk i s) (sk i s') S K); [split; [exact V|exact E]|]. now rewrite <- app_assoc. }
  refine (session_call _ e _ (fun o s2 => forall buf2' m, o = Done (a, RTcpReceive buf2' (Ok m)) -> m <= len buf2 /\
    rxlog (sk i s2) = del ++ take n buf' ++ take m buf2' ++ pending (sk i s2)) s' _ s2 (es_step fuel2 a _) R2 _ _ buf2' m eq_refl).
  { intros [a1 o1] [= <- <-]. reflexivity. }
  cbn [step]. rewrite L. apply wp_bind. apply wp_tcp_receive; [apply nofail_no_faults|exact Hi|apply Si|apply Si| | |].
  - intros k d' s3 D _. apply wp_ret. cbn [fst snd]. intros b m1 [= <- <-].
    pose proof (session_recv i Hi r x1 acc _ _ _ _ _ _ Si D) as (_ & _ & _ & _ & Lg & _). split; [apply D|]. now rewrite <- !app_assoc in Lg.
  - intros s3 _ _. apply wp_ret. intros b m1 [=].
  - intros s3 _ b m1 [=].
Qed.
Print Assumptions C65_resume_partial.

Section Tcp.
Import Properties_stream.
(** five bytes arrive; the bus fails between the read pointer and the RECV command of the first
    receive.  The second receive says Ok(3): two more bytes and one the peer never sent. *)
Definition recv5 : env := script [(20%nat, [EvEstablished 0]); (21%nat, [EvTcpData 0 [x61; x62; x63; x64; x65]])].
Definition three : list byte := [x00; x00; x00].
Lemma recv5_session j : fst (run (with_fault j 0 recv5) (step 30 app1 (OpTcpConnect 0 (V4 peer))) sys0) = Done (app1, RTcpConnect (Ok tt)) ->
  tcp_session (with_fault j 0 recv5) 30 0 0 peer (socks (s_chip (connected (with_fault j 0 recv5))) 0) [] [] app1 (afterwards (with_fault j 0 recv5) []).
Proof. intros H. exact (simple_session (with_fault j 0 recv5) [] [] H eq_refl (Forall_nil _) I). Qed.
Theorem C65_receive_error_refuted : exists x1 s s' s2, let e := with_fault 23 0 recv5 in
  tcp_session e 30 0 0 peer x1 [] [] app1 s /\
  run e (step 30 app1 (OpTcpReceive 0 three)) s = (Done (app1, RTcpReceive [x61; x62; x63] (Err (NbOther (TOther 7)))), s') /\
  run e (step 30 app1 (OpTcpReceive 0 three)) s' = (Done (app1, RTcpReceive [x64; x65; x05] (Ok 3)), s2) /\
  rxlog (socks (s_chip s2) 0) = [x61; x62; x63; x64; x65].
Proof.
  eexists _, _, _, _. cbv zeta. split; [apply recv5_session; vm_compute; reflexivity|].
  split; [apply run_snd; vm_compute; reflexivity|]. split; [apply run_snd; vm_compute; reflexivity|]. vm_compute. reflexivity.
Qed.
Print Assumptions C65_receive_error_refuted.
(** the bus fails after RECV: the three bytes are gone from the chip, and the case of
    [C65_resume_partial] *)
Example C65_case : exists x1 s s' s2, let e := with_fault 24 0 recv5 in
  tcp_session e 30 0 0 peer x1 [] [] app1 s /\
  run e (step 30 app1 (OpTcpReceive 0 three)) s = (Done (app1, RTcpReceive [x61; x62; x63] (Err (NbOther (TOther 7)))), s') /\
  pending (socks (s_chip s') 0) = [x64; x65] /\ rx_rd (socks (s_chip s') 0) = rx_base (socks (s_chip s') 0) /\
  rxlog (socks (s_chip s') 0) = [] ++ take 3 [x61; x62; x63] ++ pending (socks (s_chip s') 0) /\
  run e (step 30 app1 (OpTcpReceive 0 three)) s' = (Done (app1, RTcpReceive [x64; x65; x00] (Ok 2)), s2).
Proof.
  eexists _, _, _, _. cbv zeta. split; [apply recv5_session; vm_compute; reflexivity|].
  split; [apply run_snd; vm_compute; reflexivity|]. split; [vm_compute; reflexivity|]. split; [vm_compute; reflexivity|].
  split; [vm_compute; reflexivity|]. apply run_snd. vm_compute. reflexivity.
Qed.
End Tcp.

(** ** C66 *)
(** Full statement: a TCP send that reports a bus error has handed nothing to the chip or the
    peer, so that the caller can repeat it.  Proved: at most a prefix of [d] was put on the
    wire, to the peer; and if nothing was, then the transmit buffer holds nothing new, or it
    holds a prefix of [d] the next SEND will transmit (or the SEND was issued and is waiting for
    the network), or the write pointer consists of a new
    and an old byte.  What was received is not touched. *)
Theorem C66_send_error_partial e fuel h i r x1 acc del a s d a' out s' :
  tcp_session e fuel h i r x1 acc del a s ->
  run e (step fuel a (OpTcpSend h d)) s = (Done (a', out), s') -> out_berr out <> None ->
  let x := socks (s_chip s) i in let x' := socks (s_chip s') i in
  a' = a /\ (exists er, out = RTcpSend (Err (NbOther (TOther er)))) /\ rxlog x' = del ++ pending x' /\
  exists n l k, n <= len d /\ sent x' = sent x ++ l /\ concat (map p_data l) = firstn k (take n d) /\
    Forall (fun p => p_sport p = 49849 + i /\ p_ip p = dotted (a_ip r) /\ p_dport p = a_port r) l /\
    (l = [] -> unsent x' = [] \/ unsent x' = take n d \/ tx_wr x' = (tx_wr x + n) mod 65536 / 256 * 256 + tx_wr x mod 256 \/
       tx_wr x' = (tx_wr x + n) mod 65536).
Proof.
  intros T R Er. destruct (session_facts _ _ _ _ _ _ _ _ _ _ T) as (Hi & I & L & S). pose proof S as (Rd & Rr & U & Tw & Lg & _).
  cbv zeta. fold (sk i s) (sk i s').
  refine (wp_run e _ (fun o s' => forall a' out, o = Done (a', out) -> out_berr out <> None -> a' = a /\
    (exists er, out = RTcpSend (Err (NbOther (TOther er)))) /\ rxlog (sk i s') = del ++ pending (sk i s') /\
    exists n l k, n <= len d /\ sent (sk i s') = sent (sk i s) ++ l /\ payload l = firstn k (take n d) /\ Forall (to_peer i r) l /\
    (l = [] -> unsent (sk i s') = [] \/ unsent (sk i s') = take n d \/
       tx_wr (sk i s') = (tx_wr (sk i s) + n) mod 65536 / 256 * 256 + tx_wr (sk i s) mod 256 \/
       tx_wr (sk i s') = (tx_wr (sk i s) + n) mod 65536)) s _ s' R _ a' out eq_refl Er).
  cbn [step]. rewrite L. apply wp_bind. apply wp_tcp_send_any; [exact Hi|exact Rd| | |].
  - intros s1 r1 E1. apply wp_ret. intros a1 o1 [= <- <-] E2. elim E2. exact E1.
  - intros s1 a1 o1 [=].
  - intros n s1 er Hn ((_ & _ & _ & _ & B1) & _ & _ & B). apply wp_ret. intros a1 o1 [= <- <-] _. split; [reflexivity|]. split; [eauto|].
    assert (Ln : len (take n d) = n) by (rewrite len_take; lia). rewrite Ln in B.
    destruct (B1 (proj1 Rr)) as (_ & ch & C1 & C2 & _). split. { rewrite C1, C2, Lg. now rewrite app_assoc. }
    destruct B as [(E1 & _ & _ & E2 & _)|[(E1 & _ & _ & E2 & _)|[(E1 & _ & _ & E2)|(l & k & E1 & E2 & _ & E3 & E4 & _)]]].
    + exists n, [], 0%nat. rewrite app_nil_r. do 3 (split; [auto|]). split; [constructor|]. rewrite U in E2. auto.
    + exists n, [], 0%nat. rewrite app_nil_r. do 3 (split; [auto|]). split; [constructor|]. rewrite U in E2. auto.
    + exists n, [], 0%nat. rewrite app_nil_r. do 3 (split; [auto|]). split; [constructor|]. auto.
    + exists n, l, k. rewrite U in E3. do 3 (split; [auto|]). split; [eapply Forall_impl; [|exact E2]; intros p; now apply toward_addressed|]. auto.
Qed.
Print Assumptions C66_send_error_partial.

Section TcpSend.
Import Properties_stream.
Definition greedy : env :=
  mkEnv (fun t => if (t <? 21)%nat then [EvEstablished 0] else [EvTransmit 0 65535; EvSendOk 0]) (fun _ => None).
Lemma greedy_session j : fst (run (with_fault j 0 greedy) (step 30 app1 (OpTcpConnect 0 (V4 peer))) sys0) = Done (app1, RTcpConnect (Ok tt)) ->
  tcp_session (with_fault j 0 greedy) 30 0 0 peer (socks (s_chip (connected (with_fault j 0 greedy))) 0) [] [] app1 (afterwards (with_fault j 0 greedy) []).
Proof. intros H. exact (simple_session (with_fault j 0 greedy) [] [] H eq_refl (Forall_nil _) I). Qed.
(** the bus fails between the write pointer and the SEND command: the peer gets the bytes with
    those of the next send; it fails while SENDOK is polled: the peer has them already *)
Theorem C66_send_error_refuted :
  (exists x1 s s' s2, let e := with_fault 16 0 greedy in
    tcp_session e 30 0 0 peer x1 [] [] app1 s /\
    run e (step 30 app1 (OpTcpSend 0 [x61; x62])) s = (Done (app1, RTcpSend (Err (NbOther (TOther 7)))), s') /\
    unsent (socks (s_chip s') 0) = [x61; x62] /\
    run e (step 30 app1 (OpTcpSend 0 [x63])) s' = (Done (app1, RTcpSend (Ok 1)), s2) /\
    map p_data (sent (socks (s_chip s2) 0)) = [[x61; x62; x63]]) /\
  (exists x1 s s', let e := with_fault 17 0 greedy in
    tcp_session e 30 0 0 peer x1 [] [] app1 s /\
    run e (step 30 app1 (OpTcpSend 0 [x61; x62])) s = (Done (app1, RTcpSend (Err (NbOther (TOther 7)))), s') /\
    map p_data (sent (socks (s_chip (on_chip (fun c => nsteps c (happens e (s_tick s'))) s')) 0)) = [[x61; x62]]).
Proof.
  split.
  - eexists _, _, _, _. cbv zeta. split; [apply greedy_session; vm_compute; reflexivity|].
    split; [apply run_snd; vm_compute; reflexivity|]. split; [vm_compute; reflexivity|]. split; [apply run_snd; vm_compute; reflexivity|]. vm_compute. reflexivity.
  - eexists _, _, _. cbv zeta. split; [apply greedy_session; vm_compute; reflexivity|].
    split; [apply run_snd; vm_compute; reflexivity|]. vm_compute. reflexivity.
Qed.
Print Assumptions C66_send_error_refuted.
(** the bus fails between the two bytes of the write pointer: 256 bytes were accepted, the high
    byte says so, nothing was sent *)
Example C66_case : exists x1 s s', let e := with_fault 15 1 greedy in
  tcp_session e 30 0 0 peer x1 [] [] app1 s /\
  run e (step 30 app1 (OpTcpSend 0 (repeat x61 256))) s = (Done (app1, RTcpSend (Err (NbOther (TOther 7)))), s') /\
  tx_wr (socks (s_chip s) 0) = 0 /\ tx_wr (socks (s_chip s') 0) = 256 /\ sent (socks (s_chip s') 0) = [].
Proof.
  exists (socks (s_chip (connected (with_fault 15 1 greedy))) 0), (afterwards (with_fault 15 1 greedy) []). eexists. cbv zeta.
  split; [refine (simple_session (with_fault 15 1 greedy) [] [] _ eq_refl (Forall_nil _) I); vm_compute; reflexivity|].
  split; [apply run_snd; vm_compute; reflexivity|]. split; [vm_compute; reflexivity|]. split; vm_compute; reflexivity.
Qed.
End TcpSend.

(** ** C67 *)
(** Full statement: a UDP receive that reports a bus error leaves every datagram to be received.
    Proved: either all of them are still queued, or the first one is whole at the front of the
    buffer and it and possibly the ones behind it are gone.  Nothing is sent. *)
Theorem C67_receive_error_partial e fuel h i dest port a s q0 buf a' out s' :
  udp_session e fuel h i dest port a s -> queue (socks (s_chip s) i) q0 ->
  run e (step fuel a (OpUdpReceive h buf)) s = (Done (a', out), s') -> out_berr out <> None ->
  let x := socks (s_chip s) i in let x' := socks (s_chip s') i in
  a' = a /\ exists buf' er arrived, out = RUdpReceive buf' (Err (NbOther (UOther er))) /\ len buf' = len buf /\
    sent x' = sent x /\ rxlog x' = rxlog x ++ records arrived /\
    (pending x' = records (q0 ++ arrived) \/
     exists g q later, q0 ++ arrived = (g :: q) ++ later /\ pending x' = records later /\ rx_rd x' = rx_base x' /\
       len (g_data g) <= len buf /\ take (len (g_data g)) buf' = g_data g).
Proof.
  intros T Q0 R Er. destruct (udp_session_facts _ _ _ _ _ _ _ _ T) as (Hi & Hp & I & L & U). pose proof U as (U1 & U2 & U3 & _).
  cbv zeta. fold (sk i s) (sk i s') in *.
  refine (wp_run e _ (fun o s' => forall a' out, o = Done (a', out) -> out_berr out <> None -> a' = a /\ exists buf' er arrived,
    out = RUdpReceive buf' (Err (NbOther (UOther er))) /\ len buf' = len buf /\ sent (sk i s') = sent (sk i s) /\ rxlog (sk i s') = rxlog (sk i s) ++ records arrived /\
    (pending (sk i s') = records (q0 ++ arrived) \/
     exists g q later, q0 ++ arrived = (g :: q) ++ later /\ pending (sk i s') = records later /\ rx_rd (sk i s') = rx_base (sk i s') /\
       len (g_data g) <= len buf /\ take (len (g_data g)) buf' = g_data g)) s _ s' R _ a' out eq_refl Er).
  cbn [step]. rewrite L. unfold udp_handle, udp_receive. do 2 apply wp_bind.
  apply (wp_udp_receive_any e i Hi dest port fuel buf q0); [exact U1|exact U2|exact U3|exact Q0| | | |].
  - intros b' r s1 E1. do 2 apply wp_ret. intros a1 o1 [= <- <-] E2. elim E2. cbn [fst snd out_berr].
    destruct r as [[n hd]|[|[]]]; cbn in E1 |- *; auto.
  - intros w s1 a1 o1 [=].
  - intros s1 a1 o1 [=].
  - intros b' er s1 ((_ & B1 & _) & _ & B2 & q' & B3 & _ & B4). do 2 apply wp_ret. intros a1 o1 [= <- <-] _. split; [reflexivity|].
    exists b', er, q'. cbn [fst snd]. split; [reflexivity|]. split; [exact B2|]. split; [exact B1|]. split; [exact B3|].
    destruct B4 as [((B4 & _) & _)|(B5 & g & q & later & B6 & (B7 & _) & B8 & B9)]; [left; exact B4|right]. exists g, q, later. auto.
Qed.
Print Assumptions C67_receive_error_partial.

Section UdpReceive.
Import Properties_udp.
(** a two byte datagram arrives after the connect *)
Definition one_dgram : env := script [(13%nat, [EvDatagram 0 [x0a; x00; x00; x07] 53 [x61; x62]])].
Lemma one_dgram_session j : fst (run (with_fault j 0 one_dgram) (step 30 (uapp None 49849) (OpUdpConnect 0 (V4 peer))) sys0) = Done (uapp (Some peer) 49849, RUdpUnit (Ok tt)) ->
  udp_session (with_fault j 0 one_dgram) 30 0 0 (Some peer) 49849 (uapp (Some peer) 49849) (uafter (with_fault j 0 one_dgram) (OpUdpConnect 0 (V4 peer)) (uapp (Some peer) 49849) []).
Proof.
  intros H. exact (simple_udp (with_fault j 0 one_dgram) (OpUdpConnect 0 (V4 peer)) (uapp (Some peer) 49849) [] (uapp (Some peer) 49849) [] H eq_refl
    (or_introl (ex_intro _ peer eq_refl)) ltac:(repeat constructor) I).
Qed.
(** the bus fails after RECV: the datagram is gone, though the call says Err; it fails between
    the read pointer and RECV: the next receive takes memory behind the datagram for a header
    and panics *)
Theorem C67_receive_error_refuted :
  (exists s s' s2, let e := with_fault 17 0 one_dgram in
    udp_session e 30 0 0 (Some peer) 49849 (uapp (Some peer) 49849) s /\
    fst (run e (step 30 (uapp (Some peer) 49849) (OpUdpReceive 0 three)) s) = Done (uapp (Some peer) 49849, RUdpReceive [x61; x62; x0a] (Err (NbOther (UOther 7)))) /\
    s' = snd (run e (step 30 (uapp (Some peer) 49849) (OpUdpReceive 0 three)) s) /\
    run e (step 30 (uapp (Some peer) 49849) (OpUdpReceive 0 three)) s' = (Done (uapp (Some peer) 49849, RUdpReceive three (Err WouldBlock)), s2) /\
    pending (socks (s_chip s2) 0) = []) /\
  (exists s s' s2, let e := with_fault 16 0 one_dgram in
    udp_session e 30 0 0 (Some peer) 49849 (uapp (Some peer) 49849) s /\
    run e (step 30 (uapp (Some peer) 49849) (OpUdpReceive 0 three)) s = (Done (uapp (Some peer) 49849, RUdpReceive [x61; x62; x0a] (Err (NbOther (UOther 7)))), s') /\
    run e (step 30 (uapp (Some peer) 49849) (OpUdpReceive 0 (repeat x00 40))) s' = (Panicked P_udp_recv_slice, s2)).
Proof.
  split.
  - eexists _, _, _. cbv zeta. split; [apply one_dgram_session; vm_compute; reflexivity|].
    split; [vm_compute; reflexivity|]. split; [reflexivity|]. split; [apply run_snd; vm_compute; reflexivity|]. vm_compute. reflexivity.
  - eexists _, _, _. cbv zeta. split; [apply one_dgram_session; vm_compute; reflexivity|].
    split; [apply run_snd; vm_compute; reflexivity|]. apply run_snd. vm_compute. reflexivity.
Qed.
Print Assumptions C67_receive_error_refuted.
(** the bus fails while the header is read: the datagram is still there, and the next receive
    gets it *)
Example C67_case : exists s s' s2, let e := with_fault 13 5 one_dgram in let a := uapp (Some peer) 49849 in
  udp_session e 30 0 0 (Some peer) 49849 a s /\ queue (socks (s_chip s) 0) [] /\
  run e (step 30 a (OpUdpReceive 0 [x00; x00])) s = (Done (a, RUdpReceive [x00; x00] (Err (NbOther (UOther 7)))), s') /\
  pending (socks (s_chip s') 0) = records [mkDgram [x0a; x00; x00; x07] 53 [x61; x62]] /\
  run e (step 30 a (OpUdpReceive 0 [x00; x00])) s' = (Done (a, RUdpReceive [x61; x62] (Ok (2, V4 (Addr4 (Ip4 x0a x00 x00 x07) 53)))), s2).
Proof.
  exists (uafter (with_fault 13 5 one_dgram) (OpUdpConnect 0 (V4 peer)) (uapp (Some peer) 49849) []). eexists _, _. cbv zeta. split.
  { refine (simple_udp (with_fault 13 5 one_dgram) (OpUdpConnect 0 (V4 peer)) (uapp (Some peer) 49849) [] (uapp (Some peer) 49849) [] _ eq_refl
      (or_introl (ex_intro _ peer eq_refl)) ltac:(repeat constructor) I). vm_compute. reflexivity. }
  split; [split; [vm_compute; reflexivity|constructor]|]. split; [apply run_snd; vm_compute; reflexivity|]. split; [vm_compute; reflexivity|].
  apply run_snd. vm_compute. reflexivity.
Qed.
End UdpReceive.

(** ** C68 *)
(** Full statement: a UDP send that reports a bus error leaves nothing behind that a later send
    would transmit.  Proved: pieces [cs] of the buffer were attempted one by one and those of
    them that went out, [ps], are datagrams to [r] in that order; of the rest of the buffer at
    most the next piece went out, whole ([qs]); after that the transmit buffer holds nothing
    unsent, or exactly that next piece, or the write pointer consists of a new and an old
    byte.  Received datagrams are not touched. *)
Theorem C68_send_error_partial e fuel h i dest port a s o r buf a' out s' :
  udp_session e fuel h i dest port a s -> sends_buf h dest o r buf ->
  run e (step fuel a o) s = (Done (a', out), s') -> out_berr out <> None ->
  let x := socks (s_chip s) i in let x' := socks (s_chip s') i in
  (exists ch, pending x' = pending x ++ ch /\ rxlog x' = rxlog x ++ ch) /\
  exists cs rest ps qs, let w := take (tx_size x) rest in
    buf = concat cs ++ rest /\ Forall (fun c => 0 < len c <= tx_size x) cs /\
    sent x' = sent x ++ ps ++ qs /\ part ps (map (sent_to port r) cs) /\
    (qs = [] \/ (rest <> [] /\ qs = [sent_to port r w])) /\
    (unsent x' = [] \/ unsent x' = w \/ exists v, tx_wr x' = (v + len w) mod 65536 / 256 * 256 + v mod 256).
Proof.
  intros T B R Er. destruct (udp_session_facts _ _ _ _ _ _ _ _ T) as (Hi & Hp & I & L & U). pose proof U as (U1 & U2 & U3 & _).
  cbv zeta. fold (sk i s) (sk i s') in *.
  set (Res := fun x x' : sock => (exists ch, pending x' = pending x ++ ch /\ rxlog x' = rxlog x ++ ch) /\
    exists cs rest ps qs, buf = concat cs ++ rest /\ Forall (fun c => 0 < len c <= tx_size x) cs /\
      sent x' = sent x ++ ps ++ qs /\ part ps (map (sent_to port r) cs) /\
      (qs = [] \/ (rest <> [] /\ qs = [sent_to port r (take (tx_size x) rest)])) /\
      (unsent x' = [] \/ unsent x' = take (tx_size x) rest \/
       exists v, tx_wr x' = (v + len (take (tx_size x) rest)) mod 65536 / 256 * 256 + v mod 256)).
  assert (Un : forall y, tx_end y = tx_wr y -> unsent y = []).
  { intros y E. unfold unsent. rewrite E, sub16_self by apply tx_wr_lt. reflexivity. }
  assert (Core : forall x x', uinv (Some r) port x -> usend_broken x buf x' -> Res x x').
  { intros x x' Ux (cs & rest & ps & y & E1 & (E2 & E3 & _) & E4 & (K1 & S1 & S2) & Ry & (K2 & C) & Z).
    pose proof Ux as (_ & _ & Rr & _). rewrite (uinv_packets r port x cs Ux) in S2.
    assert (K : kept x x') by (eapply kept_trans; eauto).
    split. { destruct K as (K & _). destruct (rxrel_queue x x' K (proj1 Rr)) as (ch & P1 & P2). eauto. }
    assert (Cs : chunk_sent y (take (tx_size x) rest) x' -> sent x' = sent y ++ [sent_to port r (take (tx_size x) rest)]).
    { unfold chunk_sent. rewrite (kept_packet _ _ _ K1), (uinv_packet r port x _ Ux). auto. }
    assert (Rest : rest = [] \/ rest <> []) by (destruct rest; [now left|right; discriminate]).
    destruct Rest as [-> |Rest].
    { destruct (Z eq_refl) as (R' & Es). exists cs, [], ps, []. rewrite (app_nil_r ps). split; [exact E1|]. split; [exact E3|].
      split; [congruence|]. split; [exact S2|]. split; [now left|]. left. apply Un. destruct R' as (_ & _ & _ & A1 & A2 & A3). congruence. }
    destruct C as [(C1 & C2)|[(C1 & _ & _ & _ & C2)|[(C1 & _ & C3 & C2)|(_ & C1 & C2)]]].
    - exists cs, rest, ps, []. rewrite app_nil_r. do 2 (split; [assumption|]). split; [congruence|]. split; [exact S2|]. split; [now left|].
      left. apply Un. destruct C2 as (_ & _ & _ & A1 & A2 & A3). congruence.
    - exists cs, rest, ps, []. rewrite app_nil_r. do 2 (split; [assumption|]). split; [congruence|]. split; [exact S2|]. split; [now left|]. auto.
    - exists cs, rest, ps, []. rewrite app_nil_r. do 2 (split; [assumption|]). split; [congruence|]. split; [exact S2|]. split; [now left|]. eauto.
    - destruct C2 as [C2|C2].
      + exists cs, rest, ps, []. rewrite app_nil_r. do 2 (split; [assumption|]). split; [congruence|]. split; [exact S2|]. split; [now left|]. auto.
      + exists cs, rest, ps, [sent_to port r (take (tx_size x) rest)]. do 2 (split; [assumption|]).
        split; [rewrite (Cs C2), S1; now rewrite app_assoc|]. split; [exact S2|]. split; [now right|]. auto. }
  refine (wp_run e _ (fun oc s' => forall a' out, oc = Done (a', out) -> out_berr out <> None -> Res (sk i s) (sk i s')) s _ s' R _ a' out eq_refl Er).
  destruct B as [r buf ->|r buf Hr]; cbn [step]; rewrite L; unfold udp_handle; apply wp_bind.
  - unfold udp_send. eapply wp_mono; [|apply (wp_udp_send_all_err e i Hi r port fuel buf s U1 U2)].
    intros oc s1 W. destruct oc as [q| | |]; try (intros a1 o1; discriminate). apply wp_ret. intros a1 o1 [= <- <-] E1. apply Core; [exact U|].
    apply (W q eq_refl). exact E1.
  - unfold udp_send_to, udp_send_to_v4. apply wp_bind, (wp_split (fun q => eu (snd q))); [apply es_udp_set_destination| |].
    + apply wp_udp_set_destination; [apply nofail_no_faults|exact Hi|apply U2|]. intros y s1 N1 E1. cbn [fst snd].
      destruct (aimed_facts i dest port r (sk i s) (sk i s1) Hr U (ex_intro _ y (conj N1 E1))) as (V1 & G1 & S1 & _ & _ & Z1).
      apply wp_bind. eapply wp_mono; [|apply (wp_udp_send_all_err e i Hi r port fuel buf s1); apply V1].
      intros oc s2 W. destruct oc as [q| | |]; try (intros a1 o1; discriminate). do 2 apply wp_ret. intros a1 o1 [= <- <-] E2.
      destruct (Core _ _ V1 (W q eq_refl E2)) as ((ch & P1 & P2) & cs & rest & ps & qs & F). rewrite Z1, S1 in F.
      split; [|exists cs, rest, ps, qs; exact F].
      pose proof U as (_ & _ & _ & (q0 & Q0) & _). destruct (G1 q0 Q0) as (q' & (Q1 & _) & Q3). exists (records q' ++ ch).
      rewrite P1, P2, Q1, Q3, records_app. destruct Q0 as (-> & _). now rewrite <- !app_assoc.
    + eapply wp_mono; [|apply (wp_set_destination_err e i Hi dest port r s); apply U2].
      intros oc s1 W r1 -> E1. specialize (W r1 eq_refl E1). destruct (misaimed_facts i _ _ U2 U3 W) as (R1 & _ & S1 & _ & ch & P1 & P2).
      destruct r1 as [u1 [t|er]]; [now elim E1|]. cbn [fst snd]. do 2 apply wp_ret. intros a1 o1 [= <- <-] _.
      split; [eauto|]. exists [], buf, [], []. rewrite app_nil_r. split; [reflexivity|]. split; [constructor|]. split; [exact S1|].
      split; [constructor|]. split; [now left|]. left. apply Un. destruct R1 as (_ & _ & _ & A1 & A2 & A3). congruence.
Qed.
Print Assumptions C68_send_error_partial.

Section UdpSend.
Import Properties_udp.
Lemma prompt_session j : fst (run (with_fault j 0 prompt) (step 30 (uapp None 49849) (OpUdpConnect 0 (V4 peer))) sys0) = Done (uapp (Some peer) 49849, RUdpUnit (Ok tt)) ->
  udp_session (with_fault j 0 prompt) 30 0 0 (Some peer) 49849 (uapp (Some peer) 49849) (uafter (with_fault j 0 prompt) (OpUdpConnect 0 (V4 peer)) (uapp (Some peer) 49849) []).
Proof.
  intros H. exact (simple_udp (with_fault j 0 prompt) (OpUdpConnect 0 (V4 peer)) (uapp (Some peer) 49849) [] (uapp (Some peer) 49849) [] H eq_refl
    (or_introl (ex_intro _ peer eq_refl)) ltac:(repeat constructor) I).
Qed.
(** the bus fails between the write pointer and SEND: the next datagram has the bytes of both *)
Theorem C68_send_error_refuted : exists s s' s2, let e := with_fault 15 0 prompt in
  udp_session e 30 0 0 (Some peer) 49849 (uapp (Some peer) 49849) s /\
  run e (step 30 (uapp (Some peer) 49849) (OpUdpSend 0 [x61; x62])) s = (Done (uapp (Some peer) 49849, RUdpSend (Err (NbOther (UOther 7)))), s') /\
  sent (socks (s_chip s') 0) = [] /\ unsent (socks (s_chip s') 0) = [x61; x62] /\
  run e (step 30 (uapp (Some peer) 49849) (OpUdpSend 0 [x63])) s' = (Done (uapp (Some peer) 49849, RUdpSend (Ok tt)), s2) /\
  sent (socks (s_chip s2) 0) = [mkPacket 49849 (dotted (a_ip peer)) (a_port peer) [x61; x62; x63]].
Proof.
  eexists _, _, _. cbv zeta. split; [apply prompt_session; vm_compute; reflexivity|].
  split; [apply run_snd; vm_compute; reflexivity|]. split; [vm_compute; reflexivity|]. split; [vm_compute; reflexivity|].
  split; [apply run_snd; vm_compute; reflexivity|]. vm_compute. reflexivity.
Qed.
Print Assumptions C68_send_error_refuted.
(** a buffer of two pieces: the bus fails while the second one is copied, the first one was sent *)
Example C68_case : exists s s', let e := with_fault 24 0 prompt in let a := uapp (Some peer) 49849 in
  udp_session e 30 0 0 (Some peer) 49849 a s /\ sends_buf 0 (Some peer) (OpUdpSend 0 (repeat x61 2050)) peer (repeat x61 2050) /\
  run e (step 30 a (OpUdpSend 0 (repeat x61 2050))) s = (Done (a, RUdpSend (Err (NbOther (UOther 7)))), s') /\
  map (fun p => len (p_data p)) (sent (socks (s_chip s') 0)) = [2048] /\ unsent (socks (s_chip s') 0) = [].
Proof.
  exists (uafter (with_fault 24 0 prompt) (OpUdpConnect 0 (V4 peer)) (uapp (Some peer) 49849) []). eexists. cbv zeta.
  split; [apply prompt_session; vm_compute; reflexivity|]. split; [now constructor|].
  split; [apply run_snd; vm_compute; reflexivity|]. split; vm_compute; reflexivity.
Qed.
End UdpSend.

(** ** C69 *)
(** Full statement: a read_frame that reports a bus error leaves every frame to be read.
    Proved: either all of them are still queued, or the first one alone is gone and what of it
    fits is at the front of the buffer.  Nothing is sent. *)
Theorem C69_read_error_partial :
  forall e mc fuel0 ops outs s1 s fuel buf buf' er s',
    macraw_reached e mc fuel0 ops outs s1 s ->
    run e (raw_read_frame fuel (mkRaw (socket_new 0)) buf) s = (Done (buf', Err er), s') ->
    let x := socks (s_chip s) 0 in let x' := socks (s_chip s') 0 in
    exists q arrived, pending x = concat (map raw_record q) /\ sent x' = sent x /\ rxlog x' = rxlog x ++ concat (map raw_record arrived) /\
      (pending x' = concat (map raw_record (q ++ arrived)) \/
       exists g later, q ++ arrived = g :: later /\ pending x' = concat (map raw_record later) /\ rx_rd x' = rx_base x' /\
         let n := N.min (len g) (len buf) in buf' = take n g ++ drop n buf).
Proof.
  intros e mc fuel0 ops outs s1 s fuel buf buf' er s' H R. destruct (macraw_reached_inv _ _ _ _ _ _ _ H) as ((St & _) & _ & t & q & _ & Q & _).
  cbv zeta. pose proof (wp_run e _ _ s _ s' R (wp_raw_read_err e 0 ltac:(reflexivity) fuel buf q s St Q) buf' er eq_refl) as F.
  destruct F as ((_ & F1 & _) & _ & _ & _ & q' & F2 & _ & F3). fold (sk 0 s) (sk 0 s'). exists q, q'.
  split; [apply Q|]. split; [exact F1|]. split; [exact F2|].
  destruct F3 as [((F3 & _) & _)|(F4 & g & later & F5 & (F6 & _) & F7)]; [left; exact F3|right]. exists g, later. auto.
Qed.
Print Assumptions C69_read_error_partial.

(** ** C70 *)
(** Full statement: a write_frame that reports a bus error has put nothing into the transmit
    buffer that a later call would send.  Proved: it sent the whole frame or nothing, and
    afterwards nothing is unsent, or exactly the frame is, or the write pointer consists of a
    new and an old byte.  Queued frames are not touched. *)
Theorem C70_write_error_partial :
  forall e mc fuel0 ops outs s1 s fuel frame er s',
    macraw_reached e mc fuel0 ops outs s1 s ->
    run e (raw_write_frame fuel (mkRaw (socket_new 0)) frame) s = (Done (Err er), s') ->
    let x := socks (s_chip s) 0 in let x' := socks (s_chip s') 0 in
    (exists ch, pending x' = pending x ++ ch /\ rxlog x' = rxlog x ++ ch) /\
    (sent x' = sent x \/ (0 < len frame <= 16384 /\ exists p, sent x' = sent x ++ [p] /\ p_data p = frame)) /\
    (unsent x' = [] \/ (0 < len frame <= 16384 /\
       (unsent x' = frame \/ tx_wr x' = (tx_wr x + len frame) mod 65536 / 256 * 256 + tx_wr x mod 256))).
Proof.
  intros e mc fuel0 ops outs s1 s fuel frame er s' H R. destruct (macraw_reached_inv _ _ _ _ _ _ _ H) as ((St & Zt & _) & _).
  cbv zeta. pose proof (wp_run e _ _ s _ s' R (wp_raw_write_err e 0 ltac:(reflexivity) fuel frame s St) (Err er) eq_refl ltac:(discriminate)) as F.
  pose proof St as (_ & _ & _ & Rr). fold (sk 0 s) (sk 0 s') in *. destruct F as (w & W & W0 & K & C).
  assert (Un : forall y, tx_end y = tx_wr y -> unsent y = []).
  { intros y E. unfold unsent. rewrite E, sub16_self by apply tx_wr_lt. reflexivity. }
  split. { destruct K as (K & _). destruct (rxrel_queue _ _ K (proj1 Rr)) as (ch & P1 & P2). eauto. }
  rewrite Zt in W. destruct W as [(-> & W)| ->].
  - destruct C as [(C1 & C2)|[(C1 & _ & _ & _ & C2)|[(C1 & _ & C3 & C2)|(_ & C1 & C2)]]].
    + split; [now left|]. left. apply Un. destruct C2 as (_ & _ & _ & A1 & A2 & A3). congruence.
    + split; [now left|]. right. auto.
    + split; [now left|]. right. auto.
    + split; [|left; now apply Un]. destruct C2 as [C2|C2]; [now left|right]. split; [exact W|]. eexists. split; [exact C2|reflexivity].
  - split; [left; now apply W0|]. left.
    destruct C as [(C1 & C2)|[(C1 & _ & _ & _ & C2)|[(C1 & _ & C3 & C2)|(_ & C1 & C2)]]]; [|exact C2| |now apply Un].
    + apply Un. destruct C2 as (_ & _ & _ & A1 & A2 & A3). congruence.
    + apply Un. rewrite C2, C3. change (len (@nil byte)) with 0. rewrite N.add_0_r, N.mod_small by apply tx_wr_lt.
      pose proof (N.div_mod (tx_wr (sk 0 s)) 256 ltac:(discriminate)). lia.
Qed.
Print Assumptions C70_write_error_partial.

Section Raw.
Import Properties_raw.
Definition two_frames : env := script [(25, [EvFrame [x61; x62; x63]; EvFrame [x71; x72]])]%nat.
(** two frames are queued; the bus fails between the read pointer and RECV of the first read:
    the second read returns the second frame *)
Theorem C69_read_error_refuted : exists s s' s2, let e := with_fault 26 0 two_frames in let d := mkRaw (socket_new 0) in
  macraw_reached e my_mac 30 [] [] s s /\
  run e (raw_read_frame 30 d [x00; x00; x00; x00]) s = (Done ([x61; x62; x63; x00], Err 7), s') /\
  run e (raw_read_frame 30 d [x00; x00; x00; x00]) s' = (Done ([x71; x72; x00; x00], Ok 2), s2) /\
  pending (socks (s_chip s2) 0) = [].
Proof.
  eexists _, _, _. cbv zeta. split.
  { exists sys0, (mkRaw (socket_new 0)). split; [apply run_snd; vm_compute; reflexivity|]. split; [reflexivity|constructor]. }
  split; [apply run_snd; vm_compute; reflexivity|]. split; [apply run_snd; vm_compute; reflexivity|]. vm_compute. reflexivity.
Qed.
Print Assumptions C69_read_error_refuted.
(** the bus fails between the write pointer and SEND: the next frame on the wire is both glued
    together *)
Theorem C70_write_error_refuted : exists s s' s2, let e := with_fault 25 0 sending_net in let d := mkRaw (socket_new 0) in
  macraw_reached e my_mac 30 [] [] s s /\
  run e (raw_write_frame 30 d [x61; x62]) s = (Done (Err 7), s') /\
  sent (socks (s_chip s') 0) = [] /\ unsent (socks (s_chip s') 0) = [x61; x62] /\
  run e (raw_write_frame 30 d [x63]) s' = (Done (Ok 1), s2) /\
  map p_data (sent (socks (s_chip s2) 0)) = [[x61; x62; x63]].
Proof.
  eexists _, _, _. cbv zeta. split.
  { exists sys0, (mkRaw (socket_new 0)). split; [apply run_snd; vm_compute; reflexivity|]. split; [reflexivity|constructor]. }
  split; [apply run_snd; vm_compute; reflexivity|]. split; [vm_compute; reflexivity|]. split; [vm_compute; reflexivity|].
  split; [apply run_snd; vm_compute; reflexivity|]. vm_compute. reflexivity.
Qed.
Print Assumptions C70_write_error_refuted.
(** C69: the bus fails when RECV is already written: the first frame, or what fits of it, is in the buffer, the
    second one queued *)
Example C69_case : exists s s', let e := with_fault 26 1 two_frames in let d := mkRaw (socket_new 0) in
  macraw_reached e my_mac 30 [] [] s s /\
  run e (raw_read_frame 30 d [x00; x00]) s = (Done ([x61; x62], Err 7), s') /\
  pending (socks (s_chip s') 0) = raw_record [x71; x72] /\ rx_rd (socks (s_chip s') 0) = rx_base (socks (s_chip s') 0).
Proof.
  eexists _, _. cbv zeta. split.
  { exists sys0, (mkRaw (socket_new 0)). split; [apply run_snd; vm_compute; reflexivity|]. split; [reflexivity|constructor]. }
  split; [apply run_snd; vm_compute; reflexivity|]. split; vm_compute; reflexivity.
Qed.
(** C70: the bus fails while the frame is copied: nothing was sent, nothing is unsent *)
Example C70_case : exists s s', let e := with_fault 23 1 sending_net in let d := mkRaw (socket_new 0) in
  macraw_reached e my_mac 30 [] [] s s /\
  run e (raw_write_frame 30 d [x61; x62]) s = (Done (Err 7), s') /\
  sent (socks (s_chip s') 0) = [] /\ unsent (socks (s_chip s') 0) = [].
Proof.
  eexists _, _. cbv zeta. split.
  { exists sys0, (mkRaw (socket_new 0)). split; [apply run_snd; vm_compute; reflexivity|]. split; [reflexivity|constructor]. }
  split; [apply run_snd; vm_compute; reflexivity|]. split; vm_compute; reflexivity.
Qed.
End Raw.
