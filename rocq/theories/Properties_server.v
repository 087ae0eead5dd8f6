(** C118: a program that answers the datagrams it receives. *)
From Verif Require Import Dotted.
From Verif Require Import UdpWire Cases UdpSession UdpReceive UdpCalls ProgFacts.
From Verif Require Import Datasheet.
From Verif Require Properties_udp Properties_reply.

(** [n] rounds: receive; what came is answered with send_to to the address receive returned, the
    answer is made of that address and the bytes receive counted; WouldBlock goes to the next round,
    any other error ends it. *)
Fixpoint server (reply : addr4 -> list byte -> list byte) (n fuel : nat) (a : History.app) (h : nat) (buf : list byte) : prog (History.app * option out) :=
  match n with
  | O => Ret (a, None)
  | S n' =>
      do r <- step fuel a (OpUdpReceive h buf) ;;
      match snd r with
      | RUdpReceive buf' (Ok (k, V4 from)) =>
          do r2 <- step fuel (fst r) (OpUdpSendTo h (V4 from) (reply from (take k buf'))) ;;
          match snd r2 with
          | RUdpSend (Ok _) => server reply n' fuel (fst r2) h buf'
          | o => Ret (fst r2, Some o)
          end
      | RUdpReceive buf' (Err WouldBlock) => server reply n' fuel (fst r) h buf'
      | o => Ret (fst r, Some o)
      end
  end.

(** [served]: the datagrams [gs] were taken, in this order, and the packets [ps] went out for them.
    For every answer the first of some datagrams taken at once is answered, the others ([lost]) are
    not.  The answer is made of the asker's address and of bytes that start with what they said, and
    are just that if the buffer, of [z] bytes, is as long; its 2048-byte pieces go to the asker, in
    order and each whole, only pieces the chip timed out on are missing.  Only at the very end an
    answer may be given up or be on its way ([more]). *)
Inductive served (port z : N) (reply : addr4 -> list byte -> list byte) : list dgram -> list packet -> Prop :=
| sv_nil : served port z reply [] []
| sv_one g lost r said cs more ps gs pss :
    dotted (a_ip r) = g_ip g -> a_port r = g_port g ->
    take (len (g_data g)) said = g_data g -> (said = g_data g <-> z = len (g_data g)) ->
    cut_into 2048 (reply r said) (cs ++ more) -> (more <> [] -> gs = []) ->
    part ps (map (fun c => mkPacket port (g_ip g) (g_port g) c) cs) ->
    served port z reply gs pss ->
    served port z reply (g :: lost ++ gs) (ps ++ pss).

Lemma answer_call e fuel h i dest port a s r buf oc s' : udp_session e fuel h i dest port a s -> a_port r < 65536 -> two_k (sk i s) ->
  run e (step fuel a (OpUdpSendTo h (V4 r) buf)) s = (oc, s') -> no_berr oc ->
  qgrow (sk i s) (sk i s') /\
  exists cs more ps, cut_into 2048 buf (cs ++ more) /\ sent (sk i s') = sent (sk i s) ++ ps /\ part ps (map (sent_to port r) cs) /\
    ((exists a', oc = Done (a', RUdpSend (Ok tt)) /\ more = []) \/ (exists a', oc = Done (a', RUdpSend (Err (NbOther UWriteTimeout)))) \/ oc = Looping).
Proof.
  intros T Hr Z R NB. destruct (udp_session_facts _ _ _ _ _ _ _ _ T) as (Hi & Hp & Ip & L & U). pose proof (two_k_size _ Z) as Zs.
  assert (Part : forall cs rest, buf = concat cs ++ rest -> cut_so_far (tx_size (sk i s)) cs rest -> exists more, cut_into 2048 buf (cs ++ more)).
  { intros cs rest -> C. rewrite Zs in C. destruct (cut_exists 2048 ltac:(reflexivity) (length rest) rest (le_n _)) as (more & M). exists more. now apply cut_app. }
  refine (session_call _ e _ (fun oc s' => qgrow (sk i s) (sk i s') /\
    exists cs more ps, cut_into 2048 buf (cs ++ more) /\ sent (sk i s') = sent (sk i s) ++ ps /\ part ps (map (sent_to port r) cs) /\
    ((exists a', oc = Done (a', RUdpSend (Ok tt)) /\ more = []) \/ (exists a', oc = Done (a', RUdpSend (Err (NbOther UWriteTimeout)))) \/ oc = Looping)) s oc s' (es_step fuel a _) R _ _).
  { intros [a' ou] ->. now apply (NB a' ou). }
  cbn [step]. rewrite L. unfold udp_handle. apply wp_bind. apply wp_udp_send_to; auto using nofail_no_faults.
  - intros s1 _ G (cs & ps & C1 & C2 & C3 & _). apply wp_ret. split; [exact G|]. exists cs, [], ps. rewrite app_nil_r, <- Zs. split; [exact C1|]. split; [exact C2|]. split; [exact C3|]. left. eauto.
  - intros s1 _ G (cs & rest & ps & C1 & _ & C3 & C4 & C5 & _). apply wp_ret. split; [exact G|]. destruct (Part cs rest C1 C3) as (more & M). exists cs, more, ps. split; [exact M|]. split; [exact C4|]. split; [exact C5|]. right. left. eauto.
  - intros s1 G (cs & rest & ps & C1 & C3 & C4 & C5). split; [exact G|]. destruct (Part cs rest C1 C3) as (more & M). exists cs, more, ps. auto 10.
Qed.

(** ** C118.  At any moment of a program with an open UDP handle; [q0] waits.  However many rounds,
    whatever the network does, whatever the answers are: what waited and what has come since is, in
    order, what was taken and what waits now; what has left the socket are the answers to what was
    taken, in order, each to the one who asked.  So too while a send is waiting for the chip, and if
    receive panics (C51: the buffer is shorter than a datagram). *)
Theorem C118_server : forall reply n e fuel h i dest port a s q0 buf oc s',
  udp_session e fuel h i dest port a s -> two_k (socks (s_chip s) i) -> queue (socks (s_chip s) i) q0 ->
  run e (server reply n fuel a h buf) s = (oc, s') ->
  (forall a' last, oc = Done (a', Some last) -> out_berr last = None) ->
  ((exists a' last, oc = Done (a', last)) \/ oc = Looping \/ oc = Panicked P_udp_recv_slice) /\
  exists new taken left ps, q0 ++ new = taken ++ left /\ queue (socks (s_chip s') i) left /\
    rxlog (socks (s_chip s') i) = rxlog (socks (s_chip s) i) ++ concat (map record_of new) /\
    sent (socks (s_chip s') i) = sent (socks (s_chip s) i) ++ ps /\ served port (len buf) reply taken ps.
Proof.
  intros reply. induction n as [|n IH]; intros e fuel h i dest port a s q0 buf oc s' T Z Q0 R NB; cbn [server] in R.
  - cbn [run] in R. injection R as <- <-. split; [left; eauto|]. exists [], [], q0, []. rewrite !app_nil_r. split; [reflexivity|]. split; [exact Q0|]. split; [reflexivity|]. split; [reflexivity|]. constructor.
  - rewrite run_bind in R. destruct (run e (step fuel a (OpUdpReceive h buf)) s) as [o1 s1] eqn:R1. cbn [fst snd] in R.
    destruct (udp_session_facts _ _ _ _ _ _ _ _ T) as (Hi & Hp & Ip & _ & U). pose proof U as (U1 & U2 & U3 & _).
    assert (N1 : no_berr o1).
    { intros a1 ou ->. destruct (out_berr ou) as [b|] eqn:Eb; [|reflexivity]. exfalso.
      destruct ou as [| | | | | | | | | | |b1 [[k [r|]]|[|y]]| |]; cbn [snd fst] in R; try discriminate Eb; cbn [run] in R; injection R as <- _; specialize (NB _ _ eq_refl); congruence. }
    pose proof (udp_receive_call _ _ _ _ _ _ _ _ _ _ _ _ T Q0 R1 N1) as C.
    assert (P1 : sent (sk i s1) = sent (sk i s)).
    { destruct (udp_packets _ _ _ _ _ _ _ _ (OpUdpReceive h buf) _ _ T Logic.I R1 (fun _ => N1)) as (p0 & P1 & _ & P3).
      destruct p0 as [|p p0]; [now rewrite app_nil_r in P1|]. destruct P3 as (x & y & B); [discriminate|]. inversion B. }
    assert (Stop : sevs i (sk i s) (sk i s1) -> exists new taken left ps, q0 ++ new = taken ++ left /\ queue (sk i s1) left /\
      rxlog (sk i s1) = rxlog (sk i s) ++ records new /\ sent (sk i s1) = sent (sk i s) ++ ps /\ served port (len buf) reply taken ps).
    { intros N. destruct (sevs_queue i _ _ q0 N U1 (proj1 U3) Q0) as (q' & Q1 & Q2). exists q', [], (q0 ++ q'), []. rewrite app_nil_r. split; [reflexivity|]. split; [exact Q1|]. split; [exact Q2|]. split; [exact P1|]. constructor. }
    destruct C as [(k & r & buf' & -> & (K1 & K2 & g & q & later & q' & E & W & Ql & Rl & (S1 & S2) & Lg & En & F1 & _ & F3))|[(-> & N & _)|[(-> & N & _)|[(-> & N & _)|(-> & N)]]]]; cbn [fst snd] in R.
    + assert (Hr : a_port r < 65536). { rewrite S2. rewrite E in W. exact (proj1 (proj2 (Forall_inv W))). }
      assert (Lr : len (records (g :: q)) >= 8 + len (g_data g)).
      { rewrite E in W. pose proof (Forall_inv W) as Wg. unfold records. cbn [map concat]. rewrite len_app, len_record by exact Wg. lia. }
      assert (Bn : len (g_data g) <= k <= len buf /\ (k = len (g_data g) <-> len buf = len (g_data g))) by lia. clear En Lr.
      assert (Sd : take (len (g_data g)) (take k buf') = g_data g). { rewrite <- F1 at 2. unfold take. rewrite firstn_firstn. f_equal. lia. }
      assert (Se : take k buf' = g_data g <-> len buf = len (g_data g)).
      { split; intros H.
        - apply (f_equal len) in H. rewrite len_take in H. lia.
        - rewrite <- F1. f_equal. lia. }
      pose proof (udp_session_next e fuel h i dest port _ s (OpUdpReceive h buf) _ _ s1 T Logic.I R1 ltac:(reflexivity)) as T1. cbn [named1 bound1] in T1.
      pose proof (step_two_k _ _ _ _ _ _ _ _ _ Hi Ip Z R1) as Z1.
      rewrite run_bind in R. destruct (run e (step fuel a (OpUdpSendTo h (V4 r) (reply r (take k buf')))) s1) as [o2 s2] eqn:R2. cbn [fst snd] in R.
      assert (N2 : no_berr o2).
      { intros a1 ou ->. destruct (out_berr ou) as [b|] eqn:Eb; [|reflexivity]. exfalso.
        destruct ou as [| | | | | | | | | |[u|y]| | |]; cbn [snd fst] in R; try discriminate Eb; cbn [run] in R; injection R as <- _; specialize (NB _ _ eq_refl); congruence. }
      destruct (answer_call _ _ _ _ _ _ _ _ _ _ _ _ T1 Hr Z1 R2 N2) as (G & cs & more & ps & Cu & Sp & Pa & D).
      assert (Pa' : part ps (map (fun c => mkPacket port (g_ip g) (g_port g) c) cs)). { unfold sent_to in Pa. now rewrite <- S1, <- S2. }
      destruct (G later Ql) as (q2 & Q2 & L2). rewrite Rl, <- app_assoc, <- records_app in L2.
      assert (E2 : q0 ++ q' ++ q2 = (g :: q) ++ later ++ q2) by now rewrite !app_assoc, E.
      assert (One : forall s3, s3 = s2 -> exists new taken left ps, q0 ++ new = taken ++ left /\ queue (sk i s3) left /\
        rxlog (sk i s3) = rxlog (sk i s) ++ records new /\ sent (sk i s3) = sent (sk i s) ++ ps /\ served port (len buf) reply taken ps).
      { intros s3 ->. exists (q' ++ q2), (g :: q), (later ++ q2), ps. split; [exact E2|]. split; [exact Q2|]. split; [exact L2|]. split; [now rewrite Sp, P1|].
        rewrite <- (app_nil_r q), <- (app_nil_r ps). eapply sv_one; eauto. constructor. }
      destruct D as [(a2 & -> & ->)|[(a2 & ->)| ->]]; cbn [fst snd] in R.
      * pose proof (udp_session_next e fuel h i dest port _ s1 (OpUdpSendTo h (V4 r) (reply r (take k buf'))) _ _ s2 T1 Hr R2 ltac:(reflexivity)) as T2. cbn [named1 bound1] in T2. rewrite Nat.eqb_refl in T2.
        destruct (udp_session_facts _ _ _ _ _ _ _ _ T1) as (_ & _ & Ip1 & _). pose proof (step_two_k _ _ _ _ _ _ _ _ _ Hi Ip1 Z1 R2) as Z2.
        destruct (IH _ _ _ _ _ _ _ _ _ _ _ _ T2 Z2 Q2 R NB) as (O & new & taken & left & pss & A1 & A2 & A3 & A4 & A5). split; [exact O|].
        exists (q' ++ q2 ++ new), (g :: q ++ taken), left, (ps ++ pss). split.
        { rewrite <- !app_assoc in A1. rewrite (app_assoc q' q2 new), (app_assoc q0), E2. cbn [Datatypes.app]. rewrite <- !app_assoc. now rewrite A1. }
        split; [exact A2|]. split. { change (concat (map record_of new)) with (records new) in A3. unfold sk in *. rewrite A3, L2. change (concat (map record_of (q' ++ q2 ++ new))) with (records (q' ++ q2 ++ new)). rewrite !records_app, <- !app_assoc. reflexivity. }
        split. { unfold sk in *. now rewrite A4, Sp, P1, <- app_assoc. }
        rewrite F3 in A5. eapply sv_one; eauto. now intros [].
      * cbn [run] in R. injection R as <- <-. split; [left; eauto|]. now apply One.
      * injection R as <- <-. split; [now right; left|]. now apply One.
    + pose proof (udp_session_next e fuel h i dest port _ s (OpUdpReceive h buf) _ _ s1 T Logic.I R1 ltac:(reflexivity)) as T1. cbn [named1 bound1] in T1.
      pose proof (step_two_k _ _ _ _ _ _ _ _ _ Hi Ip Z R1) as Z1.
      destruct (sevs_queue i _ _ q0 N U1 (proj1 U3) Q0) as (q' & Q1 & Q2).
      destruct (IH _ _ _ _ _ _ _ _ _ _ _ _ T1 Z1 Q1 R NB) as (O & new & taken & left & pss & A1 & A2 & A3 & A4 & A5). split; [exact O|].
      exists (q' ++ new), taken, left, pss. split; [now rewrite app_assoc|]. split; [exact A2|]. unfold sk in *. split; [|split; [now rewrite A4, P1|exact A5]].
      rewrite A3, Q2. change (concat (map record_of (q' ++ new))) with (records (q' ++ new)). rewrite records_app, <- app_assoc. reflexivity.
    + cbn [run] in R. injection R as <- <-. split; [left; eauto|]. now apply Stop.
    + injection R as <- <-. split; [now right; right|]. now apply Stop.
    + injection R as <- <-. split; [now right; left|]. now apply Stop.
Qed.
Print Assumptions C118_server.

(** Three datagrams: the first waits when the program starts, the others come during its rounds.  A
    datagram is answered with its bytes reversed.  The buffer has three bytes; the second datagram has
    one, so what follows it, the start of the third datagram, is counted to it, and the third is lost. *)
Definition askers : env := mkEnv (fun t => (match t with
  | 13 => [EvDatagram 0 [x01; x02; x03; x04] 53 [x41; x42; x43]]
  | 50 => [EvDatagram 0 [x09; x08; x07; x06] 1000 [x50]; EvDatagram 0 [x09; x08; x07; x07] 1001 [x51]]
  | _ => [] end)%nat ++ [EvTransmit 0 65535; EvSendOk 0]) (fun _ => None).
Definition asked : sys := Properties_udp.uafter askers (OpUdpConnect 0 (V4 Properties_udp.peer)) (Properties_udp.uapp (Some Properties_udp.peer) 49849) [OpDevice QVersion].
Example C118_case : exists s', let a := Properties_udp.uapp (Some Properties_udp.peer) 49849 in
  udp_session askers 30 0 0 (Some Properties_udp.peer) 49849 a asked /\ two_k (socks (s_chip asked) 0) /\
  queue (socks (s_chip asked) 0) [mkDgram [x01; x02; x03; x04] 53 [x41; x42; x43]] /\
  run askers (server (fun _ d => rev d) 4 30 a 0 (zeros 3)) asked =
    (Done (Properties_udp.uapp (Some (Addr4 (Ip4 x09 x08 x07 x06) 1000)) 49849, None), s') /\
  sent (socks (s_chip s') 0) = sent (socks (s_chip asked) 0) ++
    [mkPacket 49849 [x01; x02; x03; x04] 53 [x43; x42; x41]; mkPacket 49849 [x09; x08; x07; x06] 1000 [x08; x09; x50]].
Proof.
  eexists. cbv zeta. split; [|split; [|split; [|split]]].
  - exact (Properties_udp.simple_udp askers (OpUdpConnect 0 (V4 Properties_udp.peer)) (Properties_udp.uapp (Some Properties_udp.peer) 49849) [OpDevice QVersion]
      (Properties_udp.uapp (Some Properties_udp.peer) 49849) [RDevice (DByte (Ok x04))] ltac:(vm_compute; reflexivity) ltac:(vm_compute; reflexivity)
      (or_introl (ex_intro _ Properties_udp.peer eq_refl)) ltac:(repeat constructor) ltac:(cbn; auto)).
  - split; vm_compute; reflexivity.
  - split; [vm_compute; reflexivity|repeat constructor].
  - apply run_snd. vm_compute. reflexivity.
  - vm_compute. reflexivity.
Qed.
