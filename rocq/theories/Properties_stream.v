(** C35-C40, C42: the byte streams of a TCP connection, in whole programs.  [tcp_session]
    (TcpSession.v) is the situation of a program that has connected a TCP handle and used it
    since; other handles may be used in between, their calls may meet bus errors. *)
From Verif Require Import Dotted.
From Verif Require Import TcpLimits Cases Liveness.
From Verif Require Import Datasheet.

(** *** Concrete sessions for the examples: socket, then connect to [peer], then [ops] *)
Definition peer : addr4 := Addr4 (Ip4 x0a x00 x00 x02) 8080.
Definition app1 : History.app := mkApp (mkDS Dhcp 254) [(0%nat, HTcp (mkTcp (socket_new 0)))] 1.
Definition connected (e : env) : sys := snd (run e (step 30 app1 (OpTcpConnect 0 (V4 peer))) sys0).
Definition afterwards (e : env) (ops : list op) : sys := snd (run e (run_ops 30 app1 ops) (connected e)).
Lemma simple_session e ops outs :
  fst (run e (step 30 app1 (OpTcpConnect 0 (V4 peer))) sys0) = Done (app1, RTcpConnect (Ok tt)) ->
  fst (run e (run_ops 30 app1 ops) (connected e)) = Done (app1, outs) ->
  Forall (leaves_open 0) ops -> no_bus_error 0 ops outs ->
  tcp_session e 30 0 0 peer (socks (s_chip (connected e)) 0) (accepted 0 ops outs) (delivered 0 ops outs) app1 (afterwards e ops).
Proof.
  intros H1 H2 K N. exists Dhcp, sys0, [OpTcpSocket], app1, [RTcpSocket (Ok 0%nat)], sys0, (mkTcp (socket_new 0)), (connected e), ops, outs.
  split; [reflexivity|]. split; [reflexivity|]. split; [reflexivity|].
  split; [right; left; vm_compute; reflexivity|]. split; [right; left; vm_compute; reflexivity|]. split; [reflexivity|].
  split. { unfold connected. destruct (run e _ sys0) as [o s']. cbn [fst snd] in *. now rewrite H1. }
  split; [reflexivity|].
  split. { unfold afterwards. destruct (run e (run_ops _ _ _) _) as [o s']. cbn [fst snd] in *. now rewrite H2. }
  auto.
Qed.
Lemma run_snd {A} e (p : prog A) s o : fst (run e p s) = o -> run e p s = (o, snd (run e p s)).
Proof. destruct (run e p s). cbn. now intros ->. Qed.

(** ** C35 *)
(** The bytes put on the wire for the connection since it was made are exactly the
    concatenation of the accepted prefixes, in order, all in packets to the peer. *)
Theorem C35_stream e fuel h i r x1 acc del a s :
  tcp_session e fuel h i r x1 acc del a s ->
  exists l, sent (socks (s_chip s) i) = sent x1 ++ l /\ concat (map p_data l) = acc /\
    Forall (fun p => p_sport p = 49849 + i /\ p_ip p = dotted (a_ip r) /\ p_dport p = a_port r) l.
Proof.
  intros T. destruct (session_facts _ _ _ _ _ _ _ _ _ _ T) as (_ & _ & _ & _ & _ & _ & _ & _ & l & L1 & L2 & L3).
  exists l. auto.
Qed.
Print Assumptions C35_stream.

(** One call: Ok n has transmitted exactly the first n bytes when it returns; NotConnected has
    transmitted nothing; a call that is still waiting has transmitted a prefix. *)
Theorem C35_send e fuel h i r x1 acc del a s d o s' :
  tcp_session e fuel h i r x1 acc del a s ->
  run e (step fuel a (OpTcpSend h d)) s = (o, s') ->
  (forall a' out, o = Done (a', out) -> out_berr out = None) ->
  exists l, sent (socks (s_chip s') i) = sent (socks (s_chip s) i) ++ l /\
    Forall (fun p => p_sport p = 49849 + i /\ p_ip p = dotted (a_ip r) /\ p_dport p = a_port r) l /\
    ((exists n, o = Done (a, RTcpSend (Ok n)) /\ n <= len d /\ concat (map p_data l) = take n d) \/
     (o = Done (a, RTcpSend (Err (NbOther TNotConnected))) /\ l = []) \/
     (o = Looping /\ exists k, concat (map p_data l) = firstn k d)).
Proof.
  intros T R NB. destruct (session_facts _ _ _ _ _ _ _ _ _ _ T) as (Hi & I & L & S).
  pose proof S as (Rd & _ & U & Tw & _).
  refine (session_call _ e _ (fun o s' => exists l, sent (sk i s') = sent (sk i s) ++ l /\ Forall (to_peer i r) l /\
    ((exists n, o = Done (a, RTcpSend (Ok n)) /\ n <= len d /\ payload l = take n d) \/
     (o = Done (a, RTcpSend (Err (NbOther TNotConnected))) /\ l = []) \/
     (o = Looping /\ exists k, payload l = firstn k d))) s o s' (es_step fuel a _) R _ _).
  { intros [a' out] ->. now apply (NB a' out). }
  cbn [step]. rewrite L. apply wp_bind. apply wp_tcp_send; auto using nofail_no_faults.
  - intros n s2 Hn (l & (M1 & M2 & M3 & M4 & M5) & P & _). apply wp_ret. exists l. split; [exact M4|].
    split; [eapply Forall_impl; [|exact M5]; intros p; now apply toward_addressed|].
    left. exists n. rewrite U in P. auto.
  - intros s2 N _. apply wp_ret. exists []. rewrite app_nil_r. destruct Rd as (V & B & O & _).
    split; [apply (calm_sevs i _ _ N B O)|]. split; [constructor|]. right. left. auto.
  - intros n s2 Hn (l & k & (M1 & M2 & M3 & M4 & M5) & K & P & _). exists l. split; [exact M4|].
    split; [eapply Forall_impl; [|exact M5]; intros p; now apply toward_addressed|].
    right. right. split; [reflexivity|]. rewrite U, app_nil_l in P. unfold take in P. rewrite firstn_firstn in P. eauto.
Qed.
Print Assumptions C35_send.

(** two sends, the first accepted in two segments, the second while the first is being
    acknowledged *)
Definition two_sends : env := script
  [(20%nat, [EvEstablished 0]); (40%nat, [EvTransmit 0 1]); (42%nat, [EvTransmit 0 9]); (43%nat, [EvSendOk 0]);
   (45%nat, [EvAck 0 2]); (70%nat, [EvTransmit 0 65535; EvSendOk 0])].
Example C35_case : exists x1 s, tcp_session two_sends 30 0 0 peer x1 [x61; x62; x63; x64; x65] [] app1 s /\
  sent (socks (s_chip s) 0) =
    [mkPacket 49849 [x0a; x00; x00; x02] 8080 [x61]; mkPacket 49849 [x0a; x00; x00; x02] 8080 [x62; x63];
     mkPacket 49849 [x0a; x00; x00; x02] 8080 [x64; x65]].
Proof.
  pose (ops := [OpTcpSend 0 [x61; x62; x63]; OpTcpSend 0 [x64; x65]]).
  exists (socks (s_chip (connected two_sends)) 0), (afterwards two_sends ops). split.
  - exact (simple_session two_sends ops [RTcpSend (Ok 3); RTcpSend (Ok 2)] ltac:(vm_compute; reflexivity) ltac:(vm_compute; reflexivity)
      ltac:(repeat constructor) ltac:(cbn; auto)).
  - vm_compute. reflexivity.
Qed.

(** ** C36 *)
(** Whatever comes of a send (Ok, NotConnected, still waiting), and however the free-size
    register changed between its bytes: the bytes waiting for acknowledgement are the ones that
    were, minus some acknowledged at the front, plus accepted bytes at the end; they never
    exceed the buffer, so nothing unacknowledged is overwritten. *)
Theorem C36_send_bounds e fuel h i r x1 acc del a s d o s' :
  tcp_session e fuel h i r x1 acc del a s ->
  run e (step fuel a (OpTcpSend h d)) s = (o, s') ->
  (forall a' out, o = Done (a', out) -> out_berr out = None) ->
  exists n k, n <= len d /\
    unacked (socks (s_chip s') i) = skipn k (unacked (socks (s_chip s) i) ++ take n d) /\
    len (unacked (socks (s_chip s') i)) <= tx_size (socks (s_chip s') i) /\
    (forall m, o = Done (a, RTcpSend (Ok m)) -> n = m).
Proof.
  intros T R NB. destruct (session_facts _ _ _ _ _ _ _ _ _ _ T) as (Hi & I & L & S).
  pose proof S as (Rd & _).
  assert (Lu : forall x, txv x -> len (unacked x) <= tx_size x).
  { intros x (V1 & V2 & V3 & V4 & V5 & V6). unfold unacked, len. rewrite ring_read_length. lia. }
  refine (session_call _ e _ (fun o s' => exists n k, n <= len d /\ unacked (sk i s') = skipn k (unacked (sk i s) ++ take n d) /\
    len (unacked (sk i s')) <= tx_size (sk i s') /\ (forall m, o = Done (a, RTcpSend (Ok m)) -> n = m)) s o s' (es_step fuel a _) R _ _).
  { intros [a' out] ->. now apply (NB a' out). }
  cbn [step]. rewrite L. apply wp_bind. apply wp_tcp_send; auto using nofail_no_faults.
  - intros n s2 Hn (l & _ & _ & (V & k & K1 & K2) & _). apply wp_ret. exists n, k. split; [exact Hn|]. split; [exact K2|].
    split; [now apply Lu|]. intros m [= ->]. reflexivity.
  - intros s2 N _. apply wp_ret. destruct (txgrow_sevs i _ _ N ltac:(apply Rd)) as (V & k & K1 & K2). exists 0, k.
    split; [lia|]. split; [exact K2|]. split; [now apply Lu|]. intros m [=].
  - intros n s2 Hn (l & k' & _ & _ & _ & (V & k & K1 & K2)). exists n, k. split; [exact Hn|]. split; [exact K2|].
    split; [now apply Lu|]. intros m [=].
Qed.
Print Assumptions C36_send_bounds.

(** a send into a buffer that already holds unacknowledged data *)
Example C36_case : exists x1 s, tcp_session two_sends 30 0 0 peer x1 [x61; x62; x63] [] app1 s /\
  unacked (socks (s_chip s) 0) = [x61; x62; x63].
Proof.
  pose (ops := [OpTcpSend 0 [x61; x62; x63]]).
  exists (socks (s_chip (connected two_sends)) 0), (afterwards two_sends ops). split.
  - exact (simple_session two_sends ops [RTcpSend (Ok 3)] ltac:(vm_compute; reflexivity) ltac:(vm_compute; reflexivity)
      ltac:(repeat constructor) ltac:(cbn; auto)).
  - vm_compute. reflexivity.
Qed.

(** ** C37 *)
(** The connection is lost right after send has seen it established: send polls for a SENDOK
    that never comes, however long it runs. *)
Definition lost : env := script [(20%nat, [EvEstablished 0]); (22%nat, [EvDropped 0 true])].
Theorem C37_send_terminates_refuted : exists x1 s,
  tcp_session lost 30 0 0 peer x1 [] [] app1 s /\ sr (socks (s_chip s) 0) = SOCK_ESTABLISHED /\
  forall fuel d, fst (run lost (step fuel app1 (OpTcpSend 0 d)) s) = Looping.
Proof.
  exists (socks (s_chip (connected lost)) 0), (afterwards lost []).
  assert (T : tcp_session lost 30 0 0 peer (socks (s_chip (connected lost)) 0) [] [] app1 (afterwards lost []))
    by exact (simple_session lost [] [] ltac:(vm_compute; reflexivity) ltac:(vm_compute; reflexivity) ltac:(constructor) I).
  assert (E : sr (socks (s_chip (afterwards lost [])) 0) = SOCK_ESTABLISHED) by (vm_compute; reflexivity).
  assert (H0 : happens lost (s_tick (afterwards lost [])) = []) by (vm_compute; reflexivity).
  assert (H1 : happens lost (S (s_tick (afterwards lost []))) = [EvDropped 0 true]) by (vm_compute; reflexivity).
  split; [exact T|]. split; [exact E|]. intros fuel d.
  destruct (session_facts _ _ _ _ _ _ _ _ _ _ T) as (_ & _ & _ & (Rd & _)).
  set (s := afterwards lost []) in *. clearbody s.
  enough (W : wp lost (step fuel app1 (OpTcpSend 0 d)) loops s) by exact W.
  unfold app1. cbn [step lookup handles Nat.eqb]. apply wp_bind.
  eapply wp_mono; [|apply (tcp_send_hangs lost 0 (script_no_faults _) ltac:(reflexivity) fuel d s true Rd E H0 H1)].
  intros o s' ->. reflexivity.
Qed.
Print Assumptions C37_send_terminates_refuted.

(** What does hold: if from now on the chip never gives up the connection, and a transmission
    and the report of its completion are never more than W bus bytes away, then 2W polls are
    enough, from any state of the socket and whatever the bus does. *)
Theorem C37_send_terminates_partial e i s W d :
  i < 8 -> sr (socks (s_chip s) i) < 256 ->
  (forall t b, (s_tick s <= t)%nat -> ~ In (EvDropped i b) (happens e t) /\ ~ In (EvSendTimeout i b) (happens e t)) ->
  (forall t, (s_tick s <= t)%nat -> exists t', (t <= t' < t + W)%nat /\ In (EvTransmit i 65535) (happens e t')) ->
  (forall t, (s_tick s <= t)%nat -> exists t', (t <= t' < t + W)%nat /\ In (EvSendOk i) (happens e t')) ->
  forall fuel, (2 * W <= fuel)%nat ->
  exists r s', run e (tcp_send fuel (mkTcp (socket_new i)) d) s = (Done r, s').
Proof.
  intros Hi L Cl FT FO fuel Hf.
  set (l := [EvTransmit i 65535; EvSendOk i]). rewrite <- (run_from_now e (tcp_send fuel (mkTcp (socket_new i)) d) s l). set (e' := from_now e s l).
  apply (returns_anyway ErrorFacts.ent); [apply ErrorFacts.es_tcp_send|].
  pose proof (from_now_clean e s l i Cl ltac:(intros b; split; intros [X|[X|[]]]; discriminate X)) as Cl'.
  destruct (tcp_send_returns (nofail e') i (nofail_no_faults e') Hi Cl' W (from_now_soon e s l W _ (or_introl eq_refl) FT)
    (from_now_soon e s l W _ (or_intror (or_introl eq_refl)) FO) fuel d s L Hf) as (r & E).
  unfold wp. exists r. exact E.
Qed.
Print Assumptions C37_send_terminates_partial.
Example C37_case : let e := mkEnv (fun t => if (t <? 9)%nat then [EvDropped 2 true] else if Nat.even t then [EvTransmit 2 65535] else [EvSendOk 2]) (fun j => if Nat.eqb j 30 then Some (1%nat, 7) else None) in
  (forall t b, (9 <= t)%nat -> ~ In (EvDropped 2 b) (happens e t) /\ ~ In (EvSendTimeout 2 b) (happens e t)) /\
  (forall t, (9 <= t)%nat -> exists t', (t <= t' < t + 2)%nat /\ In (EvTransmit 2 65535) (happens e t')) /\
  (forall t, (9 <= t)%nat -> exists t', (t <= t' < t + 2)%nat /\ In (EvSendOk 2) (happens e t')).
Proof.
  cbv zeta. cbn [happens]. assert (G : forall t, (9 <= t)%nat -> (t <? 9)%nat = false) by (intros; apply Nat.ltb_ge; lia). split; [|split].
  - intros t b H9. rewrite G by exact H9. destruct (Nat.even t); split; intros [H|[]]; discriminate.
  - intros t H9. destruct (Nat.even t) eqn:E; [exists t|exists (S t); rewrite Nat.even_succ, <- Nat.negb_even]; rewrite E, G by lia; (split; [lia|now left]).
  - intros t H9. destruct (Nat.even t) eqn:E; [exists (S t); rewrite Nat.even_succ, <- Nat.negb_even|exists t]; rewrite E, G by lia; (split; [lia|now left]).
Qed.

(** ** C38 *)
(** Everything the peer's bytes the chip took in since the connection was made is what receives
    have delivered so far, followed by what is still in the chip: nothing lost, duplicated or
    reordered. *)
Theorem C38_stream e fuel h i r x1 acc del a s :
  tcp_session e fuel h i r x1 acc del a s ->
  rxlog (socks (s_chip s) i) = del ++ pending (socks (s_chip s) i).
Proof. intros T. now destruct (session_facts _ _ _ _ _ _ _ _ _ _ T) as (_ & _ & _ & _ & _ & _ & _ & L & _). Qed.
Print Assumptions C38_stream.

(** One call: at most the buffer's length, the rest of the buffer as it was; otherwise the
    buffer is unchanged. *)
Theorem C38_receive e fuel h i r x1 acc del a s buf o s' :
  tcp_session e fuel h i r x1 acc del a s ->
  run e (step fuel a (OpTcpReceive h buf)) s = (o, s') ->
  (forall a' out, o = Done (a', out) -> out_berr out = None) ->
  (exists n buf', o = Done (a, RTcpReceive buf' (Ok n)) /\ n <= len buf /\ length buf' = length buf /\ drop n buf' = drop n buf /\
     rxlog (socks (s_chip s') i) = del ++ take n buf' ++ pending (socks (s_chip s') i)) \/
  (o = Done (a, RTcpReceive buf (Err (NbOther TNotConnected))) /\
     rxlog (socks (s_chip s') i) = del ++ pending (socks (s_chip s') i)) \/
  (o = Looping /\ rxlog (socks (s_chip s') i) = del ++ pending (socks (s_chip s') i)).
Proof.
  intros T R NB. destruct (session_facts _ _ _ _ _ _ _ _ _ _ T) as (Hi & I & L & S).
  pose proof S as (Rd & Rr & _).
  refine (session_call _ e _ (fun o s' =>
    (exists n buf', o = Done (a, RTcpReceive buf' (Ok n)) /\ n <= len buf /\ length buf' = length buf /\ drop n buf' = drop n buf /\
     rxlog (sk i s') = del ++ take n buf' ++ pending (sk i s')) \/
    (o = Done (a, RTcpReceive buf (Err (NbOther TNotConnected))) /\ rxlog (sk i s') = del ++ pending (sk i s')) \/
    (o = Looping /\ rxlog (sk i s') = del ++ pending (sk i s'))) s o s' (es_step fuel a _) R _ _).
  { intros [a' out] ->. now apply (NB a' out). }
  cbn [step]. rewrite L. apply wp_bind. apply wp_tcp_receive; auto using nofail_no_faults.
  - intros n d' s2 D _. apply wp_ret. cbn [fst snd]. left. exists n, d'. split; [reflexivity|].
    assert (Sn : session_inv i r x1 acc (del ++ take n d') (sk i s2)) by (eapply session_recv; eauto).
    destruct Sn as (_ & _ & _ & _ & Lg & _). rewrite <- app_assoc in Lg.
    destruct D as (D1 & _ & _ & ch & D2 & D3 & _).
    split; [exact D1|]. split.
    { rewrite D3, app_length. unfold take, drop, len in *. rewrite firstn_length, skipn_length. lia. }
    split; [|exact Lg].
    rewrite D3. unfold drop at 1. rewrite skipn_app.
    assert (Ht : length (take n (pending (sk i s) ++ ch)) = N.to_nat n) by (unfold take, len in *; rewrite firstn_length; lia).
    rewrite Ht, Nat.sub_diag. rewrite <- Ht at 1. rewrite skipn_all. reflexivity.
  - intros s2 N _. apply wp_ret. right. left. split; [reflexivity|].
    assert (Sn : session_inv i r x1 acc del (sk i s2)) by (eapply session_sevs; eauto). apply Sn.
  - intros s2 N. right. right. split; [reflexivity|].
    assert (Sn : session_inv i r x1 acc del (sk i s2)) by (eapply session_sevs; eauto). apply Sn.
Qed.
Print Assumptions C38_receive.

Definition two_arrivals : env := script
  [(20%nat, [EvEstablished 0]); (21%nat, [EvTcpData 0 [x61; x62; x63]]); (25%nat, [EvTcpData 0 [x64; x65]])].
Example C38_case : exists x1 s, tcp_session two_arrivals 30 0 0 peer x1 [] [x61; x62; x63; x64] app1 s /\
  pending (socks (s_chip s) 0) = [x65].
Proof.
  pose (ops := [OpTcpReceive 0 [x00; x00; x00; x00]]).
  exists (socks (s_chip (connected two_arrivals)) 0), (afterwards two_arrivals ops). split.
  - exact (simple_session two_arrivals ops [RTcpReceive [x61; x62; x63; x64] (Ok 4)] ltac:(vm_compute; reflexivity) ltac:(vm_compute; reflexivity)
      ltac:(repeat constructor) ltac:(cbn; auto)).
  - vm_compute. reflexivity.
Qed.

(** ** C39 *)
(** Three bytes arrive; the application reads with a one-byte buffer.  receive clears the RECV
    flag although two bytes are left, and from then on every receive says Ok(0), whatever its
    buffer and however often it is called, until the peer sends something new. *)
Definition three_bytes : env := script [(20%nat, [EvEstablished 0]); (21%nat, [EvTcpData 0 [x61; x62; x63]])].
Theorem C39_receive_available_refuted : exists x1 s,
  tcp_session three_bytes 30 0 0 peer x1 [] [x61] app1 s /\
  sr (socks (s_chip s) 0) = SOCK_ESTABLISHED /\ pending (socks (s_chip s) 0) = [x62; x63] /\
  forall fuel bufs, exists s',
    run three_bytes (run_ops fuel app1 (map (OpTcpReceive 0) bufs)) s =
      (Done (app1, map (fun b => RTcpReceive b (Ok 0)) bufs), s') /\
    pending (socks (s_chip s') 0) = [x62; x63].
Proof.
  pose (ops := [OpTcpReceive 0 [x00]]).
  exists (socks (s_chip (connected three_bytes)) 0), (afterwards three_bytes ops).
  assert (P : pending (socks (s_chip (afterwards three_bytes ops)) 0) = [x62; x63]) by (vm_compute; reflexivity).
  assert (E : sr (socks (s_chip (afterwards three_bytes ops)) 0) = SOCK_ESTABLISHED) by (vm_compute; reflexivity).
  assert (F : recvf (socks (s_chip (afterwards three_bytes ops)) 0) = false) by (vm_compute; reflexivity).
  assert (Tk : (22 <= s_tick (afterwards three_bytes ops))%nat) by (apply Nat.leb_le; vm_compute; reflexivity).
  split; [|split; [exact E|split; [exact P|]]].
  - exact (simple_session three_bytes ops [RTcpReceive [x61] (Ok 1)] ltac:(vm_compute; reflexivity) ltac:(vm_compute; reflexivity)
      ltac:(repeat constructor) ltac:(cbn; auto)).
  - set (s := afterwards three_bytes ops) in *. clearbody s. intros fuel bufs.
    destruct (receives_flag_down three_bytes 0 fuel 0 app1 (script_no_faults _) ltac:(reflexivity) eq_refl bufs s E F) as (s' & R & C).
    + intros t Ht. apply (script_quiet_after _ 22); [repeat constructor; cbn; lia|lia].
    + exists s'. split; [exact R|]. now rewrite C.
Qed.
Print Assumptions C39_receive_available_refuted.

(** The same with a buffer that is large enough: two bytes arrive after receive has read the
    received size and before it clears the flag. *)
Definition late_bytes : env := script [(20%nat, [EvEstablished 0]); (21%nat, [EvTcpData 0 [x61]]); (33%nat, [EvTcpData 0 [x62; x63]])].
Theorem C39_receive_race_refuted : exists x1 s,
  tcp_session late_bytes 30 0 0 peer x1 [] [x61] app1 s /\
  sr (socks (s_chip s) 0) = SOCK_ESTABLISHED /\ pending (socks (s_chip s) 0) = [x62; x63] /\
  forall fuel bufs, exists s',
    run late_bytes (run_ops fuel app1 (map (OpTcpReceive 0) bufs)) s =
      (Done (app1, map (fun b => RTcpReceive b (Ok 0)) bufs), s') /\
    pending (socks (s_chip s') 0) = [x62; x63].
Proof.
  pose (ops := [OpTcpReceive 0 (zeros 100)]).
  exists (socks (s_chip (connected late_bytes)) 0), (afterwards late_bytes ops).
  assert (P : pending (socks (s_chip (afterwards late_bytes ops)) 0) = [x62; x63]) by (vm_compute; reflexivity).
  assert (E : sr (socks (s_chip (afterwards late_bytes ops)) 0) = SOCK_ESTABLISHED) by (vm_compute; reflexivity).
  assert (F : recvf (socks (s_chip (afterwards late_bytes ops)) 0) = false) by (vm_compute; reflexivity).
  assert (Tk : (34 <= s_tick (afterwards late_bytes ops))%nat) by (apply Nat.leb_le; vm_compute; reflexivity).
  split; [|split; [exact E|split; [exact P|]]].
  - refine (simple_session late_bytes ops [RTcpReceive (x61 :: zeros 99) (Ok 1)] ltac:(vm_compute; reflexivity) ltac:(vm_compute; reflexivity)
      ltac:(repeat constructor) ltac:(cbn; auto)).
  - set (s := afterwards late_bytes ops) in *. clearbody s. intros fuel bufs.
    destruct (receives_flag_down late_bytes 0 fuel 0 app1 (script_no_faults _) ltac:(reflexivity) eq_refl bufs s E F) as (s' & R & C).
    + intros t Ht. apply (script_quiet_after _ 34); [repeat constructor; cbn; lia|lia].
    + exists s'. split; [exact R|]. now rewrite C.
Qed.
Print Assumptions C39_receive_race_refuted.

(** What does hold: if any byte arrived after the last receive on the handle returned, the next
    receive with a non-empty buffer that returns Ok returns as many bytes as are waiting (those
    left behind earlier included) or as fit the buffer, so at least one. *)
Theorem C39_receive_available_partial e fuel h i r x1 acc del a0 s0 ops outs a s buf a' buf' n s' :
  tcp_session e fuel h i r x1 acc del a0 s0 ->
  run e (run_ops fuel a0 ops) s0 = (Done (a, outs), s) ->
  Forall (leaves_open h) ops -> no_bus_error h ops outs ->
  Forall (fun o => forall b, o <> OpTcpReceive h b) ops ->
  rxlog (socks (s_chip s) i) <> rxlog (socks (s_chip s0) i) ->
  run e (step fuel a (OpTcpReceive h buf)) s = (Done (a', RTcpReceive buf' (Ok n)), s') ->
  N.min (len buf) (len (pending (socks (s_chip s) i))) <= n /\ pending (socks (s_chip s) i) <> [] /\
  (buf <> [] -> 1 <= n).
Proof.
  intros T R K NB Nr Lg R2.
  destruct (session_facts _ _ _ _ _ _ _ _ _ _ T) as (_ & _ & _ & (_ & (V0 & _) & _)).
  destruct (run_ops_rxrel _ _ _ _ _ _ _ _ _ _ _ _ _ _ T K Nr R NB) as ((_ & _ & _ & _ & X) & acc' & del' & T').
  destruct (X V0) as (V & ch & P1 & P2 & P3). fold (sk i s) in Lg. fold (sk i s0) in Lg.
  assert (Hch : ch <> []) by (intros ->; apply Lg; rewrite P2; apply app_nil_r).
  pose proof (P3 Hch) as F. clear P3.
  destruct (session_facts _ _ _ _ _ _ _ _ _ _ T') as (Hi & I & L & S). pose proof S as (Rd & Rr & _).
  assert (Hn : N.min (len buf) (len (pending (sk i s))) <= n).
  { refine (session_call _ e _ (fun o s' => forall a' b' n, o = Done (a', RTcpReceive b' (Ok n)) -> N.min (len buf) (len (pending (sk i s))) <= n)
      s _ s' (es_step fuel a _) R2 _ _ a' buf' n eq_refl).
    { intros v [= <-]. reflexivity. }
    cbn [step]. rewrite L. apply wp_bind. apply wp_tcp_receive; auto using nofail_no_faults.
    - intros m d' s2 _ [(x & N & _ & ->)|(_ & _ & _ & Fd)]; [|congruence]. apply wp_ret. cbn [fst snd]. intros ? ? ? [= _ _ <-].
      destruct (sevs_rx _ _ _ N V) as (_ & c & _ & _ & _ & E). rewrite len_pending. lia.
    - intros s2 _ _. apply wp_ret. intros ? ? ? [=].
    - intros s2 _ ? ? ?. discriminate. }
  assert (Hp : pending (sk i s) <> []).
  { rewrite P1. intros Z. apply app_eq_nil in Z as [_ Z]. contradiction. }
  split; [exact Hn|]. split; [exact Hp|]. intros Hb.
  assert (1 <= len buf) by (destruct buf; [contradiction|rewrite len_cons; lia]).
  assert (1 <= len (pending (sk i s))) by (destruct (pending (sk i s)); [contradiction|rewrite len_cons; lia]). lia.
Qed.
Print Assumptions C39_receive_available_partial.
(** the two bytes left behind come with the next arrival *)
Example C39_case :
  let e := script [(20%nat, [EvEstablished 0]); (21%nat, [EvTcpData 0 [x61; x62; x63]]); (40%nat, [EvTcpData 0 [x64]])] in
  exists s, run e (run_ops 30 app1 [OpTcpReceive 0 [x00]; OpTcpReceive 0 [x00; x00]; OpDevice QIp; OpDevice QMac; OpTcpReceive 0 [x00; x00; x00; x00]]) (connected e) =
   (Done (app1, [RTcpReceive [x61] (Ok 1); RTcpReceive [x00; x00] (Ok 0); RDevice (DIp (Ok (Ip4 x00 x00 x00 x00)));
      RDevice (DMac (Ok (Mac x00 x00 x00 x00 x00 x00))); RTcpReceive [x62; x63; x64; x00] (Ok 3)]), s).
Proof. cbv zeta. eexists. apply run_snd. vm_compute. reflexivity. Qed.

(** ** C40 *)
(** Two bytes arrive and the peer closes its side: receive answers NotConnected for ever,
    whatever the network does, and the bytes stay in the chip. *)
Definition sent_and_closed : env := script [(20%nat, [EvEstablished 0]); (21%nat, [EvTcpData 0 [x61; x62]; EvPeerFin 0])].
Lemma closed_with_data e0 fuel0 r x1 acc del s p : forall e fuel bufs, no_faults e ->
  tcp_session e0 fuel0 0 0 r x1 acc del app1 s -> sr (socks (s_chip s) 0) = SOCK_CLOSE_WAIT -> pending (socks (s_chip s) 0) = p ->
  exists s' l, run e (run_ops fuel app1 (map (OpTcpReceive 0) bufs)) s =
      (Done (app1, map (fun b => RTcpReceive b (Err (NbOther TNotConnected))) bufs), s') /\
    pending (socks (s_chip s') 0) = p ++ l.
Proof.
  intros e fuel bufs NF T E P. destruct (session_facts _ _ _ _ _ _ _ _ _ _ T) as (_ & _ & _ & (_ & (V & _) & _)).
  destruct (receives_closed e 0 fuel 0 app1 NF ltac:(reflexivity) eq_refl bufs s (or_introl E)) as (s' & R & N).
  destruct (sevs_rx _ _ _ N V) as (_ & ch & P1 & _). exists s', ch. split; [exact R|]. unfold sk in P1. now rewrite P1, P.
Qed.
Theorem C40_read_after_close_refuted : exists x1 s,
  tcp_session sent_and_closed 30 0 0 peer x1 [] [] app1 s /\
  sr (socks (s_chip s) 0) = SOCK_CLOSE_WAIT /\ pending (socks (s_chip s) 0) = [x61; x62] /\
  forall e fuel bufs, no_faults e -> exists s' l,
    run e (run_ops fuel app1 (map (OpTcpReceive 0) bufs)) s =
      (Done (app1, map (fun b => RTcpReceive b (Err (NbOther TNotConnected))) bufs), s') /\
    pending (socks (s_chip s') 0) = [x61; x62] ++ l.
Proof.
  pose (ops := [OpDevice QVersion]).
  exists (socks (s_chip (connected sent_and_closed)) 0), (afterwards sent_and_closed ops).
  split; [|split; [vm_compute; reflexivity|split; [vm_compute; reflexivity|]]].
  - exact (simple_session sent_and_closed ops [RDevice (DByte (Ok x04))] ltac:(vm_compute; reflexivity) ltac:(vm_compute; reflexivity)
      ltac:(repeat constructor) ltac:(cbn; split; [discriminate|exact I])).
  - intros e fuel bufs NF. apply (closed_with_data sent_and_closed 30 peer (socks (s_chip (connected sent_and_closed)) 0) [] []); [exact NF| | |].
    + exact (simple_session sent_and_closed ops [RDevice (DByte (Ok x04))] ltac:(vm_compute; reflexivity) ltac:(vm_compute; reflexivity)
        ltac:(repeat constructor) ltac:(cbn; split; [discriminate|exact I])).
    + vm_compute; reflexivity.
    + vm_compute; reflexivity.
Qed.
Print Assumptions C40_read_after_close_refuted.

(** What does hold: as long as the peer's close has not been noticed (the status read by receive
    is still Established) the bytes are delivered: C38 and C39 apply.  And receive never invents
    a NotConnected: it is only returned with the connection really gone from Established. *)
Theorem C40_read_after_close_partial e fuel h i r x1 acc del a s buf a' buf' s' :
  tcp_session e fuel h i r x1 acc del a s ->
  run e (step fuel a (OpTcpReceive h buf)) s = (Done (a', RTcpReceive buf' (Err (NbOther TNotConnected))), s') ->
  sr (socks (s_chip s') i) <> SOCK_ESTABLISHED /\ buf' = buf.
Proof.
  intros T R. destruct (session_facts _ _ _ _ _ _ _ _ _ _ T) as (Hi & I & L & S). pose proof S as (Rd & Rr & _).
  refine (session_call _ e _ (fun o s' => forall a' b', o = Done (a', RTcpReceive b' (Err (NbOther TNotConnected))) ->
      sr (sk i s') <> SOCK_ESTABLISHED /\ b' = buf) s _ s' (es_step fuel a _) R _ _ a' buf' eq_refl).
  { intros v [= <-]. reflexivity. }
  cbn [step]. rewrite L. apply wp_bind. apply wp_tcp_receive; auto using nofail_no_faults.
  - intros n d' s2 _ _. apply wp_ret. intros ? ? [=].
  - intros s2 _ X. apply wp_ret. cbn [fst snd]. intros ? ? [= _ <-]. auto.
  - intros s2 _ ? ?. discriminate.
Qed.
Print Assumptions C40_read_after_close_partial.
(** one byte is delivered; then another arrives and the peer closes *)
Example C40_case : exists x1 s s', let e := script [(20%nat, [EvEstablished 0]); (21%nat, [EvTcpData 0 [x61]]); (38%nat, [EvTcpData 0 [x62]; EvPeerFin 0])] in
  tcp_session e 30 0 0 peer x1 [] [x61] app1 s /\
  run e (run_ops 30 app1 [OpDevice QMac; OpTcpReceive 0 [x00]]) s = (Done (app1, [RDevice (DMac (Ok (Mac x00 x00 x00 x00 x00 x00))); RTcpReceive [x00] (Err (NbOther TNotConnected))]), s') /\
  pending (socks (s_chip s') 0) = [x62].
Proof.
  pose (e := script [(20%nat, [EvEstablished 0]); (21%nat, [EvTcpData 0 [x61]]); (38%nat, [EvTcpData 0 [x62]; EvPeerFin 0])]).
  exists (socks (s_chip (connected e)) 0), (afterwards e [OpTcpReceive 0 [x00; x00]]). eexists. cbv zeta. fold e.
  split; [|split; [apply run_snd; vm_compute; reflexivity|vm_compute; reflexivity]].
  exact (simple_session e [OpTcpReceive 0 [x00; x00]] [RTcpReceive [x61; x00] (Ok 1)] ltac:(vm_compute; reflexivity) ltac:(vm_compute; reflexivity)
      ltac:(repeat constructor) ltac:(cbn; auto)).
Qed.

(** ** C42 *)
(** The first send is transmitted, but the bus fails when send clears the SENDOK flag.  The
    second send finds the old flag and reports Ok at once, with nothing of it transmitted; then
    the connection is lost and the socket closes: nothing of it ever is. *)
Definition stale : env := with_fault 31 0 (script
  [(20%nat, [EvEstablished 0]); (40%nat, [EvTransmit 0 65535; EvSendOk 0]); (60%nat, [EvDropped 0 true])]).
Theorem C42_send_not_stale_refuted : exists a s a' s' a'' r s'',
  run stale (run_ops 30 (app_new Dhcp) [OpTcpSocket; OpTcpConnect 0 (V4 peer); OpTcpSend 0 [x61; x62; x63]]) sys0 =
    (Done (a, [RTcpSocket (Ok 0%nat); RTcpConnect (Ok tt); RTcpSend (Err (NbOther (TOther 7)))]), s) /\
  payload (sent (socks (s_chip s) 0)) = [x61; x62; x63] /\
  run stale (step 30 a (OpTcpSend 0 [x64; x65])) s = (Done (a', RTcpSend (Ok 2)), s') /\
  payload (sent (socks (s_chip s') 0)) = [x61; x62; x63] /\
  run stale (run_ops 30 a' [OpDevice QMac; OpDevice QMac]) s' = (Done (a'', r), s'') /\
  payload (sent (socks (s_chip s'') 0)) = [x61; x62; x63] /\ sr (socks (s_chip s'') 0) = SOCK_CLOSED.
Proof.
  exists app1. eexists. exists app1. eexists. exists app1. do 2 eexists.
  split; [apply run_snd; vm_compute; reflexivity|]. split; [vm_compute; reflexivity|].
  split; [apply run_snd; vm_compute; reflexivity|]. split; [vm_compute; reflexivity|].
  split; [apply run_snd; vm_compute; reflexivity|]. split; vm_compute; reflexivity.
Qed.
Print Assumptions C42_send_not_stale_refuted.

(** What does hold, after any program and with any bus errors: if the transmitter is at rest
    (nothing handed over and unfinished, SENDOK down) when send is called, Ok(n) means that the
    chip has transmitted what was staged before and these n bytes. *)
Theorem C42_send_not_stale_partial e fuel ho s0 ops a outs s h t i d a' n s' :
  run e (run_ops fuel (app_new ho) ops) s0 = (Done (a, outs), s) ->
  lookup h (handles a) = Some (HTcp t) -> index (t_socket t) = i ->
  ready (socks (s_chip s) i) ->
  run e (step fuel a (OpTcpSend h d)) s = (Done (a', RTcpSend (Ok n)), s') ->
  n <= len d /\ exists l, sent (socks (s_chip s') i) = sent (socks (s_chip s) i) ++ l /\
    payload l = unsent (socks (s_chip s) i) ++ take n d /\
    tx_rd (socks (s_chip s') i) = tx_wr (socks (s_chip s') i) /\ ready (socks (s_chip s') i).
Proof.
  intros R0 L Ei Rd R. pose proof (run_ops_inv e fuel ops _ _ _ _ _ (pool_inv_new ho) R0) as I.
  destruct (pi_lookup _ _ _ I L) as (j & Hj & Ej & _). cbn [handle_socket] in Ej. rewrite Ej in Ei. cbn [index socket_new] in Ei. subst j.
  destruct t as [t']. cbn [t_socket] in Ej. subst t'.
  refine (session_call _ e _ (fun o s' => forall a' n, o = Done (a', RTcpSend (Ok n)) ->
     n <= len d /\ exists l, sent (sk i s') = sent (sk i s) ++ l /\ payload l = unsent (sk i s) ++ take n d /\
       tx_rd (sk i s') = tx_wr (sk i s') /\ ready (sk i s')) s _ s' (es_step fuel a _) R _ _ a' n eq_refl).
  { intros v [= <-]. reflexivity. }
  cbn [step]. rewrite L. apply wp_bind. apply wp_tcp_send; auto using nofail_no_faults.
  - intros m s2 Hm (l & (M1 & M2 & M3 & M4 & M5) & P & _ & R2 & W & _). apply wp_ret. intros ? ? [= _ <-].
    split; [exact Hm|]. exists l. auto.
  - intros s2 _ _. apply wp_ret. intros ? ? [=].
  - intros m s2 _ _ ? ?. discriminate.
Qed.
Print Assumptions C42_send_not_stale_partial.
(** data staged by a send whose SEND command failed goes out with the next send *)
Definition staged_first : env := with_fault 21 0 (script [(20%nat, [EvEstablished 0]); (45%nat, [EvTransmit 0 65535; EvSendOk 0])]).
Example C42_case : exists outs s s',
  run staged_first (run_ops 30 (app_new Dhcp) [OpTcpSocket; OpTcpConnect 0 (V4 peer); OpTcpSend 0 [x61; x62; x63]]) sys0 = (Done (app1, outs), s) /\
  outs = [RTcpSocket (Ok 0%nat); RTcpConnect (Ok tt); RTcpSend (Err (NbOther (TOther 7)))] /\
  ready (socks (s_chip s) 0) /\ unsent (socks (s_chip s) 0) = [x61; x62; x63] /\
  run staged_first (step 30 app1 (OpTcpSend 0 [x64; x65])) s = (Done (app1, RTcpSend (Ok 2)), s') /\
  payload (sent (socks (s_chip s') 0)) = [x61; x62; x63; x64; x65].
Proof.
  do 3 eexists.
  split; [apply run_snd; vm_compute; reflexivity|]. split; [reflexivity|].
  split.
  { unfold ready, txv, valid_size. split; [split; [vm_compute; auto 10|]; repeat (split; [vm_compute; reflexivity|]); vm_compute; discriminate|]. repeat (split; [vm_compute; reflexivity|]). vm_compute; reflexivity. }
  split; [vm_compute; reflexivity|]. split; [apply run_snd; vm_compute; reflexivity|]. vm_compute; reflexivity.
Qed.
