(** C62-C64: calls that return and calls that may wait for ever. *)
From Verif Require Import Liveness Properties_udp Cases ErrorFacts TcpSession.
From Verif Require Import Datasheet.

(** ** C62 *)
(** In any program with a UDP session: from the state [s] on, the chip finishes a SEND within
    [W] bus bytes - it transmits, or it gives up and moves the read pointer on (the one way of
    giving up that the driver notices).  Then send and send_to return, whatever else happens on
    the network and on the bus.  Missing: a chip that gives up and leaves the read pointer. *)
Theorem C62_send_returns_partial e fuel0 fuel h i dest port a s o r buf W :
  udp_session e fuel0 h i dest port a s -> sends_buf h dest o r buf ->
  (forall t, (s_tick s <= t)%nat -> ~ In (EvSendTimeout i false) (happens e t)) ->
  (forall t, (s_tick s <= t)%nat -> exists t' ev, (t <= t' < t + W)%nat /\ In ev (happens e t') /\
     ((exists k, ev = EvTransmit i k) \/ ev = EvSendTimeout i true)) ->
  (W < fuel)%nat -> (length buf <= fuel)%nat ->
  exists a' out s', run e (step fuel a o) s = (Done (a', out), s').
Proof.
  intros T B Cl Fa Hf Hb. destruct (udp_session_facts _ _ _ _ _ _ _ _ T) as (Hi & Hp & I & L & U).
  set (e' := from_now e s [EvTransmit i 0]). rewrite <- (run_from_now e (step fuel a o) s [EvTransmit i 0]). fold e'.
  enough (X : exists x s', run e' (step fuel a o) s = (Done x, s')) by (destruct X as ([a' ou] & s' & ->); eauto).
  apply (returns_anyway (fun r => out_berr (snd r))); [apply es_step|].
  assert (Hh : forall t, happens (nofail e') t = if (s_tick s <=? t)%nat then happens e t else [EvTransmit i 0]) by reflexivity.
  assert (Clean : forall t, ~ In (EvSendTimeout i false) (happens (nofail e') t)).
  { intros t. rewrite Hh. destruct (Nat.leb_spec (s_tick s) t) as [G|G]; [now apply Cl|]. intros [X|[]]. discriminate X. }
  assert (Fair : forall t, exists t' b, (t <= t' < t + W)%nat /\ finishes i b /\ In b (happens (nofail e') t')).
  { intros t. destruct (Nat.leb_spec (s_tick s) t) as [G|G].
    - destruct (Fa t G) as (t' & b & Ht & Hin & F). exists t', b. split; [exact Ht|]. split; [exact F|]. rewrite Hh.
      now rewrite (proj2 (Nat.leb_le _ _)) by lia.
    - exists t, (EvTransmit i 0). split; [destruct (Fa _ (Nat.le_refl _)) as (t' & _ & Ht & _); lia|]. split; [left; eauto|]. rewrite Hh.
      rewrite (proj2 (Nat.leb_gt _ _)) by lia. now left. }
  assert (M : forall A (f : A -> prog (History.app * out)) (p : prog A), (forall x, exists y, f x = Ret y) -> wp (nofail e') p returned s -> wp (nofail e') (bind p f) returned s).
  { intros A f p Hr H. apply wp_bind. eapply wp_mono; [|exact H]. intros oc s' (x & ->). destruct (Hr x) as (y & ->). apply wp_ret. eexists. reflexivity. }
  destruct B as [r buf ->|r buf Hr]; cbn [step]; rewrite L; unfold udp_handle; (apply M; [eauto|]).
  - apply (udp_send_returns (nofail e') i (nofail_no_faults e') Hi Clean W Fair r port fuel buf s); auto; apply U.
  - apply (udp_send_to_returns (nofail e') i (nofail_no_faults e') Hi Clean W Fair r port fuel dest buf s); auto.
Qed.
Print Assumptions C62_send_returns_partial.
(** a chip that transmits at once; a bus that fails in the middle of the second datagram *)
Example C62_case : exists s, udp_session (with_fault 30 1 prompt) 30 0 0 (Some peer) 49849 (uapp (Some peer) 49849) s /\
  sends_buf 0 (Some peer) (OpUdpSend 0 [x61; x62]) peer [x61; x62] /\
  (forall t, (s_tick s <= t)%nat -> ~ In (EvSendTimeout 0 false) (happens (with_fault 30 1 prompt) t)) /\
  (forall t, (s_tick s <= t)%nat -> exists t' ev, (t <= t' < t + 1)%nat /\ In ev (happens (with_fault 30 1 prompt) t') /\
     ((exists k, ev = EvTransmit 0 k) \/ ev = EvSendTimeout 0 true)) /\
  exists s', run (with_fault 30 1 prompt) (step 3 (uapp (Some peer) 49849) (OpUdpSend 0 [x61; x62])) s =
    (Done (uapp (Some peer) 49849, RUdpSend (Err (NbOther (UOther 7)))), s').
Proof.
  exists (uafter (with_fault 30 1 prompt) (OpUdpConnect 0 (V4 peer)) (uapp (Some peer) 49849) [OpUdpSend 0 [x61]]). split; [|split; [|split; [|split]]].
  - exact (simple_udp (with_fault 30 1 prompt) (OpUdpConnect 0 (V4 peer)) (uapp (Some peer) 49849) [OpUdpSend 0 [x61]] (uapp (Some peer) 49849) [RUdpSend (Ok tt)]
      ltac:(vm_compute; reflexivity) ltac:(vm_compute; reflexivity) ltac:(left; eexists; reflexivity) ltac:(repeat constructor) ltac:(cbn; auto)).
  - now constructor.
  - intros t _ [X|[X|[]]]; discriminate X.
  - intros t _. exists t, (EvTransmit 0 65535). split; [lia|]. split; [now left|]. left. eauto.
  - eexists. apply run_snd. vm_compute. reflexivity.
Qed.

(** If from [s] on the chip neither transmits for this socket nor moves its read pointer on
    when it gives up, send and send_to of a non-empty buffer never return, for any number of
    polls, in any program and whatever else the network does. *)
Theorem C62_send_waits_refuted e fuel0 fuel h i dest port a s o r buf :
  udp_session e fuel0 h i dest port a s -> sends_buf h dest o r buf -> buf <> [] ->
  (forall j, (s_call s <= j)%nat -> fails e j = None) ->
  (forall t ev, (s_tick s <= t)%nat -> In ev (happens e t) -> (forall k, ev <> EvTransmit i k) /\ ev <> EvSendTimeout i true) ->
  fst (run e (step fuel a o) s) = Looping.
Proof.
  intros T B Ne NF St. destruct (udp_session_facts _ _ _ _ _ _ _ _ T) as (Hi & Hp & I & L & U).
  rewrite <- (run_from_now e (step fuel a o) s []). set (e' := from_now e s []).
  assert (NF' : no_faults e').
  { intros j. cbn. destruct (Nat.leb_spec (s_call s) j); auto. }
  assert (St' : forall t ev, (0 <= t)%nat -> In ev (happens e' t) -> (forall k, ev <> EvTransmit i k) /\ ev <> EvSendTimeout i true).
  { intros t ev _. cbn. destruct (Nat.leb_spec (s_tick s) t) as [G|G]; [now apply St|intros []]. }
  refine (_ : wp e' _ (fun o _ => o = Looping) s).
  destruct B as [r buf ->|r buf Hr]; cbn [step]; rewrite L; unfold udp_handle; apply wp_bind.
  - eapply wp_mono; [|apply (udp_send_hangs e' i NF' Hi 0 St' r port eq_refl fuel buf s); auto; apply U]. intros oc s' ->. reflexivity.
  - eapply wp_mono; [|apply (udp_send_to_hangs e' i NF' Hi 0 St' r port eq_refl fuel dest buf s); auto]. intros oc s' ->. reflexivity.
Qed.
Print Assumptions C62_send_waits_refuted.
(** So it is when the chip gives up on the datagram during the call and says so: the send is
    over (the chip is not busy, TIMEOUT is raised), and the call waits for ever. *)
Definition resigns : env := script [(45%nat, [EvSendTimeout 0 false])].
Theorem C62_send_returns_refuted : exists s s',
  udp_session resigns 30 0 0 (Some peer) 49849 (uapp (Some peer) 49849) s /\ N.testbit (ir (socks (s_chip s) 0)) 3 = false /\
  (forall fuel, fst (run resigns (step fuel (uapp (Some peer) 49849) (OpUdpSend 0 [x61])) s) = Looping) /\
  run resigns (step 30 (uapp (Some peer) 49849) (OpUdpSend 0 [x61])) s = (Looping, s') /\
  tx_busy (socks (s_chip s') 0) = false /\ N.testbit (ir (socks (s_chip s') 0)) 3 = true.
Proof.
  exists (uafter resigns (OpUdpConnect 0 (V4 peer)) (uapp (Some peer) 49849) []). eexists.
  assert (T : udp_session resigns 30 0 0 (Some peer) 49849 (uapp (Some peer) 49849) (uafter resigns (OpUdpConnect 0 (V4 peer)) (uapp (Some peer) 49849) [])).
  { exact (simple_udp resigns (OpUdpConnect 0 (V4 peer)) (uapp (Some peer) 49849) [] (uapp (Some peer) 49849) []
      ltac:(vm_compute; reflexivity) ltac:(vm_compute; reflexivity) ltac:(left; eexists; reflexivity) ltac:(repeat constructor) I). }
  split; [exact T|]. split; [vm_compute; reflexivity|]. split.
  - intros fuel. refine (C62_send_waits_refuted _ _ _ _ _ _ _ _ _ _ _ _ T _ _ _ _); [now constructor|discriminate|reflexivity|].
    intros t ev _ Hin. unfold resigns, script in Hin. cbn [happens flat_map fst snd] in Hin. destruct (Nat.eqb 45 t); [|destruct Hin].
    destruct Hin as [<-|[]]. split; discriminate.
  - split; [apply run_snd; vm_compute; reflexivity|]. split; vm_compute; reflexivity.
Qed.
Print Assumptions C62_send_returns_refuted.

(** ** C63 *)
(** Every call of a program except TCP connect, TCP send and the UDP sends: it ends, from any
    chip state with buffer sizes as the datasheet allows them, whatever the network and the bus
    do.  (The receive calls poll until two reads of the received size agree: the buffer can only
    fill up so often.) *)
Theorem C63_others_end e fuel0 ho s00 ops0 a outs0 s0 fuel o s :
  run e (run_ops fuel0 (app_new ho) ops0) s00 = (Done (a, outs0), s0) ->
  match o with OpTcpConnect _ _ | OpTcpSend _ _ | OpUdpSend _ _ | OpUdpSendTo _ _ _ => False | _ => True end ->
  (forall i, i < 8 -> rx_base (socks (s_chip s) i) < 65536 /\ rx_size (socks (s_chip s) i) <= 16384) ->
  (N.to_nat 16384 < fuel)%nat ->
  fst (run e (step fuel a o) s) <> Looping.
Proof.
  intros R Nw V Hf. apply step_ends; auto; [exact (run_ops_inv e fuel0 ops0 _ _ _ _ _ (pool_inv_new ho) R)|].
  destruct o; cbn [waits]; auto.
Qed.
Print Assumptions C63_others_end.
(** The bounds the polling needs, socket by socket: one poll more than the buffer has bytes. *)
Theorem C63_receive_ends e i s fuel : i < 8 ->
  rx_base (socks (s_chip s) i) < 65536 -> rx_size (socks (s_chip s) i) < 65536 -> (N.to_nat (rx_size (socks (s_chip s) i)) < fuel)%nat ->
  (forall buf, fst (run e (tcp_receive fuel (mkTcp (socket_new i)) buf) s) <> Looping) /\
  (forall dest port buf, fst (run e (udp_receive fuel (mkUdp (socket_new i) dest port) buf) s) <> Looping) /\
  (forall buf, fst (run e (raw_read_frame fuel (mkRaw (socket_new i)) buf) s) <> Looping).
Proof.
  intros Hi Hb Hz Hf. pose proof (nofail_no_faults e) as NF. assert (F : rxfits (sk i s)) by (split; assumption).
  split; [|split].
  - intros buf. apply (ends_anyway (fun r => ent (snd r))); [apply es_tcp_receive|]. now apply tcp_receive_ends.
  - intros dest port buf. apply (ends_anyway (fun r => enu (snd r))); [apply es_udp_receive|]. now apply udp_receive_ends.
  - intros buf. apply (ends_anyway (fun r => eb (snd r))); [apply es_raw_read_frame|]. now apply raw_read_ends.
Qed.
Print Assumptions C63_receive_ends.
(** A program with a UDP socket; a datagram arrives between the bytes of the two reads of the
    received size, so that the call polls twice. *)
Definition midway : env := script [(9%nat, [EvDatagram 0 [x01; x02; x03; x04] 53 [x61]]); (13%nat, [EvDatagram 0 [x01; x02; x03; x04] 53 (repeat x62 300)])].
Example C63_case : exists a outs s, 
  run midway (run_ops 30 (app_new Dhcp) [OpUdpSocket; OpUdpBind 0 53]) sys0 = (Done (a, outs), s) /\
  (forall i, i < 8 -> rx_base (socks (s_chip s) i) < 65536 /\ rx_size (socks (s_chip s) i) <= 16384) /\
  fst (run midway (step 1 a (OpUdpReceive 0 [x00])) s) = Looping /\
  fst (run midway (step 2 a (OpUdpReceive 0 [x00])) s) = Done (a, RUdpReceive [x61] (Ok (1, V4 (Addr4 (Ip4 x01 x02 x03 x04) 53)))).
Proof.
  eexists _, _, _. split; [apply run_snd; vm_compute; reflexivity|]. split; [|split; vm_compute; reflexivity].
  intros i Hi. assert (X : i = 0 \/ i = 1 \/ i = 2 \/ i = 3 \/ i = 4 \/ i = 5 \/ i = 6 \/ i = 7) by lia.
  destruct X as [->|[->|[->|[->|[->|[->|[->| ->]]]]]]]; (split; [vm_compute; reflexivity|vm_compute; discriminate]).
Qed.

(** ** C64 *)
(** MACRAW: from any moment of a program, if the chip transmits and reports within [W] bus bytes
    and does not give up, write_frame returns, for every frame (empty and too long ones too). *)
Theorem C64_write_returns e mc fuel0 ops outs s1 s fuel frame W :
  macraw_reached e mc fuel0 ops outs s1 s ->
  (forall t b, (s_tick s <= t)%nat -> ~ In (EvSendTimeout 0 b) (happens e t) /\ ~ In (EvDropped 0 b) (happens e t)) ->
  (forall t, (s_tick s <= t)%nat -> exists t', (t <= t' < t + W)%nat /\ In (EvTransmit 0 65535) (happens e t')) ->
  (forall t, (s_tick s <= t)%nat -> exists t', (t <= t' < t + W)%nat /\ In (EvSendOk 0) (happens e t')) ->
  (2 * W <= fuel)%nat ->
  exists r s', run e (raw_write_frame fuel (mkRaw (socket_new 0)) frame) s = (Done r, s').
Proof.
  intros H Cl FT FO Hf. destruct (macraw_reached_inv _ _ _ _ _ _ _ H) as (((S & _) & _) & _).
  set (l := [EvTransmit 0 65535; EvSendOk 0]). rewrite <- (run_from_now e (raw_write_frame fuel (mkRaw (socket_new 0)) frame) s l). set (e' := from_now e s l).
  apply (returns_anyway eb); [apply es_raw_write_frame|].
  apply (raw_write_returns (nofail e') (nofail_no_faults e')) with (W := W); auto.
  - apply from_now_clean; [intros t b Ht; now apply and_comm, Cl|]. intros b; split; intros [X|[X|[]]]; discriminate X.
  - apply from_now_soon; [now left|exact FT].
  - apply from_now_soon; [right; now left|exact FO].
Qed.
Print Assumptions C64_write_returns.
Example C64_case : exists outs s1 s, macraw_reached prompt (Mac x02 x03 x04 x05 x06 x07) 30 [RwWrite [x61]; RwRead []] outs s1 s /\
  (forall t b, (s_tick s <= t)%nat -> ~ In (EvSendTimeout 0 b) (happens prompt t) /\ ~ In (EvDropped 0 b) (happens prompt t)) /\
  (forall t, (s_tick s <= t)%nat -> exists t', (t <= t' < t + 1)%nat /\ In (EvTransmit 0 65535) (happens prompt t')) /\
  (forall t, (s_tick s <= t)%nat -> exists t', (t <= t' < t + 1)%nat /\ In (EvSendOk 0) (happens prompt t')) /\
  fst (run prompt (raw_write_frame 2 (mkRaw (socket_new 0)) [x61; x62; x63]) s) = Done (Ok 3).
Proof.
  eexists _, _, _. split; [|split; [|split; [|split]]].
  - exists sys0. eexists. split; [apply run_snd; vm_compute; reflexivity|]. split; [apply run_snd; vm_compute; reflexivity|]. repeat constructor; discriminate.
  - intros t b _. split; intros [X|[X|[]]]; discriminate X.
  - intros t _. exists t. split; [lia|now left].
  - intros t _. exists t. split; [lia|right; now left].
  - vm_compute. reflexivity.
Qed.
