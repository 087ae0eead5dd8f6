(** C31-C42, C60: TCP calls against the chip, under any network activity. *)
From Verif Require Import TcpConnect Cases Liveness.
From Verif Require Import Datasheet.

Definition peer : addr4 := Addr4 (Ip4 x0a x00 x00 x02) 8080.

(** ** C31 *)
(** A connect that does not report a bus error makes the chip dial exactly the requested address and port,
    from local port 49849+index, once, whatever state the socket was in and whatever the
    network does; the socket is in TCP mode; and nothing but Ok or waiting can come of it. *)
Theorem C31_connect_dials e i fuel r s o s' :
  i < 8 -> a_port r < 65536 ->
  run e (tcp_connect fuel (mkTcp (socket_new i)) (V4 r)) s = (o, s') -> (forall er, o <> Done (Err (NbOther (TOther er)))) ->
  dialled (socks (s_chip s') i) =
    dialled (socks (s_chip s) i) ++ [(49849 + i, [ip0 (a_ip r); ip1 (a_ip r); ip2 (a_ip r); ip3 (a_ip r)], a_port r)] /\
  b2n (regs (socks (s_chip s') i) Sn_MR) = MR_TCP /\
  (o = Done (Ok tt) \/ o = Looping).
Proof.
  intros Hi Hr R Ne. change (socks (s_chip ?x) i) with (sk i x).
  refine (TcpSession.session_call ErrorFacts.ent e _ (fun o s' => dialled (sk i s') = dialled (sk i s) ++ _ /\ b2n (regs (sk i s') Sn_MR) = MR_TCP /\ _) s o s' (ErrorFacts.es_tcp_connect fuel _ _) R _ _).
  { intros [v|[|[]]] ->; try reflexivity. now elim (Ne e0). }
  apply wp_tcp_connect; auto using nofail_no_faults. intros x s1 N1. cbv zeta.
  destruct (dial_state_regs i r x) as (M & _). pose proof (dial_state_dialled i r x Hi Hr) as D.
  rewrite (sevs_dialled _ _ _ N1) in D. split; [|split].
  - intros N2 _. rewrite (sevs_dialled _ _ _ N2), (sevs_regs _ _ _ N2), D, M. auto.
  - intros z _ _ Hz. destruct (reopened_facts _ _ Hz) as (E1 & _ & _ & E2 & _). rewrite E1, E2, D. auto.
  - intros N2. rewrite (sevs_dialled _ _ _ N2), (sevs_regs _ _ _ N2), D, M. auto.
Qed.
Print Assumptions C31_connect_dials.

(** different sockets use different local ports, which are valid port numbers *)
Theorem C31_local_ports_differ e i j fuel r s s' o o' s1 s1' :
  i < 8 -> j < 8 -> i <> j -> a_port r < 65536 ->
  run e (tcp_connect fuel (mkTcp (socket_new i)) (V4 r)) s = (o, s1) -> (forall er, o <> Done (Err (NbOther (TOther er)))) ->
  run e (tcp_connect fuel (mkTcp (socket_new j)) (V4 r)) s' = (o', s1') -> (forall er, o' <> Done (Err (NbOther (TOther er)))) ->
  exists p q l l', p <> q /\ p < 65536 /\ q < 65536 /\
    dialled (socks (s_chip s1) i) = l ++ [(p, [ip0 (a_ip r); ip1 (a_ip r); ip2 (a_ip r); ip3 (a_ip r)], a_port r)] /\
    dialled (socks (s_chip s1') j) = l' ++ [(q, [ip0 (a_ip r); ip1 (a_ip r); ip2 (a_ip r); ip3 (a_ip r)], a_port r)].
Proof.
  intros Hi Hj Hne Hr R Ne R' Ne'.
  destruct (C31_connect_dials _ _ _ _ _ _ _ Hi Hr R Ne) as (D & _).
  destruct (C31_connect_dials _ _ _ _ _ _ _ Hj Hr R' Ne') as (D' & _).
  exists (49849 + i), (49849 + j). eexists. eexists. split; [lia|]. split; [lia|]. split; [lia|]. split; eassumption.
Qed.
Print Assumptions C31_local_ports_differ.

Example C31_case : exists s',
  run (script [(20%nat, [EvEstablished 3])]) (tcp_connect 30 (mkTcp (socket_new 3)) (V4 peer)) sys0 = (Done (Ok tt), s') /\
  sr (socks (s_chip s') 3) = SOCK_ESTABLISHED /\
  dialled (socks (s_chip s') 3) = [(49852, [x0a; x00; x00; x02], 8080)].
Proof. apply run_case; [vm_compute; reflexivity|]. split; vm_compute; reflexivity. Qed.

(** ** C32 *)
(** connect returning Ok is not enough: the peer refused, the socket is back in its
    unconnected state, and connect says Ok. *)
Theorem C32_connect_ok_refuted : exists e fuel s s',
  no_faults e /\
  run e (tcp_connect fuel (mkTcp (socket_new 0)) (V4 peer)) s = (Done (Ok tt), s') /\
  sr (socks (s_chip s') 0) <> SOCK_ESTABLISHED.
Proof.
  exists (script [(20%nat, [EvConnectFailed 0])]), 30%nat, sys0.
  assert (H : exists s', run (script [(20%nat, [EvConnectFailed 0])]) (tcp_connect 30 (mkTcp (socket_new 0)) (V4 peer)) sys0
     = (Done (Ok tt), s') /\ sr (socks (s_chip s') 0) <> SOCK_ESTABLISHED)
    by (apply run_case; [vm_compute; reflexivity|vm_compute; discriminate]).
  destruct H as (s' & H1 & H2). exists s'. split; [apply script_no_faults|]. split; assumption.
Qed.
Print Assumptions C32_connect_ok_refuted.

(** What does hold: after Ok the connection is established, or the attempt had failed and the
    socket has been re-opened (SOCK_INIT), nothing in between. *)
Theorem C32_connect_ok_partial e i fuel r s s' :
  i < 8 ->
  run e (tcp_connect fuel (mkTcp (socket_new i)) (V4 r)) s = (Done (Ok tt), s') ->
  sr (socks (s_chip s') i) = SOCK_ESTABLISHED \/ sr (socks (s_chip s') i) = SOCK_INIT.
Proof.
  intros Hi R.
  refine (TcpSession.session_call ErrorFacts.ent e _ (fun o s' => o = Done (Ok tt) -> sr (sk i s') = SOCK_ESTABLISHED \/ sr (sk i s') = SOCK_INIT) s _ s' (ErrorFacts.es_tcp_connect fuel _ _) R _ _ eq_refl).
  { intros v [= <-]. reflexivity. }
  apply wp_tcp_connect; auto using nofail_no_faults. intros x s1 N1. cbv zeta. split; [auto|]. split; [|discriminate].
  intros z _ _ Hz. destruct (reopened_facts _ _ Hz) as (_ & _ & E & _). auto.
Qed.
Print Assumptions C32_connect_ok_partial.
Example C32_case : exists s', run (script [(20%nat, [EvEstablished 0])]) (tcp_connect 30 (mkTcp (socket_new 0)) (V4 peer)) sys0 = (Done (Ok tt), s') /\
  sr (socks (s_chip s') 0) = SOCK_ESTABLISHED.
Proof. apply run_case; vm_compute; reflexivity. Qed.

(** ** C33 *)
(** The peer accepts and at once closes its side: the attempt is decided, the socket is in
    CLOSE_WAIT, and connect never returns, on any socket, however long it runs. *)
Theorem C33_connect_terminates_refuted i r s : i < 8 -> forall fuel,
  fst (run (accept_and_close i) (tcp_connect fuel (mkTcp (socket_new i)) (V4 r)) s) = Looping.
Proof.
  intros Hi fuel.
  refine (_ : wp (accept_and_close i) _ (fun o _ => o = Looping) s).
  apply wp_tcp_connect_pre; [intros j; reflexivity|exact Hi|]. intros x s5 _ E.
  eapply wp_mono; [|apply accept_and_close_stuck; [exact Hi|]].
  - intros o s' ->. reflexivity.
  - left. rewrite E. apply dial_state_regs.
Qed.
Print Assumptions C33_connect_terminates_refuted.

(** What does hold: if from now on the chip decides any attempt (accepted, or refused / timed out)
    within [W] bytes on the bus, then [W] polls are enough for connect to return, unless a peer
    accepts and closes its side again before the next byte on the bus; only a bus error keeps it
    from answering Ok. *)
Theorem C33_connect_terminates_partial e i r s W :
  i < 8 ->
  (forall t, (s_tick s <= t)%nat -> In (EvEstablished i) (happens e t) -> ~ In (EvPeerFin i) (happens e t)) ->
  (forall t, (s_tick s <= t)%nat -> exists t', (t <= t' < t + W)%nat /\
     (In (EvEstablished i) (happens e t') \/ In (EvConnectFailed i) (happens e t'))) ->
  forall fuel, (W <= fuel)%nat ->
  exists o s', run e (tcp_connect fuel (mkTcp (socket_new i)) (V4 r)) s = (Done o, s') /\
    (o = Ok tt \/ exists er, o = Err (NbOther (TOther er))).
Proof.
  intros Hi HN HD fuel Hf.
  set (p := tcp_connect fuel (mkTcp (socket_new i)) (V4 r)). set (l := [EvEstablished i]).
  rewrite <- (run_from_now e p s l). set (e' := from_now e s l).
  assert (H : wp (nofail e') p (fun o _ => o = Done (Ok tt)) s).
  { apply wp_tcp_connect_pre; auto using nofail_no_faults. intros x s5 _ E. destruct (dial_state_regs i r x) as (_ & _ & D1 & D2 & _).
    eapply wp_mono; [|apply connect_wait_terminates; auto using nofail_no_faults].
    - intros o s' ->. reflexivity.
    - intros t. unfold e'. rewrite from_now_happens. destruct (Nat.leb_spec (s_tick s) t) as [G|G]; [now apply HN|]. intros _ [X|[]]. discriminate X.
    - rewrite E. exact D2.
    - rewrite E. exact D1.
    - destruct (Nat.leb_spec (s_tick s) (s_tick s5)) as [G|G].
      + destruct (HD _ G) as (t' & Ht & Hd). exists t'. split; [lia|]. apply Exists_exists. unfold e'. rewrite from_now_happens. rewrite (proj2 (Nat.leb_le _ _)) by lia.
        destruct Hd as [Hd|Hd]; eexists; (split; [exact Hd|]); [left|right]; reflexivity.
      + destruct (HD _ (Nat.le_refl _)) as (t' & Ht & _). exists (s_tick s5). split; [lia|]. apply Exists_exists. unfold e'. rewrite from_now_happens.
        rewrite (proj2 (Nat.leb_gt _ _)) by lia. eexists. split; [now left|]. now left. }
  destruct (run e' p s) as [o s'] eqn:R.
  assert (X : (exists er, o = Done (Err (NbOther (TOther er)))) \/ forall v, o = Done v -> ErrorFacts.ent v = None).
  { destruct o as [[v|[|[]]]| | |]; try (right; intros w [= <-]; reflexivity); try (right; discriminate). left. eauto. }
  destruct X as [(er & ->)|X]; [eauto 6|].
  pose proof (TcpSession.session_call ErrorFacts.ent e' p _ s o s' (ErrorFacts.es_tcp_connect fuel _ _) R X H) as ->. eauto.
Qed.
Print Assumptions C33_connect_terminates_partial.

(** the peer closes its side all the time, but never before the chip was asked for the status; a bus
    access fails later *)
Example C33_case : let e := mkEnv (fun t => if Nat.even t then [EvPeerFin 2; EvConnectFailed 2] else [EvPeerFin 2; EvTcpData 2 [x61]]) (fun j => if Nat.eqb j 30 then Some (1%nat, 7) else None) in
  (forall t, In (EvEstablished 2) (happens e t) -> ~ In (EvPeerFin 2) (happens e t)) /\
  (forall t, exists t', (t <= t' < t + 2)%nat /\
     (In (EvEstablished 2) (happens e t') \/ In (EvConnectFailed 2) (happens e t'))).
Proof.
  cbv zeta. cbn [happens]. split.
  - intros t H. exfalso. destruct (Nat.even t); cbn in H; intuition discriminate.
  - intros t. destruct (Nat.even t) eqn:E.
    + exists t. rewrite E. split; [lia|]. right. right. now left.
    + exists (S t). rewrite Nat.even_succ, <- Nat.negb_even, E. split; [lia|]. right. right. now left.
Qed.
(** a peer that accepts and closes its side one bus byte later *)
Example C33_case_close : let e := mkEnv (fun t => if Nat.even t then [EvEstablished 2] else [EvPeerFin 2]) (fun _ => None) in
  (forall t, In (EvEstablished 2) (happens e t) -> ~ In (EvPeerFin 2) (happens e t)) /\
  (forall t, exists t', (t <= t' < t + 2)%nat /\
     (In (EvEstablished 2) (happens e t') \/ In (EvConnectFailed 2) (happens e t'))) /\
  fst (run e (tcp_connect 2 (mkTcp (socket_new 2)) (V4 peer)) sys0) = Done (Ok tt).
Proof.
  cbv zeta. split; [|split; [|vm_compute; reflexivity]]; cbn [happens].
  - intros t H. destruct (Nat.even t); cbn in *; intuition discriminate.
  - intros t. destruct (Nat.even t) eqn:E.
    + exists t. rewrite E. split; [lia|]. left. now left.
    + exists (S t). rewrite Nat.even_succ, <- Nat.negb_even, E. split; [lia|]. left. now left.
Qed.

(** ** C60 *)
(** The mask written is SENDOK & TIMEOUT = 0 instead of SENDOK | TIMEOUT: after every
    successful connect both interrupts are off. *)
Theorem C60_mask_refuted e i fuel r s s' :
  i < 8 ->
  run e (tcp_connect fuel (mkTcp (socket_new i)) (V4 r)) s = (Done (Ok tt), s') ->
  N.land (b2n (regs (socks (s_chip s') i) Sn_IMR)) IR_SENDOK = 0 /\
  N.land (b2n (regs (socks (s_chip s') i) Sn_IMR)) IR_TIMEOUT = 0.
Proof.
  intros Hi R.
  refine (TcpSession.session_call ErrorFacts.ent e _ (fun o s' => N.land (b2n (regs (sk i s') Sn_IMR)) IR_SENDOK = 0 /\ N.land (b2n (regs (sk i s') Sn_IMR)) IR_TIMEOUT = 0) s _ s' (ErrorFacts.es_tcp_connect fuel _ _) R _ _).
  { intros v [= <-]. reflexivity. }
  apply wp_tcp_connect; auto using nofail_no_faults. intros x s1 N1. cbv zeta.
  destruct (dial_state_regs i r x) as (_ & M & _). split; [|split].
  - intros N2 _. rewrite (sevs_regs _ _ _ N2), M. split; reflexivity.
  - intros z _ _ Hz. destruct (reopened_facts _ _ Hz) as (_ & E & _). rewrite E. split; reflexivity.
  - intros N2. rewrite (sevs_regs _ _ _ N2), M. split; reflexivity.
Qed.
Print Assumptions C60_mask_refuted.
Example C60_case : exists s', run (script [(20%nat, [EvEstablished 0])]) (tcp_connect 30 (mkTcp (socket_new 0)) (V4 peer)) sys0 = (Done (Ok tt), s') /\
  regs (socks (s_chip s') 0) Sn_IMR = x00.
Proof. apply run_case; vm_compute; reflexivity. Qed.
