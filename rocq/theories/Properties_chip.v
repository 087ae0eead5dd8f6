(** C06, C16, C17, C21, C25-C27, C29, C58: the chip's registers after calls that configure it, and
    what calls leave alone. *)
From Verif Require Import InitFacts ReadFacts PoolFacts OpenFacts Cases ErrorFacts.
From Verif Require Import Datasheet.

Definition no_reset (o : op) : Prop := o <> OpDevice QResetDevice.

(** ** C21 *)
(** Any call on a handle, in any program, with any network activity and bus failures, however
    it ends: some bytes of bus time later ([n]), every other socket and the common registers
    are what the network alone ([alone], only its events and no driver) would have made of
    them. *)
Theorem C21_no_interference :
  forall e fuel ho s00 ops0 a outs0 s o h oc s',
    run e (run_ops fuel (app_new ho) ops0) s00 = (Done (a, outs0), s) ->
    op_handle o = Some h -> run e (step fuel a o) s = (oc, s') ->
    exists n, s_tick s' = (s_tick s + n)%nat /\
      com (s_chip s') = com (alone e (s_chip s) (s_tick s) n) /\
      (forall j, (forall x, lookup h (handles a) = Some x -> index (handle_socket x) <> j) ->
         socks (s_chip s') j = socks (alone e (s_chip s) (s_tick s) n) j) /\
      (forall h' y, h' <> h -> lookup h' (handles a) = Some y ->
         socks (s_chip s') (index (handle_socket y)) = socks (alone e (s_chip s) (s_tick s) n) (index (handle_socket y))).
Proof.
  intros e fuel ho s00 ops0 a outs0 s o h oc s' R0 Ho R. pose proof (run_ops_inv e fuel ops0 _ _ _ _ _ (pool_inv_new ho) R0) as I.
  destruct (lookup h (handles a)) as [x|] eqn:L.
  - destruct (pi_lookup _ _ _ I L) as (i & Hi & Ei & _).
    assert (HB : forall blk ad, step_blk a o blk ad -> own_block i blk).
    { intros blk ad. unfold step_blk. rewrite Ho, L. intros (x' & [= <-] & Hb). rewrite Ei in Hb. exact (sblk_own i blk ad Hi Hb). }
    destruct (run_frame e i _ _ _ _ HB (pt_step fuel a o I) s) as [(n & T & A & B) _]. rewrite R in T, A, B. cbn [snd] in *.
    exists n. split; [exact T|]. split; [exact A|]. split.
    + intros j Hj. apply B. specialize (Hj x eq_refl). rewrite Ei in Hj. cbn [index socket_new] in Hj. congruence.
    + intros h' y Hne L'. apply B. intros E. apply (handle_index a h h' x y I L L'); [congruence|]. now rewrite Ei, E.
  - assert (E : step fuel a o = Ret (a, RNoHandle) \/ o = OpForget h).
    { destruct o; cbn [op_handle] in Ho; try discriminate Ho; injection Ho as ->; cbn [step]; rewrite ?L; auto. }
    exists 0%nat. cbn [alone]. rewrite Nat.add_0_r.
    assert (s' = s) as ->. { destruct E as [E| ->]; [rewrite E in R|]; cbn [step run] in R; now injection R. }
    auto.
Qed.
Print Assumptions C21_no_interference.
(** socket 0 (UDP) transmits while a datagram comes in for socket 1 *)
Definition busy_net : env :=
  mkEnv (fun _ => [EvTransmit 0 65535; EvSendOk 0; EvDatagram 1 [x0a; x00; x00; x09] 53 [x01]]) (fun _ => None).
Definition two_ops : list op :=
  [OpUdpSocket; OpUdpSocket; OpUdpBind 0 5000; OpUdpBind 1 5001].
Example C21_case : exists a outs s s',
  run busy_net (run_ops 30 (app_new Dhcp) two_ops) sys0 = (Done (a, outs), s) /\
  run busy_net (step 30 a (OpUdpSendTo 0 (V4 (Addr4 (Ip4 x0a x00 x00 x02) 8080)) [x61; x62])) s
    = (Done (mkApp (dev a) [(0%nat, HUdp (mkUdp (socket_new 0) (Some (Addr4 (Ip4 x0a x00 x00 x02) 8080)) 5000)); (1%nat, HUdp (mkUdp (socket_new 1) None 5001))] 2, RUdpSend (Ok tt)), s') /\
  length (rxlog (socks (s_chip s) 1)) <> length (rxlog (socks (s_chip s') 1)) /\
  length (sent (socks (s_chip s') 0)) = 1%nat.
Proof.
  eexists _, _, _, _. split; [apply run_snd; vm_compute; reflexivity|]. split; [apply run_snd; vm_compute; reflexivity|].
  split; [vm_compute; discriminate|vm_compute; reflexivity].
Qed.

(** ** C58 *)
(** The value answered is the received size after byte [k] of the call's [m] bytes, from any
    state (buffer at most 63 KiB), with data arriving at any time. *)
Theorem C58_consistent_size :
  forall e fuel i s v s', i < 8 -> rx_wr (socks (s_chip s) i) < 65536 -> rx_base (socks (s_chip s) i) < 65536 ->
    rx_size (socks (s_chip s) i) < 65536 ->
    run e (get_receive_size fuel (socket_new i)) s = (Done (Ok v), s') ->
    exists m k, s_tick s' = (s_tick s + m)%nat /\ s_chip s' = alone e (s_chip s) (s_tick s) m /\ (1 <= k <= m)%nat /\
      v = rx_rsr (socks (alone e (s_chip s) (s_tick s) k) i).
Proof.
  intros e fuel i s v s' Hi H1 H2 H3 R.
  apply (run_nofail _ e _ (es_get_receive_size (socket_new i) fuel)) in R; [|intros r [= <-]; reflexivity].
  refine (wp_run _ _ (fun (o : outcome (res N berr)) s' => forall v, o = Done (Ok v) -> exists m k,
    s_tick s' = (s_tick s + m)%nat /\ s_chip s' = alone e (s_chip s) (s_tick s) m /\ (1 <= k <= m)%nat /\
    v = rx_rsr (socks (alone e (s_chip s) (s_tick s) k) i)) _ _ _ R _ v eq_refl).
  apply (wp_size (nofail e) i (nofail_no_faults e) Hi fuel); [exact (conj H1 (conj H2 H3))| |discriminate].
  intros n k s2 T C K v' [= <-]. exists n, k. rewrite <- !(alone_nofail e). auto.
Qed.
Print Assumptions C58_consistent_size.
(** 255 bytes are queued and 3 more arrive between the two bytes of the first read: 0x00 and
    0x02 were read, which is no size the buffer ever had; the answer is 258 *)
Definition bursty : env := script [(1%nat, [EvTcpData 0 [x01; x02; x03]])].
Definition sys255 : sys :=
  mkSys (set_sock chip0 0 (mkSock regs_reset SOCK_ESTABLISHED 0 0 0 0 false false 255 0 u8 u8 0 0 [] [] [])) 0 0.
Example C58_case : rx_rsr (socks (s_chip sys255) 0) = 255 /\
  fst (bus_read bursty (BSB_REG 0) Sn_RX_RSR [x00; x00] sys255) = ([x00; x02], Ok tt) /\
  fst (run bursty (get_receive_size 5 (socket_new 0)) sys255) = Done (Ok 258).
Proof. split; [reflexivity|]. split; vm_compute; reflexivity. Qed.

(** ** C06 *)
Theorem C06_retry_timeout :
  forall e fuel ho s00 ops0 a outs0 s t a' s',
    run e (run_ops fuel (app_new ho) ops0) s00 = (Done (a, outs0), s) -> rt_to_u16 t < 65536 ->
    run e (step fuel a (OpDevice (QSetRetryTimeout t))) s = (Done (a', RDevice (DUnit (Ok tt))), s') ->
    (* RTR holds the value; all else is as the network left it *)
    (exists n, s_tick s' = (s_tick s + n)%nat /\ let c := alone e (s_chip s) (s_tick s) n in
       get16 (com (s_chip s')) RTR = rt_to_u16 t /\
       (forall x, x <> RTR -> x <> RTR + 1 -> com (s_chip s') x = com c x) /\
       (forall i, socks (s_chip s') i = socks c i)) /\
    (* and it reads back until it is set again or the chip is reset *)
    (forall ops1 a1 outs1 s1 r a2 s2,
       run e (run_ops fuel a' ops1) s' = (Done (a1, outs1), s1) ->
       Forall (fun o => no_reset o /\ forall t', o <> OpDevice (QSetRetryTimeout t')) ops1 ->
       run e (step fuel a1 (OpDevice QRetryTimeout)) s1 = (Done (a2, RDevice (DRetryTime (Ok r))), s2) -> r = t).
Proof.
  intros e fuel ho s00 ops0 a outs0 s [t] a' s' R0 Ht R. pose proof (run_ops_inv e fuel ops0 _ _ _ _ _ (pool_inv_new ho) R0) as I.
  pose proof (run_step_inv e fuel a _ s a' _ s' I R) as I'. unfold rt_to_u16 in *. cbn [rt] in *.
  assert (O : com_over RTR (to_be t) (s_chip s') (alone e (s_chip s) (s_tick s) 2) /\ s_tick s' = (s_tick s + 2)%nat).
  { cbn [step run_devop] in R. apply run_bind_done in R as (r1 & s1 & R1 & R). cbn [run] in R. injection R as E1 E2 E3. subst a' r1 s'.
    apply run_bind_done in R1 as (r2 & s2 & R2 & R1). cbn [run] in R1. injection R1 as E4 E5. subst r2 s2.
    unfold dev_set_retry_timeout in R2. apply run_try_ok in R2 as [([] & s3 & R3 & R2)|(x & _ & [=])]. cbn [run] in R2. injection R2 as <-.
    unfold write_frame in R3. cbn [run] in R3. unfold bus_write in R3. destruct (fails e (s_call s)) as [[q err]|]; [discriminate R3|]. injection R3 as <-.
    exact (write_com e RTR (to_be t) s ltac:(reflexivity) ltac:(now vm_compute) ltac:(right; now vm_compute) ltac:(right; now vm_compute)). }
  destruct O as [O T].
  assert (F : fld (s_chip s') RTR 2 = to_be t) by (apply (fld_over _ _ _ _ _ _ O)).
  split.
  - exists 2%nat. split; [exact T|]. cbv zeta. split; [|split].
    + unfold fld in F. cbn [com_list] in F. unfold get16. rewrite <- from_be_2, F. now apply from_be_to_be.
    + intros x Hx Hy. destruct O as [O _]. rewrite O. change (len (to_be t)) with 2.
      destruct (N.leb_spec RTR x), (N.ltb_spec x (RTR + 2)); try reflexivity. lia.
    + apply O.
  - intros ops1 a1 outs1 s1 r a2 s2 Q1 F1 Q2.
    assert (K : forall x, RTR <= x < RTR + 2 -> com (s_chip s1) x = com (s_chip s') x).
    { intros x Hx. apply (run_ops_keeps e x fuel) with (ops := ops1) (a := a') (a' := a1) (outs := outs1); auto; [unfold RTR, PHYCFGR in *; lia|].
      eapply Forall_impl; [|exact F1]. intros o (Hr & Ht'). destruct o as [| | | | | | | | | | | | | | | |q| |]; try reflexivity.
      destruct q; try reflexivity; cbn [op_writes]; try (apply N.eqb_neq; unfold MR, RTR, RCR in *; lia); [now elim (Ht' r0)|now elim Hr]. }
    cbn [step run_devop] in Q2. apply run_bind_done in Q2 as (r1 & s3 & Q3 & Q2). cbn [run] in Q2. injection Q2 as _ Q2 <-.
    subst r1. apply run_bind_done in Q3 as (r2 & s4 & Q4 & Q3). cbn [run] in Q3. injection Q3 as -> <-.
    unfold dev_current_retry_timeout in Q4. apply (run_getter e RTR 2 rt_from_register) in Q4; [|now vm_compute].
    rewrite Q4. replace (fld (s_chip s1) RTR 2) with (to_be t).
    + unfold rt_from_register. now rewrite from_be_to_be.
    + rewrite <- F. symmetry. apply com_list_ext. intros x Hx. apply K. change (N.of_nat 2) with 2 in Hx. exact Hx.
Qed.
Print Assumptions C06_retry_timeout.
Theorem C06_retry_count :
  forall e fuel ho s00 ops0 a outs0 s v a' s',
    run e (run_ops fuel (app_new ho) ops0) s00 = (Done (a, outs0), s) ->
    run e (step fuel a (OpDevice (QSetRetryCount v))) s = (Done (a', RDevice (DUnit (Ok tt))), s') ->
    (exists n, s_tick s' = (s_tick s + n)%nat /\ let c := alone e (s_chip s) (s_tick s) n in
       com (s_chip s') RCR = v /\
       (forall x, x <> RCR -> com (s_chip s') x = com c x) /\
       (forall i, socks (s_chip s') i = socks c i)) /\
    (forall ops1 a1 outs1 s1 r a2 s2,
       run e (run_ops fuel a' ops1) s' = (Done (a1, outs1), s1) ->
       Forall (fun o => no_reset o /\ forall v', o <> OpDevice (QSetRetryCount v')) ops1 ->
       run e (step fuel a1 (OpDevice QRetryCount)) s1 = (Done (a2, RDevice (DByte (Ok r))), s2) -> r = v).
Proof.
  intros e fuel ho s00 ops0 a outs0 s v a' s' R0 R. pose proof (run_ops_inv e fuel ops0 _ _ _ _ _ (pool_inv_new ho) R0) as I.
  pose proof (run_step_inv e fuel a _ s a' _ s' I R) as I'.
  assert (O : com_over RCR [v] (s_chip s') (alone e (s_chip s) (s_tick s) 1) /\ s_tick s' = (s_tick s + 1)%nat).
  { cbn [step run_devop] in R. apply run_bind_done in R as (r1 & s1 & R1 & R). cbn [run] in R. injection R as E1 E2 E3. subst a' r1 s'.
    apply run_bind_done in R1 as (r2 & s2 & R2 & R1). cbn [run] in R1. injection R1 as E4 E5. subst r2 s2.
    unfold dev_set_retry_count in R2. apply run_try_ok in R2 as [([] & s3 & R3 & R2)|(x & _ & [=])]. cbn [run] in R2. injection R2 as <-.
    unfold write_frame in R3. cbn [run] in R3. unfold bus_write in R3. destruct (fails e (s_call s)) as [[q err]|]; [discriminate R3|]. injection R3 as <-.
    exact (write_com e RCR [v] s ltac:(reflexivity) ltac:(now vm_compute) ltac:(right; now vm_compute) ltac:(right; now vm_compute)). }
  destruct O as [O T].
  assert (F : fld (s_chip s') RCR 1 = [v]) by (apply (fld_over _ _ _ _ _ _ O)).
  split.
  - exists 1%nat. split; [exact T|]. cbv zeta. split; [|split].
    + unfold fld in F. cbn [com_list] in F. now injection F.
    + intros x Hx. destruct O as [O _]. rewrite O. change (len [v]) with 1.
      destruct (N.leb_spec RCR x), (N.ltb_spec x (RCR + 1)); try reflexivity. lia.
    + apply O.
  - intros ops1 a1 outs1 s1 r a2 s2 Q1 F1 Q2.
    assert (K : com (s_chip s1) RCR = com (s_chip s') RCR).
    { apply (run_ops_keeps e RCR fuel) with (ops := ops1) (a := a') (a' := a1) (outs := outs1); auto; [discriminate|].
      eapply Forall_impl; [|exact F1]. intros o (Hr & Ht'). destruct o as [| | | | | | | | | | | | | | | |q| |]; try reflexivity.
      destruct q; try reflexivity; cbn [op_writes]; [now elim (Ht' n)|now elim Hr]. }
    cbn [step run_devop] in Q2. apply run_bind_done in Q2 as (r1 & s3 & Q3 & Q2). cbn [run] in Q2. injection Q2 as _ Q2 <-.
    subst r1. apply run_bind_done in Q3 as (r2 & s4 & Q4 & Q3). cbn [run] in Q3. injection Q3 as -> <-.
    unfold dev_current_retry_count in Q4. apply (run_getter e RCR 1 byte0) in Q4; [|now vm_compute].
    rewrite Q4. unfold fld. cbn [com_list]. rewrite K. unfold fld in F. cbn [com_list] in F. injection F as ->. reflexivity.
Qed.
Print Assumptions C06_retry_count.
Example C06_case : exists a s',
  run quiet (run_ops 30 (app_new Dhcp) [OpDevice (QSetRetryTimeout (mkRetryTime 4000)); OpDevice (QSetRetryCount x05); OpUdpSocket; OpUdpBind 0 77;
    OpDevice QRetryTimeout; OpDevice QRetryCount]) sys0
  = (Done (a, [RDevice (DUnit (Ok tt)); RDevice (DUnit (Ok tt)); RUdpSocket (Ok 0%nat); RUdpUnit (Ok tt);
      RDevice (DRetryTime (Ok (mkRetryTime 4000))); RDevice (DByte (Ok x05))]), s').
Proof. eexists _, _. apply run_snd; vm_compute; reflexivity. Qed.

(** ** C16, the chip side: a close that reports Ok switched the socket off, whatever it was
    doing, and returned it to the pool *)
Theorem C16_close_chip :
  forall e fuel ho s00 ops0 a outs0 s o h x a' ou s',
    run e (run_ops fuel (app_new ho) ops0) s00 = (Done (a, outs0), s) ->
    lookup h (handles a) = Some x ->
    run e (step fuel a o) s = (Done (a', ou), s') ->
    (o = OpTcpClose h /\ ou = RTcpClose (Ok tt)) \/ (o = OpUdpClose h /\ ou = RUdpUnit (Ok tt)) ->
    let i := index (handle_socket x) in
    sr (socks (s_chip s') i) = SOCK_CLOSED /\ tx_busy (socks (s_chip s') i) = false /\ regs (socks (s_chip s') i) Sn_MR = x00 /\
    (forall n, sr (socks (alone e (s_chip s') (s_tick s') n) i) = SOCK_CLOSED) /\
    N.testbit (ds_sockets (dev a')) i = true /\ lookup h (handles a') = None.
Proof.
  intros e fuel ho s00 ops0 a outs0 s o h x a' ou s' R0 L R Ho. pose proof (run_ops_inv e fuel ops0 _ _ _ _ _ (pool_inv_new ho) R0) as I.
  destruct (pi_lookup _ _ _ I L) as (i & Hi & Ei & _). cbv zeta. rewrite Ei. cbn [index socket_new].
  assert (B : out_berr ou = None) by (destruct Ho as [(-> & ->)|(-> & ->)]; reflexivity).
  apply run_step_nofail in R; [|exact B].
  assert (C : forall E (f : berr -> E),
    wp (nofail e) (try a <- set_mode (socket_new i) PrClosed else (fun e => Err (f e)) ;; try b <- command (socket_new i) CmClose else (fun e => Err (f e)) ;; Ret (Ok tt))
      (fun o s1 => o = Done (Ok tt) /\ exists z, sk i s1 = closed_of z /\ regs z Sn_MR = x00) s).
  { intros E f. apply wp_try. unfold set_mode, write_frame. rewrite so_reg by exact Hi. apply wp_wr1; [apply nofail_no_faults|].
    intros y s1 _ E1. apply wp_ret. apply wp_try, wp_command; auto using nofail_no_faults. intros z s2 N2 E2. rewrite do_close in E2.
    apply wp_ret. split; [reflexivity|]. exists z. split; [exact E2|]. rewrite (sevs_regs i _ _ N2), E1. reflexivity. }
  assert (D : forall s1 z, sk i s1 = closed_of z -> regs z Sn_MR = x00 -> sr (socks (s_chip s1) i) = SOCK_CLOSED /\ tx_busy (socks (s_chip s1) i) = false /\
     regs (socks (s_chip s1) i) Sn_MR = x00 /\ (forall n, sr (socks (alone e (s_chip s1) (s_tick s1) n) i) = SOCK_CLOSED)).
  { intros s1 z E1 E2. change (socks (s_chip s1) i) with (sk i s1). rewrite E1. split; [reflexivity|]. split; [reflexivity|]. split; [exact E2|].
    intros n. pose proof (alone_sevs e i n (s_chip s1) (s_tick s1)) as N. change (socks (s_chip s1) i) with (sk i s1) in N. rewrite E1 in N.
    apply (quiet_sevs i _ _ (quiet_closed z)) in N as (b & ->). reflexivity. }
  assert (P : forall d, release_socket (dev a) (socket_new i) = Some d -> N.testbit (ds_sockets d) i = true /\ lookup h (handles (consume a d h)) = None).
  { intros d Hd. unfold release_socket in Hd. cbn [index socket_new] in Hd. destruct (N.ltb_spec i 8); [|lia]. injection Hd as <-. cbn [ds_sockets consume handles].
    split; [apply N.setbit_eq|]. clear. induction (handles a) as [|[j y] l IH]; cbn [History.remove lookup]; [reflexivity|].
    destruct (Nat.eqb_spec j h) as [->|Hj]; [exact IH|]. cbn [lookup]. destruct (Nat.eqb_spec j h); [contradiction|exact IH]. }
  destruct Ho as [(-> & ->)|(-> & ->)]; cbn [step] in R; rewrite L in R; destruct x as [so|[so]|[so ud up]]; cbn [run] in R; try (injection R; discriminate);
    cbn [handle_socket t_socket u_socket] in Ei; subst so; apply run_bind_done in R as (r & s1 & R1 & R); cbn [run] in R; injection R as <- R2 <-;
    destruct r as [d r]; cbn [fst snd] in *; subst r.
  - unfold tcp_close in R1. apply run_try_ok in R1 as [([] & s2 & R2 & R1)|(y & _ & [=])]. cbn [t_socket] in R1.
    destruct (release_socket (dev a) (socket_new i)) as [d'|] eqn:Rl; cbn [run] in R1; [|discriminate R1]. injection R1 as <- <-.
    destruct (wp_run _ _ _ _ _ _ R2 (C _ _)) as [_ (z & E1 & E2)].
    destruct (D _ _ E1 E2) as (D1 & D2 & D3 & D4). destruct (P _ eq_refl) as [P1 P2]. auto 10.
  - unfold udp_close in R1. apply run_try_ok in R1 as [([] & s2 & R2 & R1)|(y & _ & [=])]. cbn [u_socket] in R1.
    destruct (release_socket (dev a) (socket_new i)) as [d'|] eqn:Rl; cbn [run] in R1; [|discriminate R1]. injection R1 as <- <-.
    destruct (wp_run _ _ _ _ _ _ R2 (C _ _)) as [_ (z & E1 & E2)].
    destruct (D _ _ E1 E2) as (D1 & D2 & D3 & D4). destruct (P _ eq_refl) as [P1 P2]. auto 10.
Qed.
Print Assumptions C16_close_chip.
(** a bound UDP socket *)
Example C16_chip_case : exists a outs s s' a',
  run quiet (run_ops 30 (app_new Dhcp) [OpUdpSocket; OpUdpBind 0 77]) sys0 = (Done (a, outs), s) /\
  sr (socks (s_chip s) 0) = SOCK_UDP /\
  run quiet (step 30 a (OpUdpClose 0)) s = (Done (a', RUdpUnit (Ok tt)), s').
Proof.
  eexists _, _, _, _, _. split; [apply run_snd; vm_compute; reflexivity|]. split; [vm_compute; reflexivity|]. apply run_snd; vm_compute; reflexivity.
Qed.

(** ** C17, the chip side: a successful Device::reset puts every register to its reset value;
    a refused one touches nothing *)
Theorem C17_reset_chip :
  forall e fuel ho s00 ops a outs s r s',
    run e (run_ops fuel (app_new ho) ops) s00 = (Done (a, outs), s) ->
    run e (dev_reset (dev a)) s = (Done r, s') ->
    let given := sum (map gained outs) in
    let returned := sum (map given_back (combine ops outs)) in
    (given <> returned -> r = Err SocketsNotReleased /\ s' = s) /\
    (given = returned -> r <> Err SocketsNotReleased) /\
    (r = Ok tt -> (forall x, com (s_chip s') x = com_reset x) /\
       forall i, let y := socks (s_chip s') i in
         sr y = SOCK_CLOSED /\ ir y = 0 /\ (forall x, regs y x = regs_reset x) /\ tx_rd y = 0 /\ rx_wr y = 0 /\ tx_busy y = false).
Proof.
  intros e fuel ho s00 ops a outs s r s' R0 R given returned.
  destruct (run_exec _ _ _ _ _ R0) as (tr & X). destruct (program_inv _ _ _ _ _ _ X) as (I & _ & _ & C). fold given returned in C.
  unfold dev_reset, any_allocated in R. destruct (N.eqb_spec (ds_sockets (dev a)) 255) as [E|E]; cbn [negb] in R.
  - apply (free_all a I) in E. split; [intros H; lia|].
    apply run_try_ok in R as [([] & s1 & R1 & R)|(x & R1 & ->)]; [|split; discriminate].
    cbn [run] in R. injection R as <- <-. split; [discriminate|]. intros _. apply run_mr_ok in R1 as (-> & _).
    change (wbyte ?c 0 MR (u8 128)) with (chip_reset c). split; [reflexivity|]. intros i. cbn. auto 10.
  - cbn [run] in R. injection R as <- <-. split; [auto|]. split; [|discriminate]. intros H. exfalso. apply E. apply (free_all a I). lia.
Qed.
Print Assumptions C17_reset_chip.
Example C17_chip_case : exists a outs s s',
  run quiet (run_ops 30 (app_new Dhcp) [OpUdpSocket; OpUdpBind 0 77; OpUdpClose 0]) sys0 = (Done (a, outs), s) /\
  run quiet (dev_reset (dev a)) s = (Done (Ok tt), s') /\ get16 (regs (socks (s_chip s) 0)) Sn_PORT = 77.
Proof.
  eexists _, _, _, _. split; [apply run_snd; vm_compute; reflexivity|]. split; [apply run_snd; vm_compute; reflexivity|]. vm_compute; reflexivity.
Qed.

(** ** C29, the chip side *)
(** Any number of refresh calls on a Manual host, any of whose bus calls may fail half way.
    [cur] is what the host takes to be on the chip.  If one refresh succeeded, the chip holds
    all settings; nothing outside these registers was touched. *)
Theorem C29_refresh_chip :
  forall e n want cur s o s',
    (hc_gateway cur = hc_gateway want -> fld (s_chip s) GAR 4 = [ip0 (hc_gateway want); ip1 (hc_gateway want); ip2 (hc_gateway want); ip3 (hc_gateway want)]) ->
    (hc_subnet cur = hc_subnet want -> fld (s_chip s) SUBR 4 = [ip0 (hc_subnet want); ip1 (hc_subnet want); ip2 (hc_subnet want); ip3 (hc_subnet want)]) ->
    (hc_mac cur = hc_mac want -> fld (s_chip s) SHAR 6 = [m0 (hc_mac want); m1 (hc_mac want); m2 (hc_mac want); m3 (hc_mac want); m4 (hc_mac want); m5 (hc_mac want)]) ->
    (hc_ip cur = hc_ip want -> fld (s_chip s) SIPR 4 = [ip0 (hc_ip want); ip1 (hc_ip want); ip2 (hc_ip want); ip3 (hc_ip want)]) ->
    run e (refreshes n (Manual false want cur)) s = (o, s') ->
    (exists h rs, o = Done (h, rs) /\
       (In (Ok tt) rs ->
          fld (s_chip s') GAR 4 = [ip0 (hc_gateway want); ip1 (hc_gateway want); ip2 (hc_gateway want); ip3 (hc_gateway want)] /\ fld (s_chip s') SUBR 4 = [ip0 (hc_subnet want); ip1 (hc_subnet want); ip2 (hc_subnet want); ip3 (hc_subnet want)] /\
          fld (s_chip s') SHAR 6 = [m0 (hc_mac want); m1 (hc_mac want); m2 (hc_mac want); m3 (hc_mac want); m4 (hc_mac want); m5 (hc_mac want)] /\ fld (s_chip s') SIPR 4 = [ip0 (hc_ip want); ip1 (hc_ip want); ip2 (hc_ip want); ip3 (hc_ip want)])) /\
    exists m, s_tick s' = (s_tick s + m)%nat /\ let c := alone e (s_chip s) (s_tick s) m in
      (forall x, x < GAR \/ SIPR + 4 <= x -> com (s_chip s') x = com c x) /\ (forall i, socks (s_chip s') i = socks c i).
Proof.
  intros e n want cur s o s' H1 H2 H3 H4 R.
  pose proof (wp_run _ _ _ _ _ _ R (wp_refreshes e want n (Manual false want cur) s
    (conj eq_refl (conj (conj H1 (conj H2 (conj H3 H4))) (fun H : false = true => False_ind _ (Bool.diff_false_true H)))))) as W. cbv beta in W.
  destruct W as ((m & T & B1 & B2) & h & rs & -> & Hh & _ & Hr). split; [|exists m; split; [exact T|split; [exact B1|exact B2]]].
  exists h, rs. split; [reflexivity|]. intros HI. destruct (Hr HI) as (c & ->). destruct Hh as (_ & J & K). rewrite (K eq_refl) in J. now apply inplace_all.
Qed.
Print Assumptions C29_refresh_chip.
(** the write of the MAC address fails after three bytes; the second refresh completes *)
Definition want1 : HostConfig :=
  mkHC (Mac x02 x03 x04 x05 x06 x07) (Ip4 x0a x00 x00 x02) (Ip4 x0a x00 x00 x01) (Ip4 xff xff xff x00).
Example C29_chip_case : exists s',
  run (with_fault 2 3 quiet) (refreshes 2 (Manual false want1 hc_default)) sys0
    = (Done (Manual true want1 want1, [Err 7; Ok tt]), s') /\
  fld (s_chip s') SHAR 6 = [x02; x03; x04; x05; x06; x07] /\
  fld (s_chip (snd (run (with_fault 2 3 quiet) (refresh (Manual false want1 hc_default)) sys0))) SHAR 6 = [x02; x03; x04; x00; x00; x00].
Proof. eexists. split; [apply run_snd; vm_compute; reflexivity|]. split; vm_compute; reflexivity. Qed.

(** ** C25 *)
(** every register but the PHY's, whatever the chip was doing before *)
Lemma init_manual e chk mc ip gw sn m s d s' :
  run e (initialize_advanced chk mc ip gw sn m) s = (Done (Ok d), s') ->
  ds_sockets d = 0xFF /\
  com (s_chip s') MR = u8 (mode_to_u8 m) /\
  fld (s_chip s') GAR 4 = [ip0 gw; ip1 gw; ip2 gw; ip3 gw] /\ fld (s_chip s') SUBR 4 = [ip0 sn; ip1 sn; ip2 sn; ip3 sn] /\
  fld (s_chip s') SHAR 6 = [m0 mc; m1 mc; m2 mc; m3 mc; m4 mc; m5 mc] /\ fld (s_chip s') SIPR 4 = [ip0 ip; ip1 ip; ip2 ip; ip3 ip] /\
  (forall x, SIPR + 4 <= x -> x <> PHYCFGR -> com (s_chip s') x = com_reset x) /\
  (exists n, forall i, socks (s_chip s') i = sock_reset (socks (alone e (s_chip s) (s_tick s) n) i)) /\
  exists h, d = ds_new h.
Proof.
  intros R. unfold initialize_advanced in R. apply run_init in R as (s1 & c & h' & M1 & C1 & (n & ->) & S1 & R & ->).
  assert (H : host_inv (mkHC mc ip gw sn) (manual_new mc ip gw sn) (s_chip s1)).
  { split; [reflexivity|]. split; [|discriminate].
    assert (Z : forall a n, GAR <= a -> a + N.of_nat n <= SIPR + 4 -> fld (s_chip s1) a n = zeros n).
    { intros a k Ha Hb. unfold fld. revert a Ha Hb. induction k as [|k IH]; intros a Ha Hb; cbn [com_list zeros repeat]; [reflexivity|]. f_equal.
      - rewrite C1 by (unfold GAR, SIPR, MR, PHYCFGR in *; lia). unfold com_reset.
        repeat match goal with |- context [?x =? ?y] => destruct (N.eqb_spec x y); [unfold GAR, SIPR, RTR, RCR, PHYCFGR, VERSIONR in *; lia|] end. reflexivity.
      - apply IH; lia. }
    unfold inplace. cbn [hc_gateway hc_subnet hc_mac hc_ip hc_default].
    repeat split; intros <-; rewrite Z by (vm_compute; discriminate); reflexivity. }
  pose proof (wp_run _ _ _ _ _ _ R (wp_refresh e _ _ s1 H)) as W. cbv beta in W. destruct W as (L & h2 & r & [= <- <-] & Hh & Hr).
  destruct (Hr eq_refl) as (cur & ->). destruct Hh as (_ & J & K). rewrite (K eq_refl) in J. apply inplace_all in J as (J1 & J2 & J3 & J4).
  cbn [hc_gateway hc_subnet hc_mac hc_ip] in *. split; [reflexivity|].
  assert (D : forall i, socks (s_chip s') i = socks (s_chip s1) i) by (apply (dormant_later _ _ _ _ _ L); intros i; rewrite S1; eexists; reflexivity).
  destruct L as (q & _ & B1 & B2).
  split; [rewrite B1 by (left; reflexivity); rewrite com_alone by discriminate; exact M1|].
  split; [exact J1|]. split; [exact J2|]. split; [exact J3|]. split; [exact J4|]. split; [|split; [|eauto]].
  - intros x Hx Hp. rewrite B1 by (right; exact Hx). rewrite com_alone by exact Hp. apply C1; [unfold SIPR, MR in *; lia|exact Hp].
  - exists n. intros i. rewrite D. apply S1.
Qed.
(** what the getters answer afterwards, in any program that does not reset the device *)
Lemma getters_stay e fuel h s' ops a outs s2 : run e (run_ops fuel (app_new h) ops) s' = (Done (a, outs), s2) ->
  Forall no_reset ops -> forall x n, GAR <= x -> x + N.of_nat n <= SIPR + 4 -> fld (s_chip s2) x n = fld (s_chip s') x n.
Proof.
  intros R F x n H1 H2. apply com_list_ext. intros y Hy. apply (run_ops_keeps e y fuel) with (ops := ops) (a := app_new h) (a' := a) (outs := outs); auto.
  - unfold SIPR, PHYCFGR in *. lia.
  - apply pool_inv_new.
  - eapply Forall_impl; [|exact F]. intros o Hr. destruct o as [| | | | | | | | | | | | | | | |q| |]; try reflexivity.
    destruct q; try reflexivity; cbn [op_writes]; [apply N.eqb_neq; unfold GAR, MR in *; lia| |apply N.eqb_neq; unfold SIPR, RCR in *; lia|now elim Hr].
    destruct (N.leb_spec RTR y); [unfold RTR, SIPR in *; lia|reflexivity].
Qed.
Theorem C25_initialize_advanced :
  forall e chk mc ip gw sn m s d s',
    run e (initialize_advanced chk mc ip gw sn m) s = (Done (Ok d), s') ->
    (* no socket is allocated, all are closed and reset *)
    ds_sockets d = 0xFF /\
    (forall i, sr (socks (s_chip s') i) = SOCK_CLOSED /\ forall x, regs (socks (s_chip s') i) x = regs_reset x) /\
    (* MR (its bits are the subject of C08), gateway, subnet mask, MAC and IP address *)
    com (s_chip s') MR = u8 (mode_to_u8 m) /\
    fld (s_chip s') GAR 4 = [ip0 gw; ip1 gw; ip2 gw; ip3 gw] /\ fld (s_chip s') SUBR 4 = [ip0 sn; ip1 sn; ip2 sn; ip3 sn] /\
    fld (s_chip s') SHAR 6 = [m0 mc; m1 mc; m2 mc; m3 mc; m4 mc; m5 mc] /\ fld (s_chip s') SIPR 4 = [ip0 ip; ip1 ip; ip2 ip; ip3 ip] /\
    (* the rest of the common block *)
    (forall x, SIPR + 4 <= x -> x <> PHYCFGR -> com (s_chip s') x = com_reset x) /\
    (* the getters, now and after any program that does not reset the device *)
    (forall fuel ops a outs s2, run e (run_ops fuel (mkApp d [] 0) ops) s' = (Done (a, outs), s2) -> Forall no_reset ops ->
       (forall r s3, run e dev_gateway s2 = (Done (Ok r), s3) -> r = gw) /\
       (forall r s3, run e dev_subnet_mask s2 = (Done (Ok r), s3) -> r = sn) /\
       (forall r s3, run e dev_mac s2 = (Done (Ok r), s3) -> r = mc) /\
       (forall r s3, run e dev_ip s2 = (Done (Ok r), s3) -> r = ip)).
Proof.
  intros e chk mc ip gw sn m s d s' R. apply init_manual in R as (D & M & G & S & A & P & O & (n & K) & h & Eh).
  split; [exact D|]. split; [intros i; rewrite K; split; reflexivity|].
  split; [exact M|]. split; [exact G|]. split; [exact S|]. split; [exact A|]. split; [exact P|]. split; [exact O|].
  subst d. intros fuel ops a outs s2 R2 F. pose proof (getters_stay e fuel h s' ops a outs s2 R2 F) as J.
  split; [|split; [|split]]; intros r s3 R3.
  - apply (run_getter e GAR 4 ipv4_from) in R3; [|now vm_compute]. rewrite R3, J, G by now vm_compute. now destruct gw.
  - apply (run_getter e SUBR 4 ipv4_from) in R3; [|now vm_compute]. rewrite R3, J, S by now vm_compute. now destruct sn.
  - apply (run_getter e SHAR 6 mac_from) in R3; [|now vm_compute]. rewrite R3, J, A by now vm_compute. now destruct mc.
  - apply (run_getter e SIPR 4 ipv4_from) in R3; [|now vm_compute]. rewrite R3, J, P by now vm_compute. now destruct ip.
Qed.
Print Assumptions C25_initialize_advanced.
(** a chip with stale settings and an open socket; the gateway is all zero, so never written *)
Definition stale_chip : sys :=
  mkSys (set_sock (mkChip (fun a => if a =? VERSIONR then x04 else xee) (fun _ => sock0)) 3
    (mkSock (fun _ => x01) SOCK_UDP 4 7 7 7 true false 9 9 u8 u8 0 0 [] [] [])) 0 0.
Example C25_case : exists d s', run quiet (initialize_advanced true (Mac x02 x03 x04 x05 x06 x07) (Ip4 x0a x00 x00 x02) (Ip4 x00 x00 x00 x00) (Ip4 xff xff xff x00)
    (mkMode WolIgnore PingRespond CtEthernet ArpDropAfterUse)) stale_chip = (Done (Ok d), s') /\
  fld (s_chip stale_chip) GAR 4 = [xee; xee; xee; xee] /\ fld (s_chip s') GAR 4 = [x00; x00; x00; x00] /\
  fld (s_chip s') SHAR 6 = [x02; x03; x04; x05; x06; x07] /\ sr (socks (s_chip s') 3) = SOCK_CLOSED.
Proof.
  eexists _, _. split; [apply run_snd; vm_compute; reflexivity|]. split; [vm_compute; reflexivity|]. split; [vm_compute; reflexivity|].
  split; vm_compute; reflexivity.
Qed.

(** ** C26 *)
Theorem C26_initialize_manual :
  forall e chk mc ip m s d s',
    run e (initialize_manual chk mc ip m) s = (Done (Ok d), s') ->
    fld (s_chip s') GAR 4 = [ip0 ip; ip1 ip; ip2 ip; x01] /\
    fld (s_chip s') SUBR 4 = [xff; xff; xff; x00] /\
    fld (s_chip s') SHAR 6 = [m0 mc; m1 mc; m2 mc; m3 mc; m4 mc; m5 mc] /\ fld (s_chip s') SIPR 4 = [ip0 ip; ip1 ip; ip2 ip; ip3 ip] /\
    com (s_chip s') MR = u8 (mode_to_u8 m) /\ ds_sockets d = 0xFF.
Proof.
  intros e chk mc ip m s d s' R. apply init_manual in R as (D & M & G & S & A & P & _). auto 10.
Qed.
Print Assumptions C26_initialize_manual.
Example C26_case : exists d s', run quiet (initialize_manual true (Mac x02 x03 x04 x05 x06 x07) (Ip4 x0a x07 x08 x09)
    (mkMode WolIgnore PingRespond CtEthernet ArpDropAfterUse)) stale_chip = (Done (Ok d), s') /\
  fld (s_chip s') GAR 4 = [x0a; x07; x08; x01].
Proof. eexists _, _. split; [apply run_snd; vm_compute; reflexivity|vm_compute; reflexivity]. Qed.

(** ** C27.  Full statement: after initialize(mac, mode) succeeds the chip uses mac.  It never
    does: the hardware address stays 00:00:00:00:00:00, its reset value, whatever the argument
    (Dhcp::new drops it, host/dhcp.rs:13-22), and the getter says so in every program. *)
Theorem C27_mac_refuted :
  (forall e chk mc m s d s', run e (initialize chk mc m) s = (Done (Ok d), s') ->
     fld (s_chip s') SHAR 6 = [x00; x00; x00; x00; x00; x00] /\
     forall fuel ops a outs s2, run e (run_ops fuel (mkApp d [] 0) ops) s' = (Done (a, outs), s2) -> Forall no_reset ops ->
       forall r s3, run e dev_mac s2 = (Done (Ok r), s3) -> r = mac_unspecified) /\
  (exists e chk mc m s d s', run e (initialize chk mc m) s = (Done (Ok d), s') /\ no_faults e /\ mc <> mac_unspecified).
Proof.
  split.
  - intros e chk mc m s d s' R. unfold initialize in R. apply run_init in R as (s1 & c & h' & M1 & C1 & _ & _ & R & ->).
    cbn [dhcp_new refresh run] in R. injection R as <- <-.
    assert (Z : fld (s_chip s1) SHAR 6 = [x00; x00; x00; x00; x00; x00]).
    { unfold fld. cbn [com_list]. now rewrite !C1 by discriminate. }
    split; [exact Z|]. intros fuel ops a outs s2 R2 F r s3 R3.
    apply (run_getter e SHAR 6 mac_from) in R3; [|now vm_compute].
    rewrite R3, (getters_stay e fuel _ _ _ _ _ _ R2 F) by now vm_compute. now rewrite Z.
  - exists quiet, true, (Mac x02 x00 x00 x00 x00 x01), (mkMode WolIgnore PingRespond CtEthernet ArpDropAfterUse), sys0. eexists _, _.
    split; [apply run_snd; vm_compute; reflexivity|]. split; [apply quiet_no_faults|discriminate].
Qed.
Print Assumptions C27_mac_refuted.
