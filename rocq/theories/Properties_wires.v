(** C115: what is proved for an arbitrary bus holds over both wires, with an SPI peripheral that
    answers anything. *)
From Verif Require Import ErrorFacts ProgFacts ThreeWireFacts PoolFacts AccessFacts Datasheet.
From Verif Require Import Wire WireRefine WireBlocks.

(** ** C115 *)
(** Over FourWire every driver computation makes one transaction for each bus access, and the
    accesses with their answers are an execution over an arbitrary bus that ends in the same way. *)
Theorem C115_four_wire A (p : prog A) tr o : sexec (over_four_wire p) tr o ->
  exists evs, exec p evs o /\ Forall2 (fun ev t =>
    match ev, t with
    | ERead b a got r, WTransaction ops gs r' => r' = r /\ nth 2 gs [] = got /\ exists d, length d = length got /\
        ops = [OpWrite [u8 (a / 256); u8 a]; OpWrite [u8 (8 * b)]; OpTransferInPlace d]
    | EWrite b a d r, WTransaction ops _ r' => r' = r /\ ops = [OpWrite [u8 (a / 256); u8 a]; OpWrite [u8 (8 * b + 4)]; OpWrite d]
    | _, _ => False
    end) evs tr.
Proof.
  intros X. destruct (four_wire_inv p tr o X) as (evs & Y & F). exists evs. split; [exact Y|].
  eapply Forall2_weaken; [|exact F]. intros [b a got r|b a d r] [ops gs r'| |]; cbn [transaction_of]; try contradiction.
  - intros (-> & d & L & -> & G). split; [reflexivity|]. split; [exact G|]. exists d. split; [exact L|]. now rewrite <- ctl_read.
  - intros (-> & ->). split; [reflexivity|]. now rewrite <- ctl_write4.
Qed.
Print Assumptions C115_four_wire.
(** Over ThreeWire every driver computation makes one frame (C114) for each bus access, and the
    accesses with their answers are an execution over an arbitrary bus; it ends in the same way, or
    is still in the middle of a frame, or has aborted in the middle of one by address overflow. *)
Theorem C115_three_wire A (p : prog A) checked tr o : sexec (over_three_wire checked p) tr o ->
  exists evs frames rest, tr = concat frames ++ rest /\
    Forall2 (fun ev f => match ev with
      | ERead b a got r => exists d, length d = length got /\ sexec (tw_read_frame checked b a d) f (Done (got, r))
      | EWrite b a d r => sexec (tw_write_frame checked b a d) f (Done r) end) evs frames /\
    ((rest = [] /\ exec p evs o) \/
     (exec p evs Cut /\ (o = Cut \/ (checked = true /\ o = Panicked P_add_overflow)))).
Proof.
  intros X. destruct (plug_inv _ _ (fun b a d => tw_read_stops checked (length d) (shl3 b) a d) p tr o X) as (evs & frames & rest & -> & F & H).
  exists evs, frames, rest. split; [reflexivity|]. split; [exact F|]. destruct H as [H|(b & a & d & [(o' & Y & <- & ND & H)|(o' & Y & <- & ND & H)])]; [now left| |]; right.
  - split; [|apply tw_read_ends in Y as [-> |[[r ->]|(C & -> & _)]]; [now left|now destruct (ND r)|now right|apply le_n]].
    exact (exec_prefix_cut p evs _ Cut (H d (Ok tt) eq_refl)).
  - split; [|apply tw_write_ends in Y as [-> |[[r ->]|(C & -> & _)]]; [now left|now destruct (ND r)|now right|apply le_n]].
    exact (exec_prefix_cut p evs _ Cut (H (Ok tt))).
Qed.
Print Assumptions C115_three_wire.

(** Every abort of a call of a device over either wire: UDP receive, or, over ThreeWire in a build
    with overflow checks, address overflow; then the last operations were address, control byte and
    data of a piece of buffer memory of the socket of the call, not of a register. *)
Theorem C115_aborts :
  (forall fuel ho ops t0 a outs o tr w,
     sexec (over_four_wire (run_ops fuel (app_new ho) ops)) t0 (Done (a, outs)) ->
     sexec (over_four_wire (step fuel a o)) tr (Panicked w) -> w = P_udp_recv_slice /\ exists h buf, o = OpUdpReceive h buf) /\
  (forall checked fuel ho ops t0 a outs o tr w,
     sexec (over_three_wire checked (run_ops fuel (app_new ho) ops)) t0 (Done (a, outs)) ->
     sexec (over_three_wire checked (step fuel a o)) tr (Panicked w) ->
     (w = P_udp_recv_slice /\ exists h buf, o = OpUdpReceive h buf) \/
     (w = P_add_overflow /\ checked = true /\ exists h x i t1 t2 t3 t4 c, op_handle o = Some h /\ lookup h (handles a) = Some x /\ i = index (handle_socket x) /\
        tr = t1 ++ [t2; t3; t4] /\ shape t3 = (false, [c]) /\ (b2n c / 8 = BSB_TX i \/ b2n c / 8 = BSB_RX i))).
Proof.
  assert (Rest : forall fuel a o evs w, pool_inv a -> exec (step fuel a o) evs (Panicked w) -> w = P_udp_recv_slice /\ exists h buf, o = OpUdpReceive h buf).
  { intros fuel a o evs w I Y. destruct (ptree_exec _ _ _ _ _ _ (pt_step fuel a o I) Y) as [_ S]. destruct o; cbn in S; try contradiction. eauto. }
  split.
  - intros fuel ho ops t0 a outs o tr w X0 X. apply four_wire_inv in X0 as (ev0 & X0 & _). apply four_wire_inv in X as (evs & X & _).
    destruct (program_inv _ _ _ _ _ _ X0) as (I & _). eapply Rest; eauto.
  - intros checked fuel ho ops t0 a outs o tr w X0 X.
    apply C115_three_wire in X0 as (ev0 & f0 & r0 & _ & _ & [[_ X0]|[_ [[=]|[_ [=]]]]]).
    destruct (program_inv _ _ _ _ _ _ X0) as (I & _).
    destruct (plug_inv _ _ (fun b a d => tw_read_stops checked (length d) (shl3 b) a d) _ _ _ X) as (evs & frames & rest & -> & _ & H).
    destruct H as [[_ H]|(b & ad & d & H)]; [left; eapply Rest; eauto|]. right.
    assert (Blk : forall ev, (match ev with ERead b' _ _ _ | EWrite b' _ _ _ => b' = b end) -> (match ev with ERead _ ad' g _ => ad' = ad /\ length g = length d | EWrite _ ad' d' _ => ad' = ad /\ length d' = length d end) ->
      exec (step fuel a o) (evs ++ [ev]) Cut -> 65536 <= ad + len d ->
      ad < 65536 /\ b < 32 /\ exists h x i, op_handle o = Some h /\ lookup h (handles a) = Some x /\ i = index (handle_socket x) /\ (b = BSB_TX i \/ b = BSB_RX i)).
    { intros ev E1 E2 Y O.
      assert (Hin : In ev (evs ++ [ev])) by (apply in_or_app; right; now left).
      assert (M : ad < 65536 /\ exists i, i < 8 /\ (b = BSB_TX i \/ b = BSB_RX i)).
      { pose proof (step_access fuel a o _ _ ev I Y Hin) as S. destruct ev as [b' ad' g r|b' ad' d' r]; subst b'; destruct E2 as [-> L]; unfold len in *; rewrite L in S;
          (destruct S as [S|S]; [lia|exact S]). }
      destruct M as [Ha (i0 & Hi0 & Eb)]. split; [exact Ha|]. split; [unfold BSB_TX, BSB_RX in Eb; lia|].
      destruct (ptree_exec _ _ _ _ _ _ (pt_step fuel a o I) Y) as [HB _]. specialize (HB ev Hin).
      assert (S : step_blk a o b ad) by (destruct ev; destruct E2 as [-> _]; subst; exact HB). clear HB.
      unfold step_blk in S. destruct (op_handle o) as [h|].
      - destruct S as (x & L & S & _). exists h, x, (index (handle_socket x)). split; [reflexivity|]. split; [exact L|]. split; [reflexivity|].
        destruct (pi_lookup _ _ _ I L) as (i & Hi & E & _). rewrite E in *.
        destruct (socket_blocks i Hi) as (F1 & F2 & F3 & F4). rewrite F4. rewrite F1, F2, F3 in S. unfold BSB_REG, BSB_TX, BSB_RX in *. lia.
      - destruct o; try contradiction. destruct S as [S _]. unfold COMMON, BSB_COMMON, BSB_TX, BSB_RX in *. lia. }
    assert (Fin : forall wr ps1 (f : list spi_event), map shape f = frame_ops wr true b ad ps1 -> 65536 <= ad + len (concat ps1) -> ad < 65536 -> b < 32 ->
      exists t1 t2 t3 t4 c, concat frames ++ f = t1 ++ [t2; t3; t4] /\ shape t3 = (false, [c]) /\ b2n c / 8 = b).
    { intros wr ps1 f M O Ha Hb. assert (NE : ps1 <> []) by (intros ->; cbn [concat] in O; unfold len in O; cbn [length] in O; lia).
      destruct (frame_ops_last wr b ps1 true ad NE) as (l & a4 & m & q & Hm & E). rewrite E in M. apply map_eq_app in M as (u & v & -> & _ & M).
      destruct v as [|v1 [|v2 [|v3 [|v4 v]]]]; try discriminate M. cbn [map] in M. injection M as _ M2 _.
      exists (concat frames ++ u), v1, v2, v3, (u8 (8 * b + m)). split; [now rewrite app_assoc|]. split; [exact M2|].
      rewrite b2n_u8. rewrite N.mod_small by lia. rewrite N.mul_comm. rewrite N.div_add_l by lia. rewrite (N.div_small m 8) by lia. lia. }
    destruct H as [(o' & Y & Eo & ND & H)|(o' & Y & Eo & ND & H)].
    + pose proof (H d (Ok tt) eq_refl) as Z. assert (Y0 := Y). apply tw_read_ends in Y as [-> |[[r ->]|(C & -> & O)]]; [discriminate Eo|now destruct (ND r)| |apply le_n].
      injection Eo as <-. destruct (Blk (ERead b ad d (Ok tt)) eq_refl (conj eq_refl eq_refl) Z O) as (Ha & Hb & h & x & i & B1 & B2 & B3 & B4).
      split; [reflexivity|]. split; [exact C|].
      unfold tw_read_frame in Y0. destruct (tw_ctl_decode b 0 Hb ltac:(lia)) as (_ & _ & _ & _ & E0). rewrite E0 in Y0.
      destruct (tw_read_trace checked b Hb (length d) 0 ad d _ _ (le_n _) ltac:(lia) Y0) as (T & L & _).
      destruct (ends_spelt checked ad false b d _ _ snd T L) as (_ & _ & _ & _ & _ & _ & ps1 & ps2 & _ & M & O1).
      destruct (Fin false ps1 rest M O1 Ha Hb) as (t1 & t2 & t3 & t4 & c & G1 & G2 & G3).
      exists h, x, i, t1, t2, t3, t4, c. rewrite G3. auto 10.
    + pose proof (H (Ok tt)) as Z. assert (Y0 := Y). apply tw_write_ends in Y as [-> |[[r ->]|(C & -> & O)]]; [discriminate Eo|now destruct (ND r)| |apply le_n].
      injection Eo as <-. destruct (Blk (EWrite b ad d (Ok tt)) eq_refl (conj eq_refl eq_refl) Z O) as (Ha & Hb & h & x & i & B1 & B2 & B3 & B4).
      split; [reflexivity|]. split; [exact C|].
      unfold tw_write_frame in Y0. destruct (tw_ctl_decode b 0 Hb ltac:(lia)) as (_ & _ & _ & Cc & E0). rewrite E0 in Y0.
      destruct (Cc TW_WRITE_MODE_MASK ltac:(unfold TW_WRITE_MODE_MASK; lia)) as [E1 _]. rewrite E1 in Y0.
      destruct (tw_write_trace checked b Hb (length d) 2 ad d _ _ (le_n _) ltac:(lia) Y0) as (T & L).
      destruct (ends_spelt checked ad true b d _ _ id T L) as (_ & _ & _ & _ & _ & _ & ps1 & ps2 & _ & M & O1).
      destruct (Fin true ps1 rest M O1 Ha Hb) as (t1 & t2 & t3 & t4 & c & G1 & G2 & G3).
      exists h, x, i, t1, t2, t3, t4, c. rewrite G3. auto 10.
Qed.
Print Assumptions C115_aborts.
(** A UDP send while the write pointer of the socket is 0xFFFE, over ThreeWire with overflow checks;
    a datagram whose header promises more than has arrived, over FourWire. *)
Definition one_udp : History.app := mkApp (mkDS Dhcp 254) [(0%nat, HUdp (udp_new (socket_new 0)))] 1.
Example C115_case : exists outs tr1 t1 tr2,
  sexec (over_three_wire true (run_ops 5 (app_new Dhcp) [OpUdpSocket])) [] (Done (one_udp, outs)) /\
  sexec (over_three_wire true (step 5 one_udp (OpUdpSendTo 0 (V4 (Addr4 (Ip4 x0a x00 x00 x02) 80)) [x61; x62; x63]))) tr1 (Panicked P_add_overflow) /\
  map shape tr1 = t1 ++ [(false, [xff; xfe]); (false, [x12]); (false, [x61; x62])] /\
  sexec (over_four_wire (run_ops 5 (app_new Dhcp) [OpUdpSocket])) [] (Done (one_udp, outs)) /\
  sexec (over_four_wire (step 5 one_udp (OpUdpReceive 0 [x00]))) tr2 (Panicked P_udp_recv_slice).
Proof.
  pose proof (sreplay_sexec (over_three_wire true (run_ops 5 (app_new Dhcp) [OpUdpSocket])) []) as X0.
  pose proof (sreplay_sexec (over_four_wire (run_ops 5 (app_new Dhcp) [OpUdpSocket])) []) as Y0.
  pose proof (sreplay_sexec (over_three_wire true (step 5 one_udp (OpUdpSendTo 0 (V4 (Addr4 (Ip4 x0a x00 x00 x02) 80)) [x61; x62; x63])))
    [[x22]; [x08; x00]; [x22]; [x08; x00]; [xff; xfe]]) as X1.
  pose proof (sreplay_sexec (over_four_wire (step 5 one_udp (OpUdpReceive 0 [x00])))
    [[x22]; [x04]; [x00; x0a]; [x00; x0a]; [x00; x00]; [x01; x02; x03; x04; x00; x50; x00; x10]; [x00; x00]]) as Y1.
  match type of X1 with sexec _ (fst ?r) _ => set (r1 := r) in X1 end.
  assert (E1 : snd r1 = Panicked P_add_overflow) by (vm_compute; reflexivity). rewrite E1 in X1.
  assert (M1 : skipn 21 (map shape (fst r1)) = [(false, [xff; xfe]); (false, [x12]); (false, [x61; x62])]) by (vm_compute; reflexivity).
  match type of Y1 with sexec _ (fst ?r) _ => set (r2 := r) in Y1 end.
  assert (E2 : snd r2 = Panicked P_udp_recv_slice) by (vm_compute; reflexivity). rewrite E2 in Y1.
  exists [RUdpSocket (Ok 0%nat)], (fst r1), (firstn 21 (map shape (fst r1))), (fst r2).
  split; [exact X0|]. split; [exact X1|]. split; [rewrite <- M1; symmetry; apply firstn_skipn|]. split; [exact Y0|exact Y1].
Qed.

(** Over FourWire, the control byte of every transaction of a call through a handle selects a block of
    the socket of the handle; that of a call of the device, the common block. *)
Theorem C115_blocks fuel ho ops t0 a outs o tr oc :
  sexec (over_four_wire (run_ops fuel (app_new ho) ops)) t0 (Done (a, outs)) ->
  sexec (over_four_wire (step fuel a o)) tr oc ->
  forall t, In t tr -> exists ad c data got r, t = WTransaction [OpWrite ad; OpWrite [c]; data] got r /\
    match op_handle o with
    | Some h => exists x, lookup h (handles a) = Some x /\
        let i := index (handle_socket x) in b2n c / 8 = BSB_REG i \/ b2n c / 8 = BSB_TX i \/ b2n c / 8 = BSB_RX i
    | None => (exists q, o = OpDevice q) /\ b2n c / 8 = BSB_COMMON
    end.
Proof.
  intros X0 X t Hin. apply four_wire_inv in X0 as (ev0 & X0 & _). destruct (program_inv _ _ _ _ _ _ X0) as (I & _).
  apply C115_four_wire in X as (evs & X & F).
  assert (G : exists ev, In ev evs /\ exists ad c data got r, t = WTransaction [OpWrite ad; OpWrite [c]; data] got r /\ (c = u8 (8 * ev_block ev) \/ c = u8 (8 * ev_block ev + 4))).
  { clear - F Hin. induction F as [|ev t' evs tr Hh F IH]; [easy|]. destruct Hin as [-> |Hin]; [|destruct (IH Hin) as (e' & H1 & H2); exists e'; split; [now right|exact H2]].
    exists ev. split; [now left|]. destruct ev as [b ad g r|b ad d r], t as [ops gs r'| |]; try contradiction.
    - destruct Hh as (_ & _ & d & _ & ->). eexists _, _, _, _, _. split; [reflexivity|]. now left.
    - destruct Hh as (_ & ->). eexists _, _, _, _, _. split; [reflexivity|]. now right. }
  destruct G as (ev & Hev & ad & c & data & got & r & -> & Hc). exists ad, c, data, got, r. split; [reflexivity|].
  assert (D : ev_block ev < 32 -> b2n c / 8 = ev_block ev).
  { intros Hb. destruct Hc as [-> | ->]; rewrite b2n_u8, N.mod_small by lia; rewrite (N.mul_comm 8).
    - rewrite N.div_mul by lia. reflexivity.
    - rewrite N.div_add_l by lia. change (4 / 8) with 0. lia. }
  destruct (ptree_exec _ _ _ _ _ _ (pt_step fuel a o I) X) as [HB _]. specialize (HB ev Hev).
  assert (S : step_blk a o (ev_block ev) (match ev with ERead _ ad _ _ | EWrite _ ad _ _ => ad end)) by (destruct ev; exact HB). clear HB.
  unfold step_blk in S. destruct (op_handle o) as [h|].
  - destruct S as (x & L & S & _). exists x. split; [exact L|].
    destruct (pi_lookup _ _ _ I L) as (i & Hi & E & _). rewrite E in *.
    destruct (socket_blocks i Hi) as (E1 & E2 & E3 & E4). rewrite E4. rewrite E1, E2, E3 in S. cbv zeta. rewrite D; [exact S|]. unfold BSB_REG, BSB_TX, BSB_RX in S. lia.
  - destruct o; try contradiction. split; [eauto|]. destruct S as [S _]. rewrite D; [exact S|]. rewrite S. reflexivity.
Qed.
Print Assumptions C115_blocks.
(** binding the second of two sockets: blocks 5, i.e. control bytes 0x2C *)
Example C115_blocks_case : exists a outs tr oc,
  sexec (over_four_wire (run_ops 5 (app_new Dhcp) [OpTcpSocket; OpUdpSocket])) [] (Done (a, outs)) /\
  sexec (over_four_wire (step 5 a (OpUdpBind 1 7))) tr oc /\
  map (fun t => match t with WTransaction [_; OpWrite c; _] _ _ => c | _ => [] end) tr = repeat [x2c] 7.
Proof.
  pose proof (sreplay_sexec (over_four_wire (run_ops 5 (app_new Dhcp) [OpTcpSocket; OpUdpSocket])) []) as X0.
  vm_compute in X0. match type of X0 with sexec _ _ (Done (?a, ?outs)) => exists a, outs; pose proof (sreplay_sexec (over_four_wire (step 5 a (OpUdpBind 1 7))) []) as X1 end.
  match type of X1 with sexec _ (fst ?r) _ => exists (fst r), (snd r) end.
  split; [exact X0|]. split; [exact X1|]. vm_compute. reflexivity.
Qed.

(** Over ThreeWire the operations of a call come in threes to the last: an address of two bytes, a
    control byte that selects a block of the socket of the handle (the common block for a call of the
    device) and has the write bit clear, then one, two or four bytes. *)
Theorem C115_blocks_three_wire checked fuel ho ops t0 a outs o tr oc :
  sexec (over_three_wire checked (run_ops fuel (app_new ho) ops)) t0 (Done (a, outs)) ->
  sexec (over_three_wire checked (step fuel a o)) tr oc ->
  forall k t, nth_error tr k = Some t ->
  match (k mod 3)%nat with
  | 0%nat => exists a1 a2, shape t = (false, [a1; a2])
  | 1%nat => exists c, shape t = (false, [c]) /\ N.testbit (b2n c) 2 = false /\
      match op_handle o with
      | Some h => exists x, lookup h (handles a) = Some x /\
          let i := index (handle_socket x) in b2n c / 8 = BSB_REG i \/ b2n c / 8 = BSB_TX i \/ b2n c / 8 = BSB_RX i
      | None => (exists q, o = OpDevice q) /\ b2n c / 8 = BSB_COMMON
      end
  | _ => length (snd (shape t)) = 1%nat \/ length (snd (shape t)) = 2%nat \/ length (snd (shape t)) = 4%nat
  end.
Proof.
  intros X0 X. apply C115_three_wire in X0 as (ev0 & f0 & r0 & _ & _ & [[_ X0]|[_ [[=]|[_ [=]]]]]). destruct (program_inv _ _ _ _ _ _ X0) as (I & _).
  set (B := fun b => match op_handle o with
    | Some h => exists x, lookup h (handles a) = Some x /\ let i := index (handle_socket x) in b = BSB_REG i \/ b = BSB_TX i \/ b = BSB_RX i
    | None => (exists q, o = OpDevice q) /\ b = BSB_COMMON end).
  assert (HB : forall evs oc' ev, exec (step fuel a o) evs oc' -> In ev evs -> ev_block ev < 32 /\ B (ev_block ev)).
  { intros evs oc' ev Y Hev. destruct (ptree_exec _ _ _ _ _ _ (pt_step fuel a o I) Y) as [HB _]. specialize (HB ev Hev).
    assert (S : step_blk a o (ev_block ev) (match ev with ERead _ ad _ _ | EWrite _ ad _ _ => ad end)) by (destruct ev; exact HB). clear HB.
    unfold step_blk in S. unfold B. destruct (op_handle o) as [h|].
    - destruct S as (x & L & S & _). destruct (pi_lookup _ _ _ I L) as (i & Hi & E & _). rewrite E in *.
      destruct (socket_blocks i Hi) as (E1 & E2 & E3 & E4). rewrite E1, E2, E3 in S.
      split; [unfold BSB_REG, BSB_TX, BSB_RX in S; lia|]. exists x. split; [exact L|]. rewrite E, E4. exact S.
    - destruct o; try contradiction. destruct S as [S _]. split; [rewrite S; reflexivity|]. split; [eauto|exact S]. }
  pose proof (three_wire_threes _ _ B checked tr oc (es_step fuel a o) HB X) as T. intros k t E.
  specialize (T k (shape t) (map_nth_error shape k tr E)). destruct (k mod 3)%nat as [|[|m]]; [exact T| |exact T].
  destruct T as (c & T1 & T2 & T3). exists c. split; [exact T1|]. split; [exact T3|exact T2].
Qed.
Print Assumptions C115_blocks_three_wire.
(** the same binding as above: seven accesses, control bytes 0x28 and more *)
Example C115_blocks_three_wire_case : exists a outs tr oc,
  sexec (over_three_wire true (run_ops 5 (app_new Dhcp) [OpTcpSocket; OpUdpSocket])) [] (Done (a, outs)) /\
  sexec (over_three_wire true (step 5 a (OpUdpBind 1 7))) tr oc /\
  map shape (firstn 9 tr) = [(false, [x00; x04]); (false, [x2a]); (false, [x00; x07]); (false, [x00; x01]); (false, [x2b]); (false, [x10]); (false, [x00; x02]); (false, [x2b]); (false, [xff])].
Proof.
  pose proof (sreplay_sexec (over_three_wire true (run_ops 5 (app_new Dhcp) [OpTcpSocket; OpUdpSocket])) []) as X0.
  vm_compute in X0. match type of X0 with sexec _ _ (Done (?a, ?outs)) => exists a, outs; pose proof (sreplay_sexec (over_three_wire true (step 5 a (OpUdpBind 1 7))) []) as X1 end.
  match type of X1 with sexec _ (fst ?r) _ => exists (fst r), (snd r) end.
  split; [exact X0|]. split; [exact X1|]. vm_compute. reflexivity.
Qed.

(** Initialisation, refresh, reset and the interrupt settings of a MACRAW device never abort, over
    either wire and in every build; a MACRAW write only by overflow over ThreeWire. *)
Definition never_aborts {A} (p : prog A) : Prop := forall checked tr w,
  ~ sexec (over_four_wire p) tr (Panicked w) /\ ~ sexec (over_three_wire checked p) tr (Panicked w).
Theorem C115_no_abort :
  (forall chk h m, never_aborts (initialize_with_host chk h m)) /\
  (forall m, never_aborts (initialize_macraw m)) /\
  (forall h, never_aborts (refresh h)) /\
  (forall d, never_aborts (dev_reset d)) /\
  (forall w, never_aborts (raw_enable_interrupts (mkRaw (socket_new 0)) w)) /\
  never_aborts (raw_disable_interrupts (mkRaw (socket_new 0))) /\
  never_aborts (raw_clear_interrupts (mkRaw (socket_new 0))) /\
  (forall fuel f, forall checked tr w, ~ sexec (over_four_wire (raw_write_frame fuel (mkRaw (socket_new 0)) f)) tr (Panicked w) /\
     (sexec (over_three_wire checked (raw_write_frame fuel (mkRaw (socket_new 0)) f)) tr (Panicked w) -> w = P_add_overflow /\ checked = true)).
Proof.
  assert (G : forall A Q (p : prog A) (B : N -> N -> Prop), (forall b a, B b a -> b = BSB_COMMON \/ exists i, i < 8 /\ b = BSB_REG i) ->
    ptree B (fun _ => False) any p -> atree read_ok (fun b a d => plain_write b a d \/ write_ok b a d) Q p -> never_aborts p).
  { intros A Q0 p B HB P T. refine (wires_no_panic _ _ _); [intros evs w X; exact (proj2 (ptree_exec _ _ _ _ _ _ P X))|]. intros evs oc ev X Hin.
    pose proof (proj1 (ptree_exec _ _ _ _ _ _ P X) ev Hin) as Q. destruct (atree_exec _ _ _ _ _ _ T X) as [F _]. rewrite Forall_forall in F. specialize (F ev Hin).
    assert (NB : (ev_block ev = BSB_COMMON \/ exists i, i < 8 /\ ev_block ev = BSB_REG i) -> forall i, i < 8 -> ev_block ev <> BSB_TX i /\ ev_block ev <> BSB_RX i).
    { unfold BSB_COMMON, BSB_REG, BSB_TX, BSB_RX. intros [E|(j & Hj & E)] i Hi; rewrite E; lia. }
    destruct ev as [b a g r|b a d r]; cbn [in_rw ends_at ev_block] in *; specialize (NB (HB _ _ Q)); unfold len.
    + destruct F as [[_ W]|(i & Hi & [[_ W]|(-> & _)])]; [eapply register_small; [|exact W]; auto|eapply register_small; [|exact W]; auto|].
      destruct (NB i Hi) as [_ NB2]. now destruct NB2.
    + assert (W0 : write_ok b a d) by (destruct F as [[F _]|F]; exact F). destruct W0 as [[_ W]|(i & Hi & [(_ & W & _)|(-> & _)])].
      * eapply register_small; [|exists true; exact W]; auto.
      * eapply register_small; [|exists true; exact W]; auto.
      * destruct (NB i Hi) as [NB1 _]. now destruct NB1. }
  assert (CB : forall b a, cblk b a -> b = BSB_COMMON \/ exists i, i < 8 /\ b = BSB_REG i) by (intros b a [-> _]; now left).
  split; [intros chk h m; eapply (G _ _ _ cblk CB); [apply pt_initialize_with_host|apply (at_initialize_with_host write_ok)]|].
  split. { intros m. eapply (G _ _ _ mblk); [|eapply ptree_mono; [| | |apply (pt_initialize_macraw (fun _ => False))]; auto|apply (at_initialize_macraw write_ok); intros b a d H; exact H].
    intros b a [[-> |(i & Hi & E)] _]; [now left|right; eauto]. }
  split; [intros h; eapply (G _ _ _ cblk CB); [apply pt_refresh|apply (at_refresh write_ok)]|].
  split. { intros d. refine (wires_no_panic _ _ _); [intros evs w X; exact (proj2 (ptree_exec _ (fun _ => False) _ _ _ _ (pt_dev_reset d _) X))|].
    intros evs oc ev X Hin. unfold dev_reset in X. destruct (any_allocated d); [inversion X; subst; destruct Hin|].
    inversion X; subst; [destruct Hin|]. destruct Hin as [<-|Hin]; [cbn; lia|]. destruct r as [[]|e]; cbn [bind] in *;
      match goal with Y : exec (Ret _) _ _ |- _ => inversion Y; subst; destruct Hin end. }
  assert (K : forall A (p : prog A), (forall evs w, ~ exec p evs (Panicked w)) ->
    atree (fun _ a n => a + N.of_nat n <= 64) (fun _ a d => a + N.of_nat (length d) <= 64) any p -> never_aborts p).
  { intros A p P T. refine (wires_no_panic _ P _). intros evs oc ev X Hin. destruct (atree_exec _ _ _ _ _ _ T X) as [F _]. rewrite Forall_forall in F.
    specialize (F ev Hin). destruct ev; exact F. }
  pose (d := mkRaw (socket_new 0)).
  split; [intros w|split; [|split]].
  - apply K; [intros evs w' X; exact (proj2 (ptree_exec _ (fun _ => False) _ _ _ _ (proj1 (pt_raw_interrupts d _ w)) X))|].
    unfold raw_enable_interrupts. cbn. split; [lia|]. intros [[]|e]; cbn; [|exact Logic.I]. split; [lia|]. intros [[]|e]; exact Logic.I.
  - apply K; [intros evs w' X; exact (proj2 (ptree_exec _ (fun _ => False) _ _ _ _ (proj1 (proj2 (pt_raw_interrupts d _ x00))) X))|].
    unfold raw_disable_interrupts. cbn. split; [lia|]. intros [[]|e]; cbn; [|exact Logic.I]. split; [lia|]. intros [[]|e]; exact Logic.I.
  - apply K; [intros evs w' X; exact (proj2 (ptree_exec _ (fun _ => False) _ _ _ _ (proj2 (proj2 (pt_raw_interrupts d _ x00))) X))|].
    unfold raw_clear_interrupts. cbn. split; [lia|]. intros [[]|e]; exact Logic.I.
  - intros fuel f checked tr w.
    assert (P : forall evs, ~ exec (raw_write_frame fuel d f) evs (Panicked w)) by (intros evs X; exact (proj2 (ptree_exec _ (fun _ => False) _ _ _ _ (pt_raw_write_frame d _ fuel f) X))).
    split.
    + intros X. apply four_wire_inv in X as (evs & X & _). exact (P _ X).
    + intros X. apply wires_panic in X as [(evs & X)|(-> & -> & _)]; [now destruct (P _ X)|auto].
Qed.
Print Assumptions C115_no_abort.
(** A MACRAW frame at write pointer 0xFFFE: the overflow. *)
Example C115_no_abort_case : exists tr, sexec (over_three_wire true (raw_write_frame 5 (mkRaw (socket_new 0)) [x61; x62; x63])) tr (Panicked P_add_overflow) /\
  skipn (length tr - 3) (map shape tr) = [(false, [xff; xfe]); (false, [x12]); (false, [x61; x62])].
Proof.
  pose proof (sreplay_sexec (over_three_wire true (raw_write_frame 5 (mkRaw (socket_new 0)) [x61; x62; x63]))
    [[x08; x00]; [xff; xfe]]) as X.
  match type of X with sexec _ (fst ?r) _ => set (r1 := r) in X end.
  assert (E1 : snd r1 = Panicked P_add_overflow) by (vm_compute; reflexivity). rewrite E1 in X.
  exists (fst r1). split; [exact X|]. vm_compute. reflexivity.
Qed.
