(** C30, C53, C55-C57: a MACRAW device (initialize_macraw, then any calls of RawDevice). *)
From Verif Require Import RawCalls ReadFacts Cases ErrorFacts TcpSession.
From Verif Require Import Datasheet.

(** ** C30 *)
(** From any chip state, with any network activity and any bus failures that did not make it
    return an error. *)
Theorem C30_macraw_initialisation :
  forall e mc s d s', run e (initialize_macraw mc) s = (Done (Ok d), s') ->
    let x := socks (s_chip s') 0 in
    sr x = SOCK_MACRAW /\ N.land (b2n (regs x Sn_MR)) 15 = MR_MACRAW /\ N.testbit (b2n (regs x Sn_MR)) 7 = true /\
    tx_size x = 16384 /\ rx_size x = 16384 /\ pending x = [] /\ tx_fsr x = 16384 /\
    (forall j, 1 <= j < 8 -> tx_size (socks (s_chip s') j) = 0 /\ rx_size (socks (s_chip s') j) = 0 /\ sr (socks (s_chip s') j) = SOCK_CLOSED) /\
    fld (s_chip s') SHAR 6 = [m0 mc; m1 mc; m2 mc; m3 mc; m4 mc; m5 mc].
Proof.
  intros e mc s d s' R x. destruct (initialize_macraw_up e mc s d s' R) as (_ & (y & E) & J & M). unfold x. rewrite E.
  destruct (raw_open_sess y) as (((S & Re & _) & Zt & Zr & _) & P & _ & _ & Mr & _). split; [exact S|]. rewrite Mr. split; [reflexivity|]. split; [reflexivity|].
  split; [exact Zt|]. split; [exact Zr|]. split; [exact P|]. split; [rewrite rested_fsr by exact Re; exact Zt|]. split; [|exact M].
  intros j Hj. destruct (J j Hj) as (z & ->). split; [reflexivity|]. split; reflexivity.
Qed.
Print Assumptions C30_macraw_initialisation.
(** from a chip with socket 3 open and busy *)
Definition worn_chip : sys :=
  mkSys (set_sock (mkChip (fun a => if a =? VERSIONR then x04 else xee) (fun _ => sock0)) 3
    (mkSock (fun _ => x01) SOCK_UDP 4 7 7 7 true false 9 9 u8 u8 0 0 [] [] [])) 0 0.
Definition my_mac : mac := Mac x02 x03 x04 x05 x06 x07.
Example C30_case : exists d s', run quiet (initialize_macraw my_mac) worn_chip = (Done (Ok d), s') /\
  sr (socks (s_chip s') 0) = SOCK_MACRAW /\ sr (socks (s_chip s') 3) = SOCK_CLOSED /\ fld (s_chip s') SHAR 6 = [x02; x03; x04; x05; x06; x07].
Proof.
  eexists _, _. split; [apply run_snd; vm_compute; reflexivity|]. split; [vm_compute; reflexivity|]. split; vm_compute; reflexivity.
Qed.

(** ** C53 *)
(** Between two calls the receive buffer holds whole frames [rest]; everything that ever came
    into it is [taken ++ rest], and the reads handed out exactly [taken]: in order, each cut to
    its buffer, none twice, none lost.  (The bound makes the frames unique.)  [handed] goes through
    calls and answers in parallel. *)
Theorem C53_frames_in_order :
  forall e mc fuel ops outs s1 s2, macraw_reached e mc fuel ops outs s1 s2 ->
    exists taken rest, rxlog (socks (s_chip s2) 0) = concat (map raw_record (taken ++ rest)) /\
      pending (socks (s_chip s2) 0) = concat (map raw_record rest) /\ Forall (fun f => len f < 65534) (taken ++ rest) /\ handed ops outs taken.
Proof.
  intros e mc fuel ops outs s1 s2 H. destruct (macraw_reached_inv _ _ _ _ _ _ _ H) as (_ & _ & t & r & A & (B & W) & C & W'). exists t, r.
  split; [exact A|]. split; [exact B|]. split; [apply Forall_app; split; assumption|exact C].
Qed.
Print Assumptions C53_frames_in_order.

(** One read, at any moment of such a program and with any fuel: it returns the oldest queued
    frame [g] cut to the buffer, leaves the rest of the buffer alone, and removes exactly [g];
    or nothing was queued, it returns 0, and socket 0 has only seen network events; or it is
    still polling.  It does not panic. *)
Theorem C53_read_frame :
  forall e mc fuel0 ops outs s1 s fuel buf oc s',
    macraw_reached e mc fuel0 ops outs s1 s ->
    run e (raw_read_frame fuel (mkRaw (socket_new 0)) buf) s = (oc, s') -> (forall f er, oc <> Done (f, Err er)) ->
    exists q, pending (socks (s_chip s) 0) = concat (map raw_record q) /\
      (oc = Looping \/
       (q = [] /\ oc = Done (buf, Ok 0) /\ sevs 0 (socks (s_chip s) 0) (socks (s_chip s') 0)) \/
       exists g later arrived, q ++ arrived = g :: later /\
         rxlog (socks (s_chip s') 0) = rxlog (socks (s_chip s) 0) ++ concat (map raw_record arrived) /\
         pending (socks (s_chip s') 0) = concat (map raw_record later) /\
         let n := N.min (len g) (len buf) in oc = Done (take n g ++ drop n buf, Ok n)).
Proof.
  intros e mc fuel0 ops outs s1 s fuel buf oc s' H R Ne. destruct (macraw_reached_inv _ _ _ _ _ _ _ H) as ((St & _) & _ & t & q & _ & Q & _).
  exists q. split; [apply Q|].
  refine (session_call (fun r => eb (snd r)) e _ (fun o t => o = Looping \/ (q = [] /\ o = Done (buf, Ok 0) /\ sevs 0 (socks (s_chip s) 0) (socks (s_chip t) 0)) \/
       exists g later arrived, q ++ arrived = g :: later /\
         rxlog (socks (s_chip t) 0) = rxlog (socks (s_chip s) 0) ++ concat (map raw_record arrived) /\
         pending (socks (s_chip t) 0) = concat (map raw_record later) /\
         let n := N.min (len g) (len buf) in o = Done (take n g ++ drop n buf, Ok n)) s oc s' (es_raw_read_frame fuel _ buf) R _ _).
  - intros [f [n|er]] E; [reflexivity|]. now elim (Ne f er).
  - apply (wp_raw_read _ 0 (nofail_no_faults e) ltac:(reflexivity) fuel buf q); auto.
    intros n buf' t' (_ & _ & _ & _ & g & later & q' & E1 & (F & _) & _ & L & Hn & Hb). right. right. exists g, later, q'.
    split; [exact E1|]. split; [exact L|]. split; [exact F|]. cbv zeta. rewrite <- Hn, <- Hb. reflexivity.
Qed.
Print Assumptions C53_read_frame.
(** two frames and a third arriving during the first read; buffers longer and shorter *)
Definition raw_net : env := script
  [(31, [EvFrame [x61; x62; x63]; EvFrame []]); (41, [EvFrame [x71; x72; x73; x74; x75]])]%nat.
Definition raw_reads : list rawop := [RwRead []; RwRead [x00; x00; x00; x00]; RwRead [x11]; RwRead [x00; x00]; RwRead [xaa]].
Example C53_case : exists d s1 s2, run raw_net (initialize_macraw my_mac) sys0 = (Done (Ok d), s1) /\
  run raw_net (run_raw 30 d raw_reads) s1 =
    (Done [RwFrame [] (Ok 0); RwFrame [x61; x62; x63; x00] (Ok 3); RwFrame [x11] (Ok 0); RwFrame [x71; x72] (Ok 2); RwFrame [xaa] (Ok 0)], s2) /\
  rxlog (socks (s_chip s2) 0) = concat (map raw_record [[x61; x62; x63]; []; [x71; x72; x73; x74; x75]]) /\ pending (socks (s_chip s2) 0) = [].
Proof.
  eexists _, _, _. split; [apply run_snd; vm_compute; reflexivity|]. split; [apply run_snd; vm_compute; reflexivity|]. split; vm_compute; reflexivity.
Qed.

(** ** C55 *)
(** One write at any moment of such a program, with any fuel. *)
Theorem C55_write_frame :
  forall e mc fuel0 ops outs s1 s fuel frame oc s',
    macraw_reached e mc fuel0 ops outs s1 s ->
    run e (raw_write_frame fuel (mkRaw (socket_new 0)) frame) s = (oc, s') -> (forall er, oc <> Done (Err er)) ->
    let x := socks (s_chip s) 0 in let x' := socks (s_chip s') 0 in
    oc = Looping \/
    (0 < len frame <= 16384 /\ oc = Done (Ok (len frame)) /\ exists p, sent x' = sent x ++ [p] /\ p_data p = frame) \/
    (len frame = 0 \/ 16384 < len frame) /\ oc = Done (Ok 0) /\ sent x' = sent x /\ txm x' = txm x /\ tx_wr x' = tx_wr x.
Proof.
  intros e mc fuel0 ops outs s1 s fuel frame oc s' H R Ne. destruct (macraw_reached_inv _ _ _ _ _ _ _ H) as ((St & Zt & _) & _).
  refine (session_call eb e _ (fun o t => let x := socks (s_chip s) 0 in let x' := socks (s_chip t) 0 in
    o = Looping \/
    (0 < len frame <= 16384 /\ o = Done (Ok (len frame)) /\ exists p, sent x' = sent x ++ [p] /\ p_data p = frame) \/
    (len frame = 0 \/ 16384 < len frame) /\ o = Done (Ok 0) /\ sent x' = sent x /\ txm x' = txm x /\ tx_wr x' = tx_wr x) s oc s' (es_raw_write_frame fuel _ frame) R _ _).
  - intros [n|er] E; [reflexivity|]. now elim (Ne er).
  - apply (wp_raw_write _ 0 (nofail_no_faults e) ltac:(reflexivity)); auto.
    + intros t H1 H2 (_ & _ & T). rewrite Zt in H2. cbv zeta. right. left. split; [auto|]. split; [reflexivity|]. eexists. split; [exact T|reflexivity].
    + intros t H1 (_ & _ & T1 & T2 & T3). rewrite Zt in H1. cbv zeta. right. right. split; [|auto]. destruct H1 as [->|H1]; auto.
Qed.
Print Assumptions C55_write_frame.
(** The whole program put exactly the frames of the successful writes on the wire, in order. *)
Theorem C55_frames_on_the_wire :
  forall e mc fuel ops outs s1 s2, macraw_reached e mc fuel ops outs s1 s2 ->
    map p_data (sent (socks (s_chip s2) 0)) = map p_data (sent (socks (s_chip s1) 0)) ++ written ops outs.
Proof. intros e mc fuel ops outs s1 s2 H. exact (proj1 (proj2 (macraw_reached_inv _ _ _ _ _ _ _ H))). Qed.
Print Assumptions C55_frames_on_the_wire.
Definition sending_net : env := mkEnv (fun _ => [EvTransmit 0 1; EvSendOk 0]) (fun _ => None).
Definition raw_writes : list rawop := [RwWrite [x61; x62]; RwWrite []; RwWrite [x63]; RwClear; RwWrite (repeat x11 (N.to_nat 16385))].
Example C55_case : exists d s1 s2, run sending_net (initialize_macraw my_mac) sys0 = (Done (Ok d), s1) /\
  run sending_net (run_raw 30 d raw_writes) s1 = (Done [RwSent (Ok 2); RwSent (Ok 0); RwSent (Ok 1); RwUnit (Ok tt); RwSent (Ok 0)], s2) /\
  map p_data (sent (socks (s_chip s2) 0)) = [[x61; x62]; [x63]].
Proof.
  eexists _, _, _. split; [apply run_snd; vm_compute; reflexivity|]. split; [apply run_snd; vm_compute; reflexivity|]. vm_compute; reflexivity.
Qed.

(** ** C56.  Full statement: write_frame of an empty or oversized frame returns without waiting
    for a transmission.  It always waits for SENDOK: at any moment of any program, if the chip
    does not report SENDOK any more, the call never returns, whatever the fuel. *)
Theorem C56_write_returns_refuted :
  (forall e mc fuel0 ops outs s1 s frame, macraw_reached e mc fuel0 ops outs s1 s -> no_faults e ->
     len frame = 0 \/ 16384 < len frame -> (forall t, (s_tick s <= t)%nat -> ~ In (EvSendOk 0) (happens e t)) ->
     forall fuel, exists s', run e (raw_write_frame fuel (mkRaw (socket_new 0)) frame) s = (Looping, s')) /\
  (exists e mc fuel0 ops outs s1 s, macraw_reached e mc fuel0 ops outs s1 s /\ no_faults e /\
     (forall t, (s_tick s <= t)%nat -> ~ In (EvSendOk 0) (happens e t))).
Proof.
  split.
  - intros e mc fuel0 ops outs s1 s frame H NF _ NO fuel. destruct (macraw_reached_inv _ _ _ _ _ _ _ H) as ((St & _) & _).
    exact (raw_write_hangs e fuel frame s NF St NO).
  - exists quiet, my_mac, 0%nat, [], []. eexists _, _. split.
    + eexists sys0, _. split; [apply run_snd; vm_compute; reflexivity|]. split; [reflexivity|constructor].
    + split; [apply quiet_no_faults|]. intros t _ [].
Qed.
Print Assumptions C56_write_returns_refuted.

(** ** C57 *)
(** From any chip state, with any network activity, on success: [c] is what the network alone
    would have made of the chip in the same bus time; the chip is [c] but for the mask (or the
    cleared flags).  disable_interrupts sets socket 0's mask to 0xFF and masks socket 0 (and
    all others) in SIMR. *)
Theorem C57_enable_interrupts :
  forall e which s s', run e (raw_enable_interrupts (mkRaw (socket_new 0)) which) s = (Done (Ok tt), s') ->
    exists n, let c := alone e (s_chip s) (s_tick s) n in s_tick s' = (s_tick s + n)%nat /\
    (forall a, com (s_chip s') a = if a =? SIMR then x01 else com c a) /\
    (forall j, j <> 0 -> socks (s_chip s') j = socks c j) /\
    exists r, socks (s_chip s') 0 = set_regs (socks c 0) r /\ forall a, r a = if a =? Sn_IMR then which else regs (socks c 0) a.
Proof.
  intros e w s s' R. exists 2%nat.
  refine (session_call eb e _ (fun o t => let c := alone e (s_chip s) (s_tick s) 2 in s_tick t = (s_tick s + 2)%nat /\
    (forall a, com (s_chip t) a = if a =? SIMR then x01 else com c a) /\
    (forall j, j <> 0 -> socks (s_chip t) j = socks c j) /\
    exists r, socks (s_chip t) 0 = set_regs (socks c 0) r /\ forall a, r a = if a =? Sn_IMR then w else regs (socks c 0) a) s _ _ (es_raw_enable _ w) R _ _).
  - intros r E. injection E as <-. reflexivity.
  - apply wp_raw_enable; [apply nofail_no_faults|]. cbv zeta. rewrite alone_nofail. intros t T S C. split; [exact T|]. split; [exact C|]. split.
    + intros j Hj. rewrite S. apply N.eqb_neq in Hj. now rewrite Hj.
    + rewrite S. eexists. split; [reflexivity|]. intros a. reflexivity.
Qed.
Print Assumptions C57_enable_interrupts.
Theorem C57_disable_interrupts :
  forall e s s', run e (raw_disable_interrupts (mkRaw (socket_new 0))) s = (Done (Ok tt), s') ->
    exists n, let c := alone e (s_chip s) (s_tick s) n in s_tick s' = (s_tick s + n)%nat /\
    (forall a, com (s_chip s') a = if a =? SIMR then x00 else com c a) /\
    (forall j, j <> 0 -> socks (s_chip s') j = socks c j) /\
    exists r, socks (s_chip s') 0 = set_regs (socks c 0) r /\ forall a, r a = if a =? Sn_IMR then xff else regs (socks c 0) a.
Proof.
  intros e s s' R. exists 2%nat.
  refine (session_call eb e _ (fun o t => let c := alone e (s_chip s) (s_tick s) 2 in s_tick t = (s_tick s + 2)%nat /\
    (forall a, com (s_chip t) a = if a =? SIMR then x00 else com c a) /\
    (forall j, j <> 0 -> socks (s_chip t) j = socks c j) /\
    exists r, socks (s_chip t) 0 = set_regs (socks c 0) r /\ forall a, r a = if a =? Sn_IMR then xff else regs (socks c 0) a) s _ _ (es_raw_disable _) R _ _).
  - intros r E. injection E as <-. reflexivity.
  - apply wp_raw_disable; [apply nofail_no_faults|]. cbv zeta. rewrite alone_nofail. intros t T S C. split; [exact T|]. split; [exact C|]. split.
    + intros j Hj. rewrite S. apply N.eqb_neq in Hj. now rewrite Hj.
    + rewrite S. eexists. split; [reflexivity|]. intros a. reflexivity.
Qed.
Print Assumptions C57_disable_interrupts.
Theorem C57_clear_interrupts :
  forall e s s', run e (raw_clear_interrupts (mkRaw (socket_new 0))) s = (Done (Ok tt), s') ->
    exists n, let c := alone e (s_chip s) (s_tick s) n in s_tick s' = (s_tick s + n)%nat /\
    (forall a, com (s_chip s') a = com c a) /\ (forall j, j <> 0 -> socks (s_chip s') j = socks c j) /\
    exists f, socks (s_chip s') 0 = set_ir (socks c 0) f /\ u8 f = x00.
Proof.
  intros e s s' R. exists 1%nat.
  refine (session_call eb e _ (fun o t => let c := alone e (s_chip s) (s_tick s) 1 in s_tick t = (s_tick s + 1)%nat /\
    (forall a, com (s_chip t) a = com c a) /\ (forall j, j <> 0 -> socks (s_chip t) j = socks c j) /\
    exists f, socks (s_chip t) 0 = set_ir (socks c 0) f /\ u8 f = x00) s _ _ (es_raw_clear _) R _ _).
  - intros r E. injection E as <-. reflexivity.
  - apply wp_raw_clear; [apply nofail_no_faults|]. cbv zeta. rewrite alone_nofail. intros t T S C. split; [exact T|]. split; [exact C|]. split.
    + intros j Hj. rewrite S. apply N.eqb_neq in Hj. now rewrite Hj.
    + rewrite S. eexists. split; [reflexivity|]. apply (u8_eq _ 0). change 256 with (2 ^ 8). rewrite <- !N.land_ones. apply N.bits_inj. intros b.
      rewrite N.land_spec, N.ldiff_spec. change 255 with (N.ones 8). change (N.land 0 (N.ones 8)) with 0. rewrite N.bits_0.
      destruct (N.testbit (N.ones 8) b); [now rewrite andb_false_r|apply andb_false_r].
Qed.
Print Assumptions C57_clear_interrupts.
Example C57_case : exists d s1 s2 s3, run raw_net (initialize_macraw my_mac) sys0 = (Done (Ok d), s1) /\
  run raw_net (run_raw 30 d [RwRead []; RwRead []; RwEnable x04]) s1 = (Done [RwFrame [] (Ok 0); RwFrame [] (Ok 0); RwUnit (Ok tt)], s2) /\
  regs (socks (s_chip s2) 0) Sn_IMR = x04 /\ com (s_chip s2) SIMR = x01 /\ ir (socks (s_chip s2) 0) = 4 /\
  run raw_net (run_raw 30 d [RwClear; RwDisable]) s2 = (Done [RwUnit (Ok tt); RwUnit (Ok tt)], s3) /\
  ir (socks (s_chip s3) 0) = 0 /\ com (s_chip s3) SIMR = x00.
Proof.
  eexists _, _, _, _. split; [apply run_snd; vm_compute; reflexivity|]. split; [apply run_snd; vm_compute; reflexivity|].
  split; [vm_compute; reflexivity|]. split; [vm_compute; reflexivity|]. split; [vm_compute; reflexivity|].
  split; [apply run_snd; vm_compute; reflexivity|]. split; vm_compute; reflexivity.
Qed.
