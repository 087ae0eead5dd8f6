(** C01-C05: the two SPI bus implementations against the chip's frame decoder. *)
From Verif Require Import SpiFacts ThreeWireFacts Cases.
From Verif Require Import Datasheet.

(** ** C01 *)
(** A FourWire write frame: the i-th byte lands at address + i (modulo 2^16) of the block,
    after whatever the network did until then; nothing else changes.  When the SPI
    transaction fails after [k] of its bytes (3 of which are header), the call reports the
    error and the first k - 3 bytes have been written. *)
Theorem C01_four_wire_write e blk a d st s :
  blk < 32 -> a < 65536 ->
  let stored (d : list byte) := fold_left (fun c ib =>
      wbyte (nsteps c (happens e (s_tick s + fst ib))) blk ((a + N.of_nat (fst ib)) mod 65536) (snd ib))
    (combine (seq 0 (length d)) d) (s_chip s) in
  let done (d : list byte) (r : res unit berr) :=
    spi_run e (fw_write_frame blk a d) (st, s) =
    (Done r, (WaitHi, mkSys (stored d) (s_tick s + length d) (S (s_call s)))) in
  match fails e (s_call s) with
  | None => done d (Ok tt)
  | Some (k, err) =>
      spi_run e (fw_write_frame blk a d) (st, s) =
      (Done (Err err), (WaitHi, mkSys (stored (firstn (k - 3) d))
         (s_tick s + length (firstn (k - 3) d)) (S (s_call s))))
  end.
Proof.
  intros Hb Ha stored done. unfold done, stored. clear done stored.
  rewrite four_wire_write by assumption. unfold bus_write, four_wire_env. cbn [fails snd].
  destruct (fails e (s_call s)) as [[k err]|]; cbn [fst snd]; do 3 f_equal.
  - pose proof (write_bytes_spec e blk (firstn (k - 3) d) a s Ha) as (H1 & H2 & H3).
    rewrite (write_bytes_four_wire e). unfold end_call. now rewrite H1, H2, H3.
  - pose proof (write_bytes_spec e blk d a s Ha) as (H1 & H2 & H3).
    rewrite (write_bytes_four_wire e). unfold end_call. now rewrite H1, H2, H3.
Qed.
Print Assumptions C01_four_wire_write.

(** A FourWire read frame: byte i of the buffer becomes what the chip holds at address + i at
    that moment, whatever the buffer held; the chip is changed by the network only.  When the
    transaction fails, the untransferred rest of the buffer is as it was. *)
Theorem C01_four_wire_read e blk a buf st s :
  blk < 32 -> a < 65536 ->
  let n := match fails e (s_call s) with
           | None => length buf | Some (k, _) => Nat.min (k - 3) (length buf) end in
  let after i := nsteps (s_chip s) (flat_map (happens e) (seq (s_tick s) i)) in
  exists got,
    spi_run e (fw_read_frame blk a buf) (st, s) =
    (Done (got, match fails e (s_call s) with None => Ok tt | Some (_, err) => Err err end),
     (WaitHi, mkSys (after n) (s_tick s + n) (S (s_call s)))) /\
    length got = length buf /\
    forall i, (i < length buf)%nat ->
      nth i got x00 = if Nat.ltb i n then rbyte (after (S i)) blk ((a + N.of_nat i) mod 65536)
                      else nth i buf x00.
Proof.
  intros Hb Ha n after. unfold n, after. clear n after.
  rewrite four_wire_read by assumption. unfold bus_read. cbn [snd]. unfold four_wire_env at 1 3. cbn [fails].
  destruct (fails e (s_call s)) as [[k err]|]; cbn [fst snd].
  - set (m := Nat.min (k - 3) (length buf)).
    pose proof (read_bytes_spec e blk m a s Ha) as (H1 & H2 & H3 & H4).
    pose proof (read_bytes_length e blk m a s) as HL.
    rewrite (read_bytes_four_wire e). destruct (read_bytes e blk a m s) as [l s2]. cbn [fst snd] in *.
    exists (l ++ skipn (k - 3) buf). split; [unfold end_call; now rewrite H1, H2, H3|].
    split. { rewrite app_length, skipn_length. lia. }
    intros i Hi. destruct (Nat.ltb_spec i m) as [Hm|Hm].
    + rewrite app_nth1 by lia. now apply H4.
    + rewrite app_nth2 by lia. rewrite <- (firstn_skipn (k - 3) buf) at 2.
      assert (Hk : (k - 3 < length buf)%nat) by lia.
      rewrite app_nth2; rewrite firstn_length; [|lia]. f_equal. lia.
  - pose proof (read_bytes_spec e blk (length buf) a s Ha) as (H1 & H2 & H3 & H4).
    pose proof (read_bytes_length e blk (length buf) a s) as HL.
    rewrite (read_bytes_four_wire e). destruct (read_bytes e blk a (length buf) s) as [l s2]. cbn [fst snd] in *.
    exists l. split; [unfold end_call; now rewrite H1, H2, H3|]. split; [exact HL|].
    intros i Hi. destruct (Nat.ltb_spec i (length buf)); [now apply H4|lia].
Qed.
Print Assumptions C01_four_wire_read.

Example C01_four_wire_case :
  (* writing the gateway register, then reading it back into a dirty buffer *)
  let x1 := snd (spi_run quiet (fw_write_frame COMMON c_GATEWAY [xc0; xa8; x00; x01]) (WaitHi, sys0)) in
  fst (spi_run quiet (fw_read_frame COMMON c_GATEWAY [xff; x12; x13; x14]) x1)
    = Done ([xc0; xa8; x00; x01], Ok tt) /\
  (* a transaction that breaks after 5 bytes has written 2 *)
  let x2 := snd (spi_run (with_fault 0 5 quiet) (fw_write_frame COMMON c_GATEWAY [xc0; xa8; x00; x01]) (WaitHi, sys0)) in
  fst (spi_run quiet (fw_read_frame COMMON c_GATEWAY [xff; x12; x13; x14]) x2)
    = Done ([xc0; xa8; x00; x00], Ok tt).
Proof. vm_compute. split; reflexivity. Qed.

(** ** C02 *)
(** An SPI transaction that fails after [k] bytes has moved k - 3 data bytes. *)
Theorem C02_whole_program_four_wire e e' st s :
  happens e' = happens e ->
  (forall j, fails e' j = match fails e j with Some (k, err) => Some ((k - 3)%nat, err) | None => None end) ->
  (forall chk h m fuel ops,
     spi_run e (over_four_wire (device_program chk h m fuel ops)) (WaitHi, s) =
     let (o, s') := run e' (device_program chk h m fuel ops) s in (o, (WaitHi, s'))) /\
  (forall mc fuel ops,
     spi_run e (over_four_wire (macraw_program mc fuel ops)) (WaitHi, s) =
     let (o, s') := run e' (macraw_program mc fuel ops) s in (o, (WaitHi, s'))) /\
  (* the state of the link between calls does not matter either *)
  (forall blk a d, spi_run e (fw_write_frame blk a d) (st, s) = spi_run e (fw_write_frame blk a d) (WaitHi, s)) /\
  (forall blk a d, spi_run e (fw_read_frame blk a d) (st, s) = spi_run e (fw_read_frame blk a d) (WaitHi, s)).
Proof.
  intros Hh Hf.
  assert (R : forall A (p : prog A) s, run e' p s = run (four_wire_env e) p s).
  { intros A p. assert (T : forall s, tick e' s = tick (four_wire_env e) s) by (intros; unfold tick; now rewrite Hh).
    assert (RB : forall blk n a s, read_bytes e' blk a n s = read_bytes (four_wire_env e) blk a n s).
    { induction n; intros; cbn [read_bytes]; [reflexivity|]. now rewrite T, IHn. }
    assert (WB : forall blk d a s, write_bytes e' blk a d s = write_bytes (four_wire_env e) blk a d s).
    { induction d; intros; cbn [write_bytes]; [reflexivity|]. now rewrite T, IHd. }
    assert (F : forall j, fails e' j = fails (four_wire_env e) j) by (intros; rewrite Hf; reflexivity).
    induction p as [x|w| |b a d k IH|b a d k IH]; intros s0; cbn [run]; try reflexivity.
    - replace (bus_read e' b a d s0) with (bus_read (four_wire_env e) b a d s0).
      + destruct (bus_read (four_wire_env e) b a d s0). apply IH.
      + unfold bus_read. rewrite F. destruct (fails (four_wire_env e) (s_call s0)) as [[]|]; now rewrite RB.
    - replace (bus_write e' b a d s0) with (bus_write (four_wire_env e) b a d s0).
      + destruct (bus_write (four_wire_env e) b a d s0). apply IH.
      + unfold bus_write. rewrite F. destruct (fails (four_wire_env e) (s_call s0)) as [[]|]; now rewrite WB. }
  split; [|split; [|split]].
  - intros. rewrite R. eapply four_wire_sim. apply pt_device_program.
  - intros. rewrite R. eapply four_wire_sim. apply pt_macraw_program.
  - reflexivity.
  - reflexivity.
Qed.
Print Assumptions C02_whole_program_four_wire.

Example C02_whole_program_case :
  (* initialise, open a UDP socket, bind it, read the MAC back: five bus calls or more *)
  exists s', fst (snd (spi_run quiet (over_four_wire (device_program true
      (manual_new (Mac x01 x02 x03 x04 x05 x06) (Ip4 x0a x00 x00 x02) (Ip4 x0a x00 x00 x01) (Ip4 xff xff xff x00))
      mode_default 10 [OpUdpSocket; OpUdpBind 0 5000; OpDevice QMac])) (WaitHi, sys0))) = WaitHi /\
  spi_run quiet (over_four_wire (device_program true
      (manual_new (Mac x01 x02 x03 x04 x05 x06) (Ip4 x0a x00 x00 x02) (Ip4 x0a x00 x00 x01) (Ip4 xff xff xff x00))
      mode_default 10 [OpUdpSocket; OpUdpBind 0 5000; OpDevice QMac])) (WaitHi, sys0) = s' /\
  match fst s' with
  | Done (Ok (_, outs)) => outs = [RUdpSocket (Ok 0%nat); RUdpUnit (Ok tt); RDevice (DMac (Ok (Mac x01 x02 x03 x04 x05 x06)))]
  | _ => False
  end /\ (5 <= s_call (snd (snd s')))%nat.
Proof.
  eexists. split; [vm_compute; reflexivity|]. split; [reflexivity|].
  split; [vm_compute; reflexivity|]. apply Nat.leb_le. vm_compute. reflexivity.
Qed.

(** ** C03 *)
(** Over ThreeWire, starting from an idle link: frames of 0, 1, 2 or a multiple of 4 bytes
    read exactly the chip's bytes and leave the link idle; after a frame of any other length
    the chip is still in the middle of a frame.  (With overflow checks, frames that reach
    0xFFFF panic instead: C05.) *)
Theorem C03_three_wire_read_partial e checked blk a d s :
  no_faults e -> blk < 32 -> a < 65536 -> (checked = true -> a + len d < 65536) ->
  (fst (snd (spi_run e (tw_read_frame checked blk a d) (WaitHi, s))) = WaitHi <->
   len d = 0 \/ len d = 1 \/ len d = 2 \/ len d mod 4 = 0) /\
  (len d = 0 \/ len d = 1 \/ len d = 2 \/ len d mod 4 = 0 ->
   exists got s',
     spi_run e (tw_read_frame checked blk a d) (WaitHi, s) = (Done (got, Ok tt), (WaitHi, s')) /\
     length got = length d /\
     s_chip s' = nsteps (s_chip s) (flat_map (happens e) (seq (s_tick s) (length d))) /\
     forall i, (i < length d)%nat ->
       nth i got x00 = rbyte (nsteps (s_chip s) (flat_map (happens e) (seq (s_tick s) (S i)))) blk
         ((a + N.of_nat i) mod 65536)).
Proof.
  intros NF Hb Ha Hc.
  assert (G : len d = 0 \/ len d = 1 \/ len d = 2 \/ len d mod 4 = 0 -> tw_good (len d)) by (intros H; exact H).
  split; [split|].
  - intros E.
    assert (Dec : tw_good (len d) \/ ~ tw_good (len d)) by (unfold tw_good; lia).
    destruct Dec as [D|D]; [exact D|exfalso]. revert E. unfold tw_read_frame.
    destruct (tw_ctl_decode blk 0 Hb ltac:(lia)) as (_ & _ & _ & _ & ->).
    apply tw_read_bad; auto.
  - intros H. destruct (tw_read_good e checked blk a d s NF Hb Ha (G H)) as (c & ->); [auto|].
    destruct (read_bytes e blk a (length d) s) as [got s']. reflexivity.
  - intros H. destruct (tw_read_good e checked blk a d s NF Hb Ha (G H)) as (c & ->); [auto|].
    pose proof (read_bytes_spec e blk (length d) a s Ha) as (H1 & H2 & H3 & H4).
    pose proof (read_bytes_length e blk (length d) a s) as HL.
    destruct (read_bytes e blk a (length d) s) as [got s']. cbn [fst snd] in *.
    exists got, (calls c s'). split; [reflexivity|]. split; [exact HL|]. split; [exact H3|exact H4].
Qed.
Print Assumptions C03_three_wire_read_partial.

Example C03_three_wire_read_case :
  fst (spi_run quiet (tw_read_frame true COMMON 0x19 [xff; xff]) (WaitHi, sys0)) = Done ([x07; xd0], Ok tt).
Proof. vm_compute. reflexivity. Qed.

(** Refuted: reading seven bytes answers a wrong last byte; and the one-byte read after a
    three-byte read answers a wrong byte. *)
Theorem C03_three_wire_read_refuted :
  (exists got x,
     spi_run quiet (tw_read_frame true (BSB_RX 0) 0 (zeros 7)) (WaitHi, sys0) = (Done (got, Ok tt), x) /\
     got <> map (fun i => rbyte chip0 (BSB_RX 0) i) [0; 1; 2; 3; 4; 5; 6]) /\
  (exists g1 g2 x,
     spi_run quiet (sbind (tw_read_frame true COMMON c_MAC (zeros 3)) (fun r1 =>
       sbind (tw_read_frame true COMMON c_VERSION (zeros 1)) (fun r2 => SRet (r1, r2)))) (WaitHi, sys0)
     = (Done ((g1, Ok tt), (g2, Ok tt)), x) /\ g2 <> [rbyte chip0 COMMON c_VERSION]).
Proof.
  split.
  - eexists _, _. split; [vm_compute; reflexivity|]. vm_compute. discriminate.
  - eexists _, _, _. split; [vm_compute; reflexivity|]. vm_compute. discriminate.
Qed.
Print Assumptions C03_three_wire_read_refuted.

(** ** C04 *)
(** The opposite holds, for every frame: starting from an idle link, a ThreeWire write frame never
    stores anything.  The chip after it is the chip before it plus what the network did. *)
Theorem C04_three_wire_never_stores e checked blk a d s :
  blk < 32 -> a < 65536 ->
  let s' := snd (snd (spi_run e (tw_write_frame checked blk a d) (WaitHi, s))) in
  (s_tick s <= s_tick s')%nat /\
  s_chip s' = nsteps (s_chip s) (flat_map (happens e) (seq (s_tick s) (s_tick s' - s_tick s))).
Proof.
  intros Hb Ha. cbv zeta. unfold tw_write_frame.
  destruct (tw_ctl_decode blk 0 Hb ltac:(lia)) as (_ & _ & _ & C & ->).
  destruct (C TW_WRITE_MODE_MASK ltac:(unfold TW_WRITE_MODE_MASK; lia)) as [-> _].
  apply (tw_write_quiet e checked blk Hb (length d) 2); auto.
Qed.
Print Assumptions C04_three_wire_never_stores.
(** ... although it reports success *)
Theorem C04_three_wire_write_reports_ok e checked blk a d st s :
  no_faults e -> a + len d < 65536 ->
  fst (spi_run e (tw_write_frame checked blk a d) (st, s)) = Done (Ok tt).
Proof.
  intros NF Ha.
  pose proof (tw_write_outcome e checked (length d) (N.lor (shl3 blk) TW_WRITE_MODE_MASK) a d (st, s) (le_n _) ltac:(lia)) as H.
  unfold tw_write_frame. destruct (fst (spi_run e _ (st, s))) as [r|w| |]; try contradiction.
  - destruct (H NF) as [-> _]. reflexivity.
  - destruct H as (_ & _ & _ & H). lia.
Qed.
Print Assumptions C04_three_wire_write_reports_ok.
(** a write during which the link comes up: the link state changes, the written bytes are not stored *)
Example C04_case : let e := script [(3%nat, [EvLink x07])] in
  let r := spi_run e (tw_write_frame true COMMON c_GATEWAY [xc0; xa8; x00; x01]) (WaitHi, sys0) in
  no_faults e /\ c_GATEWAY + len [xc0; xa8; x00; x01] < 65536 /\ COMMON < 32 /\ fst r = Done (Ok tt) /\
  map (rbyte (s_chip (snd (snd r))) COMMON) [1; 2; 3; 4] = [x00; x00; x00; x00] /\
  rbyte (s_chip (snd (snd r))) COMMON PHYCFGR <> rbyte (s_chip sys0) COMMON PHYCFGR.
Proof. cbv zeta. repeat split; try (intros; reflexivity); vm_compute; congruence. Qed.

(** Refuted *)
Theorem C04_three_wire_write_refuted :
  let r := spi_run quiet (tw_write_frame true COMMON c_GATEWAY [xc0; xa8; x00; x01]) (WaitHi, sys0) in
  fst r = Done (Ok tt) /\
  map (rbyte (s_chip (snd (snd r))) COMMON) [1; 2; 3; 4] <> [xc0; xa8; x00; x01].
Proof. vm_compute. split; [reflexivity|discriminate]. Qed.
Print Assumptions C04_three_wire_write_refuted.

(** ** C05 *)
(** Exactly when a ThreeWire frame panics: overflow checks are on, the frame is not empty and
    address + length reaches 2^16.  It never loops, whatever the link and the chip do. *)
Theorem C05_three_wire_overflow_partial e checked blk a d st s :
  a < 65536 ->
  let ovf := checked = true /\ d <> [] /\ 65536 <= a + len d in
  (forall o, fst (spi_run e (tw_read_frame checked blk a d) (st, s)) = o ->
     o <> Looping /\ o <> Cut /\ (forall w, o = Panicked w -> w = P_add_overflow /\ ovf) /\
     (no_faults e -> ovf -> o = Panicked P_add_overflow)) /\
  (forall o, fst (spi_run e (tw_write_frame checked blk a d) (st, s)) = o ->
     o <> Looping /\ o <> Cut /\ (forall w, o = Panicked w -> w = P_add_overflow /\ ovf) /\
     (no_faults e -> ovf -> o = Panicked P_add_overflow)).
Proof.
  intros Ha ovf. split; intros o <-.
  - pose proof (tw_read_outcome e checked (length d) (shl3 blk) a d (st, s) (le_n _) Ha) as H.
    unfold tw_read_frame. destruct (fst (spi_run e _ (st, s))) as [r|w| |]; try contradiction;
      (split; [discriminate|]); (split; [discriminate|]).
    + split; [discriminate|]. intros NF (O1 & O2 & O3). destruct H as [_ H]. specialize (H NF) as [_ H]. specialize (H O1 O2). lia.
    + destruct H as (-> & H). split; [|reflexivity]. intros w [= <-]. split; [reflexivity|exact H].
  - pose proof (tw_write_outcome e checked (length d) (N.lor (shl3 blk) TW_WRITE_MODE_MASK) a d (st, s) (le_n _) Ha) as H.
    unfold tw_write_frame. destruct (fst (spi_run e _ (st, s))) as [r|w| |]; try contradiction;
      (split; [discriminate|]); (split; [discriminate|]).
    + split; [discriminate|]. intros NF (O1 & O2 & O3). specialize (H NF) as [_ H]. specialize (H O1 O2). lia.
    + destruct H as (-> & H). split; [|reflexivity]. intros w [= <-]. split; [reflexivity|exact H].
Qed.
Print Assumptions C05_three_wire_overflow_partial.
(** no overflow at the very end of the address space when the arithmetic wraps *)
Example C05_case : fst (spi_run quiet (tw_write_frame false (BSB_TX 0) 65534 [x41; x42; x43]) (WaitHi, sys0)) = Done (Ok tt) /\
  fst (spi_run quiet (tw_write_frame true (BSB_TX 0) 65532 [x41; x42; x43]) (WaitHi, sys0)) = Done (Ok tt).
Proof. split; vm_compute; reflexivity. Qed.

(** Refuted: frames into buffer memory that end exactly at 0xFFFF, and frames that wrap. *)
Theorem C05_three_wire_overflow_refuted :
  fst (spi_run quiet (tw_read_frame true (BSB_RX 0) 65534 [x00; x00]) (WaitHi, sys0)) = Panicked P_add_overflow /\
  fst (spi_run quiet (tw_write_frame true (BSB_TX 0) 65535 [x41]) (WaitHi, sys0)) = Panicked P_add_overflow /\
  fst (spi_run quiet (tw_write_frame true (BSB_TX 0) 65534 [x41; x42; x43]) (WaitHi, sys0)) = Panicked P_add_overflow.
Proof. vm_compute. split; [|split]; reflexivity. Qed.
Print Assumptions C05_three_wire_overflow_refuted.
