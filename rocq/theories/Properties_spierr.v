(** C114: the SPI operations of a bus frame and of a call, for a peripheral that answers anything. *)
From Verif Require Import ErrorFacts ProgFacts ThreeWireFacts.
From Verif Require Import Wire.

(** [spi_event] and [sexec] (Wire.v) are the operations asked of the peripheral with its answers, and
    the executions of a computation for arbitrary answers; [Cut] is the end of an execution that is
    still going on.  [shape] is whether it is a transfer, and the bytes given. *)

(** the pieces of a frame: fours, then at most one two and one one *)
Definition in_pieces (d : list byte) (ps : list (list byte)) : Prop :=
  concat ps = d /\ exists q t, map (@length byte) ps = repeat 4%nat q ++ t /\ (t = [] \/ t = [1]%nat \/ t = [2]%nat \/ t = [2; 1]%nat).

(** ** C114 *)
(** A ThreeWire write asks, for each piece in turn, for a write of the address, of the control byte
    and of the piece; it goes on exactly as long as these succeed, and answers the error of the one
    that did not.  Ok means that all were done.  It aborts only by address overflow, after a piece. *)
Theorem C114_write checked blk a d tr o : blk < 32 ->
  sexec (tw_write_frame checked blk a d) tr o ->
  exists ps, in_pieces d ps /\ let ops := frame_ops true true blk a ps in
    map shape tr = firstn (length tr) ops /\ (length tr <= length ops)%nat /\
    Forall (fun e => spi_result e = Ok tt) (removelast tr) /\
    match o with
    | Done (Ok _) => map shape tr = ops /\ Forall (fun e => spi_result e = Ok tt) tr
    | Done (Err err) => exists t1 e, tr = t1 ++ [e] /\ spi_result e = Err err
    | Panicked w => w = P_add_overflow /\ checked = true /\ Forall (fun e => spi_result e = Ok tt) tr /\
        exists ps1 ps2, ps = ps1 ++ ps2 /\ map shape tr = frame_ops true true blk a ps1 /\ 65536 <= a + len (concat ps1)
    | Looping => False
    | Cut => True
    end.
Proof.
  intros Hb X. unfold tw_write_frame in X. destruct (tw_ctl_decode blk 0 Hb ltac:(lia)) as (_ & _ & _ & C & E0). rewrite E0 in X.
  destruct (C TW_WRITE_MODE_MASK ltac:(unfold TW_WRITE_MODE_MASK; lia)) as [E1 _]. rewrite E1 in X.
  destruct (tw_write_trace checked blk Hb (length d) 2 a d tr o (le_n _) ltac:(lia) X) as [H L].
  exists (pieces (length d) d). split; [split; [now apply pieces_concat|now apply pieces_lengths]|].
  exact (ends_spelt checked a true blk d tr o id H L).
Qed.
Print Assumptions C114_write.
(** A ThreeWire read likewise, with a transfer of the piece in place of the last write.  What it
    leaves in the buffer is what the transfers answered, the failed one included, and behind that
    what was there. *)
Theorem C114_read checked blk a d tr o : blk < 32 ->
  sexec (tw_read_frame checked blk a d) tr o ->
  exists ps, in_pieces d ps /\ let ops := frame_ops false true blk a ps in
    map shape tr = firstn (length tr) ops /\ (length tr <= length ops)%nat /\
    Forall (fun e => spi_result e = Ok tt) (removelast tr) /\
    match o with
    | Done (_, Ok _) => map shape tr = ops /\ Forall (fun e => spi_result e = Ok tt) tr
    | Done (_, Err err) => exists t1 e, tr = t1 ++ [e] /\ spi_result e = Err err
    | Panicked w => w = P_add_overflow /\ checked = true /\ Forall (fun e => spi_result e = Ok tt) tr /\
        exists ps1 ps2, ps = ps1 ++ ps2 /\ map shape tr = frame_ops false true blk a ps1 /\ 65536 <= a + len (concat ps1)
    | Looping => False
    | Cut => True
    end /\
    forall buf r, o = Done (buf, r) ->
      let got := concat (map (fun e => match e with WTransfer _ g _ => g | _ => [] end) tr) in
      buf = got ++ skipn (length got) d.
Proof.
  intros Hb X. unfold tw_read_frame in X. destruct (tw_ctl_decode blk 0 Hb ltac:(lia)) as (_ & _ & _ & _ & E0). rewrite E0 in X.
  destruct (tw_read_trace checked blk Hb (length d) 0 a d tr o (le_n _) ltac:(lia) X) as (H & L & B).
  exists (pieces (length d) d). split; [split; [now apply pieces_concat|now apply pieces_lengths]|].
  destruct (ends_spelt checked a false blk d tr o snd H L) as (A1 & A2 & A3 & A4). cbv zeta. split; [exact A1|]. split; [exact A2|]. split; [exact A3|].
  split; [destruct o as [[buf [r|e]]|w| |]; exact A4|]. intros buf r E. rewrite gotten_concat in B. exact (B buf r E).
Qed.
Print Assumptions C114_read.

(** Seven bytes to the gateway registers and beyond: four, two, one; the length in the control byte
    is the one of the first piece or 4 ever after.  The eighth operation fails. *)
Example C114_case : exists tr, let o := Done (Err 9) in
  sexec (tw_write_frame true 0 1 [x01; x02; x03; x04; x05; x06; x07]) tr o /\
  map shape tr = [(false, [x00; x01]); (false, [x03]); (false, [x01; x02; x03; x04]);
                  (false, [x00; x05]); (false, [x03]); (false, [x05; x06]); (false, [x00; x07]); (false, [x03])].
Proof.
  eexists. cbv zeta. split.
  - do 7 (apply (sexec_write _ _ (Ok tt))). apply (sexec_write _ _ (Err 9)). constructor.
  - reflexivity.
Qed.
Example C114_read_case : exists tr, let o := Done ([x0a; x0b; x03], Err 9) in
  sexec (tw_read_frame true 1 65533 [x01; x02; x03]) tr o /\
  map shape tr = [(false, [xff; xfd]); (false, [x0a]); (true, [x01; x02]); (false, [xff; xff])].
Proof.
  eexists. cbv zeta. split.
  - do 2 (apply (sexec_write _ _ (Ok tt))). apply (sexec_transfer _ _ [x0a; x0b] (Ok tt)); [reflexivity|].
    apply (sexec_write _ _ (Err 9)). constructor.
  - reflexivity.
Qed.

(** Every call, over either bus: an SPI operation that fails is the last one of the call, and the
    call answers its error; a call that answers a bus error asked for nothing after the operation that
    failed with it.  [out_berr], [eb], [ei], [er] extract the bus error from an answer. *)
Definition reports_spi_errors {A} (err : A -> option berr) (p : prog A) : Prop :=
  forall checked, Forall (fun q => forall tr o, sexec q tr o ->
    (forall t1 ev t2 e, tr = t1 ++ ev :: t2 -> spi_result ev = Err e -> t2 = [] /\ (o = Cut \/ exists x, o = Done x /\ err x = Some e)) /\
    (forall x e, o = Done x -> err x = Some e -> exists t1 ev, tr = t1 ++ [ev] /\ spi_result ev = Err e))
  [over_four_wire p; over_three_wire checked p].
Theorem C114_calls :
  (forall fuel a o, reports_spi_errors (fun r => out_berr (snd r)) (step fuel a o)) /\
  (forall d, reports_spi_errors er (dev_reset d)) /\
  (forall h, reports_spi_errors (fun r => eb (snd r)) (refresh h)) /\
  (forall chk h m, reports_spi_errors ei (initialize_with_host chk h m)) /\
  (forall m, reports_spi_errors ei (initialize_macraw m)) /\
  (forall fuel d buf, reports_spi_errors (fun r => eb (snd r)) (raw_read_frame fuel d buf)) /\
  (forall fuel d buf, reports_spi_errors eb (raw_write_frame fuel d buf)) /\
  (forall d w, reports_spi_errors eb (raw_enable_interrupts d w)) /\
  (forall d, reports_spi_errors eb (raw_disable_interrupts d)) /\
  (forall d, reports_spi_errors eb (raw_clear_interrupts d)).
Proof.
  assert (G : forall A (err : A -> option berr) p, estop err p -> reports_spi_errors err p).
  { intros A err p H checked. constructor; [|constructor; [|constructor]]; eapply sstop_reports; [apply four_wire_stops|apply three_wire_stops]; exact H. }
  split; [intros; apply G, es_step|].
  split; [intros; apply G, es_dev_reset|].
  split; [intros; apply G, es_refresh|].
  split; [intros; apply G, es_initialize_with_host|].
  split; [intros; apply G, es_initialize_macraw|].
  split; [intros; apply G, es_raw_read_frame|].
  split; [intros; apply G, es_raw_write_frame|].
  split; [intros; apply G, es_raw_enable|].
  split; [intros; apply G, es_raw_disable|].
  intros; apply G, es_raw_clear.
Qed.
Print Assumptions C114_calls.
(** a failed read of the version register over ThreeWire is what device.version answers *)
Example C114_call_case : exists tr r, sexec (over_three_wire true (step 5 (History.mkApp (mkDS Dhcp 255) [] 0) (OpDevice QVersion))) tr (Done r) /\
  map shape tr = [(false, [x00; x39]); (false, [x01]); (true, [x00])] /\ out_berr (snd r) = Some 9.
Proof.
  eexists _, _. split.
  - do 2 (apply (sexec_write _ _ (Ok tt))). apply (sexec_transfer _ _ [x42] (Err 9)); [reflexivity|]. constructor.
  - split; reflexivity.
Qed.
