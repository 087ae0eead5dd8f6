(** C61: every bus access fits the register map. *)
From Verif Require Import AccessFacts ExecFacts.
From Verif Require Import Datasheet.

(** ** C61 *)
(** From power-up through any program, whatever the bus answers and wherever it is cut off:
    every access reads a whole register or received data, or writes a whole writable register
    (with a value the datasheet defines, where others are reserved) or transmit memory, and none
    is longer than 65535 bytes.  The one exception is a method of the raw socket handle. *)
Theorem C61_accesses :
  forall assertion ho m fuel ops tr oc,
    (forall h p, ~ In (OpSocket h (KSetTxRead p)) ops) ->
    exec (device_program assertion ho m fuel ops) tr oc ->
    Forall access_ok tr.
Proof.
  intros b ho m fuel ops tr oc H X.
  apply (at_access_ok any (fun _ _ _ => False)) in X; [exact X|tauto|].
  apply at_device_program. apply Forall_forall. intros o Ho (h & p & ->). now apply H in Ho.
Qed.
Print Assumptions C61_accesses.

Theorem C61_accesses_macraw :
  forall mc fuel ops tr oc, exec (macraw_program mc fuel ops) tr oc -> Forall access_ok tr.
Proof.
  intros mc fuel ops tr oc X. apply (at_access_ok any write_ok) in X; [exact X|auto|].
  now apply at_macraw_program.
Qed.
Print Assumptions C61_accesses_macraw.

(** A Device program writes no byte of the buffer size registers, without exception. *)
Theorem C61_sizes :
  forall assertion ho m fuel ops tr oc,
    exec (device_program assertion ho m fuel ops) tr oc ->
    forall blk a d r i reg, In (EWrite blk a d r) tr -> i < 8 -> blk = BSB_REG i ->
      reg = Sn_RXBUF_SIZE \/ reg = Sn_TXBUF_SIZE ->
      ~ (a <= reg < a + N.of_nat (length d)).
Proof.
  intros b ho m fuel ops tr oc X blk a d r i reg HIn Hi Eb Hr.
  apply (at_sizes any) in X.
  - rewrite Forall_forall in X. exact (X _ HIn i Hi Eb reg Hr).
  - apply at_device_program. apply Forall_forall. intros o _ _ b' a' d' H'. exact H'.
Qed.
Print Assumptions C61_sizes.

(** The exception: Socket::set_tx_read_pointer is one write of Sn_TX_RD, which is read-only. *)
Theorem C61_set_tx_read_pointer :
  forall i p tr r, i < 8 -> exec (set_tx_read_pointer (socket_new i) p) tr (Done r) ->
    tr = [EWrite (BSB_REG i) Sn_TX_RD (to_be p) r] /\ ~ Forall access_ok tr.
Proof.
  intros i p tr r Hi X. unfold set_tx_read_pointer, write_frame in X. rewrite (reg_blk i Hi) in X.
  inversion X as [| | | | |? ? ? ? q tr' o' X']; subst. apply exec_Ret_inv in X' as [-> [E|E]]; [|discriminate].
  injection E as ->. split; [reflexivity|]. intros F. inversion F as [|? ? F1 _]; subst.
  destruct F1 as [(E & _)|(j & Hj & [(E & W & _)|(E & _)])].
  - unfold BSB_REG, BSB_COMMON in E. lia.
  - unfold writable_register in W. cbn in W. repeat destruct W as [W|W]; try discriminate W. exact W.
  - unfold BSB_REG, BSB_TX in E. lia.
Qed.
Print Assumptions C61_set_tx_read_pointer.

(** a bind and a send that gets as far as its SEND command *)
Example C61_case : exists tr,
  exec (device_program true Dhcp mode_default 5 [OpUdpSocket; OpUdpBind 0 7; OpUdpSendTo 0 (V4 (Addr4 (Ip4 x0a x00 x00 x02) 99)) [x41; x42]])
    tr Cut /\ length tr = 20%nat /\
  In (EWrite 2 0x1234 [x41; x42] (Ok tt)) tr /\ In (EWrite 1 Sn_CR [x20] (Ok tt)) tr.
Proof.
  destruct (replay (device_program true Dhcp mode_default 5
      [OpUdpSocket; OpUdpBind 0 7; OpUdpSendTo 0 (V4 (Addr4 (Ip4 x0a x00 x00 x02) 99)) [x41; x42]])
    ([([x04], Ok tt)] ++ repeat ([], Ok tt) 2 ++ repeat ([], Ok tt) 7 ++
     [([], Ok tt); ([], Ok tt); ([x22], Ok tt); ([x08; x00], Ok tt); ([x22], Ok tt); ([x08; x00], Ok tt);
      ([x12; x34], Ok tt); ([], Ok tt); ([], Ok tt); ([], Ok tt)])) as [tr o] eqn:E.
  pose proof (replay_eq _ _ _ _ E) as X. vm_compute in E. injection E as <- <-.
  eexists. split; [exact X|]. split; [reflexivity|]. split; cbn; tauto.
Qed.
Example C61_macraw_case : exists tr,
  exec (macraw_program (Mac x02 x03 x04 x05 x06 x07) 5 [RwWrite [x41]]) tr Cut /\ length tr = 25%nat /\
  In (EWrite 2 0x1234 [x41] (Ok tt)) tr.
Proof.
  destruct (replay (macraw_program (Mac x02 x03 x04 x05 x06 x07) 5 [RwWrite [x41]])
    (repeat ([], Ok tt) 20 ++ [([], Ok tt); ([x40; x00], Ok tt); ([x12; x34], Ok tt); ([], Ok tt); ([], Ok tt)])) as [tr o] eqn:E.
  pose proof (replay_eq _ _ _ _ E) as X. vm_compute in E. injection E as <- <-.
  eexists. split; [exact X|]. split; [reflexivity|]. cbn; tauto.
Qed.
