(** C99: a chip on which a masked flag does not show in Sn_IR (Literal.v). *)
From Verif Require Import Literal PoolFacts ExecFacts.
From Verif Require PinFacts.

(** Claim: the driver does not depend on how the datasheet's words about Sn_IMR are meant.  It does:
    a successful connect or bind masks every flag of the socket ([open_mask] is 0).  From then on,
    whatever the bus and the chip answer and whatever else the program does, no TCP send on that
    handle returns success, every TCP receive that succeeds returns no bytes and leaves the
    caller's buffer alone, no UDP receive returns a datagram, and no UDP send reports a timeout. *)
Theorem C99_masked_refuted :
  forall fuel ho ops0 tr0 a outs0, program fuel ho ops0 tr0 a outs0 ->
  forall h x, lookup h (handles a) = Some x ->
  forall o tr1 a1 r, exec (step fuel a o) tr1 (Done (a1, r)) -> opens h o r ->
  forall ops tr2 a2 outs, exec (run_ops fuel a1 ops) tr2 (Done (a2, outs)) -> Forall leaves_mask ops ->
  forall m m', literal (index (handle_socket x)) m (tr1 ++ tr2) m' ->
  Forall2 (mute h) ops outs.
Proof.
  intros fuel ho ops0 tr0 a outs0 P h x L o tr1 a1 r X O ops tr2 a2 outs Y F m m' Li.
  destruct (program_inv _ _ _ _ _ _ P) as (PI & _). destruct (pi_lookup _ _ _ PI L) as (i & Hi & E & _). rewrite E in Li. cbn [index socket_new] in Li.
  assert (Ho : holds h i a).
  { split; [exact (pi_fresh _ PI _ _ (lookup_in _ _ _ L))|]. intros y Ly. rewrite L in Ly. injection Ly as <-. exact E. }
  apply literal_app in Li as (m1 & L1 & L2). pose proof (opens_mask _ _ _ _ _ _ _ _ Hi Ho O X _ _ L1) as Z. subst m1.
  exact (proj1 (mute_ops fuel h i Hi ops a1 tr2 a2 outs m' (proj1 (exec_step_post _ _ _ _ _ PI X)) (holds_step _ _ _ _ _ _ _ _ X Ho) F Y L2)).
Qed.
Print Assumptions C99_masked_refuted.

(** a program on such a chip: connected, Sn_IR shows nothing; receive returns 0 bytes, and so it
    would for ever.  A send then polls as often as one lets it. *)
Ltac show := first [apply lit_nil | apply lit_read; [let H := fresh in intros _ H _; try discriminate H; intros ? [= <-]; reflexivity|show] | apply lit_write; show].
Example C99_case :
  exists tr0 a tr1 tr2 m', program 5 Dhcp [OpTcpSocket] tr0 a [RTcpSocket (Ok 0%nat)] /\
    exec (step 5 a (OpTcpConnect 0 (V4 (Addr4 (Ip4 x0a x00 x00 x01) 80)))) tr1 (Done (a, RTcpConnect (Ok tt))) /\
    exec (run_ops 5 a [OpTcpReceive 0 [x01; x02]]) tr2 (Done (a, [RTcpReceive [x01; x02] (Ok 0)])) /\
    literal 0 255 (tr1 ++ tr2) m' /\
    (exists tr3, exec (step 5 a (OpTcpSend 0 [x41])) tr3 Looping /\ literal 0 255 (tr1 ++ tr3) 0).
Proof.
  eexists _, _, _, _, _. split; [apply (replay_eq _ []); vm_compute; reflexivity|].
  split; [apply (replay_eq _ ([([], Ok tt); ([], Ok tt); ([], Ok tt); ([], Ok tt); ([], Ok tt); ([], Ok tt); ([x13], Ok tt); ([], Ok tt); ([], Ok tt); ([], Ok tt); ([x17], Ok tt)])); vm_compute; reflexivity|].
  split; [apply (replay_eq _ [([x17], Ok tt); ([x00], Ok tt)]); vm_compute; reflexivity|].
  split; [vm_compute List.app; show|].
  eexists. split; [apply (replay_eq _ ([([x17], Ok tt); ([x08; x00], Ok tt); ([x00; x00], Ok tt); ([], Ok tt); ([], Ok tt); ([], Ok tt)] ++ repeat ([x00], Ok tt) 5)); vm_compute; reflexivity|].
  vm_compute List.app; show.
Qed.

(** The raw device never writes Sn_IMR unless asked to, and out of reset Sn_IMR is 0xFF, so there
    the reading makes no difference: whatever read_frame and write_frame can see on some bus, they
    can see on a chip that hides masked flags. *)
Lemma unmasked_any {A} (p : prog A) tr o : exec p tr o -> PipeCalls.mild PinFacts.rw_safe p -> literal 0 255 tr 255.
Proof.
  assert (B : forall x : byte, N.land (b2n x) 255 = b2n x) by (intros []; reflexivity).
  induction 1 as [p|a|w| |blk addr buf k got r tr o Hl X IH|blk addr data k r tr o X IH]; cbn [PipeCalls.mild]; intros M; try constructor; auto.
  destruct M as [M1 M2]. replace (wmask 0 255 blk addr data) with 255; [auto|]. unfold wmask. destruct data as [|x [|y data]]; auto.
  cbn [PipeCalls.each] in M1. destruct M1 as [[->|(-> & Ha & _)] _]; [reflexivity|].
  replace (addr =? 44) with false by (symmetry; apply N.eqb_neq; exact Ha). rewrite andb_false_r. reflexivity.
Qed.
Theorem C99_raw_partial :
  forall fuel frame tr,
  (forall o, exec (raw_read_frame fuel (mkRaw (socket_new 0)) frame) tr o -> literal 0 255 tr 255) /\
  (forall o, exec (raw_write_frame fuel (mkRaw (socket_new 0)) frame) tr o -> literal 0 255 tr 255).
Proof.
  intros fuel frame tr. split; intros o X; apply (unmasked_any _ _ _ X); [apply PinFacts.rw_read|].
  eapply PinFacts.mild_mono; [exact PinFacts.w_rw|apply PinFacts.w_write].
Qed.
Print Assumptions C99_raw_partial.

(** But a program that asks for interrupts other than SENDOK (the documentation suggests
    [Interrupt::Receive]) can never again finish writing a frame. *)
Theorem C99_raw_enabled_refuted :
  forall which, N.testbit (b2n which) 4 = false ->
  forall tr1, exec (raw_enable_interrupts (mkRaw (socket_new 0)) which) tr1 (Done (Ok tt)) ->
  forall fuel frame tr2 r, exec (raw_write_frame fuel (mkRaw (socket_new 0)) frame) tr2 (Done r) ->
  forall m m', literal 0 m (tr1 ++ tr2) m' ->
  exists e, r = Err e.
Proof.
  intros which B tr1 X fuel frame tr2 r Y m m' L. apply literal_app in L as (m1 & L1 & L2).
  pose proof (lp_exec 0 _ _ _ _ X _ _ (lp_enable m which) L1) as E. cbn beta iota in E. subst m1.
  assert (K : N.land (b2n which) (interrupt_u8 InSendOk) = 0) by (clear -B; destruct which; try reflexivity; discriminate B).
  destruct (lp_exec 0 _ _ _ _ Y _ _ (lp_raw_write _ fuel frame K) L2) as [_ N]. destruct r; [destruct N|eauto].
Qed.
Print Assumptions C99_raw_enabled_refuted.

(** a chip of that kind: RECV enabled; the write ends only because the bus fails *)
Example C99_case_raw :
  exists tr1 tr2, exec (raw_enable_interrupts (mkRaw (socket_new 0)) x04) tr1 (Done (Ok tt)) /\
    exec (raw_write_frame 5 (mkRaw (socket_new 0)) [x41; x42]) tr2 (Done (Err 7)) /\ literal 0 255 (tr1 ++ tr2) 4.
Proof.
  eexists _, _. split; [apply (replay_eq _ [([], Ok tt); ([], Ok tt)]); vm_compute; reflexivity|].
  split; [apply (replay_eq _ [([], Ok tt); ([x40; x00], Ok tt); ([x00; x00], Ok tt); ([], Ok tt); ([], Ok tt); ([], Ok tt); ([x04], Ok tt); ([x00], Err 7)]); vm_compute; reflexivity|].
  vm_compute List.app; show.
Qed.
Example C99_case_raw_unmasked :
  exists tr, exec (raw_write_frame 5 (mkRaw (socket_new 0)) [x41; x42]) tr (Done (Ok 2)) /\ literal 0 255 tr 255.
Proof.
  eexists. split; [apply (replay_eq _ [([], Ok tt); ([x40; x00], Ok tt); ([x00; x00], Ok tt); ([], Ok tt); ([], Ok tt); ([], Ok tt); ([x10], Ok tt)]); vm_compute; reflexivity|].
  show.
Qed.
