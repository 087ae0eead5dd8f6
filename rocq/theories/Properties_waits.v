(** C120: a call that waits has been told to wait. *)
From Verif Require Import Waits Life LifeWire LifeFacts LifeCalls Liveness Cases.
From Verif Require System Properties_whole.

(** What the bus calls of a call that has polled [fuel] times without an end look like at their end.
    [polled l h W]: [h] is a handle the program holds, and [W] is said of the register block of its
    socket (number i has block 4 i + 1). *)
Definition polled (l : life) (h : nat) (W : N -> list event -> Prop) (tr : list event) : Prop :=
  exists x, lookup h (lhandles l) = Some x /\ index (handle_socket x) < 8 /\ W (4 * index (handle_socket x) + 1) tr.
Definition waiting (fuel : nat) (l : life) (q : lop) : list event -> Prop :=
  match q with
  (* CONNECT, then [fuel] reads of Sn_SR, none ESTABLISHED, none CLOSED *)
  | LCall (OpTcpConnect h _) => polled l h (fun b => upon b x04 (status_polls b fuel))
  (* SEND, then [fuel] reads of Sn_IR, none with SENDOK *)
  | LCall (OpTcpSend h _) => polled l h (fun b => upon b x20 (sendok_polls b fuel))
  | LRawCall (RwWrite _) => upon 1 x20 (sendok_polls 1 fuel)
  (* SEND, then [fuel] reads of the two transmit pointers, never equal; or [fuel] times SEND *)
  | LCall (OpUdpSend h _) | LCall (OpUdpSendTo h _ _) =>
      polled l h (fun b tr => upon b x20 (flush_polls b fuel) tr \/ (fuel <= orders b tr)%nat)
  (* [fuel] times two reads of the received size that differ *)
  | LCall (OpTcpReceive h _) | LCall (OpUdpReceive h _) | LCall (OpSocket h KReceiveSize) => polled l h (fun b => size_polls b fuel)
  | LRawCall (RwRead _) => size_polls 1 fuel
  | _ => fun _ => False
  end.

Lemma returns_spinless {A} (p : prog A) : System.returns p -> spinless p.
Proof. induction p; cbn; auto. Qed.
Lemma held_to {A} (a : History.app) h x (l : life) (W : N -> list event -> Prop) (p : prog A) tr : good (lhandles l) -> handles a = lhandles l ->
  lookup h (handles a) = Some x -> held (W (register (handle_socket x))) p -> exec p tr Looping ->
  exists pre polls, tr = pre ++ polls /\ polled l h W polls.
Proof.
  intros G E L H X. destruct (H _ X) as (pre & polls & -> & Y). exists pre, polls. split; [reflexivity|]. exists x. rewrite E in L. split; [exact L|].
  destruct (good_lookup _ _ _ G L) as (i & Hi & Ei). rewrite Ei in *. split; [exact Hi|].
  assert (E' : 4 * index (socket_new i) + 1 = register (socket_new i)).
  { cbn [index register socket_new]. rewrite (N.mod_small (i * 4)) by lia. rewrite N.mod_small by lia. lia. }
  now rewrite E'.
Qed.
Lemma step_waits fuel l d o tr : good (lhandles l) -> exec (step fuel (mkApp d (lhandles l) (lfresh l)) o) tr Looping ->
  exists pre polls, tr = pre ++ polls /\ waiting fuel l (LCall o) polls.
Proof.
  intros G X. set (a := mkApp d (lhandles l) (lfresh l)) in *.
  assert (Sp : spinless (step fuel a o) -> exists pre polls, tr = pre ++ polls /\ waiting fuel l (LCall o) polls).
  { intros S. elim (spinless_loop _ _ _ X S eq_refl). }
  destruct o as [|h| |h r|h dt|h b|h| |h r|h pt|h dt|h r dt|h b|h|h| |q|h pt|h q]; cbn [step waiting] in *.
  all: try (apply Sp; spinless; fail).
  all: try (destruct (lookup h (handles a)) as [[so|t|u]|] eqn:L; try (inversion X; fail)).
  all: try (apply Sp; spinless; fail).
  all: try (apply Sp; destruct r; unfold udp_connect, udp_set_destination, udp_open; spinless; fail).
  - refine (held_to a h _ l _ _ tr G eq_refl L _ X). apply held_bind; [|intros ?; hs]. apply held_connect.
  - refine (held_to a h _ l _ _ tr G eq_refl L _ X). apply held_bind; [|intros ?; hs]. apply held_tcp_send.
  - refine (held_to a h _ l (fun b => size_polls b fuel) _ tr G eq_refl L _ X). apply held_bind; [|intros ?; hs]. apply held_tcp_receive.
  - refine (held_to a h _ l _ _ tr G eq_refl L _ X). apply held_bind; [|intros ?; hs]. apply held_udp_all.
  - refine (held_to a h _ l _ _ tr G eq_refl L _ X). apply held_bind; [|intros ?; hs]. apply held_udp_send_to.
  - refine (held_to a h _ l (fun b => size_polls b fuel) _ tr G eq_refl L _ X). apply held_bind; [|intros ?; hs]. apply held_udp_receive.
  - apply Sp. apply spinless_bind; [|intros; exact Logic.I]. destruct q; cbn; try exact (fun _ => Logic.I); first [intros [got [?|?]]; exact Logic.I|intros [?|?]; exact Logic.I].
  - destruct q; try (apply Sp; apply spinless_bind; [|intros; exact Logic.I]; cbn; first [exact (fun _ => Logic.I)|intros [got [?|?]]; exact Logic.I|intros [?|?]; exact Logic.I]).
    refine (held_to a h _ l (fun b => size_polls b fuel) _ tr G eq_refl L _ X). apply held_bind; [|intros ?; hs]. apply held_bind; [|intros ?; hs]. apply held_size.
Qed.
Lemma lstep_waits chk fuel l q tr : wired l -> exec (lstep chk fuel l q) tr Looping -> exists pre polls, tr = pre ++ polls /\ waiting fuel l q polls.
Proof.
  intros [G RO] X.
  assert (Sp : spinless (lstep chk fuel l q) -> exists pre polls, tr = pre ++ polls /\ waiting fuel l q polls).
  { intros S. elim (spinless_loop _ _ _ X S eq_refl). }
  assert (Fi : forall A B (p : prog A) (f : A -> prog B), exec (bind p f) tr Looping -> (forall x, spinless (f x)) -> exec p tr Looping).
  { intros A B p f Y S. apply loop_bind in Y as [Y|(t1 & x & t2 & -> & _ & Y)]; [exact Y|]. elim (spinless_loop _ _ _ Y (S x) eq_refl). }
  unfold lstep in *. destruct q as [u|k m|mc|o|o| | | |k|k], (ph l) as [|d|k'|rd|] eqn:P; try (inversion X; fail);
    try (destruct (nth_error (asleep l) k); inversion X; fail).
  - apply Sp. destruct u; cbn; first [intros [got [?|?]]; exact Logic.I|intros [?|?]; exact Logic.I].
  - apply Sp. apply spinless_bind; [apply returns_spinless; destruct k; apply System.returns_init|]. intros [x|x]; exact Logic.I.
  - apply Sp. apply spinless_bind; [apply returns_spinless, System.returns_macraw|]. intros [x|x]; exact Logic.I.
  - apply Fi in X; [|intros; exact Logic.I]. exact (step_waits _ _ _ _ _ G X).
  - destruct (nth_error (asleep l) k'); [|inversion X]. apply Fi in X; [|intros; exact Logic.I]. exact (step_waits _ _ _ _ _ G X).
  - apply Fi in X; [|intros; exact Logic.I]. destruct rd as [so]. cbn [raw_socket] in RO. subst so.
    destruct o; cbn [raw_step waiting] in *.
    1,2,3: (exfalso; refine (spinless_loop _ _ _ X _ eq_refl); apply spinless_bind; [|intros; exact Logic.I]; cbn; repeat first [exact Logic.I|intros [?|?]]).
    + apply Fi in X; [|intros; exact Logic.I]. exact (held_raw_read _ _ _ _ X).
    + apply Fi in X; [|intros; exact Logic.I]. exact (held_raw_write _ _ _ _ X).
  - apply Sp. unfold dev_reset. destruct (any_allocated d); cbn; [exact Logic.I|]. intros [?|?]; exact Logic.I.
  - destruct (nth_error (asleep l) k') as [d|]; [|inversion X]. apply Sp. unfold dev_reset. destruct (any_allocated d); cbn; [exact Logic.I|]. intros [?|?]; exact Logic.I.
Qed.

(** ** C120.  Any program over any bus (which may answer anything and fail at any time): when it is
    caught in a busy-wait, the calls before have returned, and of the bus calls of the one it is in the
    last ones are its polls.  All of them went through; connect polls after its CONNECT command and has
    read neither ESTABLISHED nor CLOSED, TCP send and write_frame poll after their SEND command and have
    not read SENDOK, the UDP sends poll after a SEND command and have read two different transmit
    pointers each time (or have given the SEND command as often as they may poll), the receiving calls
    have read two different received sizes each time.  No other call waits. *)
Theorem C120_waits : forall chk fuel ops tr, exec (run_life chk fuel life_new ops) tr Looping ->
  exists ops1 q ops2 l outs before pre polls,
    ops = ops1 ++ q :: ops2 /\ tr = before ++ pre ++ polls /\
    exec (run_life chk fuel life_new ops1) before (Done (l, outs)) /\
    exec (lstep chk fuel l q) (pre ++ polls) Looping /\ waiting fuel l q polls.
Proof.
  intros chk fuel ops. assert (G : forall ops l0 tr, wired l0 -> exec (run_life chk fuel l0 ops) tr Looping ->
    exists ops1 q ops2 l outs before pre polls, ops = ops1 ++ q :: ops2 /\ tr = before ++ pre ++ polls /\
      exec (run_life chk fuel l0 ops1) before (Done (l, outs)) /\ exec (lstep chk fuel l q) (pre ++ polls) Looping /\ waiting fuel l q polls).
  { clear ops. induction ops as [|q ops IH]; intros l0 tr Wl X; cbn [run_life] in X; [inversion X|].
    apply loop_bind in X as [X|(t1 & r & t2 & -> & X1 & X)].
    - destruct (lstep_waits _ _ _ _ _ Wl X) as (pre & polls & -> & H).
      exists [], q, ops, l0, [], [], pre, polls. split; [reflexivity|]. split; [reflexivity|]. split; [constructor|]. auto.
    - apply loop_bind in X as [X|(t3 & rs & t4 & -> & _ & X)]; [|inversion X].
      pose proof (proj2 (ptree_exec _ _ _ _ _ _ (pt_lstep chk fuel l0 q Wl) X1)) as W1. cbn in W1.
      destruct (IH _ _ W1 X) as (ops1 & q' & ops2 & l & outs & before & pre & polls & -> & -> & Y & Z & H).
      exists (q :: ops1), q', ops2, l, (snd r :: outs), (t1 ++ before), pre, polls. split; [reflexivity|]. split; [now rewrite app_assoc|].
      split; [|auto]. cbn [run_life]. eapply exec_bind_intro; [exact X1|]. rewrite <- (app_nil_r before). eapply exec_bind_intro; [exact Y|]. constructor. }
  intros tr X. exact (G ops life_new tr wired_new X).
Qed.
Print Assumptions C120_waits.

(** The same of one call, for a state any program reached. *)
Theorem C120_call : forall chk fuel0 ops tr0 l outs fuel q tr, exec (run_life chk fuel0 life_new ops) tr0 (Done (l, outs)) ->
  exec (lstep chk fuel l q) tr Looping -> exists pre polls, tr = pre ++ polls /\ waiting fuel l q polls.
Proof. intros chk fuel0 ops tr0 l outs fuel q tr X Y. exact (lstep_waits chk fuel l q tr (life_wired _ _ _ _ _ _ X) Y). Qed.
Print Assumptions C120_call.

(** Five programs caught in their five kinds of waits, against the chip: a peer that does not answer
    a connect; a send that is never acknowledged; a datagram the chip does not get rid of; datagrams
    that keep arriving between the reads of the received size; a raw frame that is not transmitted. *)
Definition up : lop := LInit (IManual (Mac x02 x00 x00 x00 x00 x01) (Ip4 x0a x00 x00 x01)) mode_default.
Definition there : sockaddr := V4 (Addr4 (Ip4 x0a x00 x00 x02) 80).
Definition last_of {A} n (x : list event * outcome A) : list event * bool := (rev (firstn n (rev (fst x))), match snd x with Looping => true | _ => false end).
Definition caught (e : env) (fuel : nat) (ops : list lop) (polls : list event) : Prop :=
  exists before, exec (run_life true fuel life_new ops) (before ++ polls) Looping.
Lemma is_caught e fuel ops polls : last_of (length polls) (Properties_whole.record e (run_life true fuel life_new ops) sys0) = (polls, true) -> caught e fuel ops polls.
Proof.
  unfold last_of, caught. destruct (Properties_whole.record e _ sys0) as [tr o] eqn:R. cbn [fst snd]. intros [= E O].
  apply Properties_whole.record_exec in R. destruct o; try discriminate O. exists (rev (skipn (length polls) (rev tr))).
  rewrite <- E at 2. rewrite <- rev_app_distr, firstn_skipn, rev_involutive. exact R.
Qed.
Example C120_case :
  caught (script []) 3 [up; LCall OpTcpSocket; LCall (OpTcpConnect 0 there)]
    [EWrite 1 1 [x04] (Ok tt); ERead 1 3 [x15] (Ok tt); ERead 1 3 [x15] (Ok tt); ERead 1 3 [x15] (Ok tt)] /\
  caught (mkEnv (fun _ => [EvEstablished 0]) (fun _ => None)) 2 [up; LCall OpTcpSocket; LCall (OpTcpConnect 0 there); LCall (OpTcpSend 0 [x61])]
    [EWrite 1 1 [x20] (Ok tt); ERead 1 2 [x01] (Ok tt); ERead 1 2 [x01] (Ok tt)] /\
  caught (script []) 2 [up; LCall OpTcpSocket; LCall OpUdpSocket; LCall (OpUdpConnect 1 there); LCall (OpUdpSend 1 [x61; x62])]
    [EWrite 5 1 [x20] (Ok tt); ERead 5 34 [x00; x00] (Ok tt); ERead 5 36 [x00; x02] (Ok tt); ERead 5 34 [x00; x00] (Ok tt); ERead 5 36 [x00; x02] (Ok tt)] /\
  caught (mkEnv (fun _ => [EvDatagram 0 [x01; x02; x03; x04] 53 [x61]]) (fun _ => None)) 2 [up; LCall OpUdpSocket; LCall (OpUdpBind 0 53); LCall (OpUdpReceive 0 [x00])]
    [ERead 1 38 [x00; x24] (Ok tt); ERead 1 38 [x00; x36] (Ok tt); ERead 1 38 [x00; x48] (Ok tt); ERead 1 38 [x00; x5a] (Ok tt)] /\
  caught (script []) 2 [LInitRaw (Mac x02 x00 x00 x00 x00 x01); LRawCall (RwWrite [x61; x62])]
    [EWrite 1 1 [x20] (Ok tt); ERead 1 2 [x00] (Ok tt); ERead 1 2 [x00] (Ok tt)].
Proof.
  split; [|split; [|split; [|split]]]; apply is_caught; vm_compute; reflexivity.
Qed.
