(** C94: a command is given only once the chip has taken the one before it.

    A W5500 shows that it has taken a command by clearing Sn_CR, which the
    host is to wait for.  The driver never reads that register.  What it does
    wait for is the outcome of SEND and CONNECT. *)
From Verif Require Import Handshake Datasheet AccessFacts ExecFacts.

(** [tr] holds two writes of socket [j]'s command register, with [mid] and no other such write between *)
Definition commands_socket (j : N) (ev : event) : Prop :=
  match ev with EWrite b a _ _ => b = BSB_REG j /\ a = Sn_CR | ERead _ _ _ _ => False end.
Definition two_commands (j : N) (tr : list event) (c : byte) (mid : list event) : Prop :=
  exists t1 c' r' t3,
    tr = t1 ++ EWrite (BSB_REG j) Sn_CR [c] (Ok tt) :: mid ++ EWrite (BSB_REG j) Sn_CR c' r' :: t3 /\
    Forall (fun ev => ~ commands_socket j ev) mid.
(** the read reaches the command register of some socket *)
Definition reads_command_register (ev : event) : Prop :=
  match ev with ERead b a got _ => exists j, b = BSB_REG j /\ a <= Sn_CR < a + N.of_nat (length got) | EWrite _ _ _ _ => False end.

(** ** No program ever reads a command register *)
Theorem C94_never_read :
  forall b h m fuel ops tr o, exec (device_program b h m fuel ops) tr o -> Forall (fun ev => ~ reads_command_register ev) tr.
Proof.
  intros b h m fuel ops tr o X. apply Forall_forall. intros [bk a got r|]; [|intros _ []]. intros Hin (j & E & L).
  assert (Q : Forall (quiet_op 8) ops) by (apply Forall_forall; intros x _ h' c _; apply N.le_refl).
  exact (accepted_reads 8 _ _ _ _ _ _ (watched_exec 8 _ _ _ _ X _ (m_device_program 8 b h m fuel ops Q)) Hin j E L).
Qed.
Print Assumptions C94_never_read.
Theorem C94_never_read_macraw :
  forall m fuel ops tr o, exec (macraw_program m fuel ops) tr o -> Forall (fun ev => ~ reads_command_register ev) tr.
Proof.
  intros m fuel ops tr o X. apply Forall_forall. intros [bk a got r|]; [|intros _ []]. intros Hin (j & E & L).
  exact (accepted_reads 8 _ _ _ _ _ _ (watched_exec 8 _ _ _ _ X _ (m_macraw_program 8 m fuel ops)) Hin j E L).
Qed.
Print Assumptions C94_never_read_macraw.

(** ** The claim, and why it fails *)
Definition taken_before_next : Prop :=
  forall b h m fuel ops tr o j c mid,
    exec (device_program b h m fuel ops) tr o -> two_commands j tr c mid ->
    Forall (fun ev => ev_result ev = Ok tt) mid ->
    exists r, In (ERead (BSB_REG j) Sn_CR [x00] r) mid.
Lemma exec_wtry {E R} b a d (h : berr -> res R E) (k : unit -> prog (res R E)) tr x :
  (forall e, exists e', h e = Err e') -> exec (try_ (write_frame b a d) h k) tr (Done (Ok x)) ->
  exists tr', tr = EWrite b a d (Ok tt) :: tr' /\ exec (k tt) tr' (Done (Ok x)).
Proof.
  intros He X. unfold try_, write_frame in X. cbn [bind] in X. inversion X as [| | | | |? ? ? ? q tr' o' X']; subst. destruct q as [[]|e]; [eauto|].
  apply exec_Ret_inv in X' as [-> [Y|Y]]; [|discriminate]. destruct (He e) as (e' & Q). rewrite Q in Y. discriminate.
Qed.
(** every successful TCP connect gives CLOSE and, four register writes later, OPEN *)
Theorem C94_connect_close_open :
  forall fuel i r tr, i < 8 -> exec (tcp_connect fuel (mkTcp (socket_new i)) (V4 r)) tr (Done (Ok tt)) ->
    exists mid rest,
      tr = EWrite (BSB_REG i) Sn_CR [u8 CR_CLOSE] (Ok tt) :: mid ++ EWrite (BSB_REG i) Sn_CR [u8 CR_OPEN] (Ok tt) :: rest /\
      length mid = 4%nat /\ Forall (fun ev => is_write ev = true /\ ~ commands_socket i ev) mid.
Proof.
  intros fuel i r tr Hi X. unfold tcp_connect in X. apply exec_bind_done in X as (t1 & a & t2 & -> & X1 & X2).
  destruct a as [[]|e]; [|apply exec_Ret_inv in X2 as [_ [Y|Y]]; discriminate Y]. clear X2. unfold tcp_open, command, reset_interrupt, set_source_port, set_mode, set_interrupt_mask in X1. cbn [t_socket] in X1.
  assert (He : forall e, exists e', @tE unit e = Err e') by (intros e; eexists; reflexivity).
  rewrite (reg_blk i Hi) in X1.
  do 6 (apply exec_wtry in X1 as (? & -> & X1); [|exact He]). 
  eexists [_; _; _; _], _. split; [reflexivity|]. split; [reflexivity|]. repeat constructor; cbn; intros [_ Y]; discriminate Y.
Qed.
Print Assumptions C94_connect_close_open.
Theorem C94_refuted : ~ taken_before_next.
Proof.
  intros H. destruct (replay (device_program false Dhcp mode_default 5 [OpUdpSocket; OpUdpBind 0 7]) (repeat ([], Ok tt) 9)) as [tr o] eqn:E.
  pose proof (replay_eq _ _ _ _ E) as X. vm_compute in E. injection E as <- <-.
  match type of X with exec _ [?a; ?b; ?c; ?d; ?e1; ?e2; ?e3; ?e4; ?f] _ => destruct (H _ _ _ _ _ _ _ 0 x10 [e1; e2; e3; e4] X) as (r & Hr) end.
  - exists (firstn 3 [EWrite 0 0 [x80] (Ok tt); EWrite 0 0 [x02] (Ok tt); EWrite 1 4 [x00; x07] (Ok tt)]), [x01], (Ok tt), []. split; [reflexivity|].
    repeat constructor; cbn; intros [_ Y]; discriminate Y.
  - repeat constructor.
  - cbn in Hr. decompose [or] Hr; try discriminate; contradiction.
Qed.
Print Assumptions C94_refuted.

(** ** What is waited for *)
Definition socket_read (j : N) (a : N) (got : list byte) : event := ERead (BSB_REG j) a got (Ok tt).
(** the chip has said that the SEND is over: SENDOK or TIMEOUT in Sn_IR, or
    Sn_TX_RD has caught up with Sn_TX_WR, the two read one after the other *)
Definition send_over (j : N) (mid : list event) : Prop :=
  (exists got, In (socket_read j Sn_IR got) mid /\ (N.testbit (from_be got) 4 = true \/ N.testbit (from_be got) 3 = true)) \/
  (exists t got got' t', mid = t ++ socket_read j Sn_TX_RD got :: socket_read j Sn_TX_WR got' :: t' /\ from_be got = from_be got').
(** the chip has said that the connection is up or has failed *)
Definition connect_over (j : N) (mid : list event) : Prop :=
  exists got, In (socket_read j Sn_SR got) mid /\ (from_be got = SOCK_ESTABLISHED \/ from_be got = SOCK_CLOSED).
Definition outcome_awaited (j : N) (tr : list event) : Prop :=
  forall c mid, two_commands j tr c mid -> Forall (fun ev => ev_result ev = Ok tt) mid ->
    (c = u8 CR_SEND -> send_over j mid) /\ (c = u8 CR_CONNECT -> connect_over j mid).

Lemma sending_over j : forall mid rd rest, accepted j (Sending rd) (mid ++ rest) ->
  Forall (fun ev => ev_result ev = Ok tt) mid -> Forall (fun ev => ~ commands_socket j ev) mid ->
  send_over j mid \/ (exists v got t, rd = Some v /\ mid = socket_read j Sn_TX_WR got :: t /\ from_be got = v) \/
  exists rd', accepted j (Sending rd') rest.
Proof.
  induction mid as [|ev mid IH]; intros rd rest H F1 F2; [right; right; now exists rd|].
  inversion F1 as [|? ? E1 F1']; subst. inversion F2 as [|? ? E2 F2']; subst. cbn [app accepted] in H. destruct H as [_ H].
  assert (K : forall rd', sees j (Sending rd) ev = Sending rd' -> (forall v, rd' = Some v -> exists got, ev = socket_read j Sn_TX_RD got /\ from_be got = v) ->
    send_over j (ev :: mid) \/ exists rd'', accepted j (Sending rd'') rest).
  { intros rd' E Hv. rewrite E in H. destruct (IH _ _ H F1' F2') as [[(got & X1 & X2)|(t & g & g' & t' & -> & X)]|[(v & got & t & -> & -> & X)|X]].
    - left. left. exists got. split; [now right|exact X2].
    - left. right. now exists (ev :: t), g, g', t'.
    - destruct (Hv _ eq_refl) as (g & -> & G). left. right. exists [], g, got, t. split; [reflexivity|now rewrite X].
    - now right. }
  assert (K0 : sees j (Sending rd) ev = Sending None -> send_over j (ev :: mid) \/ exists rd'', accepted j (Sending rd'') rest).
  { intros E. apply (K _ E). discriminate. }
  assert (Fin : send_over j (ev :: mid) \/ (exists rd'', accepted j (Sending rd'') rest) -> send_over j (ev :: mid) \/ (exists v got t, rd = Some v /\ ev :: mid = socket_read j Sn_TX_WR got :: t /\ from_be got = v) \/ exists rd', accepted j (Sending rd') rest) by tauto.
  destruct ev as [b a got r|b a d r]; cbn [ev_result sees commands_socket] in *; subst r.
  - unfold sees_read in *. destruct (N.eqb_spec b (BSB_REG j)) as [->|]; [|apply Fin, K0; reflexivity].
    destruct (N.eqb_spec a Sn_IR) as [->|N1].
    { destruct (N.testbit (from_be got) 4 || N.testbit (from_be got) 3) eqn:T; [|apply Fin, K0; reflexivity].
      left. left. exists got. split; [now left|]. now apply orb_true_iff in T. }
    destruct (N.eqb_spec a Sn_TX_RD) as [->|N2].
    { apply Fin, (K (Some (from_be got))); [reflexivity|]. intros v [= <-]. now exists got. }
    destruct (N.eqb_spec a Sn_TX_WR) as [->|N3]; [|apply Fin, K0; reflexivity].
    destruct rd as [v|]; [|apply Fin, K0; reflexivity]. destruct (N.eqb_spec v (from_be got)) as [->|]; [|apply Fin, K0; reflexivity].
    right. left. now exists (from_be got), got, mid.
  - apply Fin, K0. unfold sees_write, command_to. destruct (N.eqb_spec b (BSB_REG j)) as [->|]; [|reflexivity]. destruct (N.eqb_spec a Sn_CR) as [->|]; [now destruct E2|reflexivity].
Qed.
Lemma connecting_over j : forall mid rest, accepted j Connecting (mid ++ rest) ->
  Forall (fun ev => ev_result ev = Ok tt) mid -> Forall (fun ev => ~ commands_socket j ev) mid ->
  connect_over j mid \/ accepted j Connecting rest.
Proof.
  induction mid as [|ev mid IH]; intros rest H F1 F2; [right; exact H|].
  inversion F1 as [|? ? E1 F1']; subst. inversion F2 as [|? ? E2 F2']; subst. cbn [app accepted] in H. destruct H as [_ H].
  assert (K : sees j Connecting ev = Connecting -> connect_over j (ev :: mid) \/ accepted j Connecting rest).
  { intros E. rewrite E in H. destruct (IH _ H F1' F2') as [(got & X1 & X2)|X]; [|now right]. left. exists got. split; [now right|exact X2]. }
  destruct ev as [b a got r|b a d r]; cbn [ev_result sees commands_socket] in *; subst r.
  - unfold sees_read in *. destruct (N.eqb_spec b (BSB_REG j)) as [->|]; [|now apply K].
    destruct (N.eqb_spec a Sn_SR) as [->|N1]; [|now apply K]. cbn [andb] in *.
    destruct ((from_be got =? SOCK_ESTABLISHED) || (from_be got =? SOCK_CLOSED)) eqn:T; [|now apply K].
    left. exists got. split; [now left|]. apply orb_true_iff in T. rewrite !N.eqb_eq in T. exact T.
  - apply K. unfold sees_write, command_to. destruct (N.eqb_spec b (BSB_REG j)) as [->|]; [|reflexivity]. destruct (N.eqb_spec a Sn_CR) as [->|]; [now destruct E2|reflexivity].
Qed.
Lemma accepted_awaited j st tr : accepted j st tr -> outcome_awaited j tr.
Proof.
  intros H c mid (t1 & c' & r' & t3 & -> & F2) F1. apply accepted_app in H as (st' & H). cbn [accepted] in H. destruct H as [_ H].
  assert (No : forall st'', accepted j st'' (EWrite (BSB_REG j) Sn_CR c' r' :: t3) -> st'' = Idle).
  { intros st'' [X _]. apply X. unfold command_to. rewrite !N.eqb_refl. discriminate. }
  cbn [sees] in H. unfold sees_write, command_to in H. rewrite !N.eqb_refl in H. cbn [andb] in H.
  split; intros ->.
  - change (from_be [u8 CR_SEND] =? CR_SEND) with true in H. cbn iota in H. destruct (sending_over _ _ _ _ H F1 F2) as [X|[(v & g & t & X & _)|(rd & X)]]; [exact X|discriminate X|].
    now apply No in X.
  - change (from_be [u8 CR_CONNECT] =? CR_SEND) with false in H. change (from_be [u8 CR_CONNECT] =? CR_CONNECT) with true in H. cbn iota in H.
    destruct (connecting_over _ _ _ H F1 F2) as [X|X]; [exact X|]. now apply No in X.
Qed.

(** no [Socket::command] by hand *)
Definition no_raw_command (ops : list op) : Prop := forall h c, ~ In (OpSocket h (KCommand c)) ops.
Theorem C94_partial :
  forall b h m fuel ops tr o j, no_raw_command ops -> exec (device_program b h m fuel ops) tr o -> outcome_awaited j tr.
Proof.
  intros b h m fuel ops tr o j NR X. assert (Q : Forall (quiet_op j) ops).
  { apply Forall_forall. intros q Hq h' c ->. now destruct (NR h' c). }
  exact (accepted_awaited j _ _ (watched_exec j _ _ _ _ X _ (m_device_program j b h m fuel ops Q))).
Qed.
Print Assumptions C94_partial.
Theorem C94_macraw_partial :
  forall m fuel ops tr o j, exec (macraw_program m fuel ops) tr o -> outcome_awaited j tr.
Proof. intros m fuel ops tr o j X. exact (accepted_awaited j _ _ (watched_exec j _ _ _ _ X _ (m_macraw_program j m fuel ops))). Qed.
Print Assumptions C94_macraw_partial.

(** two datagrams: the second SEND comes after SENDOK was read *)
Definition sends : list op := [OpUdpSocket; OpUdpBind 0 7; OpUdpSendTo 0 (V4 (Addr4 (Ip4 x0a x00 x00 x02) 99)) [x41; x42]; OpUdpSend 0 [x43]].
Example C94_case : exists tr mid,
  no_raw_command sends /\ exec (device_program false Dhcp mode_default 5 sends) tr Cut /\
  two_commands 0 tr (u8 CR_SEND) mid /\ Forall (fun ev => ev_result ev = Ok tt) mid /\
  In (socket_read 0 Sn_IR [x10]) mid /\ (length mid > 10)%nat.
Proof.
  destruct (replay (device_program false Dhcp mode_default 5 sends)
    (repeat ([], Ok tt) 2 ++ repeat ([], Ok tt) 7 ++
     [([], Ok tt); ([], Ok tt); ([x22], Ok tt); ([x08; x00], Ok tt); ([x22], Ok tt); ([x08; x00], Ok tt);
      ([x12; x34], Ok tt); ([], Ok tt); ([], Ok tt); ([], Ok tt)] ++
     [([x12; x34], Ok tt); ([x12; x36], Ok tt); ([x12; x36], Ok tt); ([x12; x36], Ok tt); ([x10], Ok tt); ([], Ok tt); ([x08; x00], Ok tt);
      ([x22], Ok tt); ([x08; x00], Ok tt); ([x22], Ok tt); ([x08; x00], Ok tt); ([x12; x36], Ok tt); ([], Ok tt); ([], Ok tt); ([], Ok tt)])) as [tr o] eqn:E.
  pose proof (replay_eq _ _ _ _ E) as X. vm_compute in E. injection E as <- <-.
  match type of X with exec _ ?tr _ => exists tr, (firstn 14 (skipn 19 tr)) end. split; [|split; [exact X|]].
  - intros h c. cbn. intros Y. decompose [or] Y; try discriminate; contradiction.
  - split; [|split; [repeat constructor|split; [cbn; tauto|cbn; lia]]].
    match type of X with exec _ ?tr _ => exists (firstn 18 tr) end. eexists _, _, []. split; [reflexivity|].
    cbn. repeat constructor; cbn; unfold BSB_REG, Sn_CR; try (intros []); try discriminate; lia.
Qed.

(** a connect and a close: the CLOSE comes after ESTABLISHED was read *)
Example C94_connect_case : exists tr mid o,
  exec (device_program false Dhcp mode_default 5 [OpTcpSocket; OpTcpConnect 0 (V4 (Addr4 (Ip4 x0a x00 x00 x02) 99)); OpTcpClose 0]) tr o /\
  two_commands 0 tr (u8 CR_CONNECT) mid /\ Forall (fun ev => ev_result ev = Ok tt) mid /\
  In (socket_read 0 Sn_SR [x15]) mid /\ In (socket_read 0 Sn_SR [x17]) mid.
Proof.
  destruct (replay (device_program false Dhcp mode_default 5 [OpTcpSocket; OpTcpConnect 0 (V4 (Addr4 (Ip4 x0a x00 x00 x02) 99)); OpTcpClose 0])
    (repeat ([], Ok tt) 2 ++ repeat ([], Ok tt) 6 ++
     [([x13], Ok tt); ([], Ok tt); ([], Ok tt); ([], Ok tt); ([x15], Ok tt); ([x17], Ok tt); ([], Ok tt); ([], Ok tt)])) as [tr o] eqn:E.
  pose proof (replay_eq _ _ _ _ E) as X. vm_compute in E. injection E as <- <-.
  match type of X with exec _ ?tr _ => exists tr, (firstn 3 (skipn 12 tr)) end. eexists. split; [exact X|].
  split; [|split; [repeat constructor|split; cbn; tauto]].
  match type of X with exec _ ?tr _ => exists (firstn 11 tr) end. eexists _, _, []. split; [reflexivity|].
  cbn. repeat constructor; cbn; unfold BSB_REG, Sn_CR; try (intros []); try discriminate; lia.
Qed.
Example C94_macraw_case : exists tr mid,
  exec (macraw_program (Mac x02 x03 x04 x05 x06 x07) 5 [RwWrite [x41]; RwWrite [x42]]) tr Cut /\
  two_commands 0 tr (u8 CR_SEND) mid /\ Forall (fun ev => ev_result ev = Ok tt) mid /\
  In (socket_read 0 Sn_IR [x10]) mid.
Proof.
  destruct (replay (macraw_program (Mac x02 x03 x04 x05 x06 x07) 5 [RwWrite [x41]; RwWrite [x42]])
    (repeat ([], Ok tt) 20 ++ [([], Ok tt); ([x40; x00], Ok tt); ([x12; x34], Ok tt); ([], Ok tt); ([], Ok tt); ([], Ok tt); ([x00], Ok tt); ([x10], Ok tt)] ++
      [([], Ok tt); ([x40; x00], Ok tt); ([x12; x35], Ok tt); ([], Ok tt); ([], Ok tt); ([], Ok tt)])) as [tr o] eqn:E.
  pose proof (replay_eq _ _ _ _ E) as X. vm_compute in E. injection E as <- <-.
  match type of X with exec _ ?tr _ => exists tr, (firstn 7 (skipn 26 tr)) end. split; [exact X|].
  split; [|split; [repeat constructor|cbn; tauto]].
  match type of X with exec _ ?tr _ => exists (firstn 25 tr) end. eexists _, _, []. split; [reflexivity|].
  cbn. repeat constructor; cbn; unfold BSB_REG, Sn_CR; try (intros []); try discriminate; lia.
Qed.
