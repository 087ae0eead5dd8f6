(** C86: every error a call reports has its cause in what the chip or the bus answered. *)
From Verif Require Import Causes Commands Cases TwoDeviceFacts.
From Verif Require Import Datasheet.

(** the error in the result of a call *)
Definition tcp_error (r : out) : option terr :=
  match r with
  | RTcpSocket (Err e) | RTcpClose (Err e) => Some e
  | RTcpConnect (Err (NbOther e)) | RTcpSend (Err (NbOther e)) | RTcpReceive _ (Err (NbOther e)) => Some e
  | _ => None
  end.
Definition udp_error (r : out) : option uerr :=
  match r with
  | RUdpSocket (Err e) | RUdpUnit (Err e) => Some e
  | RUdpSend (Err (NbOther e)) | RUdpReceive _ (Err (NbOther e)) => Some e
  | _ => None
  end.
(** the values of Sn_SR in the datasheet *)
Definition known_status : list byte := [x00; x13; x14; x15; x16; x17; x18; x1a; x1b; x1c; x1d; x22; x42].
Lemma known_status_spec b : status_try_from b = None <-> ~ In b known_status.
Proof.
  split.
  - intros H Hin. cbn in Hin. repeat (destruct Hin as [<-|Hin]; [discriminate H|]). contradiction.
  - intros H. destruct b; try reflexivity; elim H; cbn; auto 20.
Qed.

(** [tr]: the accesses of the call; [i]: the number of the socket the call is about; Sn_SR is
    register 3, Sn_IR 2, Sn_TX_FSR 0x20, Sn_RX_RSR 0x26. *)
Theorem C86_tcp_errors :
  forall fuel ho ops tr0 a outs, program fuel ho ops tr0 a outs ->
  forall o tr a' r, exec (step fuel a o) tr (Done (a', r)) ->
  forall e, tcp_error r = Some e ->
  exists i, (forall h, op_handle o = Some h -> exists t, lookup h (handles a) = Some (HTcp t) /\ index (t_socket t) = i) /\
  match e with
  | TNoMoreSockets => o = OpTcpSocket /\ tr = []
  | TUnsupportedAddress => (exists h, o = OpTcpConnect h V6) /\ tr = []
  | TNotConnected => (exists h d, o = OpTcpSend h d \/ o = OpTcpReceive h d) /\
      exists b, tr = [ERead (4 * i + 1) 3 [b] (Ok tt)] /\ b <> x17
  | TUnsupportedMode => (exists h q, o = OpTcpConnect h (V4 q)) /\
      exists tr1 b, tr = tr1 ++ [ERead (4 * i + 1) 3 [b] (Ok tt)] /\ (b = x22 \/ b = x42 \/ ~ In b known_status)
  | TOther x => exists tr1 ev, tr = tr1 ++ [ev] /\ ev_result ev = Err x
  end.
Proof.
  intros fuel ho ops tr0 a outs X o tr a' r Y e E. destruct (program_inv _ _ _ _ _ _ X) as (I & _). clear X tr0 outs ops ho.
  assert (Bus : forall (tr : list event) x, busf x (rev tr ++ []) -> exists tr1 ev, tr = tr1 ++ [ev] /\ ev_result ev = Err x).
  { intros tr' x (ev & h' & H & R). rewrite app_nil_r in H. exists (rev h'), ev. split; [|exact R]. rewrite <- (rev_involutive tr'), H. reflexivity. }
  assert (Last : forall (tr : list event) ev h', rev tr ++ [] = ev :: h' -> tr = rev h' ++ [ev]).
  { intros tr' ev h' H. rewrite app_nil_r in H. rewrite <- (rev_involutive tr'), H. reflexivity. }
  destruct o as [| | |h rm|h d|h d|h| | | | | | | | | |q| |h q]; cbn [step] in Y.
  all: try (repeat match type of Y with exec (match ?x with _ => _ end) _ _ => destruct x end; try solve [inversion Y]; try (apply exec_map in Y as (z & Y & Z)); try (apply exec_Ret_inv in Y as [_ [Y|Y]]); try discriminate Y; try injection Y as -> ->; try injection Z as -> ->; discriminate E).
  - (* socket *) unfold tcp_socket in Y. destruct (take_socket (dev a)) as [dv [sk|]]; apply exec_Ret_inv in Y as [-> [Y|Y]]; try discriminate Y; injection Y as -> ->; [discriminate E|].
    injection E as <-. exists 0. split; [discriminate|auto].
  - (* connect *) destruct (lookup h (handles a)) as [[|t|]|] eqn:L; try (apply exec_Ret_inv in Y as [_ [Y|Y]]; [injection Y as -> ->; discriminate E|discriminate Y]).
    apply exec_map in Y as (z & Y & Z). injection Z as -> ->. destruct (pi_lookup _ _ _ I L) as (i & Hi & Ei & _). cbn [handle_socket] in Ei. destruct t as [t]. cbn [t_socket] in Ei. subst t.
    exists i. split; [intros h' [= <-]; exists (mkTcp (socket_new i)); auto|].
    destruct rm as [q|].
    + pose proof (after_exec _ _ _ _ Y _ [] eq_refl (ta_connect i Hi fuel q [])) as K. unfold tconn in K. cbn [tcp_error] in E. destruct z as [z|[|e0]]; try discriminate E. injection E as ->.
      destruct e; try contradiction; [now apply Bus|]. split; [eauto|]. destruct K as (b & h' & K & Kb). exists (rev h'), b. split; [apply Last; exact K|].
      destruct Kb as [Kb|[Kb|Kb]]; auto. right. right. now apply known_status_spec.
    + cbn [tcp_connect] in Y. apply exec_Ret_inv in Y as [-> [Y|Y]]; [|discriminate Y]. injection Y as ->. injection E as <-. split; [eauto|reflexivity].
  - (* send *) destruct (lookup h (handles a)) as [[|t|]|] eqn:L; try (apply exec_Ret_inv in Y as [_ [Y|Y]]; [injection Y as -> ->; discriminate E|discriminate Y]).
    apply exec_map in Y as (z & Y & Z). injection Z as -> ->. destruct (pi_lookup _ _ _ I L) as (i & Hi & Ei & _). cbn [handle_socket] in Ei. destruct t as [t]. cbn [t_socket] in Ei. subst t.
    exists i. split; [intros h' [= <-]; exists (mkTcp (socket_new i)); auto|].
    pose proof (after_exec _ _ _ _ Y _ [] eq_refl (ta_send i Hi fuel d [])) as K. unfold tio in K. cbn [tcp_error] in E. destruct z as [z|[|e0]]; try discriminate E. injection E as ->.
    destruct e; try contradiction; [|now apply Bus]. split; [eauto|]. destruct K as (b & K & Kb). exists b. split; [apply (Last _ _ _ K)|exact Kb].
  - (* receive *) destruct (lookup h (handles a)) as [[|t|]|] eqn:L; try (apply exec_Ret_inv in Y as [_ [Y|Y]]; [injection Y as -> ->; discriminate E|discriminate Y]).
    apply exec_map in Y as (z & Y & Z). injection Z as -> ->. destruct (pi_lookup _ _ _ I L) as (i & Hi & Ei & _). cbn [handle_socket] in Ei. destruct t as [t]. cbn [t_socket] in Ei. subst t.
    exists i. split; [intros h' [= <-]; exists (mkTcp (socket_new i)); auto|].
    pose proof (after_exec _ _ _ _ Y _ [] eq_refl (ta_receive i Hi fuel d [])) as K. unfold tio in K. cbn [tcp_error] in E. destruct z as [bf [z|[|e0]]]; try discriminate E. injection E as ->. cbn [snd] in K.
    destruct e; try contradiction; [|now apply Bus]. split; [eauto|]. destruct K as (b & K & Kb). exists b. split; [apply (Last _ _ _ K)|exact Kb].
  - (* close *) destruct (lookup h (handles a)) as [[|t|]|] eqn:L; try (apply exec_Ret_inv in Y as [_ [Y|Y]]; [injection Y as -> ->; discriminate E|discriminate Y]).
    apply exec_map in Y as (z & Y & Z). injection Z as -> ->. destruct (pi_lookup _ _ _ I L) as (i & Hi & Ei & _). cbn [handle_socket] in Ei. destruct t as [t]. cbn [t_socket] in Ei. subst t.
    exists i. split; [intros h' [= <-]; exists (mkTcp (socket_new i)); auto|].
    pose proof (after_exec _ _ _ _ Y _ [] eq_refl (ta_tcp_close i (dev a) [])) as K. unfold tonly in K. cbn [tcp_error] in E. destruct z as [bf [z|e0]]; try discriminate E. injection E as ->. cbn [snd] in K.
    destruct e; try contradiction. now apply Bus.
Qed.
Print Assumptions C86_tcp_errors.

(** [UDestinationNotSet] is about what the handle remembers, not about the chip: a handle that was
    bound and never connected or used with send_to. *)
Theorem C86_udp_errors :
  forall fuel ho ops tr0 a outs, program fuel ho ops tr0 a outs ->
  forall o tr a' r, exec (step fuel a o) tr (Done (a', r)) ->
  forall e, udp_error r = Some e ->
  exists i, (forall h, op_handle o = Some h -> exists u, lookup h (handles a) = Some (HUdp u) /\ index (u_socket u) = i) /\
  let sends := exists h d, o = OpUdpSend h d \/ exists q, o = OpUdpSendTo h (V4 q) d in
  match e with
  | UNoMoreSockets => o = OpUdpSocket /\ tr = []
  | UUnsupportedAddress => (exists h, o = OpUdpConnect h V6 \/ exists d, o = OpUdpSendTo h V6 d) /\ tr = []
  | USocketNotOpen => (sends \/ exists h d, o = OpUdpReceive h d) /\
      exists tr1 b, tr = tr1 ++ [ERead (4 * i + 1) 3 [b] (Ok tt)] /\ b <> x22 /\ In b known_status
  | UUnrecognisedStatus => (sends \/ exists h d, o = OpUdpReceive h d) /\
      exists tr1 b, tr = tr1 ++ [ERead (4 * i + 1) 3 [b] (Ok tt)] /\ ~ In b known_status
  | UDestinationNotSet => exists h d u, o = OpUdpSend h d /\ lookup h (handles a) = Some (HUdp u) /\ u_dest u = None /\
      tr = [ERead (4 * i + 1) 3 [x22] (Ok tt)]
  | UBufferFull => sends /\ exists tr1 v, tr = tr1 ++ [ERead (4 * i + 1) 0x20 v (Ok tt)] /\ length v = 2%nat /\ from_be v = 0
  | UWriteTimeout => sends /\ exists tr1 f1 f2,
      tr = tr1 ++ [ERead (4 * i + 1) 2 [f1] (Ok tt); ERead (4 * i + 1) 2 [f2] (Ok tt); EWrite (4 * i + 1) 2 [x08] (Ok tt)] /\
      N.testbit (b2n f1) 4 = false /\ N.testbit (b2n f2) 3 = true
  | UBufferOverflow => exists h, o = OpUdpReceive h [] /\
      exists tr1 v, tr = tr1 ++ [ERead (4 * i + 1) 0x26 v (Ok tt)] /\ length v = 2%nat /\ from_be v <> 0
  | UOther x => exists tr1 ev, tr = tr1 ++ [ev] /\ ev_result ev = Err x
  end.
Proof.
  intros fuel ho ops tr0 a outs X o tr a' r Y e E. destruct (program_inv _ _ _ _ _ _ X) as (I & _). clear X tr0 outs ops ho.
  assert (Bus : forall (tr : list event) x, busf x (rev tr ++ []) -> exists tr1 ev, tr = tr1 ++ [ev] /\ ev_result ev = Err x).
  { intros tr' x (ev & h' & H & R). rewrite app_nil_r in H. exists (rev h'), ev. split; [|exact R]. rewrite <- (rev_involutive tr'), H. reflexivity. }
  assert (Last : forall (tr : list event) ev h', rev tr ++ [] = ev :: h' -> tr = rev h' ++ [ev]).
  { intros tr' ev h' H. rewrite app_nil_r in H. rewrite <- (rev_involutive tr'), H. reflexivity. }
  assert (Only : forall i z, uonly (rev tr ++ []) (@Err unit _ z) -> udp_error r = Some z ->
    (forall h, op_handle o = Some h -> exists u, lookup h (handles a) = Some (HUdp u) /\ index (u_socket u) = i) ->
    exists x, e = UOther x /\ exists tr1 ev, tr = tr1 ++ [ev] /\ ev_result ev = Err x).
  { intros i z U Ez _. rewrite Ez in E. injection E as ->. destruct e; cbn in U; try contradiction. eauto. }
  assert (Send : forall i u z, usend i u [] (rev tr ++ []) (@Err unit _ (NbOther z)) ->
    match z with
    | UOther x => exists tr1 ev, tr = tr1 ++ [ev] /\ ev_result ev = Err x
    | USocketNotOpen => exists tr1 b, tr = tr1 ++ [ERead (4 * i + 1) 3 [b] (Ok tt)] /\ b <> x22 /\ In b known_status
    | UUnrecognisedStatus => exists tr1 b, tr = tr1 ++ [ERead (4 * i + 1) 3 [b] (Ok tt)] /\ ~ In b known_status
    | UBufferFull => exists tr1 v, tr = tr1 ++ [ERead (4 * i + 1) 0x20 v (Ok tt)] /\ length v = 2%nat /\ from_be v = 0
    | UWriteTimeout => exists tr1 f1 f2,
        tr = tr1 ++ [ERead (4 * i + 1) 2 [f1] (Ok tt); ERead (4 * i + 1) 2 [f2] (Ok tt); EWrite (4 * i + 1) 2 [x08] (Ok tt)] /\
        N.testbit (b2n f1) 4 = false /\ N.testbit (b2n f2) 3 = true
    | UDestinationNotSet => u_dest u = None /\ tr = [ERead (4 * i + 1) 3 [x22] (Ok tt)]
    | _ => False
    end).
  { intros i u z K. destruct z; cbn [usend] in K; try contradiction.
    - destruct K as (b & h' & K & Kb). exists (rev h'), b. split; [apply Last; exact K|]. now apply known_status_spec.
    - destruct K as (v & h' & K & Kv). exists (rev h'), v. split; [apply Last; exact K|exact Kv].
    - destruct K as [K1 K2]. split; [exact K1|]. exact (Last _ _ _ K2).
    - destruct K as (b & h' & K & Kb & Kc). exists (rev h'), b. split; [apply Last; exact K|]. split; [exact Kb|].
      destruct (in_dec Byte.byte_eq_dec b known_status) as [Hin|Hin]; [exact Hin|]. apply known_status_spec in Hin. contradiction.
    - now apply Bus.
    - destruct K as (f1 & f2 & h' & K & K1 & K2). exists (rev h'), f1, f2. split; [|auto]. rewrite (Last _ _ _ K). cbn [rev]. rewrite <- !app_assoc. reflexivity. }
  destruct o as [| | | | | | | |h rm|h p|h d|h rm d|h d|h| | |q|h p|h q]; cbn [step] in Y.
  all: try (repeat match type of Y with exec (match ?x with _ => _ end) _ _ => destruct x end; try solve [inversion Y]; try (apply exec_map in Y as (z & Y & Z)); try (apply exec_Ret_inv in Y as [_ [Y|Y]]); try discriminate Y; try injection Y as -> ->; try injection Z as -> ->; discriminate E).
  1: { unfold udp_socket in Y. destruct (take_socket (dev a)) as [dv [sk|]]; apply exec_Ret_inv in Y as [-> [Y|Y]]; try discriminate Y; injection Y as -> ->; [discriminate E|].
    injection E as <-. exists 0. split; [discriminate|cbv zeta; auto]. }
  all: destruct (lookup h (handles a)) as [[| |u]|] eqn:L; try (apply exec_Ret_inv in Y as [_ [Y|Y]]; [injection Y as -> ->; discriminate E|discriminate Y]).
  all: apply exec_map in Y as (z & Y & Z); injection Z as -> ->; destruct (pi_lookup _ _ _ I L) as (i & Hi & Ei & _); cbn [handle_socket] in Ei.
  all: assert (Hh : forall h0, Some h = Some h0 -> exists u0, lookup h0 (handles a) = Some (HUdp u0) /\ index (u_socket u0) = i) by (intros h0 [= <-]; exists u; split; [exact L|now rewrite Ei]).
  all: exists i; (split; [exact Hh|]); cbv zeta; cbn [op_handle] in Only.
  - (* connect *) destruct rm as [q|].
    + pose proof (after_exec _ _ _ _ Y _ [] eq_refl (ua_connect u q [])) as K. cbn [udp_error] in E, Only. destruct z as [u' [z|z]]; cbn [snd] in *; try discriminate E.
      destruct (Only i z K eq_refl Hh) as (x & -> & B). exact B.
    + cbn [udp_connect] in Y. apply exec_Ret_inv in Y as [-> [Y|Y]]; [|discriminate Y]. injection Y as ->. cbn in E. injection E as <-. split; [eauto|reflexivity].
  - (* bind *) pose proof (after_exec _ _ _ _ Y _ [] eq_refl (ua_bind u p [])) as K. cbn [udp_error] in E, Only. destruct z as [u' [z|z]]; cbn [snd] in *; try discriminate E.
    destruct (Only i z K eq_refl Hh) as (x & -> & B). exact B.
  - (* send *) pose proof (after_exec _ _ _ _ Y _ [] eq_refl (ua_send i Hi u Ei fuel d [])) as K. cbn [udp_error] in E. destruct z as [z|[|z]]; try discriminate E. injection E as ->.
    specialize (Send i u e K). destruct e; try contradiction; try (split; [|exact Send]; eauto 6); try exact Send; try (left; eauto 6).
    destruct Send as [S1 S2]. exists h, d, u. auto.
  - (* send_to *) destruct rm as [q|].
    + pose proof (after_exec _ _ _ _ Y _ [] eq_refl (ua_send_to i Hi u Ei fuel q d [])) as K. cbn [udp_error] in E. destruct z as [u' [z|[|z]]]; cbn [snd] in *; try discriminate E. injection E as ->.
      specialize (Send i _ e K). destruct e; try contradiction; try (split; [|exact Send]; eauto 8); try exact Send; try (left; eauto 8).
      destruct Send as [S1 S2]. discriminate S1.
    + cbn [udp_send_to] in Y. apply exec_Ret_inv in Y as [-> [Y|Y]]; [|discriminate Y]. injection Y as ->. cbn in E. injection E as <-. split; [eauto|reflexivity].
  - (* receive *) pose proof (after_exec _ _ _ _ Y _ [] eq_refl (ua_receive i Hi u Ei fuel d [])) as K. cbn [udp_error] in E. destruct z as [bf [z|[|z]]]; cbn [snd urecv_why] in *; try discriminate E. injection E as ->.
    destruct e; try contradiction.
    + destruct K as (b & K & Kb). split; [eauto 6|]. exists [], b. split; [exact (Last _ _ _ K)|]. now apply known_status_spec.
    + destruct K as (-> & v & h' & K & Kv). exists h. split; [reflexivity|]. exists (rev h'), v. split; [apply Last; exact K|exact Kv].
    + destruct K as (b & K & Kb & Kc). split; [eauto 6|]. exists [], b. split; [exact (Last _ _ _ K)|]. split; [exact Kb|].
      destruct (in_dec Byte.byte_eq_dec b known_status) as [Hin|Hin]; [exact Hin|]. apply known_status_spec in Hin. contradiction.
    + now apply Bus.
  - (* close *) pose proof (after_exec _ _ _ _ Y _ [] eq_refl (ua_close (dev a) u [])) as K. cbn [udp_error] in E, Only. destruct z as [u' [z|z]]; cbn [snd] in *; try discriminate E.
    destruct (Only i z K eq_refl Hh) as (x & -> & B). exact B.
  - (* set_port *) pose proof (after_exec _ _ _ _ Y _ [] eq_refl (ua_set_port u p [])) as K. cbn [udp_error] in E, Only. destruct z as [u' [z|z]]; cbn [snd] in *; try discriminate E.
    destruct (Only i z K eq_refl Hh) as (x & -> & B). exact B.
Qed.
Print Assumptions C86_udp_errors.

(** The kind embedded-nal users see: PipeClosed means that a send or receive found the connection
    not established. *)
Theorem C86_error_kind :
  forall fuel ho ops tr0 a outs, program fuel ho ops tr0 a outs ->
  forall o tr a' r, exec (step fuel a o) tr (Done (a', r)) ->
  forall e, tcp_error r = Some e -> terr_kind e = KPipeClosed ->
  exists h d t b, (o = OpTcpSend h d \/ o = OpTcpReceive h d) /\ lookup h (handles a) = Some (HTcp t) /\
    tr = [ERead (4 * index (t_socket t) + 1) 3 [b] (Ok tt)] /\ b <> x17.
Proof.
  intros fuel ho ops tr0 a outs X o tr a' r Y e E K. destruct (C86_tcp_errors _ _ _ _ _ _ X _ _ _ _ Y e E) as (i & H & C).
  destruct e; try discriminate K. destruct C as ((h & d & Ho) & b & -> & Hb).
  destruct (H h) as (t & L & <-); [destruct Ho as [-> | ->]; reflexivity|]. exists h, d, t, b. auto.
Qed.
Print Assumptions C86_error_kind.

(** a send on a socket in CLOSE_WAIT; a UDP send whose datagram timed out *)
Definition err_ops : list op := [OpTcpSocket; OpUdpSocket; OpUdpConnect 1 (V4 (Addr4 (Ip4 x0a x00 x00 x09) 80))].
Example C86_case : exists tr a outs tr1 tr2,
  program 5 Dhcp err_ops tr a outs /\
  exec (step 5 a (OpTcpSend 0 [x41])) tr1 (Done (a, RTcpSend (Err (NbOther TNotConnected)))) /\
  exec (step 5 a (OpUdpSend 1 [x41])) tr2 (Done (a, RUdpSend (Err (NbOther UWriteTimeout)))) /\ length tr2 = 13%nat.
Proof.
  destruct (replay (run_ops 5 (app_new Dhcp) err_ops) (repeat ([], Ok tt) 8)) as [tr o] eqn:E.
  pose proof (replay_eq _ _ _ _ E) as X. vm_compute in E. injection E as <- <-.
  match type of X with exec _ _ (Done (?a, _)) => set (a0 := a) in * end.
  eexists _, _, _, _, _. split; [exact X|]. split; [apply (replay_eq _ [([x1c], Ok tt)]); vm_compute; reflexivity|].
  split; [|shelve]. apply (replay_eq _ [([x22], Ok tt); ([x08; x00], Ok tt); ([x22], Ok tt); ([x08; x00], Ok tt); ([x00; x00], Ok tt); ([], Ok tt); ([], Ok tt); ([], Ok tt);
    ([x00; x01], Ok tt); ([x00; x01], Ok tt); ([x00], Ok tt); ([x08], Ok tt); ([], Ok tt)]). vm_compute. reflexivity.
  Unshelve. reflexivity.
Qed.
