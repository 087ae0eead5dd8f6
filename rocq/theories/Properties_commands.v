(** C84, C85: which commands a call gives to which socket, and whom a socket dials. *)
From Verif Require Import Dial Cases TwoDeviceFacts RawHistory.
From Verif Require Import Datasheet.

(** the commands each call may give ([W5500 datasheet, Sn_CR]: OPEN 0x01, CONNECT 0x04, CLOSE
    0x10, SEND 0x20, RECV 0x40) *)
Definition own_commands (o : op) : list N :=
  match o with
  | OpTcpConnect _ _ => [0x10; 0x01; 0x04]
  | OpUdpConnect _ _ | OpUdpBind _ _ => [0x10; 0x01]
  | OpTcpSend _ _ | OpUdpSend _ _ | OpUdpSendTo _ _ _ => [0x20]
  | OpTcpReceive _ _ | OpUdpReceive _ _ => [0x40]
  | OpTcpClose _ | OpUdpClose _ => [0x10]
  | OpSocket _ (KCommand c) => [command_u8 c]
  | _ => []
  end.

(** ** C84 *)
(** At every moment of every program, whatever the bus answers and whether or not the call
    finishes: a write to the registers of a socket is to the socket of the handle the call is
    about, and if it covers Sn_CR (0x0001) it is one byte to it, one of the commands of this call. *)
Theorem C84_own_commands :
  forall fuel ho ops tr0 a outs, program fuel ho ops tr0 a outs ->
  forall o tr end_, exec (step fuel a o) tr end_ ->
  forall i x d r, In (EWrite (4 * i + 1) x d r) tr ->
    (exists h y, op_handle o = Some h /\ lookup h (handles a) = Some y /\ index (handle_socket y) = i) /\
    x + len d <= 65536 /\
    (x <= 1 < x + len d -> x = 1 /\ exists c, In c (own_commands o) /\ d = [u8 c]).
Proof.
  intros fuel ho ops tr0 a outs X o tr end_ E i x d r Hin.
  destruct (program_inv _ _ _ _ _ _ X) as (I & _).
  assert (G : good (handles a)) by (intros h y Hy; destruct (pi_socket _ I h y Hy) as (j & Hj & -> & _); exists j; split; [exact Hj|reflexivity]).
  pose proof (fun j H => writes_exec _ _ _ _ E (cw_step_at fuel a o j G H) _ _ _ _ Hin i ltac:(unfold BSB_REG; lia)) as W.
  assert (L : exists h y, op_handle o = Some h /\ lookup h (handles a) = Some y).
  { destruct (op_handle o) as [h|]; [destruct (lookup h (handles a)) as [y|] eqn:L; [eauto|]|].
    - destruct (W (i + 1)) as (K & _); [intros h' y [= <-]; congruence|lia].
    - destruct (W (i + 1)) as (K & _); [discriminate|lia]. }
  destruct L as (h & y & Eh & Ly). destruct (W (index (handle_socket y))) as (K1 & K2); [congruence|]. split; [eauto|].
  destruct K2 as [K|[(K & K')|(-> & c & Hc & ->)]].
  - unfold Sn_CR in K. split; [lia|]. intros H. lia.
  - unfold Sn_CR in K. split; [lia|]. intros H. lia.
  - split; [unfold Sn_CR, len; cbn; lia|]. intros _. split; [reflexivity|]. exists c. split; [exact Hc|reflexivity].
Qed.
Print Assumptions C84_own_commands.

(** A MACRAW device gives commands to socket 0 only: RECV in read_frame, SEND in write_frame,
    none in the interrupt calls. *)
Theorem C84_own_commands_macraw :
  forall fuel o tr end_, exec (raw_step fuel (mkRaw (socket_new 0)) o) tr end_ ->
  forall i x d r, In (EWrite (4 * i + 1) x d r) tr ->
    i = 0 /\ x + len d <= 65536 /\
    (x <= 1 < x + len d -> x = 1 /\ ((exists buf, o = RwRead buf /\ d = [x40]) \/ (exists f, o = RwWrite f /\ d = [x20]))).
Proof.
  intros fuel o tr end_ E i x d r Hin.
  destruct (writes_exec _ _ _ _ E (cw_raw_step fuel o) _ _ _ _ Hin i ltac:(unfold BSB_REG; lia)) as (K1 & K2). split; [exact K1|].
  destruct K2 as [K|[(K & K')|(-> & c & Hc & ->)]].
  - unfold Sn_CR in K. split; [lia|]. intros H. lia.
  - unfold Sn_CR in K. split; [lia|]. intros H. lia.
  - split; [unfold Sn_CR, len; cbn; lia|]. intros _. split; [reflexivity|].
    destruct o; cbn in Hc; try contradiction; destruct Hc as [<-|[]]; [left|right]; eexists; split; reflexivity.
Qed.
Print Assumptions C84_own_commands_macraw.

Definition ok_answers (n : nat) : list (list byte * res unit berr) := repeat ([x00; x00], Ok tt) n.
(** udp bind on the second socket: CLOSE, then OPEN, both to socket 1 *)
Example C84_case : exists tr a outs tr1 a1, program 5 Dhcp [OpTcpSocket; OpUdpSocket] tr a outs /\
  exec (step 5 a (OpUdpBind 1 80)) tr1 (Done (a1, RUdpUnit (Ok tt))) /\
  In (EWrite 5 1 [x10] (Ok tt)) tr1 /\ In (EWrite 5 1 [x01] (Ok tt)) tr1.
Proof.
  destruct (replay (run_ops 5 (app_new Dhcp) [OpTcpSocket; OpUdpSocket]) []) as [tr o] eqn:E.
  pose proof (replay_eq _ _ _ _ E) as X. vm_compute in E. injection E as <- <-.
  match type of X with exec _ _ (Done (?a, _)) => destruct (replay (step 5 a (OpUdpBind 1 80)) (ok_answers 8)) as [tr o] eqn:E end.
  pose proof (replay_eq _ _ _ _ E) as X1. vm_compute in E. injection E as <- <-.
  eexists _, _, _, _, _. split; [exact X|]. split; [exact X1|]. cbn. auto 10.
Qed.

(** ** C85 *)
(** Over every program that gives no CONNECT itself through [Socket::command]: the peers a
    socket dialled during the program are among those the connect calls asked for, each dialled
    from port 49849 + socket number, in the order of those calls and at most once per call ([within x y]: [x] is [y] with some
    elements left out).  This
    holds at every moment, where a call was left unfinished and with bus errors included: no call
    dials a peer made of parts of an old and of a new address. *)
Theorem C85_dialled_as_asked :
  forall e fuel ho ops o s s' i, i < 8 ->
    Forall (fun q => forall h, q <> OpSocket h (KCommand CmConnect)) ops ->
    Forall (fun q => forall h r, q = OpTcpConnect h (V4 r) -> a_port r < 65536) ops ->
    run e (run_ops fuel (app_new ho) ops) s = (o, s') ->
    exists new, dialled (socks (s_chip s') i) = dialled (socks (s_chip s) i) ++ new /\
      within new (flat_map (fun q => match q with
        | OpTcpConnect _ (V4 r) => [(49849 + i, [ip0 (a_ip r); ip1 (a_ip r); ip2 (a_ip r); ip3 (a_ip r)], a_port r)] | _ => [] end) ops).
Proof.
  intros e fuel ho ops o s s' i Hi F1 F2 R.
  pose proof (run_ops_dials e fuel i Hi ops (app_new ho) s (fun _ _ (H : In _ []) => match H with end)) as K. rewrite R in K. apply K.
  - eapply Forall_impl; [|exact F2]. intros q H. destruct q; try exact Logic.I. destruct remote as [r|]; [|exact Logic.I]. exact (H _ r eq_refl).
  - eapply Forall_impl; [|exact F1]. intros q H (h & E). exact (H h E).
Qed.
Print Assumptions C85_dialled_as_asked.

(** A single call at any moment of a program: it dials at most once, only if it is a connect on a
    handle of this very socket, and then the peer it was given. *)
Theorem C85_one_call :
  forall e fuel ho ops a outs s0 s, run e (run_ops fuel (app_new ho) ops) s0 = (Done (a, outs), s) ->
  forall q o s' i, i < 8 -> (forall h, q <> OpSocket h (KCommand CmConnect)) -> (forall h r, q = OpTcpConnect h (V4 r) -> a_port r < 65536) ->
    run e (step fuel a q) s = (o, s') ->
    dialled (socks (s_chip s') i) = dialled (socks (s_chip s) i) \/
    exists h y r, q = OpTcpConnect h (V4 r) /\ lookup h (handles a) = Some y /\ index (handle_socket y) = i /\
      dialled (socks (s_chip s') i) = dialled (socks (s_chip s) i) ++ [(49849 + i, [ip0 (a_ip r); ip1 (a_ip r); ip2 (a_ip r); ip3 (a_ip r)], a_port r)].
Proof.
  intros e fuel ho ops a outs s0 s R0 q o s' i Hi H1 H2 R.
  pose proof (run_ops_inv e fuel ops (app_new ho) s0 a outs s (pool_inv_new ho) R0) as I.
  assert (G : good (handles a)) by (intros h y Hy; destruct (pi_socket _ I h y Hy) as (j & Hj & -> & _); exists j; split; [exact Hj|reflexivity]).
  pose proof (step_dials_call e fuel a q s i G Hi) as K. rewrite R in K. apply K.
  - destruct q; try exact Logic.I. destruct remote as [r|]; [|exact Logic.I]. exact (H2 _ r eq_refl).
  - intros (h & ->). exact (H1 h eq_refl).
Qed.
Print Assumptions C85_one_call.

Definition dial_ops : list op :=
  [OpTcpSocket; OpTcpConnect 0 (V4 (Addr4 (Ip4 x0a x00 x00 x09) 80)); OpTcpConnect 0 (V4 (Addr4 (Ip4 xc0 xa8 x00 x0a) 8080))].
(** the first connect loses the bus after writing half of the destination; only the second dials *)
Example C85_case : exists a s',
  run (with_fault 7 2 (mkEnv (fun _ => [EvEstablished 0]) (fun _ => None))) (run_ops 9 (app_new Dhcp) dial_ops) sys0 =
    (Done (a, [RTcpSocket (Ok 0%nat); RTcpConnect (Err (NbOther (TOther 7))); RTcpConnect (Ok tt)]), s') /\
  dialled (socks (s_chip s') 0) = [(49849, [xc0; xa8; x00; x0a], 8080)].
Proof. eexists _, _. split; [apply run_snd; vm_compute; reflexivity|vm_compute; reflexivity]. Qed.
(** the first connect loses the bus right after its CONNECT: it reports an error, yet it dialled *)
Example C85_case_unreported : exists a s',
  run (with_fault 9 1 (mkEnv (fun _ => [EvEstablished 0]) (fun _ => None))) (run_ops 9 (app_new Dhcp) dial_ops) sys0 =
    (Done (a, [RTcpSocket (Ok 0%nat); RTcpConnect (Err (NbOther (TOther 7))); RTcpConnect (Ok tt)]), s') /\
  dialled (socks (s_chip s') 0) = [(49849, [x0a; x00; x00; x09], 80); (49849, [xc0; xa8; x00; x0a], 8080)].
Proof. eexists _, _. split; [apply run_snd; vm_compute; reflexivity|vm_compute; reflexivity]. Qed.
