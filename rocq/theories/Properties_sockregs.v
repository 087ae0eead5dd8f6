(** C88: the settings of the sockets. *)
From Verif Require Import SockRegs Cases.
From Verif Require Import Datasheet.

(** the registers of a socket that are plain memory: not command, interrupt and status (1-3), nor
    the buffer pointers and sizes in use (0x20-0x2B) *)
Definition is_setting (x : N) : Prop := x = 0 \/ (4 <= x /\ x < 0x20) \/ 0x2C <= x.
Lemma is_setting_iff x : is_setting x -> setting x = true.
Proof.
  intros H. unfold setting, read_only. rewrite negb_true_iff, !orb_false_iff, !N.eqb_neq.
  unfold is_setting, Sn_SR, Sn_TX_FSR, Sn_TX_RD, Sn_RX_RSR, Sn_RX_WR, Sn_CR, Sn_IR, Sn_TX_WR, Sn_RX_RD in *. lia.
Qed.
(** what register [x] of socket [i] holds *)
Definition reg (s : sys) (i x : N) : byte := regs (socks (s_chip s) i) x.
Definition about (a : History.app) (o : op) (i : N) : Prop :=
  exists h y, op_handle o = Some h /\ lookup h (handles a) = Some y /\ index (handle_socket y) = i.
(** the registers of its socket a call is to change: mode (0), mask (0x2C), source port (4, 5),
    destination address (0x0C-0x0F) and port (0x10, 0x11) *)
Definition to_change (o : op) : list N :=
  match o with
  | OpTcpConnect _ _ | OpUdpConnect _ _ => [0; 0x2C; 4; 5; 0x0C; 0x0D; 0x0E; 0x0F; 0x10; 0x11]
  | OpUdpBind _ _ => [0; 0x2C; 4; 5]
  | OpUdpSendTo _ _ _ => [0x0C; 0x0D; 0x0E; 0x0F; 0x10; 0x11]
  | OpTcpClose _ | OpUdpClose _ | OpSocket _ (KSetMode _) => [0]
  | OpUdpSetPort _ _ | OpSocket _ (KSetSourcePort _) => [4; 5]
  | OpSocket _ (KSetDestinationIp _) => [0x0C; 0x0D; 0x0E; 0x0F]
  | OpSocket _ (KSetDestinationPort _) => [0x10; 0x11]
  | OpSocket _ (KSetMask _) => [0x2C]
  | _ => []
  end.
Lemma to_change_iff o x : ~ In x (to_change o) -> changes o x = false.
Proof.
  intros H. destruct (changes o x) eqn:E; [|reflexivity]. destruct H.
  destruct o; try discriminate E; try destruct q; try discriminate E; cbn [changes to_change] in *; unfold opens, aims, span, Sn_MR, Sn_IMR, Sn_PORT, Sn_DIPR, Sn_DPORT in E;
    rewrite ?orb_true_iff, ?andb_true_iff, ?N.eqb_eq, ?N.leb_le, ?N.ltb_lt in E; cbn [In]; lia.
Qed.

(** ** C88 *)
(** In every state a program reaches, a call (other than reset_device) leaves every setting as it
    was but those it is to change of its own socket, bus errors, panics and endless polling
    included; and nothing the network does changes any. *)
Theorem C88_settings_untouched :
  forall e fuel d ops0 s0 a outs0 s, run e (run_ops fuel (mkApp d [] 0) ops0) s0 = (Done (a, outs0), s) ->
  forall o end_ s', o <> OpDevice QResetDevice -> run e (step fuel a o) s = (end_, s') ->
  forall i x, is_setting x -> (~ about a o i \/ ~ In x (to_change o)) -> reg s' i x = reg s i x.
Proof.
  intros e fuel d ops0 s0 a outs0 s R0 o end_ s' Hr R i x Hx H.
  assert (G : good (handles a)) by (eapply good_ops; [|exact R0]; intros ? ? []).
  apply is_setting_iff in Hx.
  assert (K : forall j0, (forall h y, op_handle o = Some h -> lookup h (handles a) = Some y -> j0 = index (handle_socket y)) -> kept j0 (changes o) s s').
  { intros j0 Hj. pose proof (kept_run e j0 (changes o) _ (fw_step_at fuel a o j0 G Hr Hj) s) as K. now rewrite R in K. }
  destruct H as [H|H].
  - destruct (op_handle o) as [h|] eqn:E; [destruct (lookup h (handles a)) as [y|] eqn:L|].
    + apply (K (index (handle_socket y))); [intros h' y' [= <-]; congruence|exact Hx|]. left. intros ->. apply H. exists h, y. auto.
    + apply (K (i + 1)); [intros h' y' [= <-]; congruence|exact Hx|]. left. lia.
    + apply (K (i + 1)); [discriminate|exact Hx|]. left. lia.
  - apply (K (op_socket a o)); [|exact Hx|right; now apply to_change_iff]. intros h y E L. unfold op_socket. now rewrite E, L.
Qed.
Print Assumptions C88_settings_untouched.

(** And a call that was not cut short by a bus error leaves exactly the settings of the table
    [after_call]: TCP connect the source port 49849 + socket number, mode 1, mask 0 and the
    destination asked for; UDP bind and connect their port, mode 2, mask 0; a UDP destination is
    written unless it is the one written last; close leaves mode 0; Socket setters what they are
    given; reset_device the reset values; anything else leaves all as it was. *)
Theorem C88_settings_after_each_call :
  forall e fuel d ops0 s0 a outs0 s, run e (run_ops fuel (mkApp d [] 0) ops0) s0 = (Done (a, outs0), s) ->
  forall o a' r s', run e (step fuel a o) s = (Done (a', r), s') ->
  forall g, after_call a o r (reg s) = Some g -> forall i x, is_setting x -> reg s' i x = g i x.
Proof.
  intros e fuel d ops0 s0 a outs0 s R0 o a' r s' R g Hg i x Hx.
  assert (G : good (handles a)) by (eapply good_ops; [|exact R0]; intros ? ? []).
  destruct (follow_run e _ _ (reg s) s _ _ (follow_step fuel a o (reg s) G) (fun _ _ _ => eq_refl) R) as (f' & A & T).
  cbn [snd] in T. rewrite Hg in T. unfold reg at 1. rewrite (A i x (is_setting_iff x Hx)). apply T.
Qed.
Print Assumptions C88_settings_after_each_call.
(** The table says nothing only after a bus error. *)
Theorem C88_table_complete :
  forall e fuel d ops0 s0 a outs0 s, run e (run_ops fuel (mkApp d [] 0) ops0) s0 = (Done (a, outs0), s) ->
  forall o a' r s', run e (step fuel a o) s = (Done (a', r), s') -> after_call a o r (reg s) = None ->
    exists k, r = RTcpConnect (Err (NbOther (TOther k))) \/ r = RUdpUnit (Err (UOther k)) \/ r = RUdpSend (Err (NbOther (UOther k))) \/
      r = RTcpClose (Err (TOther k)) \/ r = RSockop (KUnit (Err k)) \/ r = RDevice (DUnit (Err k)).
Proof.
  intros e fuel d ops0 s0 a outs0 s R0 o a' r s' R H.
  assert (G : good (handles a)) by (eapply good_ops; [|exact R0]; intros ? ? []).
  destruct (follow_run e _ _ (reg s) s _ _ (follow_step fuel a o (reg s) G) (fun _ _ _ => eq_refl) R) as (f' & A & T).
  cbn [snd] in T. rewrite H in T. exact T.
Qed.
Print Assumptions C88_table_complete.

(** After initialisation a setting that no call of the program is to change holds its reset value
    (so 2 KiB of memory each way, TTL 128, no keep-alive, the broadcast hardware address) at every
    moment of the program, reset_device included. *)
Theorem C88_other_settings_are_reset_values :
  forall e chk k m s d s1, run e (run_setup chk k m) s = (Done (Ok d), s1) ->
  forall fuel ops end_ s2, run e (run_ops fuel (mkApp d [] 0) ops) s1 = (end_, s2) ->
  forall x, is_setting x -> Forall (fun o => ~ In x (to_change o)) ops -> forall i, reg s2 i x = regs_reset x.
Proof.
  intros e chk k m s d s1 R fuel ops end_ s2 R2 x Hx F i. apply is_setting_iff in Hx.
  pose proof (fun i => init_settings e chk k m s d s1 R i x Hx) as I0.
  pose proof (ops_keep (fun s => forall i, regs (socks (s_chip s) i) x = regs_reset x) e fuel ops) as K. rewrite Forall_forall in F.
  assert (K' := fun H => K H (mkApp d [] 0) s1 ltac:(intros ? ? []) I0). rewrite R2 in K'. apply K'. clear K K'.
  intros a o s' G Hin J n. assert (D : o = OpDevice QResetDevice \/ o <> OpDevice QResetDevice).
  { destruct o as [| | | | | | | | | | | | | | | |q| |]; try (right; discriminate). destruct q; try (right; discriminate). now left. }
  destruct D as [->|Hn]; [now apply reset_step|]. rewrite (kept_step e fuel a o s' G Hn n x Hx); [apply J|]. right. apply to_change_iff, F, Hin.
Qed.
Print Assumptions C88_other_settings_are_reset_values.

Definition hub : addr4 := Addr4 (Ip4 x0a x00 x00 x07) 7000.
Definition two_sockets : list op := [OpUdpSocket; OpUdpSocket; OpUdpBind 1 80; OpUdpBind 0 81].
Definition two_handles : History.app :=
  mkApp (mkDS Dhcp 252) [(0%nat, HUdp (mkUdp (socket_new 0) None 81)); (1%nat, HUdp (mkUdp (socket_new 1) None 80))] 2.
Notation settings s i := (map (reg s i) [0; 4; 5; 0x0C; 0x0D; 0x0E; 0x0F; 0x10; 0x11; 0x16; 0x1E; 0x2C]).
(** two sockets are bound; connecting one sets its destination and leaves the other alone *)
Example C88_case : exists s s' g,
  run quiet (run_ops 5 (mkApp (ds_new Dhcp) [] 0) two_sockets) sys0 =
    (Done (two_handles, [RUdpSocket (Ok 0%nat); RUdpSocket (Ok 1%nat); RUdpUnit (Ok tt); RUdpUnit (Ok tt)]), s) /\
  fst (run quiet (step 5 two_handles (OpUdpConnect 0 (V4 hub))) s) =
    Done (mkApp (mkDS Dhcp 252) [(0%nat, HUdp (mkUdp (socket_new 0) (Some hub) 81)); (1%nat, HUdp (mkUdp (socket_new 1) None 80))] 2, RUdpUnit (Ok tt)) /\
  snd (run quiet (step 5 two_handles (OpUdpConnect 0 (V4 hub))) s) = s' /\
  after_call two_handles (OpUdpConnect 0 (V4 hub)) (RUdpUnit (Ok tt)) (reg s) = Some g /\
  settings s 0 = [x02; x00; x51; x00; x00; x00; x00; x00; x00; x80; x02; x00] /\
  settings s' 0 = [x02; x00; x51; x0a; x00; x00; x07; x1b; x58; x80; x02; x00] /\
  settings s' 1 = [x02; x00; x50; x00; x00; x00; x00; x00; x00; x80; x02; x00].
Proof.
  eexists _, _, _. split; [apply run_snd; vm_compute; reflexivity|]. split; [vm_compute; reflexivity|]. split; [reflexivity|]. split; [reflexivity|].
  repeat split; vm_compute; reflexivity.
Qed.
(** the bus fails after one byte of the destination address: nothing else has changed *)
Example C88_case_fault : exists a r s s',
  run (with_fault 20 1 quiet) (run_ops 5 (mkApp (ds_new Dhcp) [] 0) two_sockets) sys0 = (Done (two_handles, r), s) /\
  run (with_fault 20 1 quiet) (step 5 two_handles (OpUdpConnect 0 (V4 hub))) s = (Done (a, RUdpUnit (Err (UOther 7))), s') /\
  settings s' 0 = [x02; x00; x51; x0a; x00; x00; x00; x00; x00; x80; x02; x00] /\
  settings s' 1 = [x02; x00; x50; x00; x00; x00; x00; x00; x00; x80; x02; x00].
Proof.
  eexists _, _, _, _. split; [apply run_snd; vm_compute; reflexivity|]. split; [apply run_snd; vm_compute; reflexivity|]. split; vm_compute; reflexivity.
Qed.
(** the time to live after a whole program with a reset_device in it *)
Example C88_case_reset : exists d s1 s2 a outs,
  run quiet (run_setup true (IDhcp (Mac x02 x00 x00 x00 x00 x01)) (mkMode WolIgnore PingRespond CtEthernet ArpCache)) sys0 = (Done (Ok d), s1) /\
  run quiet (run_ops 5 (mkApp d [] 0) (two_sockets ++ [OpDevice QResetDevice; OpUdpConnect 0 (V4 hub)])) s1 = (Done (a, outs), s2) /\
  is_setting 0x16 /\ Forall (fun o => ~ In 0x16 (to_change o)) (two_sockets ++ [OpDevice QResetDevice; OpUdpConnect 0 (V4 hub)]) /\ reg s2 0 0x16 = x80.
Proof.
  eexists _, _, _, _, _. split; [apply run_snd; vm_compute; reflexivity|]. split; [apply run_snd; vm_compute; reflexivity|].
  split; [right; left; split; [discriminate|reflexivity]|]. split; [repeat constructor; cbn; intuition discriminate|]. vm_compute. reflexivity.
Qed.
