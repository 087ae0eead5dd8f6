(** C89: what a UDP handle remembers as its destination is what the chip has. *)
From Verif Require Import Dotted.
From Verif Require Import Remembered Cases.
From Verif Require Import Datasheet.

(** the destination registers of socket [i]: address and port *)
Definition chip_dest (s : sys) (i : N) : list byte * N :=
  let m := regs (socks (s_chip s) i) in ([m 0x0C; m 0x0D; m 0x0E; m 0x0F], b2n (m 0x10) * 256 + b2n (m 0x11)).
(** a connect or send_to on handle [h] that reports a bus error *)
Definition torn_call (h : nat) (o : op) (r : out) : Prop :=
  (exists x q, o = OpUdpConnect h x /\ r = RUdpUnit (Err (UOther q))) \/
  (exists x d q, o = OpUdpSendTo h x d /\ r = RUdpSend (Err (NbOther (UOther q)))).
(** port numbers are 16 bit *)
Definition u16_ports (o : op) : Prop :=
  match o with OpUdpConnect _ (V4 r) | OpUdpSendTo _ (V4 r) _ => a_port r < 65536 | _ => True end.

Lemma torn_iff h o r : aim_fault h o r -> torn_call h o r.
Proof.
  destruct o; try contradiction; destruct r; try contradiction; cbn [aim_fault]; destruct r as [?|er]; try contradiction.
  - destruct er; try contradiction. intros ->. left. eauto.
  - destruct er as [|er]; try contradiction. destruct er; try contradiction. intros ->. right. eauto.
Qed.
Lemma ports_iff h o : u16_ports o -> port_ok h o.
Proof. destruct o; cbn; auto; destruct remote; auto. Qed.
Lemma chip_dest_iff s i r : dest_regs (regs (socks (s_chip s) i)) r <-> chip_dest s i = (dotted (a_ip r), a_port r).
Proof. unfold chip_dest, dest_regs, get16. cbv zeta. split; [intros [H1 H2]; f_equal; [exact H1|exact H2]|intros H; split; [exact (f_equal fst H)|exact (f_equal snd H)]]. Qed.

(** ** C89 *)
(** Full statement: at the end of every program, the destination a UDP handle remembers is in the
    destination registers of its socket (so that leaving out the writes for the remembered one is
    right).  Proved for programs without reset_device in which no connect or send_to on this
    handle has reported a bus error; errors in all other calls, and on all other handles, do no
    harm.  Without these conditions it is false: [C89_remembered_refuted]. *)
Theorem C89_remembered_partial e fuel ho s0 ops a outs s h u r :
  run e (run_ops fuel (app_new ho) ops) s0 = (Done (a, outs), s) ->
  ~ In (OpDevice QResetDevice) ops -> Forall u16_ports ops ->
  (forall o q, In (o, q) (combine ops outs) -> ~ torn_call h o q) ->
  lookup h (handles a) = Some (HUdp u) -> u_dest u = Some r ->
  chip_dest s (index (u_socket u)) = (dotted (a_ip r), a_port r).
Proof.
  intros R Hr Hp Hf L D. apply chip_dest_iff.
  pose proof (ops_remember e fuel h ops _ _ _ _ _ (pool_inv_new ho) (fun _ _ T => match T with end) Hr (Forall_impl _ (ports_iff h) Hp) R
    (fun o q T A => Hf o q T (torn_iff h o q A)) (fun u' T => ltac:(discriminate T)) u L) as J. rewrite D in J. exact J.
Qed.
Print Assumptions C89_remembered_partial.

(** connect or send_to with a remote other than the remembered one puts handle and chip in
    agreement, whatever went before (bus errors, reset_device), if it reports no bus error *)
Theorem C89_agreement_restored e fuel ho s0 ops a outs s h u r o a' out s' :
  run e (run_ops fuel (app_new ho) ops) s0 = (Done (a, outs), s) ->
  lookup h (handles a) = Some (HUdp u) -> u_dest u <> Some r -> a_port r < 65536 ->
  o = OpUdpConnect h (V4 r) \/ (exists d, o = OpUdpSendTo h (V4 r) d) ->
  run e (step fuel a o) s = (Done (a', out), s') -> ~ torn_call h o out ->
  chip_dest s' (index (u_socket u)) = (dotted (a_ip r), a_port r) /\
  exists u', lookup h (handles a') = Some (HUdp u') /\ u_socket u' = u_socket u /\ u_dest u' = Some r.
Proof.
  intros R0 L D Hr Ho R Hf.
  assert (G : good (handles a)) by (eapply good_ops; [|exact R0]; intros ? ? []).
  destruct (step_resync e fuel h a s r o a' out s' u G L D Hr Ho R (fun A => Hf (torn_iff h o out A))) as (u' & L' & E1 & E2 & C).
  split; [now apply chip_dest_iff|eauto].
Qed.
Print Assumptions C89_agreement_restored.

(** so connect and send_to aim at the remote they are given, under the conditions of
    [C89_remembered_partial], whether the writes are left out or not (this drops the condition on
    the chip in C43_connect_partial) *)
Theorem C89_aims_as_told_partial e fuel ho s0 ops a outs s h o r a' out s' :
  run e (run_ops fuel (app_new ho) ops) s0 = (Done (a, outs), s) ->
  ~ In (OpDevice QResetDevice) ops -> Forall u16_ports ops ->
  (forall o q, In (o, q) (combine ops outs) -> ~ torn_call h o q) ->
  o = OpUdpConnect h (V4 r) \/ (exists d, o = OpUdpSendTo h (V4 r) d) -> a_port r < 65536 ->
  run e (step fuel a o) s = (Done (a', out), s') -> ~ torn_call h o out -> out <> RNoHandle ->
  exists u, lookup h (handles a') = Some (HUdp u) /\ u_dest u = Some r /\ chip_dest s' (index (u_socket u)) = (dotted (a_ip r), a_port r).
Proof.
  intros R0 Hn Hp Hf Ho Hr R Ht No.
  assert (L : exists u, lookup h (handles a) = Some (HUdp u)).
  { destruct Ho as [->|[d ->]]; cbn [step] in R; destruct (lookup h (handles a)) as [[| |u]|]; try (injection R as _ <- _; now destruct No); eauto. }
  destruct L as [u L].
  assert (G : good (handles a)) by (eapply good_ops; [|exact R0]; intros ? ? []).
  assert (X : {u_dest u = Some r} + {u_dest u <> Some r}).
  { destruct (u_dest u) as [d|]; [|right; discriminate]. destruct (addr4_eqb d r) eqn:E; [left; apply addr4_eqb_eq in E; now subst|].
    right. intros [= ->]. assert (T : addr4_eqb r r = true) by now apply addr4_eqb_eq. congruence. }
  destruct X as [X|X].
  - pose proof (ops_remember e fuel h ops _ _ _ _ _ (pool_inv_new ho) (fun _ _ T => match T with end) Hn (Forall_impl _ (ports_iff h) Hp) R0
      (fun o q T A => Hf o q T (torn_iff h o q A)) (fun u' T => ltac:(discriminate T))) as J.
    pose proof (run_ops_inv e fuel ops _ _ _ _ _ (pool_inv_new ho) R0) as I.
    assert (Np : o <> OpDevice QResetDevice) by (destruct Ho as [->|[d ->]]; discriminate).
    assert (Pp : port_ok h o) by (destruct Ho as [->|[d ->]]; intros _; exact Hr).
    pose proof (step_remembers e fuel h a o s a' out s' I G Np Pp R (fun A => Ht (torn_iff h o out A)) J) as J'.
    assert (U : exists u', lookup h (handles a') = Some (HUdp u') /\ u_dest u' = Some r).
    { destruct u as [us ud up]. cbn [u_dest] in X. subst ud.
      destruct Ho as [->|[d ->]]; cbn [step] in R; rewrite L in R; apply run_bind_done in R as (q & s1 & R & T); injection T as <- <- <-.
      - pose proof (yields_run _ _ _ _ _ _ (ye_connect us (Some r) up r) R) as Y. destruct q as [u' [[]|[]]]; cbn [fst snd] in *; try contradiction.
        + subst u'. eexists. split; [unfold put; cbn [handles]; eapply lookup_update_same; exact L|reflexivity].
        + destruct Ht. left. eauto.
      - pose proof (yields_run _ _ _ _ _ _ (ye_send_to fuel us (Some r) up r d) R) as Y.
        assert (F : fst q = mkUdp us (Some r) up). { destruct q as [u' [?|[|[]]]]; cbn [fst snd] in *; auto. destruct Ht. right. eauto. }
        rewrite F. eexists. split; [unfold put; cbn [handles]; eapply lookup_update_same; exact L|reflexivity]. }
    destruct U as (u' & L' & D'). exists u'. split; [exact L'|]. split; [exact D'|]. apply chip_dest_iff. pose proof (J' u' L') as C. rewrite D' in C. exact C.
  - destruct (step_resync e fuel h a s r o a' out s' u G L X Hr Ho R (fun A => Ht (torn_iff h o out A))) as (u' & L' & E1 & E2 & C).
    exists u'. split; [exact L'|]. split; [exact E2|]. rewrite E1. now apply chip_dest_iff.
Qed.
Print Assumptions C89_aims_as_told_partial.

(** ** Cases *)
Definition prompt : env := mkEnv (fun _ => [EvTransmit 0 65535; EvSendOk 0]) (fun _ => None).
Definition peer : addr4 := Addr4 (Ip4 x0a x00 x00 x02) 8080.
Definition there : addr4 := Addr4 (Ip4 x0a x00 x00 x07) 53.
Definition elsewhere : addr4 := Addr4 (Ip4 x0a x00 x00 x09) 99.

(** a bus error between the two destination registers, in the first program, or a reset_device, in
    the second: the handle remembers [peer], the chip has something else *)
Theorem C89_remembered_refuted :
  (exists a outs s, run (with_fault 9 0 prompt) (run_ops 30 (app_new Dhcp) [OpUdpSocket; OpUdpConnect 0 (V4 peer); OpUdpSendTo 0 (V4 there) [x61]]) sys0 = (Done (a, outs), s) /\
     lookup 0 (handles a) = Some (HUdp (mkUdp (socket_new 0) (Some peer) 49849)) /\ chip_dest s 0 = (dotted (a_ip there), a_port peer)) /\
  (exists a outs s, run prompt (run_ops 30 (app_new Dhcp) [OpUdpSocket; OpUdpConnect 0 (V4 peer); OpDevice QResetDevice]) sys0 = (Done (a, outs), s) /\
     lookup 0 (handles a) = Some (HUdp (mkUdp (socket_new 0) (Some peer) 49849)) /\ chip_dest s 0 = ([x00; x00; x00; x00], 0)).
Proof.
  split; eexists _, _, _; (split; [apply run_snd; vm_compute; reflexivity|]); (split; [vm_compute; reflexivity|vm_compute; reflexivity]).
Qed.
Print Assumptions C89_remembered_refuted.

(** connect, send_to elsewhere, rebind, send_to a second time (no writes), a TCP socket closed with
    a bus error in between, and another UDP handle with a destination of its own *)
Definition busy_ops : list op := [OpUdpSocket; OpTcpSocket; OpUdpSocket; OpUdpConnect 0 (V4 peer); OpUdpSendTo 0 (V4 there) [x61]; OpTcpClose 1;
  OpUdpBind 0 53; OpUdpConnect 2 (V4 elsewhere); OpUdpSendTo 0 (V4 there) [x62]].
Example C89_case : exists a outs s, run (with_fault 23 0 prompt) (run_ops 30 (app_new Dhcp) busy_ops) sys0 = (Done (a, outs), s) /\
  outs = [RUdpSocket (Ok 0%nat); RTcpSocket (Ok 1%nat); RUdpSocket (Ok 2%nat); RUdpUnit (Ok tt); RUdpSend (Ok tt); RTcpClose (Err (TOther 7));
    RUdpUnit (Ok tt); RUdpUnit (Ok tt); RUdpSend (Ok tt)] /\
  lookup 0 (handles a) = Some (HUdp (mkUdp (socket_new 0) (Some there) 53)) /\ chip_dest s 0 = ([x0a; x00; x00; x07], 53) /\
  lookup 2 (handles a) = Some (HUdp (mkUdp (socket_new 2) (Some elsewhere) 49851)) /\ chip_dest s 2 = ([x0a; x00; x00; x09], 99).
Proof.
  eexists _, _, _. split; [apply run_snd; vm_compute; reflexivity|]. vm_compute. repeat split; reflexivity.
Qed.
(** the last send_to of [busy_ops] again: the destination is remembered, nothing is written, and the
    datagram is aimed right *)
Example C89_case_told : exists a outs s a' s', run prompt (run_ops 30 (app_new Dhcp) busy_ops) sys0 = (Done (a, outs), s) /\
  run prompt (step 30 a (OpUdpSendTo 0 (V4 there) [x63])) s = (Done (a', RUdpSend (Ok tt)), s') /\ chip_dest s' 0 = ([x0a; x00; x00; x07], 53) /\
  last (map p_ip (sent (socks (s_chip s') 0))) [] = [x0a; x00; x00; x07].
Proof.
  eexists _, _, _, _, _. split; [apply run_snd; vm_compute; reflexivity|]. split; [apply run_snd; vm_compute; reflexivity|]. vm_compute. split; reflexivity.
Qed.
(** after the first program of [C89_remembered_refuted], connect to a third remote *)
Example C89_case_restored : exists a outs s a' s',
  run (with_fault 9 0 prompt) (run_ops 30 (app_new Dhcp) [OpUdpSocket; OpUdpConnect 0 (V4 peer); OpUdpSendTo 0 (V4 there) [x61]]) sys0 = (Done (a, outs), s) /\
  lookup 0 (handles a) = Some (HUdp (mkUdp (socket_new 0) (Some peer) 49849)) /\
  run (with_fault 9 0 prompt) (step 30 a (OpUdpConnect 0 (V4 elsewhere))) s = (Done (a', RUdpUnit (Ok tt)), s') /\ chip_dest s' 0 = ([x0a; x00; x00; x09], 99).
Proof.
  eexists _, _, _, _, _. split; [apply run_snd; vm_compute; reflexivity|]. split; [vm_compute; reflexivity|]. split; [apply run_snd; vm_compute; reflexivity|]. vm_compute. reflexivity.
Qed.
