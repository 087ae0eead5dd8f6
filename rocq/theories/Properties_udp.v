(** C43-C51, C59, C60: UDP sockets against the chip, in whole programs.  [udp_session]
    (UdpSession.v) is the situation of a program whose UDP handle was bound or connected and
    used since; other handles may be used in between, their calls may meet bus errors. *)
From Verif Require Import Dotted.
From Verif Require Import UdpCalls Cases TcpSession ErrorFacts.
From Verif Require Import Datasheet.

(** *** Concrete programs for the examples *)
Definition peer : addr4 := Addr4 (Ip4 x0a x00 x00 x02) 8080.
Definition other : addr4 := Addr4 (Ip4 x0a x00 x00 x07) 53.
Definition uapp (dest : option addr4) (port : N) : History.app :=
  mkApp (mkDS Dhcp 254) [(0%nat, HUdp (mkUdp (socket_new 0) dest port))] 1.
Definition uopen (e : env) (o1 : op) : sys := snd (run e (step 30 (uapp None 49849) o1) sys0).
Definition uafter (e : env) (o1 : op) (a1 : History.app) (ops : list op) : sys := snd (run e (run_ops 30 a1 ops) (uopen e o1)).
Lemma simple_udp e o1 a1 ops a outs :
  fst (run e (step 30 (uapp None 49849) o1) sys0) = Done (a1, RUdpUnit (Ok tt)) ->
  fst (run e (run_ops 30 a1 ops) (uopen e o1)) = Done (a, outs) ->
  (exists r, o1 = OpUdpConnect 0 (V4 r)) \/ (exists p, o1 = OpUdpBind 0 p) ->
  Forall (keeps_udp 0) (o1 :: ops) -> no_bus_error 0 ops outs ->
  udp_session e 30 0 0 (named 0 None (o1 :: ops)) (bound 0 49849 (o1 :: ops)) a (uafter e o1 a1 ops).
Proof.
  intros H1 H2 Ho K N. exists Dhcp, sys0, [OpUdpSocket], (uapp None 49849), [RUdpSocket (Ok 0%nat)], sys0, (mkUdp (socket_new 0) None 49849), o1, a1, (uopen e o1), ops, outs.
  split; [reflexivity|]. split; [reflexivity|]. split; [reflexivity|]. split; [reflexivity|]. split; [left; exact I|].
  split; [right; left; vm_compute; reflexivity|]. split; [right; left; vm_compute; reflexivity|]. split; [exact Ho|].
  split. { unfold uopen. destruct (run e _ sys0) as [o s']. cbn [fst snd] in *. now rewrite H1. }
  split. { unfold uafter. destruct (run e (run_ops _ _ _) _) as [o s']. cbn [fst snd] in *. now rewrite H2. }
  auto.
Qed.
(** a network that takes every packet at once *)
Definition prompt : env := mkEnv (fun _ => [EvTransmit 0 65535; EvSendOk 0]) (fun _ => None).

(** ** C43 *)
(** bind, in any program, whatever the socket and the chip were doing before *)
Theorem C43_bind e fuel ho s00 ops0 a outs0 s h u p a' s' :
  run e (run_ops fuel (app_new ho) ops0) s00 = (Done (a, outs0), s) ->
  lookup h (handles a) = Some (HUdp u) -> p < 65536 ->
  run e (step fuel a (OpUdpBind h p)) s = (Done (a', RUdpUnit (Ok tt)), s') ->
  let x := socks (s_chip s') (index (u_socket u)) in
  sr x = SOCK_UDP /\ get16 (regs x) Sn_PORT = p /\
  exists u', lookup h (handles a') = Some (HUdp u') /\ udp_get_port u' = p /\ u_socket u' = u_socket u.
Proof.
  intros R0 L Hp R. pose proof (run_ops_inv e fuel ops0 _ _ _ _ _ (pool_inv_new ho) R0) as I.
  destruct (pi_lookup _ _ _ I L) as (i & Hi & Ei & _). cbn [handle_socket] in Ei. destruct u as [so dest port]. cbn [u_socket] in *. subst so.
  cbv zeta. cbn [index socket_new]. fold (sk i s').
  refine (session_call _ e _ (fun o s' => forall a', o = Done (a', RUdpUnit (Ok tt)) -> sr (sk i s') = SOCK_UDP /\ get16 (regs (sk i s')) Sn_PORT = p /\
    exists u', lookup h (handles a') = Some (HUdp u') /\ udp_get_port u' = p /\ u_socket u' = socket_new i) s _ s' (es_step fuel a _) R _ _ a' eq_refl).
  { intros [a1 ou] [= <- <-]. reflexivity. }
  cbn [step]. rewrite L. apply wp_bind, wp_udp_bind; auto using nofail_no_faults. intros x s1 _ _ E. apply wp_ret. intros a1 [= <-]. rewrite E.
  destruct (udp_opened_regs x p Hp) as (O1 & O2 & _). split; [exact O1|]. split; [exact O2|].
  exists (mkUdp (socket_new i) dest p). cbn [fst handles put]. split; [eapply lookup_update_same; eauto|auto].
Qed.
Print Assumptions C43_bind.

(** connect keeps the port the handle has; a new handle has 49849 + index *)
Lemma lookup_fresh (l : list (nat * handle)) n x : (forall h y, In (h, y) l -> (h < n)%nat) -> lookup n (l ++ [(n, x)]) = Some x.
Proof.
  induction l as [|[j y] l IH]; cbn [lookup List.app]; intros H; [now rewrite Nat.eqb_refl|].
  destruct (Nat.eqb_spec j n) as [->|]; [specialize (H n y (or_introl eq_refl)); lia|]. apply IH. intros h z Hz. apply (H h z). now right.
Qed.
Theorem C43_new_socket e fuel ho s00 ops0 a outs0 s a' h s' :
  run e (run_ops fuel (app_new ho) ops0) s00 = (Done (a, outs0), s) ->
  run e (step fuel a OpUdpSocket) s = (Done (a', RUdpSocket (Ok h)), s') ->
  exists u, lookup h (handles a') = Some (HUdp u) /\ udp_get_port u = 49849 + index (u_socket u) /\ index (u_socket u) < 8 /\ u_dest u = None.
Proof.
  intros R0 E. pose proof (run_ops_inv e fuel ops0 _ _ _ _ _ (pool_inv_new ho) R0) as I. pose proof (run_step_inv e fuel a _ s a' _ s' I E) as I'.
  cbn [step] in E. destruct (udp_socket (dev a)) as [d [u|x]] eqn:T; [|discriminate E]. injection E as <- <- <-.
  assert (L : lookup (fresh a) (handles (grant a d (HUdp u))) = Some (HUdp u)) by (apply lookup_fresh, I).
  exists u. split; [exact L|]. destruct (pi_lookup _ _ _ I' L) as (i & Hi & Ei & _). cbn [handle_socket] in Ei.
  unfold udp_socket in T. destruct (take_socket (dev a)) as [d' [so|]]; [|discriminate T]. injection T as <- <-. cbn [u_socket udp_new] in *. subst so.
  split; [reflexivity|]. split; [exact Hi|reflexivity].
Qed.
Print Assumptions C43_new_socket.
Example C43_new_case : exists a s s', run quiet (run_ops 30 (app_new Dhcp) [OpTcpSocket; OpTcpSocket]) sys0 = (Done (a, [RTcpSocket (Ok 0%nat); RTcpSocket (Ok 1%nat)]), s) /\
  exists a', run quiet (step 30 a OpUdpSocket) s = (Done (a', RUdpSocket (Ok 2%nat)), s') /\
  lookup 2 (handles a') = Some (HUdp (mkUdp (socket_new 2) None 49851)).
Proof. eexists _, _, _. split; [reflexivity|]. eexists. split; reflexivity. Qed.

(** Full statement: after a successful connect(remote) the destination registers hold remote.
    Proved unless the handle remembers a destination that the chip no longer has. *)
Theorem C43_connect_partial e fuel ho s00 ops0 a outs0 s h u r a' s' :
  run e (run_ops fuel (app_new ho) ops0) s00 = (Done (a, outs0), s) ->
  lookup h (handles a) = Some (HUdp u) -> u_port u < 65536 -> a_port r < 65536 ->
  (forall d, u_dest u = Some d ->
     let m := regs (socks (s_chip s) (index (u_socket u))) in
     [m Sn_DIPR; m (Sn_DIPR + 1); m (Sn_DIPR + 2); m (Sn_DIPR + 3)] = [ip0 (a_ip d); ip1 (a_ip d); ip2 (a_ip d); ip3 (a_ip d)] /\ get16 m Sn_DPORT = a_port d) ->
  run e (step fuel a (OpUdpConnect h (V4 r))) s = (Done (a', RUdpUnit (Ok tt)), s') ->
  let x := socks (s_chip s') (index (u_socket u)) in
  sr x = SOCK_UDP /\ get16 (regs x) Sn_PORT = udp_get_port u /\
  [regs x Sn_DIPR; regs x (Sn_DIPR + 1); regs x (Sn_DIPR + 2); regs x (Sn_DIPR + 3)] = [ip0 (a_ip r); ip1 (a_ip r); ip2 (a_ip r); ip3 (a_ip r)] /\ get16 (regs x) Sn_DPORT = a_port r.
Proof.
  intros R0 L Hp Hr C R. pose proof (run_ops_inv e fuel ops0 _ _ _ _ _ (pool_inv_new ho) R0) as I.
  destruct (pi_lookup _ _ _ I L) as (i & Hi & Ei & _). cbn [handle_socket] in Ei. destruct u as [so dest port]. cbn [u_socket u_dest u_port] in *. subst so.
  cbv zeta. cbn [index socket_new] in *. unfold udp_get_port. cbn [u_port]. fold (sk i s') (sk i s) in *.
  refine (session_call _ e _ (fun o s' => forall a', o = Done (a', RUdpUnit (Ok tt)) -> sr (sk i s') = SOCK_UDP /\ get16 (regs (sk i s')) Sn_PORT = port /\
    dest_regs (regs (sk i s')) r) s _ s' (es_step fuel a _) R _ _ a' eq_refl).
  { intros [a1 ou] [= <- <-]. reflexivity. }
  cbn [step]. rewrite L. apply wp_bind, wp_udp_connect; auto using nofail_no_faults. intros x y s1 N1 N2 E. apply wp_ret. intros a1 _.
  destruct (udp_opened_regs x port Hp) as (O1 & O2 & _ & O3). pose proof (sevs_regs i _ _ N1) as G. pose proof (sevs_regs i _ _ N2) as G2.
  pose proof (sevs_sr_fixed i _ _ N2 ltac:(rewrite O1; auto)) as S2. generalize dependent (udp_opened x port). intros z N2 O1 O2 O3 G2 S2.
  destruct E as [-> |(-> & ->)].
  - destruct (dest_of_facts y r) as (F1 & _ & _ & _ & _ & _ & _ & _ & _ & _ & F11). split; [congruence|]. split; [rewrite F11, G2; exact O2|].
    now apply dest_of_dest.
  - split; [congruence|]. rewrite G2. split; [exact O2|]. apply (coherent_ext (Some r) (regs x)); [exact O3|]. rewrite G. now apply C.
Qed.
Print Assumptions C43_connect_partial.

(** connect, reset_device (which clears the registers), connect to the same remote: Ok, but
    the chip would send to 0.0.0.0:0 *)
Theorem C43_connect_refuted : exists a outs s a' s',
  run prompt (run_ops 30 (app_new Dhcp) [OpUdpSocket; OpUdpConnect 0 (V4 peer); OpDevice QResetDevice]) sys0 = (Done (a, outs), s) /\
  run prompt (step 30 a (OpUdpConnect 0 (V4 peer))) s = (Done (a', RUdpUnit (Ok tt)), s') /\
  let x := socks (s_chip s') 0 in
  [regs x Sn_DIPR; regs x (Sn_DIPR + 1); regs x (Sn_DIPR + 2); regs x (Sn_DIPR + 3)] = [x00; x00; x00; x00] /\ get16 (regs x) Sn_DPORT = 0.
Proof.
  eexists _, _, _, _, _. split; [apply run_snd; vm_compute; reflexivity|]. split; [apply run_snd; vm_compute; reflexivity|].
  vm_compute. split; reflexivity.
Qed.
Print Assumptions C43_connect_refuted.

Example C43_case : exists a outs s a' s',
  run prompt (run_ops 30 (app_new Dhcp) [OpUdpSocket; OpUdpConnect 0 (V4 peer)]) sys0 = (Done (a, outs), s) /\
  lookup 0 (handles a) = Some (HUdp (mkUdp (socket_new 0) (Some peer) 49849)) /\
  run prompt (step 30 a (OpUdpBind 0 53)) s = (Done (a', RUdpUnit (Ok tt)), s') /\
  run prompt (step 30 a (OpUdpConnect 0 (V4 other))) s = (Done (uapp (Some other) 49849, RUdpUnit (Ok tt)), snd (run prompt (step 30 a (OpUdpConnect 0 (V4 other))) s)).
Proof.
  eexists _, _, _, _, _. split; [apply run_snd; vm_compute; reflexivity|]. split; [reflexivity|].
  split; [apply run_snd; vm_compute; reflexivity|]. apply run_snd. vm_compute. reflexivity.
Qed.

(** ** C60, UDP *)
Theorem C60_mask_udp_refuted e fuel ho s00 ops0 a outs0 s h u o a' s' :
  run e (run_ops fuel (app_new ho) ops0) s00 = (Done (a, outs0), s) ->
  lookup h (handles a) = Some (HUdp u) ->
  (exists r, o = OpUdpConnect h (V4 r)) \/ (exists p, o = OpUdpBind h p) ->
  run e (step fuel a o) s = (Done (a', RUdpUnit (Ok tt)), s') ->
  N.land (b2n (regs (socks (s_chip s') (index (u_socket u))) Sn_IMR)) IR_SENDOK = 0 /\
  N.land (b2n (regs (socks (s_chip s') (index (u_socket u))) Sn_IMR)) IR_TIMEOUT = 0.
Proof.
  intros R0 L Ho R. pose proof (run_ops_inv e fuel ops0 _ _ _ _ _ (pool_inv_new ho) R0) as I.
  destruct (pi_lookup _ _ _ I L) as (i & Hi & Ei & _). cbn [handle_socket] in Ei. destruct u as [so dest port]. cbn [u_socket] in *. subst so.
  cbn [index socket_new]. fold (sk i s').
  assert (X : regs (sk i s') Sn_IMR = u8 open_mask); [|rewrite X; split; reflexivity].
  refine (session_call _ e _ (fun o s' => forall a', o = Done (a', RUdpUnit (Ok tt)) -> regs (sk i s') Sn_IMR = u8 open_mask) s _ s' (es_step fuel a _) R _ _ a' eq_refl).
  { intros [a1 ou] [= <- <-]. reflexivity. }
  destruct Ho as [(r & ->)|(p & ->)]; cbn [step]; rewrite L; apply wp_bind.
  - apply wp_udp_connect; auto using nofail_no_faults. intros x y s1 N1 N2 E. apply wp_ret. intros a1 _. pose proof (udp_opened_imr x port) as M.
    rewrite <- (sevs_regs i _ _ N2) in M. destruct E as [-> |(-> & _)]; [rewrite dest_of_regs by (right; discriminate)|]; exact M.
  - apply wp_udp_bind; auto using nofail_no_faults. intros x s1 _ _ E. apply wp_ret. intros a1 _. rewrite E. apply udp_opened_imr.
Qed.
Print Assumptions C60_mask_udp_refuted.
Example C60_udp_case : exists s', run quiet (step 30 (uapp None 49849) (OpUdpBind 0 53)) sys0 = (Done (uapp None 53, RUdpUnit (Ok tt)), s') /\
  run quiet (run_ops 30 (app_new Dhcp) [OpUdpSocket]) sys0 = (Done (uapp None 49849, [RUdpSocket (Ok 0%nat)]), sys0) /\
  regs (socks (s_chip s') 0) Sn_IMR = x00.
Proof. eexists. split; [apply run_snd; vm_compute; reflexivity|]. split; [reflexivity|]. vm_compute. reflexivity. Qed.

(** ** C44 *)
(** Full statement: every datagram goes to the remote given to this send_to, or to the last
    connect for a send, in any program.  Proved, with "last connect" weakened to "last
    remote named by connect or send_to" (see [C44_connect_refuted]), as long as no call on the
    handle has met a bus error (see [C44_addressed_refuted]).  Only sends emit datagrams. *)
Theorem C44_addressed_partial e fuel h i dest port a s o oc s' :
  udp_session e fuel h i dest port a s -> keeps_udp h o ->
  run e (step fuel a o) s = (oc, s') ->
  (op_handle o = Some h -> forall a' out, oc = Done (a', out) -> out_berr out = None) ->
  exists ps, sent (socks (s_chip s') i) = sent (socks (s_chip s) i) ++ ps /\
    Forall (fun p => exists r, named1 h dest o = Some r /\ p_sport p = port /\ p_ip p = dotted (a_ip r) /\ p_dport p = a_port r) ps /\
    (ps <> [] -> exists r buf, sends_buf h dest o r buf).
Proof. exact (udp_packets e fuel h i dest port a s o oc s'). Qed.
Print Assumptions C44_addressed_partial.

Example C44_case : exists s, udp_session prompt 30 0 0 (Some other) 53 (uapp (Some other) 53) s /\
  map (fun p => (p_ip p, p_dport p, p_sport p, p_data p)) (sent (socks (s_chip s) 0)) =
    [([x0a; x00; x00; x02], 8080, 53, [x61]); ([x0a; x00; x00; x07], 53, 53, [x62; x63])].
Proof.
  pose (ops := [OpUdpConnect 0 (V4 peer); OpUdpSend 0 [x61]; OpUdpSendTo 0 (V4 other) [x62; x63]]).
  exists (uafter prompt (OpUdpBind 0 53) (uapp None 53) ops). split.
  - exact (simple_udp prompt (OpUdpBind 0 53) (uapp None 53) ops (uapp (Some other) 53) [RUdpUnit (Ok tt); RUdpSend (Ok tt); RUdpSend (Ok tt)]
      ltac:(vm_compute; reflexivity) ltac:(vm_compute; reflexivity) ltac:(right; eexists; reflexivity) ltac:(repeat constructor) ltac:(cbn; auto)).
  - vm_compute. reflexivity.
Qed.

(** the bus fails between the two destination registers during send_to(other); the next
    send_to(peer) finds its remote remembered and writes nothing: the datagram goes to
    other's address and peer's port *)
Theorem C44_addressed_refuted : exists a outs s,
  run (with_fault 9 0 prompt) (run_ops 30 (app_new Dhcp)
    [OpUdpSocket; OpUdpConnect 0 (V4 peer); OpUdpSendTo 0 (V4 other) [x61]; OpUdpSendTo 0 (V4 peer) [x62]]) sys0 = (Done (a, outs), s) /\
  outs = [RUdpSocket (Ok 0%nat); RUdpUnit (Ok tt); RUdpSend (Err (NbOther (UOther 7))); RUdpSend (Ok tt)] /\
  sent (socks (s_chip s) 0) = [mkPacket 49849 (dotted (a_ip other)) (a_port peer) [x62]].
Proof. eexists _, _, _. split; [apply run_snd; vm_compute; reflexivity|]. split; vm_compute; reflexivity. Qed.
Print Assumptions C44_addressed_refuted.

(** after the same bus error a connect to a third remote opens a session: the registers are
    written afresh, and the next send goes there *)
Definition third : addr4 := Addr4 (Ip4 x0a x00 x00 x09) 99.
Definition torn : list op := [OpUdpSocket; OpUdpConnect 0 (V4 peer); OpUdpSendTo 0 (V4 other) [x61]].
Notation torn_sys := (snd (run (with_fault 9 0 prompt) (run_ops 30 (app_new Dhcp) torn) sys0)).
Notation mend_sys := (snd (run (with_fault 9 0 prompt) (step 30 (uapp (Some peer) 49849) (OpUdpConnect 0 (V4 third))) torn_sys)).
Notation sent_sys := (snd (run (with_fault 9 0 prompt) (run_ops 30 (uapp (Some third) 49849) [OpUdpSend 0 [x62]]) mend_sys)).
Example C44_case_recovered : exists s, udp_session (with_fault 9 0 prompt) 30 0 0 (Some third) 49849 (uapp (Some third) 49849) s /\
  ~ coherent (Some peer) (regs (socks (s_chip torn_sys) 0)) /\
  sent (socks (s_chip s) 0) = [mkPacket 49849 (dotted (a_ip third)) (a_port third) [x62]].
Proof.
  exists sent_sys. split.
  - exists Dhcp, sys0, torn, (uapp (Some peer) 49849), [RUdpSocket (Ok 0%nat); RUdpUnit (Ok tt); RUdpSend (Err (NbOther (UOther 7)))], torn_sys,
      (mkUdp (socket_new 0) (Some peer) 49849), (OpUdpConnect 0 (V4 third)), (uapp (Some third) 49849), mend_sys, [OpUdpSend 0 [x62]], [RUdpSend (Ok tt)].
    split; [apply run_snd; vm_compute; reflexivity|]. split; [reflexivity|]. split; [reflexivity|]. split; [reflexivity|].
    split; [right; exists third; split; [reflexivity|discriminate]|].
    split; [right; left; vm_compute; reflexivity|]. split; [right; left; vm_compute; reflexivity|]. split; [left; eexists; reflexivity|].
    split; [apply run_snd; vm_compute; reflexivity|]. split; [apply run_snd; vm_compute; reflexivity|].
    split; [repeat constructor|]. split; [cbn; auto|]. split; reflexivity.
  - split; [|vm_compute; reflexivity]. intros (C & _). vm_compute in C. discriminate C.
Qed.

(** connect(peer), send_to(other), send: the last datagram goes to other *)
Theorem C44_connect_refuted : exists a outs s,
  run prompt (run_ops 30 (app_new Dhcp)
    [OpUdpSocket; OpUdpConnect 0 (V4 peer); OpUdpSendTo 0 (V4 other) [x61]; OpUdpSend 0 [x62]]) sys0 = (Done (a, outs), s) /\
  outs = [RUdpSocket (Ok 0%nat); RUdpUnit (Ok tt); RUdpSend (Ok tt); RUdpSend (Ok tt)] /\
  map p_ip (sent (socks (s_chip s) 0)) = [dotted (a_ip other); dotted (a_ip other)].
Proof. eexists _, _, _. split; [apply run_snd; vm_compute; reflexivity|]. split; vm_compute; reflexivity. Qed.
Print Assumptions C44_connect_refuted.

(** ** C45 *)
(** Full statement: Ok means the whole buffer was transmitted.  Proved when the chip shows no
    timeout at the end of the call, or when no SENDOK of an earlier send is left and the
    buffer fits; [cut_into z buf cs]: [cs] is [buf] in pieces of [z] bytes, the last one what
    is left. *)
Theorem C45_whole_buffer_partial e fuel h i dest port a s o r buf a' s' :
  udp_session e fuel h i dest port a s -> sends_buf h dest o r buf ->
  run e (step fuel a o) s = (Done (a', RUdpSend (Ok tt)), s') ->
  let x := socks (s_chip s) i in let x' := socks (s_chip s') i in
  N.testbit (ir x') 3 = false \/ (N.testbit (ir x) 4 = false /\ tx_okdue x = false /\ len buf <= tx_size x) ->
  exists cs, cut_into (tx_size x) buf cs /\
    sent x' = sent x ++ map (fun c => mkPacket port (dotted (a_ip r)) (a_port r) c) cs /\
    concat (map p_data (map (fun c => mkPacket port (dotted (a_ip r)) (a_port r) c) cs)) = buf.
Proof.
  intros T B R x x' H. destruct (udp_send_call _ _ _ _ _ _ _ _ _ _ _ _ _ T B R) as [(a1 & [= <-] & C & _)|[(a1 & [=] & _)|([=] & _)]].
  { intros a1 ou [= <- <-]. reflexivity. }
  destruct C as (cs & ps & C1 & C2 & C3 & C4 & C5 & C6). exists cs. fold x x' in C1, C2, C4, C5, C6 |- *.
  change (fun c => mkPacket port (dotted (a_ip r)) (a_port r) c) with (sent_to port r).
  assert (E : ps = map (sent_to port r) cs).
  { destruct H as [H|(H1 & H2 & H3)]; [now apply C5|]. apply C6; [|exact H3]. change (N.testbit (ir x) 4 || tx_okdue x = false). now rewrite H1, H2. }
  split; [exact C1|]. split; [rewrite <- E; exact C2|]. rewrite map_map. cbn [p_data sent_to]. rewrite map_id. apply C1.
Qed.
Print Assumptions C45_whole_buffer_partial.

(** 2500 bytes leave as 2048 + 452 from a 2 KiB buffer *)
Example C45_case : exists s s' a', udp_session prompt 30 0 0 (Some peer) 49849 (uapp (Some peer) 49849) s /\
  run prompt (step 30 (uapp (Some peer) 49849) (OpUdpSend 0 (repeat x61 2500))) s = (Done (a', RUdpSend (Ok tt)), s') /\
  N.testbit (ir (socks (s_chip s') 0)) 3 = false /\
  map (fun p => len (p_data p)) (sent (socks (s_chip s') 0)) = [2048; 452].
Proof.
  exists (uafter prompt (OpUdpConnect 0 (V4 peer)) (uapp (Some peer) 49849) []). eexists _, _. split.
  - exact (simple_udp prompt (OpUdpConnect 0 (V4 peer)) (uapp (Some peer) 49849) [] (uapp (Some peer) 49849) []
      ltac:(vm_compute; reflexivity) ltac:(vm_compute; reflexivity) ltac:(left; eexists; reflexivity) ltac:(repeat constructor) I).
  - split; [apply run_snd; vm_compute; reflexivity|]. split; vm_compute; reflexivity.
Qed.

(** The first send is transmitted; the driver sees the pointers agree before the chip has
    raised SENDOK and answers Ok.  The stale SENDOK makes the second send, on which the chip
    gave up, answer Ok too: nothing of it left. *)
Definition stale : env := script [(25%nat, [EvTransmit 0 9]); (35%nat, [EvSendOk 0]); (45%nat, [EvSendTimeout 0 true])].
Theorem C45_whole_buffer_refuted : exists s s',
  udp_session stale 30 0 0 (Some peer) 49849 (uapp (Some peer) 49849) s /\
  run stale (step 30 (uapp (Some peer) 49849) (OpUdpSend 0 [x62])) s = (Done (uapp (Some peer) 49849, RUdpSend (Ok tt)), s') /\
  sent (socks (s_chip s') 0) = sent (socks (s_chip s) 0).
Proof.
  exists (uafter stale (OpUdpConnect 0 (V4 peer)) (uapp (Some peer) 49849) [OpUdpSend 0 [x61]]). eexists. split.
  - exact (simple_udp stale (OpUdpConnect 0 (V4 peer)) (uapp (Some peer) 49849) [OpUdpSend 0 [x61]] (uapp (Some peer) 49849) [RUdpSend (Ok tt)]
      ltac:(vm_compute; reflexivity) ltac:(vm_compute; reflexivity) ltac:(left; eexists; reflexivity) ltac:(repeat constructor) ltac:(cbn; auto)).
  - split; [apply run_snd; vm_compute; reflexivity|]. vm_compute. reflexivity.
Qed.
Print Assumptions C45_whole_buffer_refuted.

(** ** C46 *)
(** Full statement: one send, one datagram.  Proved for non-empty buffers that fit the TX
    buffer, under the flag condition of C45. *)
Theorem C46_one_datagram_partial e fuel h i dest port a s o r buf a' s' :
  udp_session e fuel h i dest port a s -> sends_buf h dest o r buf ->
  run e (step fuel a o) s = (Done (a', RUdpSend (Ok tt)), s') ->
  let x := socks (s_chip s) i in let x' := socks (s_chip s') i in
  N.testbit (ir x') 3 = false \/ (N.testbit (ir x) 4 = false /\ tx_okdue x = false) ->
  0 < len buf <= tx_size x ->
  sent x' = sent x ++ [mkPacket port (dotted (a_ip r)) (a_port r) buf].
Proof.
  intros T B R x x' H L. destruct (C45_whole_buffer_partial e fuel h i dest port a s o r buf a' s' T B R) as (cs & C1 & C2 & _).
  { fold x x'. tauto. }
  fold x x' in C1, C2. rewrite (cut_one _ _ _ C1 L) in C2. exact C2.
Qed.
Print Assumptions C46_one_datagram_partial.

(** an empty send emits nothing; one larger than the TX buffer emits several *)
Theorem C46_one_datagram_refuted : exists s s1 s2,
  udp_session prompt 30 0 0 (Some peer) 49849 (uapp (Some peer) 49849) s /\ sent (socks (s_chip s) 0) = [] /\
  run prompt (step 30 (uapp (Some peer) 49849) (OpUdpSend 0 [])) s = (Done (uapp (Some peer) 49849, RUdpSend (Ok tt)), s1) /\
  sent (socks (s_chip s1) 0) = [] /\
  run prompt (step 30 (uapp (Some peer) 49849) (OpUdpSend 0 (repeat x61 2049))) s = (Done (uapp (Some peer) 49849, RUdpSend (Ok tt)), s2) /\
  map (fun p => len (p_data p)) (sent (socks (s_chip s2) 0)) = [2048; 1].
Proof.
  exists (uafter prompt (OpUdpConnect 0 (V4 peer)) (uapp (Some peer) 49849) []). eexists _, _. split.
  - exact (simple_udp prompt (OpUdpConnect 0 (V4 peer)) (uapp (Some peer) 49849) [] (uapp (Some peer) 49849) []
      ltac:(vm_compute; reflexivity) ltac:(vm_compute; reflexivity) ltac:(left; eexists; reflexivity) ltac:(repeat constructor) I).
  - split; [vm_compute; reflexivity|]. split; [apply run_snd; vm_compute; reflexivity|]. split; [vm_compute; reflexivity|].
    split; [apply run_snd; vm_compute; reflexivity|]. vm_compute. reflexivity.
Qed.
Print Assumptions C46_one_datagram_refuted.
Example C46_case : exists s s', let a := uapp (Some peer) 49849 in
  udp_session prompt 30 0 0 (Some peer) 49849 a s /\ sends_buf 0 (Some peer) (OpUdpSend 0 [x61; x62]) peer [x61; x62] /\
  run prompt (step 30 a (OpUdpSend 0 [x61; x62])) s = (Done (a, RUdpSend (Ok tt)), s') /\
  N.testbit (ir (socks (s_chip s')  0)) 3 = false /\
  sent (socks (s_chip s') 0) = [mkPacket 49849 [x0a; x00; x00; x02] 8080 [x61; x62]].
Proof.
  eexists _, _. cbv zeta. split.
  { exact (simple_udp prompt (OpUdpConnect 0 (V4 peer)) (uapp (Some peer) 49849) [] (uapp (Some peer) 49849) [] ltac:(vm_compute; reflexivity) eq_refl
      (or_introl (ex_intro _ peer eq_refl)) ltac:(repeat constructor) I). }
  split; [left; auto|]. split; [apply run_snd; vm_compute; reflexivity|]. split; vm_compute; reflexivity.
Qed.

(** ** C47 *)
(** Full statement: if the chip gave up, send returns WriteTimeout.  Proved for a buffer that
    fits, when neither a SENDOK nor a TIMEOUT of an earlier send is left: if the call returns
    and its datagram was not transmitted the result is WriteTimeout, and only then. *)
Theorem C47_timeout_partial e fuel h i dest port a s o r buf a' out s' :
  udp_session e fuel h i dest port a s -> sends_buf h dest o r buf ->
  run e (step fuel a o) s = (Done (a', out), s') -> out_berr out = None ->
  let x := socks (s_chip s) i in let x' := socks (s_chip s') i in
  N.testbit (ir x) 4 = false -> tx_okdue x = false -> N.testbit (ir x) 3 = false -> 0 < len buf <= tx_size x ->
  (sent x' = sent x <-> out = RUdpSend (Err (NbOther UWriteTimeout))) /\
  (sent x' = sent x ++ [mkPacket port (dotted (a_ip r)) (a_port r) buf] <-> out = RUdpSend (Ok tt)).
Proof.
  intros T B R NB x x' F1 F2 F3 L.
  assert (Ne : forall p, sent x ++ [p] <> sent x).
  { intros p E. apply (f_equal (@length packet)) in E. rewrite app_length in E. cbn [length] in E. lia. }
  destruct (udp_send_call _ _ _ _ _ _ _ _ _ _ _ _ _ T B R) as [(a1 & [= <- ->] & C & _)|[(a1 & [= <- ->] & C & _)|([=] & _)]].
  { intros a1 ou [= <- <-]. exact NB. }
  - pose proof (C46_one_datagram_partial e fuel h i dest port a s o r buf _ s' T B R ltac:(auto) L) as S. fold x x' in S.
    rewrite S. split; [split; [intros E; now elim (Ne _ E)|discriminate]|tauto].
  - destruct C as (cs & rest & ps & C1 & C2 & C3 & C4 & C5 & C6). change (sent x' = sent x ++ ps) in C4. specialize (C6 F3).
    destruct C3 as (C3 & _). change (cut_into (tx_size x) (concat cs) cs) in C3.
    assert (E : cs = [concat cs]).
    { apply (cut_one _ _ _ C3). assert (Lc : len (concat cs) <= len buf) by (rewrite C1, len_app; lia).
      destruct cs as [|c cs]; [now elim C2|]. destruct C3 as (_ & C3 & _). pose proof (Forall_inv C3) as A1. cbv beta in A1.
      cbn [concat] in *. rewrite len_app in *. lia. }
    rewrite E in C6. cbn [length] in C6. destruct ps; [|cbn [length] in C6; lia]. rewrite app_nil_r in C4. rewrite C4.
    split; [tauto|]. split; [intros E'; symmetry in E'; now elim (Ne _ E')|discriminate].
Qed.
Print Assumptions C47_timeout_partial.

Definition gives_up : env := script [(28%nat, [EvSendTimeout 0 true])].
Example C47_case : exists s a' s',
  udp_session gives_up 30 0 0 (Some peer) 49849 (uapp (Some peer) 49849) s /\ fresh_ok (socks (s_chip s) 0) = false /\
  run gives_up (step 30 (uapp (Some peer) 49849) (OpUdpSend 0 [x61])) s = (Done (a', RUdpSend (Err (NbOther UWriteTimeout))), s').
Proof.
  exists (uafter gives_up (OpUdpConnect 0 (V4 peer)) (uapp (Some peer) 49849) []). eexists _, _. split.
  - exact (simple_udp gives_up (OpUdpConnect 0 (V4 peer)) (uapp (Some peer) 49849) [] (uapp (Some peer) 49849) []
      ltac:(vm_compute; reflexivity) ltac:(vm_compute; reflexivity) ltac:(left; eexists; reflexivity) ltac:(repeat constructor) I).
  - split; [vm_compute; reflexivity|]. apply run_snd. vm_compute. reflexivity.
Qed.

(** the second send of [stale]: the chip gave up, the call returned Ok *)
Theorem C47_timeout_refuted : exists s s',
  udp_session stale 30 0 0 (Some peer) 49849 (uapp (Some peer) 49849) s /\
  run stale (step 30 (uapp (Some peer) 49849) (OpUdpSend 0 [x62])) s = (Done (uapp (Some peer) 49849, RUdpSend (Ok tt)), s') /\
  sent (socks (s_chip s') 0) = sent (socks (s_chip s) 0) /\ N.testbit (ir (socks (s_chip s) 0)) 3 = false /\ N.testbit (ir (socks (s_chip s') 0)) 3 = true.
Proof.
  exists (uafter stale (OpUdpConnect 0 (V4 peer)) (uapp (Some peer) 49849) [OpUdpSend 0 [x61]]). eexists. split.
  - exact (simple_udp stale (OpUdpConnect 0 (V4 peer)) (uapp (Some peer) 49849) [OpUdpSend 0 [x61]] (uapp (Some peer) 49849) [RUdpSend (Ok tt)]
      ltac:(vm_compute; reflexivity) ltac:(vm_compute; reflexivity) ltac:(left; eexists; reflexivity) ltac:(repeat constructor) ltac:(cbn; auto)).
  - split; [apply run_snd; vm_compute; reflexivity|]. do 2 (split; [vm_compute; reflexivity|]). vm_compute. reflexivity.
Qed.
Print Assumptions C47_timeout_refuted.

(** ** C49 *)
(** [queue x q]: the bytes waiting in the RX buffer are the records (header and payload) of the
    datagrams [q], in order.  In a session they always are. *)
Theorem C49_queue e fuel h i dest port a s : udp_session e fuel h i dest port a s -> exists q, queue (socks (s_chip s) i) q.
Proof. intros T. destruct (udp_session_facts _ _ _ _ _ _ _ _ T) as (_ & _ & _ & _ & _ & _ & _ & Q & _). exact Q. Qed.
Print Assumptions C49_queue.

(** Full statement: the returned length is the payload's (or the buffer's if shorter), with
    exactly those bytes at the front.  Proved: Ok delivers a whole payload at the front of the
    buffer, the sender is right, and nothing behind the returned length changes; the returned
    length is right iff the buffer is exactly as long as the payload. *)
Theorem C49_datagram_partial e fuel h i dest port a s q0 buf a' buf' n o s' :
  udp_session e fuel h i dest port a s -> queue (socks (s_chip s) i) q0 ->
  run e (step fuel a (OpUdpReceive h buf)) s = (Done (a', RUdpReceive buf' (Ok (n, o))), s') ->
  exists g q r, (exists q', q0 ++ q' = g :: q) /\
    o = V4 r /\ dotted (a_ip r) = g_ip g /\ a_port r = g_port g /\
    take (len (g_data g)) buf' = g_data g /\ len buf' = len buf /\ drop n buf' = drop n buf /\
    len (g_data g) <= n <= len buf /\ (n = len (g_data g) <-> len buf = len (g_data g)).
Proof.
  intros T Q0 R. destruct (udp_receive_call _ _ _ _ _ _ _ _ _ _ _ _ T Q0 R) as [(n1 & r & b1 & [= <- <- <- ->] & C)|[([=] & _)|[([=] & _)|[([=] & _)|([=] & _)]]]].
  { intros a1 ou [= <- <-]. reflexivity. }
  destruct C as (_ & _ & g & q & later & q' & E & W & _ & _ & (S1 & S2) & Lg & -> & F1 & F2 & F3).
  exists g, (q ++ later), r. split; [eauto|]. split; [reflexivity|]. do 2 (split; [assumption|]). split; [exact F1|]. split; [exact F3|]. split; [exact F2|].
  assert (Lr : len (records (g :: q)) >= 8 + len (g_data g)).
  { rewrite E in W. pose proof (Forall_inv W) as Wg. unfold records. cbn [map concat]. rewrite len_app, len_record by exact Wg. lia. }
  lia.
Qed.
Print Assumptions C49_datagram_partial.

Definition arrival (d : list byte) : nevent := EvDatagram 0 [x01; x02; x03; x04] 53 d.
Definition arrivals (l : list (list byte)) : env := script [(13%nat, map arrival l)].
Definition one : env := arrivals [[x41; x42; x43]].
Definition two : env := arrivals [[x41; x42; x43]; [x44; x45; x46]].
(** a 3-byte payload, a 16-byte buffer: the returned length is 11, and bytes 3..10 are not
    part of the datagram *)
Theorem C49_datagram_refuted : exists s s', let e := one in
  udp_session e 30 0 0 (Some peer) 49849 (uapp (Some peer) 49849) s /\
  run e (step 30 (uapp (Some peer) 49849) (OpUdpReceive 0 (repeat x00 16))) s =
    (Done (uapp (Some peer) 49849, RUdpReceive ([x41; x42; x43] ++ [x0b; x0c; x0d; x0e; x0f; x10; x11; x12] ++ repeat x00 5)
       (Ok (11, V4 (Addr4 (Ip4 x01 x02 x03 x04) 53)))), s').
Proof.
  exists (uafter one (OpUdpConnect 0 (V4 peer)) (uapp (Some peer) 49849) []). eexists _. cbv zeta. split.
  - exact (simple_udp one (OpUdpConnect 0 (V4 peer)) (uapp (Some peer) 49849) [] (uapp (Some peer) 49849) []
      ltac:(vm_compute; reflexivity) ltac:(vm_compute; reflexivity) ltac:(left; eexists; reflexivity) ltac:(repeat constructor) I).
  - apply run_snd. vm_compute. reflexivity.
Qed.
Print Assumptions C49_datagram_refuted.
(** the datagram waits, and the buffer is exactly as long as its payload *)
Example C49_case : exists s s', let a := uapp (Some peer) 49849 in
  udp_session one 30 0 0 (Some peer) 49849 a s /\ queue (socks (s_chip s) 0) [mkDgram [x01; x02; x03; x04] 53 [x41; x42; x43]] /\
  run one (step 30 a (OpUdpReceive 0 (repeat x00 3))) s =
    (Done (a, RUdpReceive [x41; x42; x43] (Ok (3, V4 (Addr4 (Ip4 x01 x02 x03 x04) 53)))), s').
Proof.
  exists (uafter one (OpUdpConnect 0 (V4 peer)) (uapp (Some peer) 49849) [OpDevice QVersion]). eexists. cbv zeta. split.
  { exact (simple_udp one (OpUdpConnect 0 (V4 peer)) (uapp (Some peer) 49849) [OpDevice QVersion] (uapp (Some peer) 49849) [RDevice (DByte (Ok x04))] ltac:(vm_compute; reflexivity) ltac:(vm_compute; reflexivity)
      (or_introl (ex_intro _ peer eq_refl)) ltac:(repeat constructor) ltac:(cbn; auto)). }
  split; [split; [vm_compute; reflexivity|repeat constructor]|]. apply run_snd. vm_compute. reflexivity.
Qed.

(** ** C50 *)
(** Full statement: receive removes exactly one datagram.  Proved: the datagrams returned are
    in order of arrival, a datagram is only lost by the call that returned the one before it,
    and if only one datagram was there, and none arrived meanwhile, exactly that one is
    removed. *)
Theorem C50_one_per_call_partial e fuel h i dest port a s q0 buf a' buf' n o s' :
  udp_session e fuel h i dest port a s -> queue (socks (s_chip s) i) q0 ->
  run e (step fuel a (OpUdpReceive h buf)) s = (Done (a', RUdpReceive buf' (Ok (n, o))), s') ->
  exists g lost left new, q0 ++ new = g :: lost ++ left /\ queue (socks (s_chip s') i) left /\
    rxlog (socks (s_chip s') i) = rxlog (socks (s_chip s) i) ++ concat (map record_of new) /\
    take (len (g_data g)) buf' = g_data g /\
    (forall g0, q0 = [g0] -> new = [] -> g = g0 /\ lost = [] /\ left = []).
Proof.
  intros T Q0 R. destruct (udp_receive_call _ _ _ _ _ _ _ _ _ _ _ _ T Q0 R) as [(n1 & r & b1 & [= <- <- <- ->] & C)|[([=] & _)|[([=] & _)|[([=] & _)|([=] & _)]]]].
  { intros a1 ou [= <- <-]. reflexivity. }
  destruct C as (_ & _ & g & q & later & q' & E & W & Ql & Lx & _ & _ & _ & F1 & _).
  exists g, q, later, q'. split; [exact E|]. split; [exact Ql|]. split; [exact Lx|]. split; [exact F1|].
  intros g0 -> ->. injection E as <- E. symmetry in E. apply app_eq_nil in E as (-> & ->). auto.
Qed.
Print Assumptions C50_one_per_call_partial.

(** two datagrams of 3 bytes wait; the first receive returns the first, the second receive
    finds nothing *)
Theorem C50_one_per_call_refuted : exists s s1 s2, let e := two in
  let a := uapp (Some peer) 49849 in
  udp_session e 30 0 0 (Some peer) 49849 a s /\
  run e (step 30 a (OpUdpReceive 0 (repeat x00 3))) s = (Done (a, RUdpReceive [x41; x42; x43] (Ok (3, V4 (Addr4 (Ip4 x01 x02 x03 x04) 53)))), s1) /\
  run e (step 30 a (OpUdpReceive 0 (repeat x00 3))) s1 = (Done (a, RUdpReceive (repeat x00 3) (Err WouldBlock)), s2) /\
  rxlog (socks (s_chip s1) 0) = udp_record [x01; x02; x03; x04] 53 [x41; x42; x43] ++ udp_record [x01; x02; x03; x04] 53 [x44; x45; x46].
Proof.
  exists (uafter two (OpUdpConnect 0 (V4 peer)) (uapp (Some peer) 49849) []). eexists _, _. cbv zeta. split.
  - exact (simple_udp two (OpUdpConnect 0 (V4 peer)) (uapp (Some peer) 49849) [] (uapp (Some peer) 49849) []
      ltac:(vm_compute; reflexivity) ltac:(vm_compute; reflexivity) ltac:(left; eexists; reflexivity) ltac:(repeat constructor) I).
  - split; [apply run_snd; vm_compute; reflexivity|]. split; [apply run_snd; vm_compute; reflexivity|]. vm_compute. reflexivity.
Qed.
Print Assumptions C50_one_per_call_refuted.
(** C49, C50: two datagrams wait *)
Example C50_case : exists s, let a := uapp (Some peer) 49849 in
  udp_session two 30 0 0 (Some peer) 49849 a s /\
  queue (socks (s_chip s) 0) [mkDgram [x01; x02; x03; x04] 53 [x41; x42; x43]; mkDgram [x01; x02; x03; x04] 53 [x44; x45; x46]].
Proof.
  eexists. cbv zeta. split.
  { exact (simple_udp two (OpUdpConnect 0 (V4 peer)) (uapp (Some peer) 49849) [OpDevice QVersion] (uapp (Some peer) 49849) [RDevice (DByte (Ok x04))] ltac:(vm_compute; reflexivity) ltac:(vm_compute; reflexivity)
      (or_introl (ex_intro _ peer eq_refl)) ltac:(repeat constructor) ltac:(cbn; auto)). }
  split; [vm_compute; reflexivity|]. repeat constructor.
Qed.

(** ** C51 *)
(** In a session receive panics exactly when the next datagram is longer than the (non-empty)
    buffer; it then always does, unless the received-size register never comes to rest. *)
Theorem C51_receive_panics_session_partial e fuel h i dest port a s q0 buf oc s' :
  udp_session e fuel h i dest port a s -> queue (socks (s_chip s) i) q0 ->
  run e (step fuel a (OpUdpReceive h buf)) s = (oc, s') ->
  (forall a' out, oc = Done (a', out) -> out_berr out = None) ->
  (forall p, oc = Panicked p -> exists g q new, q0 ++ new = g :: q /\ len buf < len (g_data g)) /\
  (forall g q, q0 = g :: q -> 0 < len buf < len (g_data g) -> N.testbit (ir (socks (s_chip s) i)) 2 = true ->
     oc = Panicked P_udp_recv_slice \/ oc = Looping).
Proof.
  intros T Q0 R NB. destruct (udp_receive_call _ _ _ _ _ _ _ _ _ _ _ _ T Q0 R NB) as
    [(n1 & r & b1 & -> & C)|[(-> & N & C)|[(-> & N & C)|[(-> & N & g & q & q1 & C1 & C2 & C3)|(-> & N)]]]].
  - split; [discriminate|]. intros g0 q1 -> L F. exfalso. destruct C as (_ & _ & g & q & later & q' & E & _ & _ & _ & _ & Lg & _).
    injection E as -> _. lia.
  - split; [discriminate|]. intros g0 q1 -> L F. destruct C as [C|C]; [|discriminate]. unfold recvf, sk in C. rewrite F in C. discriminate.
  - split; [discriminate|]. intros g0 q1 -> L F. subst buf. cbn in L. lia.
  - split; [|auto]. intros _ _. eauto 6.
  - split; [discriminate|auto].
Qed.
Print Assumptions C51_receive_panics_session_partial.

Theorem C51_receive_panics_refuted : exists s s', let e := one in
  udp_session e 30 0 0 (Some peer) 49849 (uapp (Some peer) 49849) s /\
  run e (step 30 (uapp (Some peer) 49849) (OpUdpReceive 0 (repeat x00 2))) s = (Panicked P_udp_recv_slice, s').
Proof.
  exists (uafter one (OpUdpConnect 0 (V4 peer)) (uapp (Some peer) 49849) []). eexists _. cbv zeta. split.
  - exact (simple_udp one (OpUdpConnect 0 (V4 peer)) (uapp (Some peer) 49849) [] (uapp (Some peer) 49849) []
      ltac:(vm_compute; reflexivity) ltac:(vm_compute; reflexivity) ltac:(left; eexists; reflexivity) ltac:(repeat constructor) I).
  - apply run_snd. vm_compute. reflexivity.
Qed.
Print Assumptions C51_receive_panics_refuted.
(** both hypotheses of the second half of [C51_receive_panics_session_partial]: a waiting
    datagram and the RECV flag *)
Example C51_case : exists s, let a := uapp (Some peer) 49849 in let g := mkDgram [x01; x02; x03; x04] 53 [x41; x42; x43] in
  udp_session one 30 0 0 (Some peer) 49849 a s /\ queue (socks (s_chip s) 0) [g] /\
  0 < len [x00; x00] < len (g_data g) /\ N.testbit (ir (socks (s_chip s) 0)) 2 = true.
Proof.
  exists (uafter one (OpUdpConnect 0 (V4 peer)) (uapp (Some peer) 49849) [OpDevice QVersion]). cbv zeta. split.
  { exact (simple_udp one (OpUdpConnect 0 (V4 peer)) (uapp (Some peer) 49849) [OpDevice QVersion] (uapp (Some peer) 49849) [RDevice (DByte (Ok x04))] ltac:(vm_compute; reflexivity) ltac:(vm_compute; reflexivity)
      (or_introl (ex_intro _ peer eq_refl)) ltac:(repeat constructor) ltac:(cbn; auto)). }
  split; [split; [vm_compute; reflexivity|repeat constructor]|]. split; [split; reflexivity|]. vm_compute. reflexivity.
Qed.

(** ** C59 *)
(** The chip moves the TX read pointer of a UDP socket once per SEND, possibly between the two
    bytes of a read.  [all_handed x]: the SEND in progress, if any, covers everything up to the
    write pointer, as it does whenever the driver flushes.  Whatever flush answers other than
    "would block", the pointers do agree then. *)
Theorem C59_flush e fuel i dest port r s s' : i < 8 -> all_handed (socks (s_chip s) i) ->
  run e (udp_flush_loop fuel (mkUdp (socket_new i) dest port)) s = (Done r, s') ->
  r = Ok tt \/ r = Err (NbOther UWriteTimeout) ->
  tx_rd (socks (s_chip s') i) = tx_wr (socks (s_chip s') i).
Proof.
  intros Hi H R Hr.
  refine (session_call _ e _ (fun o s' => forall r, o = Done r -> tx_rd (sk i s') = tx_wr (sk i s')) s _ s' (es_udp_flush_loop fuel _) R _ _ r eq_refl).
  { intros r1 [= <-]. destruct Hr as [-> | ->]; reflexivity. }
  apply wp_flush_loop_handed; auto using nofail_no_faults. intros; discriminate.
Qed.
Print Assumptions C59_flush.
(** one turn of the loop *)
Theorem C59_try_flush e i dest port r s s' : i < 8 -> all_handed (socks (s_chip s) i) ->
  run e (udp_try_flush_tx (mkUdp (socket_new i) dest port)) s = (Done r, s') ->
  r = Ok tt \/ r = Err (NbOther UWriteTimeout) ->
  tx_rd (socks (s_chip s') i) = tx_wr (socks (s_chip s') i).
Proof.
  intros Hi H R Hr.
  refine (session_call _ e _ (fun o s' => forall r, o = Done r -> (r = Ok tt \/ r = Err (NbOther UWriteTimeout)) -> tx_rd (sk i s') = tx_wr (sk i s'))
    s _ s' (es_udp_try_flush_tx _) R _ _ r eq_refl Hr).
  { intros r1 [= <-]. destruct Hr as [-> | ->]; reflexivity. }
  apply wp_flush_handed; auto using nofail_no_faults. intros s1 _ r1 [= <-] [[=]|[=]].
Qed.
Print Assumptions C59_try_flush.
(** so when a send in a session has returned, by Ok or WriteTimeout, the chip has taken (or
    given up) everything *)
Theorem C59_send e fuel h i dest port a s o r buf a' out s' :
  udp_session e fuel h i dest port a s -> sends_buf h dest o r buf ->
  run e (step fuel a o) s = (Done (a', out), s') -> out_berr out = None ->
  let x := socks (s_chip s') i in tx_rd x = tx_wr x /\ tx_busy x = false.
Proof.
  intros T B R NB. destruct (udp_send_call _ _ _ _ _ _ _ _ _ _ _ _ _ T B R) as [(a1 & _ & _ & U)|[(a1 & _ & _ & U)|([=] & _)]].
  { intros a1 ou [= <- <-]. exact NB. }
  all: destruct U as (_ & (_ & _ & B1 & B2 & _) & _); auto.
Qed.
Print Assumptions C59_send.
(** a SEND in progress whose read pointer crosses a 256-byte boundary between the two bytes *)
Definition crossing : sock := mkSock (fun a => if a =? Sn_TX_WR then x01 else if a =? Sn_TX_WR + 1 then x02 else if a =? Sn_TXBUF_SIZE then x02 else x00)
  SOCK_UDP 0 0xF0 0xF0 0x102 true false 0 0 u8 u8 0 0 [] [] [].
Example C59_case : all_handed crossing /\
  fst (run (script [(1%nat, [EvTransmit 0 9])]) (udp_try_flush_tx (mkUdp (socket_new 0) None 1)) (mkSys (mkChip com_reset (fun _ => crossing)) 0 0)) = Done (Err WouldBlock) /\
  fst (run (script [(1%nat, [EvTransmit 0 9])]) (udp_flush_loop 3 (mkUdp (socket_new 0) None 1)) (mkSys (mkChip com_reset (fun _ => crossing)) 0 0)) = Done (Ok tt).
Proof. split; [|split; vm_compute; reflexivity]. split; [reflexivity|]. split; [reflexivity|]. intros _. vm_compute. reflexivity. Qed.
