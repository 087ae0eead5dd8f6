(** C93: from one program to another, over the network. *)
From Verif Require Import Dotted.
From Verif Require Import Origin System PipeSession Cases SpiChip Properties_system Properties_tcp.
From Verif Require Import Datasheet.

(** [gs]: one datagram for every receive on [h] that returned Ok, in order: with the address and port the
    receive returned, and with bytes that are now at the start of its buffer *)
Inductive receives (h : nat) : list op -> list out -> list dgram -> Prop :=
| rc_nil : receives h [] [] []
| rc_get buf buf' n r d ops outs gs :
    take (len d) buf' = d -> len d <= n <= len buf -> len buf' = len buf -> receives h ops outs gs ->
    receives h (OpUdpReceive h buf :: ops) (RUdpReceive buf' (Ok (n, V4 r)) :: outs) (mkDgram (dotted (a_ip r)) (a_port r) d :: gs)
| rc_other o out ops outs gs :
    (forall buf buf' n r, o = OpUdpReceive h buf -> out <> RUdpReceive buf' (Ok (n, r))) ->
    receives h ops outs gs -> receives h (o :: ops) (out :: outs) gs.

(** a Device program over the four wires, as in C77: it initialises the chip, makes the calls [ops0],
    opens the fresh UDP handle [h] of socket [i] with [o1] ([s1] is the chip then), goes on with [ops],
    which return [outs], and ends in [s] *)
Definition udp_program (e : env) (h : nat) (i port : N) (o1 : op) (ops : list op) (s00 : sys) (outs : list out) (s1 s : sys) : Prop :=
  exists chk ho m fuel so ops0 a0 outs0 st0 s0 a1 st1 a st, index so = i /\
    spi_run e (over_four_wire (device_program chk ho m fuel ops0)) (WaitHi, s00) = (Done (Ok (a0, outs0)), (st0, s0)) /\
    lookup h (handles a0) = Some (HUdp (mkUdp so None port)) /\ port < 65536 /\
    ((exists r, o1 = OpUdpConnect h (V4 r)) \/ (exists p, o1 = OpUdpBind h p)) /\
    spi_run e (over_four_wire (device_program chk ho m fuel (ops0 ++ [o1]))) (WaitHi, s00) = (Done (Ok (a1, outs0 ++ [RUdpUnit (Ok tt)])), (st1, s1)) /\
    spi_run e (over_four_wire (device_program chk ho m fuel (ops0 ++ o1 :: ops))) (WaitHi, s00) =
      (Done (Ok (a, outs0 ++ RUdpUnit (Ok tt) :: outs)), (st, s)) /\
    Forall (keeps_udp h) (o1 :: ops) /\ no_bus_error h ops outs.

Lemma gets_receives h : forall ops outs gss, udp_gets h ops outs gss -> exists gs, receives h ops outs gs /\ part gs (concat gss).
Proof.
  induction 1 as [|buf buf' n r g lost ops outs gss E1 E2 E3 E4 E5 H (gs & R & P)|o out ops outs gss X H (gs & R & P)].
  - exists []. split; constructor.
  - exists (g :: gs). split.
    + destruct g as [ip p d]. cbn [g_ip g_port g_data] in *. subst ip p. now constructor.
    + cbn [concat List.app]. apply part_keep. replace gs with ([] ++ gs) by reflexivity. apply part_app; [apply part_none|exact P].
  - exists gs. split; [now constructor|exact P].
Qed.

(** ** One device *)
(** Every receive that returned Ok gave the program one datagram the network had brought to that
    socket, whole, with its sender's address and port: each at most once, and in the order in which
    they came.  (The datagrams missing are those the chip had no room for and those a receive lost,
    C50.) *)
Theorem C93_udp_device :
  forall e h i port o1 ops s00 outs s1 s,
    udp_program e h i port o1 ops s00 outs s1 s -> Forall (stays_open h) ops ->
    exists gs, receives h ops outs gs /\ part gs (dgrams_in i (events e (s_tick s00) (s_tick s))).
Proof.
  intros e h i port o1 ops s00 outs s1 s (chk & ho & m & fuel & so & ops0 & a0 & outs0 & st0 & s0 & a1 & st1 & a & st & Ei & R0 & L & Hp & Ho & R1 & R & K & NB) St.
  destruct (C77_udp _ _ _ _ _ _ _ _ _ _ _ _ _ _ _ _ _ _ _ _ R0 L Hp Ho R K NB) as (a1' & s1' & Hi & R1' & _ & Su & G). rewrite Ei in *.
  destruct (G St) as (gss & left & Lg & _ & W & U). clear G.
  destruct (gets_receives _ _ _ _ U) as (gs & RC & P). exists gs. split; [exact RC|].
  apply four_wire_device_done in R as (-> & R). pose proof R as R'. apply run_device_ok in R' as (d & t0 & Ri & R2).
  assert (B0 : brought_since (four_wire_env e) i (s_tick s00) (s_tick t0) (s_chip t0)).
  { split; [apply (run_ticks _ _ _ _ _ Ri)|]. destruct (init_start _ _ _ _ _ _ _ i Ri) as (_ & (S & _) & _). unfold sk in S. apply brought_other; rewrite S; discriminate. }
  destruct (brought_run _ _ _ _ _ _ _ R2 B0) as (_ & (B & _)). destruct (B Su) as (q & E & Wq & Pq).
  change (concat (map record_of (concat gss ++ left))) with (records (concat gss ++ left)) in Lg. rewrite Lg in E. apply records_inj in E; [|exact W|exact Wq].
  subst q. apply (part_trans _ _ _ P), (part_trans _ (concat gss ++ left)); [apply part_more, part_refl|exact Pq].
Qed.
Print Assumptions C93_udp_device.

(** ** Two devices *)
(** the packets that left the chip in socket [i] between [s1] and [s] *)
Definition sent_since (i : N) (s1 s : sys) : list packet := skipn (length (sent (socks (s_chip s1) i))) (sent (socks (s_chip s) i)).
Definition from_remote (r : addr4) (g : dgram) : bool :=
  if list_eq_dec Byte.byte_eq_dec (g_ip g) (dotted (a_ip r)) then g_port g =? a_port r else false.
(** the packet goes from port [p] to remote [r] *)
Definition between (p : N) (r : addr4) (k : packet) : bool :=
  if list_eq_dec Byte.byte_eq_dec (p_ip k) (dotted (a_ip r)) then (p_sport k =? p) && (p_dport k =? a_port r) else false.

Lemma skipn_all_app {A} (l r : list A) : skipn (length l) (l ++ r) = r.
Proof. induction l; [reflexivity|assumption]. Qed.
Lemma program_sends e h i port o1 ops s00 outs s1 s : udp_program e h i port o1 ops s00 outs s1 s ->
  exists pss, sent_since i s1 s = concat pss /\ udp_sends h (named1 h None o1) (bound1 h port o1) ops outs pss.
Proof.
  intros (chk & ho & m & fuel & so & ops0 & a0 & outs0 & st0 & s0 & a1 & st1 & a & st & Ei & R0 & L & Hp & Ho & R1 & R & K & NB).
  destruct (C77_udp _ _ _ _ _ _ _ _ _ _ _ _ _ _ _ _ _ _ _ _ R0 L Hp Ho R K NB) as (a1' & s1' & Hi & R1' & (pss & S1 & S2) & _). rewrite Ei in *.
  rewrite R1 in R1'. injection R1' as _ _ <-. exists pss. split; [|exact S2]. unfold sent_since. now rewrite S1, skipn_all_app.
Qed.
Lemma sends_in h : forall dest port ops outs pss, udp_sends h dest port ops outs pss -> forall p, In p (concat pss) ->
  exists ops1 o ops2 r buf cs, ops = ops1 ++ o :: ops2 /\ sends_buf h (named h dest ops1) o r buf /\ cut_into 2048 buf cs /\ In (p_data p) cs /\
    p = mkPacket (bound h port ops1) (dotted (a_ip r)) (a_port r) (p_data p).
Proof.
  induction 1 as [|dest port o out ops outs pss r buf cs more ps B C X P H IH|dest port o out ops outs pss X H IH]; intros p Hp; cbn [concat] in Hp.
  - destruct Hp.
  - apply in_app_or in Hp as [Hp|Hp].
    + exists [], o, ops, r, buf, (cs ++ more). split; [reflexivity|]. split; [exact B|]. split; [exact C|].
      apply (part_in _ _ _ P), in_map_iff in Hp as (c & <- & Hc). split; [apply in_or_app; now left|reflexivity].
    + destruct (IH p Hp) as (ops1 & o' & ops2 & r' & buf' & cs' & -> & G). exists (o :: ops1), o', ops2, r', buf', cs'. split; [reflexivity|exact G].
  - destruct (IH p Hp) as (ops1 & o' & ops2 & r' & buf' & cs' & -> & G). exists (o :: ops1), o', ops2, r', buf', cs'. split; [reflexivity|exact G].
Qed.
Lemma receives_nth h : forall ops outs gs, receives h ops outs gs -> forall k buf buf' n src,
  nth_error ops k = Some (OpUdpReceive h buf) -> nth_error outs k = Some (RUdpReceive buf' (Ok (n, src))) ->
  exists r d, src = V4 r /\ take (len d) buf' = d /\ len d <= n <= len buf /\ len buf' = len buf /\ In (mkDgram (dotted (a_ip r)) (a_port r) d) gs.
Proof.
  induction 1 as [|buf0 buf0' n0 r0 d0 ops outs gs E1 E2 E3 H IH|o out ops outs gs X H IH]; intros [|k] buf buf' n src Ho Hu; cbn [nth_error] in Ho, Hu; try discriminate.
  - injection Ho as <-. injection Hu as <- <- <-. exists r0, d0. repeat (split; [first [reflexivity|assumption]|]). now left.
  - destruct (IH _ _ _ _ _ Ho Hu) as (r & d & A & B & C & D & G). exists r, d. repeat (split; [assumption|]). now right.
  - injection Ho as ->. injection Hu as ->. now destruct (X _ buf' n src eq_refl).
  - apply (IH _ _ _ _ _ Ho Hu).
Qed.

Lemma part_subset_events e i t0 t g : In g (dgrams_in i (events e t0 t)) -> exists t', (t0 <= t' < t)%nat /\ In (EvDatagram i (g_ip g) (g_port g) (g_data g)) (happens e t').
Proof.
  unfold dgrams_in, events. intros H. apply in_flat_map in H as (ev & H1 & H2). apply in_flat_map in H1 as (t' & H0 & H1). apply in_seq in H0. exists t'. split; [lia|].
  destruct ev; try destruct H2. destruct (N.eqb_spec n i) as [->|]; [|destruct H2]. destruct H2 as [<-|[]]. exact H1.
Qed.

(** A program on one device sends from a UDP handle, a program on another receives.  The network may
    lose, reorder and repeat datagrams, but does not invent or change them: whatever it brings to
    socket [iB] as coming from address [ipA], port [pA] was sent by the first device's socket since
    it was opened, from port [pA], to address [ipB], port [pB].  Then every receive that returns Ok with
    that sender has in its buffer a whole piece, of at most 2048 bytes, of the data of one send call of the
    first program that meant [ipB]:[pB]. *)
Theorem C93_udp :
  forall eA hA iA portA oA opsA s00A outsA s1A sA eB hB iB portB oB opsB s00B outsB s1B sB ipA pA ipB pB,
    udp_program eA hA iA portA oA opsA s00A outsA s1A sA ->
    udp_program eB hB iB portB oB opsB s00B outsB s1B sB -> Forall (stays_open hB) opsB ->
    (forall t d, (s_tick s00B <= t < s_tick sB)%nat -> In (EvDatagram iB (dotted ipA) pA d) (happens eB t) ->
       In (mkPacket pA (dotted ipB) pB d) (sent_since iA s1A sA)) ->
    forall k buf buf' n,
      nth_error opsB k = Some (OpUdpReceive hB buf) -> nth_error outsB k = Some (RUdpReceive buf' (Ok (n, V4 (Addr4 ipA pA)))) ->
      exists ops1 o ops2 r msg cs c, opsA = ops1 ++ o :: ops2 /\
        sends_buf hA (named hA None (oA :: ops1)) o r msg /\ r = Addr4 ipB pB /\ bound hA portA (oA :: ops1) = pA /\
        cut_into 2048 msg cs /\ In c cs /\ take (len c) buf' = c /\ len c <= n <= len buf.
Proof.
  intros eA hA iA portA oA opsA s00A outsA s1A sA eB hB iB portB oB opsB s00B outsB s1B sB ipA pA ipB pB PA PB St Net k buf buf' n Ho Hu.
  destruct (C93_udp_device _ _ _ _ _ _ _ _ _ _ PB St) as (gs & RC & P). destruct (receives_nth _ _ _ _ RC _ _ _ _ _ Ho Hu) as (r & d & Er & E1 & E2 & E3 & G).
  injection Er as <-. cbn [a_ip a_port] in G. apply (part_in _ _ _ P), part_subset_events in G as (t & Ht & G). cbn [g_ip g_port g_data] in G.
  pose proof (Net _ _ Ht G) as S. destruct (program_sends _ _ _ _ _ _ _ _ _ _ PA) as (pss & E & U). rewrite E in S.
  destruct (sends_in _ _ _ _ _ _ U _ S) as (ops1 & o & ops2 & r & msg & cs & -> & B & C & I & X). cbn [p_data] in I, X.
  pose proof (f_equal p_sport X) as X1. pose proof (f_equal p_ip X) as X2. pose proof (f_equal p_dport X) as X3. cbn [p_sport p_ip p_dport] in X1, X2, X3. clear X.
  exists ops1, o, ops2, r, msg, cs, d. split; [reflexivity|]. split; [exact B|]. split; [destruct r as [ip p]; cbn [a_ip a_port] in X2, X3; apply octets_inj in X2; now subst|].
  split; [now symmetry|]. split; [exact C|]. split; [exact I|]. split; assumption.
Qed.
Print Assumptions C93_udp.

(** If the network also keeps the order and repeats nothing, the receives give the program on the
    second device the pieces in the order in which the first sent them, each at most once. *)
Theorem C93_udp_in_order :
  forall eA hA iA portA oA opsA s00A outsA s1A sA eB hB iB portB oB opsB s00B outsB s1B sB rA rB,
    udp_program eA hA iA portA oA opsA s00A outsA s1A sA ->
    udp_program eB hB iB portB oB opsB s00B outsB s1B sB -> Forall (stays_open hB) opsB ->
    part (map g_data (filter (from_remote rA) (dgrams_in iB (events eB (s_tick s00B) (s_tick sB)))))
         (map p_data (filter (between (a_port rA) rB) (sent_since iA s1A sA))) ->
    exists gs pss, receives hB opsB outsB gs /\ udp_sends hA (named1 hA None oA) (bound1 hA portA oA) opsA outsA pss /\
      part (map g_data (filter (from_remote rA) gs)) (map p_data (filter (between (a_port rA) rB) (concat pss))).
Proof.
  intros eA hA iA portA oA opsA s00A outsA s1A sA eB hB iB portB oB opsB s00B outsB s1B sB rA rB PA PB St Net.
  destruct (C93_udp_device _ _ _ _ _ _ _ _ _ _ PB St) as (gs & RC & P). destruct (program_sends _ _ _ _ _ _ _ _ _ _ PA) as (pss & E & U).
  exists gs, pss. split; [exact RC|]. split; [exact U|]. rewrite <- E. refine (part_trans _ _ _ _ Net). now apply part_map, part_filter.
Qed.
Print Assumptions C93_udp_in_order.

(** ** MACRAW *)
(** The frames the reads of a MACRAW program hand out ([handed], C53) are frames the network brought,
    each at most once and in order. *)
Theorem C93_macraw_device :
  forall e mc fuel ops s00 outs st s,
    spi_run e (over_four_wire (macraw_program mc fuel ops)) (WaitHi, s00) = (Done (Ok outs), (st, s)) -> Forall raw_ok outs ->
    exists taken, handed ops outs taken /\ part taken (frames_in (events e (s_tick s00) (s_tick s))).
Proof.
  intros e mc fuel ops s00 outs st s R F. pose proof R as R'. apply four_wire_macraw_done in R' as (-> & R').
  destruct (macraw_program_reached _ _ _ _ _ _ _ R' F) as (d & s1 & R1 & H). pose proof H as H'. destruct (macraw_reached_inv _ _ _ _ _ _ _ H') as (Rs & _ & t & q & A & (B & W) & C & W').
  exists t. split; [exact C|].
  assert (E0 : rxlog (sk 0 s1) = []). { destruct (initialize_macraw_up _ _ _ _ _ R1) as (_ & Up). apply (macraw_up_sess _ _ Up). }
  assert (B0 : brought_since (four_wire_env e) 0 (s_tick s00) (s_tick s1) (s_chip s1)) by (split; [apply (run_ticks _ _ _ _ _ R1)|now apply brought_none]).
  destruct H as (s0' & d' & _ & R2 & _). destruct (brought_run _ _ _ _ _ _ _ R2 B0) as (_ & (_ & Br)).
  destruct Rs as ((Sr & _) & _). destruct (Br Sr) as (q' & E & Wq & Pq). unfold sk in A. rewrite A in E. apply frames_inj in E; [|apply Forall_app; split; assumption|exact Wq].
  subst q'. apply (part_trans _ (t ++ q)); [apply part_more, part_refl|exact Pq].
Qed.
Print Assumptions C93_macraw_device.

(** Two MACRAW programs on one wire that loses frames but does not change, reorder, repeat or invent any: the
    reads of the second hand out frames the first wrote with success, in order, each at most once. *)
Theorem C93_macraw :
  forall eA mA fuelA opsA s00A outsA stA sA st1 s1A eB mB fuelB opsB s00B outsB stB sB,
    spi_run eA (over_four_wire (macraw_program mA fuelA opsA)) (WaitHi, s00A) = (Done (Ok outsA), (stA, sA)) -> Forall raw_ok outsA ->
    spi_run eA (over_four_wire (macraw_program mA fuelA [])) (WaitHi, s00A) = (Done (Ok []), (st1, s1A)) ->
    spi_run eB (over_four_wire (macraw_program mB fuelB opsB)) (WaitHi, s00B) = (Done (Ok outsB), (stB, sB)) -> Forall raw_ok outsB ->
    part (frames_in (events eB (s_tick s00B) (s_tick sB))) (map p_data (sent_since 0 s1A sA)) ->
    exists taken, handed opsB outsB taken /\ part taken (RawSession.written opsA outsA).
Proof.
  intros eA mA fuelA opsA s00A outsA stA sA st1 s1A eB mB fuelB opsB s00B outsB stB sB RA FA R1 RB FB Net.
  destruct (C93_macraw_device _ _ _ _ _ _ _ _ RB FB) as (taken & H & P). exists taken. split; [exact H|]. apply (part_trans _ _ _ P).
  destruct (C75_macraw _ _ _ _ _ _ _ _ RA FA) as (s1 & R1' & S & _). rewrite R1 in R1'. injection R1' as _ <-.
  unfold sent_since in Net. rewrite <- skipn_map, S, <- (map_length p_data), skipn_all_app in Net. exact Net.
Qed.
Print Assumptions C93_macraw.

(** ** TCP *)
(** a Device program over the four wires, as in C75: it initialises the chip, makes the calls [ops0]
    ([s0] is the chip then), connects the TCP handle [h] of socket [i] to [r] ([s1]), goes on with
    [ops], which return [outs] and leave the handle open, and ends in [s] *)
Definition tcp_program (e : env) (h : nat) (i : N) (r : addr4) (ops : list op) (s00 : sys) (outs : list out) (s0 s1 s : sys) : Prop :=
  exists chk ho m fuel ops0 a0 outs0 st0 t a1 st1 a st,
    spi_run e (over_four_wire (device_program chk ho m fuel ops0)) (WaitHi, s00) = (Done (Ok (a0, outs0)), (st0, s0)) /\
    lookup h (handles a0) = Some (HTcp t) /\ index (t_socket t) = i /\ a_port r < 65536 /\
    spi_run e (over_four_wire (device_program chk ho m fuel (ops0 ++ [OpTcpConnect h (V4 r)]))) (WaitHi, s00) =
      (Done (Ok (a1, outs0 ++ [RTcpConnect (Ok tt)])), (st1, s1)) /\
    spi_run e (over_four_wire (device_program chk ho m fuel (ops0 ++ OpTcpConnect h (V4 r) :: ops))) (WaitHi, s00) =
      (Done (Ok (a, outs0 ++ RTcpConnect (Ok tt) :: outs)), (st, s)) /\
    Forall (leaves_open h) ops /\ no_bus_error h ops outs.

Lemma tcp_program_facts e h i r ops s00 outs s0 s1 s : tcp_program e h i r ops s00 outs s0 s1 s ->
  (exists l, sent (socks (s_chip s) i) = sent (socks (s_chip s1) i) ++ l /\ concat (map p_data l) = accepted h ops outs) /\
  rxlog (socks (s_chip s) i) = delivered h ops outs ++ pending (socks (s_chip s) i) /\
  segs_since i told_tcp e (s_tick s0) (s_tick s) (s_chip s).
Proof.
  intros (chk & ho & m & fuel & ops0 & a0 & outs0 & st0 & t & a1 & st1 & a & st & R0 & L & Ei & Hr & R1 & R & K & NB).
  apply four_wire_device_done in R0 as (_ & R0). pose proof R0 as Q0. apply run_device_ok in Q0 as (d & t0 & Ri & Q0).
  pose proof (TcpSession.run_ops_outs _ _ _ _ _ _ _ _ Q0) as Le.
  destruct (C75_tcp _ _ _ _ _ _ _ _ _ _ _ _ _ _ _ R (eq_sym Le) Hr K NB) as (j & a1' & s1' & Hj & R1' & (t' & L' & Ej) & (l & S1 & S2 & _) & Lg).
  rewrite R1 in R1'. injection R1' as <- _ <-.
  apply four_wire_device_done in R1 as (_ & R1). apply run_device_ok in R1 as (d1 & t1 & Ri1 & R1). rewrite Ri in Ri1. injection Ri1 as <- <-.
  apply System.run_ops_app in R1 as (a2 & s2 & Q1 & R1); [|now rewrite Le]. rewrite Q0 in Q1. injection Q1 as <- <-.
  pose proof (init_start _ _ _ _ _ _ _ 0 Ri) as (Ip & _). pose proof (run_ops_inv _ _ _ _ _ _ _ _ Ip Q0) as I0.
  destruct (pi_lookup _ _ _ I0 L) as (i' & Hi & Et & _). destruct t as [t]. cbn [handle_socket t_socket] in Et, Ei. subst t. cbn [index socket_new] in Ei. subst i'.
  apply System.run_ops_cons in R1 as (a3 & s3 & R1 & R1'). cbn [run_ops run] in R1'. injection R1' as E1 E2. subst a3 s3.
  assert (a1 = a0 /\ run (four_wire_env e) (tcp_connect fuel (mkTcp (socket_new i)) (V4 r)) s0 = (Done (Ok tt), s1)) as (-> & C).
  { cbn [step] in R1. rewrite L in R1. apply run_bind_done in R1 as (x & s4 & C & R1). cbn [run] in R1. injection R1 as -> -> ->. auto. }
  rewrite L in L'. injection L' as <-. cbn [t_socket index socket_new] in Ej. subst j.
  split; [exists l; auto|]. split; [exact Lg|].
  apply four_wire_device_done in R as (_ & R). apply run_device_ok in R as (d2 & t2 & Ri2 & R). rewrite Ri in Ri2. injection Ri2 as <- <-.
  apply System.run_ops_app in R as (a2 & s2 & Q1 & R); [|now rewrite Le]. rewrite Q0 in Q1. injection Q1 as <- <-.
  apply System.run_ops_cons in R as (a3 & s3 & Q1 & R). rewrite R1 in Q1. injection Q1 as <- <-.
  refine (told_tcp_ops (four_wire_env e) fuel h i (s_tick s0) Hi ops a0 s1 a outs s I0 L K R _).
  destruct (connect_told _ _ _ _ _ _ Hi C) as (Ht & To). split; [exact Ht|].
  destruct (C32_connect_ok_partial _ _ _ _ _ _ Hi C) as [E|E]; (split; [rewrite E; discriminate|split; [rewrite E; discriminate|apply To; rewrite E; discriminate]]).
Qed.

(** What the receives of an open connection delivered, and what still waits, are the bytes of TCP
    segments the network brought to that socket since the connect began: whole segments, each at
    most once, in the order in which they came.  (The others are those the chip had no room for, and
    those that came before the connection was up or after it was down.) *)
Theorem C93_tcp_device :
  forall e h i r ops s00 outs s0 s1 s,
    tcp_program e h i r ops s00 outs s0 s1 s ->
    exists q, delivered h ops outs ++ pending (socks (s_chip s) i) = concat q /\
      part q (segments_in i (events e (s_tick s0) (s_tick s))).
Proof.
  intros e h i r ops s00 outs s0 s1 s T. destruct (tcp_program_facts _ _ _ _ _ _ _ _ _ _ T) as (_ & Lg & _ & _ & _ & q & E & P).
  exists q. split; [now rewrite <- Lg|exact P].
Qed.
Print Assumptions C93_tcp_device.

(** Two devices, joined by a network that carries the stream of the first to the second: what the
    second chip has taken in is the start of what the first has sent.  Then what the program on the
    second device has received is the start of what the program on the first has had accepted. *)
Theorem C93_tcp :
  forall eA hA iA rA opsA s00A outsA s0A s1A sA eB hB iB rB opsB s00B outsB s0B s1B sB later,
    tcp_program eA hA iA rA opsA s00A outsA s0A s1A sA ->
    tcp_program eB hB iB rB opsB s00B outsB s0B s1B sB ->
    rxlog (socks (s_chip sB) iB) ++ later = concat (map p_data (sent_since iA s1A sA)) ->
    accepted hA opsA outsA = delivered hB opsB outsB ++ pending (socks (s_chip sB) iB) ++ later.
Proof.
  intros eA hA iA rA opsA s00A outsA s0A s1A sA eB hB iB rB opsB s00B outsB s0B s1B sB later TA TB Net.
  destruct (tcp_program_facts _ _ _ _ _ _ _ _ _ _ TA) as ((l & S1 & S2) & _). destruct (tcp_program_facts _ _ _ _ _ _ _ _ _ _ TB) as (_ & Lg & _).
  unfold sent_since in Net. rewrite S1, skipn_all_app in Net. rewrite <- S2, <- Net, Lg. now rewrite app_assoc.
Qed.
Print Assumptions C93_tcp.

(** ** Cases *)
Lemma pair_split {A B C} (p : A * (B * C)) : (fst p, (fst (snd p), snd (snd p))) = p.
Proof. now destruct p as [? [? ?]]. Qed.
Lemma udp_program_case e h i port o1 ops s00 outs chk ho m fuel so ops0 outs0 :
  let r0 := spi_run e (over_four_wire (device_program chk ho m fuel ops0)) (WaitHi, s00) in
  let r1 := spi_run e (over_four_wire (device_program chk ho m fuel (ops0 ++ [o1]))) (WaitHi, s00) in
  let r := spi_run e (over_four_wire (device_program chk ho m fuel (ops0 ++ o1 :: ops))) (WaitHi, s00) in
  index so = i -> (exists a0, fst r0 = Done (Ok (a0, outs0)) /\ lookup h (handles a0) = Some (HUdp (mkUdp so None port))) -> port < 65536 ->
  ((exists r, o1 = OpUdpConnect h (V4 r)) \/ (exists p, o1 = OpUdpBind h p)) ->
  (exists a1, fst r1 = Done (Ok (a1, outs0 ++ [RUdpUnit (Ok tt)]))) -> (exists a, fst r = Done (Ok (a, outs0 ++ RUdpUnit (Ok tt) :: outs))) ->
  Forall (keeps_udp h) (o1 :: ops) -> no_bus_error h ops outs ->
  udp_program e h i port o1 ops s00 outs (snd (snd r1)) (snd (snd r)).
Proof.
  intros r0 r1 r Ei (a0 & R0 & L) Hp Ho (a1 & R1) (a & R) K NB. exists chk, ho, m, fuel, so, ops0, a0, outs0, (fst (snd r0)), (snd (snd r0)), a1, (fst (snd r1)), a, (fst (snd r)).
  split; [exact Ei|]. split; [fold r0; rewrite <- R0; destruct r0 as [? [? ?]]; reflexivity|]. split; [exact L|]. split; [exact Hp|]. split; [exact Ho|].
  split; [fold r1; rewrite <- R1; destruct r1 as [? [? ?]]; reflexivity|]. split; [fold r; rewrite <- R; destruct r as [? [? ?]]; reflexivity|]. split; assumption.
Qed.
(** device A, 10.0.0.5, is the one of [C77_case]: from port 7, 2050 bytes to 10.0.0.2:80 and three bytes to 10.0.0.7:81.
    Device B, 10.0.0.7, gets the three bytes on port 81, and a datagram from somebody else. *)
Definition c93_hostB := manual_new (Mac x02 x03 x04 x05 x06 x08) (Ip4 x0a x00 x00 x07) (Ip4 x0a x00 x00 x01) (Ip4 xff x00 x00 x00).
Definition c93_netB : env := mkEnv (fun t => if Nat.eqb t 30 then [EvDatagram 0 [x0a; x00; x00; x05] 7 [x01; x02; x03]]
  else if Nat.eqb t 55 then [EvDatagram 0 [x0a; x00; x00; x09] 7 [x77]] else []) (fun _ => None).
Definition c93_opsB : list op := [OpUdpReceive 0 (repeat x00 4); OpUdpReceive 0 (repeat x00 4)].
Definition c93_outsB : list out := [RUdpReceive [x01; x02; x03; x0b] (Ok (4, V4 (Addr4 (Ip4 x0a x00 x00 x05) 7)));
  RUdpReceive [x77; x14; x15; x16] (Ok (4, V4 (Addr4 (Ip4 x0a x00 x00 x09) 7)))].
Example C93_case : exists s1A sA s1B sB,
  udp_program c77_net 0 0 49849 (OpUdpBind 0 7) c77_ops sys0 c77_outs s1A sA /\
  udp_program c93_netB 0 0 49849 (OpUdpBind 0 81) c93_opsB sys0 c93_outsB s1B sB /\ Forall (stays_open 0) c93_opsB /\
  (forall t d, (s_tick sys0 <= t < s_tick sB)%nat -> In (EvDatagram 0 (dotted (Ip4 x0a x00 x00 x05)) 7 d) (happens c93_netB t) ->
     In (mkPacket 7 (dotted (Ip4 x0a x00 x00 x07)) 81 d) (sent_since 0 s1A sA)) /\
  part (map g_data (filter (from_remote (Addr4 (Ip4 x0a x00 x00 x05) 7)) (dgrams_in 0 (events c93_netB (s_tick sys0) (s_tick sB)))))
       (map p_data (filter (between 7 (Addr4 (Ip4 x0a x00 x00 x07) 81)) (sent_since 0 s1A sA))).
Proof.
  eexists _, _, _, _. split; [|split; [|split; [|split]]].
  - apply (udp_program_case c77_net 0 0 49849 (OpUdpBind 0 7) c77_ops sys0 c77_outs true c77_host mode_default 60 (socket_new 0) [OpUdpSocket] [RUdpSocket (Ok 0%nat)]);
      [reflexivity|eexists; split; vm_compute; reflexivity|reflexivity|right; now exists 7|eexists; vm_compute; reflexivity|eexists; vm_compute; reflexivity|repeat constructor|vm_compute; repeat split; discriminate].
  - apply (udp_program_case c93_netB 0 0 49849 (OpUdpBind 0 81) c93_opsB sys0 c93_outsB true c93_hostB mode_default 60 (socket_new 0) [OpUdpSocket] [RUdpSocket (Ok 0%nat)]);
      [reflexivity|eexists; split; vm_compute; reflexivity|reflexivity|right; now exists 81|eexists; vm_compute; reflexivity|eexists; vm_compute; reflexivity|repeat constructor|vm_compute; repeat split; discriminate].
  - repeat constructor; intros; discriminate.
  - intros t d _ H. unfold c93_netB in H. cbn [happens] in H. destruct (Nat.eqb t 30); [|destruct (Nat.eqb t 55); [destruct H as [[=]|[]]|destruct H]].
    destruct H as [[= <-]|[]]. apply (nth_error_In _ 2). vm_compute. reflexivity.
  - vm_compute. apply part_keep, part_nil.
Qed.
(** the two receives return 4: the size of the buffer, not of the datagram (C50) *)

(** MACRAW: A writes two frames, B reads the second; the first is lost *)
Definition c93_rawA : env := mkEnv (fun _ => [EvTransmit 0 1; EvSendOk 0]) (fun _ => None).
Definition c93_rawB : env := mkEnv (fun t => if Nat.eqb t 28 then [EvFrame [x31; x32]] else []) (fun _ => None).
Example C93_macraw_case : exists stA sA st1 s1A stB sB,
  spi_run c93_rawA (over_four_wire (macraw_program (Mac x02 x03 x04 x05 x06 x07) 30 [RwWrite [x61]; RwWrite [x31; x32]])) (WaitHi, sys0) =
    (Done (Ok [RwSent (Ok 1); RwSent (Ok 2)]), (stA, sA)) /\
  spi_run c93_rawA (over_four_wire (macraw_program (Mac x02 x03 x04 x05 x06 x07) 30 [])) (WaitHi, sys0) = (Done (Ok []), (st1, s1A)) /\
  spi_run c93_rawB (over_four_wire (macraw_program (Mac x02 x03 x04 x05 x06 x08) 30 [RwRead (repeat x00 3)])) (WaitHi, sys0) =
    (Done (Ok [RwFrame [x31; x32; x00] (Ok 2)]), (stB, sB)) /\
  part (frames_in (events c93_rawB (s_tick sys0) (s_tick sB))) (map p_data (sent_since 0 s1A sA)).
Proof.
  eexists _, _, _, _, _, _. split; [|split; [|split]].
  - etransitivity; [symmetry; apply pair_split|f_equal; vm_compute; reflexivity].
  - etransitivity; [symmetry; apply pair_split|f_equal; vm_compute; reflexivity].
  - etransitivity; [symmetry; apply pair_split|f_equal; vm_compute; reflexivity].
  - vm_compute. apply part_lose, part_keep, part_nil.
Qed.

(** TCP: A sends four bytes in three packets (C75_case); B, which connected to A, has received the
    first three of them in two segments; a segment that came before its connect is not among them,
    nor is one for another socket *)
Lemma tcp_program_case e h i r ops s00 outs chk ho m fuel ops0 outs0 :
  let r0 := spi_run e (over_four_wire (device_program chk ho m fuel ops0)) (WaitHi, s00) in
  let r1 := spi_run e (over_four_wire (device_program chk ho m fuel (ops0 ++ [OpTcpConnect h (V4 r)]))) (WaitHi, s00) in
  let r2 := spi_run e (over_four_wire (device_program chk ho m fuel (ops0 ++ OpTcpConnect h (V4 r) :: ops))) (WaitHi, s00) in
  (exists a0 t, fst r0 = Done (Ok (a0, outs0)) /\ lookup h (handles a0) = Some (HTcp t) /\ index (t_socket t) = i) -> a_port r < 65536 ->
  (exists a1, fst r1 = Done (Ok (a1, outs0 ++ [RTcpConnect (Ok tt)]))) -> (exists a, fst r2 = Done (Ok (a, outs0 ++ RTcpConnect (Ok tt) :: outs))) ->
  Forall (leaves_open h) ops -> no_bus_error h ops outs ->
  tcp_program e h i r ops s00 outs (snd (snd r0)) (snd (snd r1)) (snd (snd r2)).
Proof.
  intros r0 r1 r2 (a0 & t & R0 & L & Ei) Hr (a1 & R1) (a & R) K NB. exists chk, ho, m, fuel, ops0, a0, outs0, (fst (snd r0)), t, a1, (fst (snd r1)), a, (fst (snd r2)).
  split; [fold r0; rewrite <- R0; destruct r0 as [? [? ?]]; reflexivity|]. split; [exact L|]. split; [exact Ei|]. split; [exact Hr|].
  split; [fold r1; rewrite <- R1; destruct r1 as [? [? ?]]; reflexivity|]. split; [fold r2; rewrite <- R; destruct r2 as [? [? ?]]; reflexivity|]. split; assumption.
Qed.
Definition c93_tcpB : env := mkEnv (fun t => if Nat.eqb t 2 then [EvTcpData 0 [x77]] else if Nat.eqb t 37 then [EvTcpData 1 [x78]; EvTcpData 0 [x01; x02]]
  else if Nat.eqb t 51 then [EvTcpData 0 [x03]] else [EvEstablished 0]) (fun _ => None).
Definition c93_tcp_opsB : list op := [OpTcpReceive 0 [x00; x00]; OpTcpReceive 0 [x00; x00]].
Definition c93_tcp_outsB : list out := [RTcpReceive [x01; x02] (Ok 2); RTcpReceive [x03; x00] (Ok 1)].
Example C93_tcp_case : exists s0A s1A sA s0B s1B sB later,
  tcp_program c75_net 0 0 c75_peer c75_ops sys0 c75_outs s0A s1A sA /\
  tcp_program c93_tcpB 0 0 (Addr4 (Ip4 x0a x00 x00 x05) 49849) c93_tcp_opsB sys0 c93_tcp_outsB s0B s1B sB /\
  rxlog (socks (s_chip sB) 0) ++ later = concat (map p_data (sent_since 0 s1A sA)) /\
  segments_in 0 (events c93_tcpB (s_tick s0B) (s_tick sB)) = [[x01; x02]; [x03]].
Proof.
  eexists _, _, _, _, _, _, [x04]. split; [|split; [|split]].
  - apply (tcp_program_case c75_net 0 0 c75_peer c75_ops sys0 c75_outs true
      (manual_new (Mac x02 x03 x04 x05 x06 x07) (Ip4 x0a x00 x00 x05) (Ip4 x0a x00 x00 x01) (Ip4 xff x00 x00 x00)) mode_default 60 [OpTcpSocket] [RTcpSocket (Ok 0%nat)]);
      [eexists _, _; split; [|split]; vm_compute; reflexivity|reflexivity|eexists; vm_compute; reflexivity|eexists; vm_compute; reflexivity|repeat constructor; cbn; auto|vm_compute; repeat split; discriminate].
  - apply (tcp_program_case c93_tcpB 0 0 (Addr4 (Ip4 x0a x00 x00 x05) 49849) c93_tcp_opsB sys0 c93_tcp_outsB true c93_hostB mode_default 60 [OpTcpSocket] [RTcpSocket (Ok 0%nat)]);
      [eexists _, _; split; [|split]; vm_compute; reflexivity|reflexivity|eexists; vm_compute; reflexivity|eexists; vm_compute; reflexivity|repeat constructor; cbn; auto|vm_compute; repeat split; discriminate].
  - vm_compute. reflexivity.
  - vm_compute. reflexivity.
Qed.
