(** Properties C07-C13: encodings and conversions. *)
From Coq Require Import String Ascii.
From Verif Require Import ValueFacts Datasheet Chip.
Local Open Scope N_scope.

(** C07.  Full statement: for every 16-bit [ms] and either kind of build, from_millis gives
    10*ms and to_millis gives ms back, and values that do not fit never become another timeout.
    True up to 6553 ms and in builds with overflow checks (which panic above); false without. *)
Theorem C07_retry_time_partial :
  forall ms, ms < 65536 ->
    (ms <= 6553 -> forall checked, exists r,
       rt_from_millis checked ms = Some r /\ rt_to_u16 r = 10 * ms /\ rt_to_millis r = ms) /\
    (6553 < ms -> rt_from_millis true ms = None).
Proof.
  intros ms H. split.
  - intros H1 checked. now apply rt_from_millis_small.
  - intros H1. now apply rt_from_millis_large.
Qed.
Print Assumptions C07_retry_time_partial.
Example C07_case : exists r, rt_from_millis true 400 = Some r /\ rt_to_register r = [x0f; xa0].
Proof. eexists. split; reflexivity. Qed.

Theorem C07_retry_time_refuted :
  (forall ms, 6553 < ms -> ms < 65536 ->
     exists r, rt_from_millis false ms = Some r /\ rt_to_millis r <> ms) /\
  (exists r, rt_from_millis false 7000 = Some r /\ rt_to_millis r = 446).
Proof.
  split.
  - intros ms H1 H2. now apply (rt_from_millis_large ms).
  - eexists. split; reflexivity.
Qed.
Print Assumptions C07_retry_time_refuted.

(** the default timeout is the chip's reset value, 200 ms *)
Theorem C07_default_is_reset_value :
  forall checked, exists r, rt_default checked = Some r /\ rt_to_millis r = 200 /\
    rt_to_register r = [com_reset RTR; com_reset (RTR + 1)].
Proof. intros []; eexists; repeat split; reflexivity. Qed.
Print Assumptions C07_default_is_reset_value.

(** C08 *)
Theorem C08_mode_register :
  forall m,
    mode_to_register m = [u8 (mode_to_u8 m)] /\ mode_to_u8 m < 256 /\
    (N.testbit (mode_to_u8 m) 5 = true <-> on_wake_on_lan m = WolInvokeInterrupt) /\
    (N.testbit (mode_to_u8 m) 4 = true <-> on_ping_request m = PingIgnore) /\
    (N.testbit (mode_to_u8 m) 3 = true <-> connection_type m = CtPPoE) /\
    (N.testbit (mode_to_u8 m) 1 = true <-> arp_responses m = ArpDropAfterUse) /\
    (forall i, i = 7 \/ i = 6 \/ i = 2 \/ i = 0 -> N.testbit (mode_to_u8 m) i = false) /\
    (forall m', mode_to_register m' = mode_to_register m -> m' = m) /\
    (* writing it to MR changes that register only: no reset *)
    (forall c, wbyte c BSB_COMMON MR (u8 (mode_to_u8 m)) =
               set_com c (upd (com c) MR (u8 (mode_to_u8 m)))).
Proof.
  intros m. destruct (mode_bits m) as (H1 & H2 & H3 & H4 & H5 & H6 & H7).
  repeat split; try tauto; try apply H2; try apply H3; try apply H4; try apply H5; auto.
  - intros m' E. now apply mode_inj.
  - intros c. unfold wbyte. change (BSB_COMMON =? 0) with true. change (MR =? MR) with true. cbv iota.
    rewrite b2n_u8, N.mod_small by exact H1. rewrite (H6 7) by auto. reflexivity.
Qed.
Print Assumptions C08_mode_register.
Example C08_case : mode_to_register (mkMode WolInvokeInterrupt PingRespond CtPPoE ArpDropAfterUse) = [x2a].
Proof. reflexivity. Qed.

(** C09.  Full statement: decoding never aborts.  The decoder has no case for operation mode
    101, which a PHYCFGR byte can hold. *)
Theorem C09_phy_partial :
  forall b,
    (phy_link_up (mkPhyConfig b) = true <-> b2n b mod 2 = 1) /\
    (phy_speed (mkPhyConfig b) = Mbps100 <-> (b2n b / 2) mod 2 = 1) /\
    (phy_duplex (mkPhyConfig b) = FullDuplex <-> (b2n b / 4) mod 2 = 1) /\
    ((b2n b / 8) mod 8 <> 5 -> phy_operation_mode (mkPhyConfig b) <> None) /\
    (forall m, phy_operation_mode (mkPhyConfig b) = Some m <-> (b2n b / 8) mod 8 = opmdc m).
Proof.
  intros b. destruct (phy_flags b) as (H1 & H2 & H3). repeat split; try apply H1; try apply H2; try apply H3.
  - intros H E. apply phy_mode_none in E. contradiction.
  - apply phy_mode_iff.
  - apply phy_mode_iff.
Qed.
Print Assumptions C09_phy_partial.
Example C09_case : phy_operation_mode (mkPhyConfig (com_reset PHYCFGR)) = Some Auto.
Proof. reflexivity. Qed.

Theorem C09_phy_refuted :
  forall b, (b2n b / 8) mod 8 = 5 -> phy_operation_mode (mkPhyConfig b) = None (* panic *).
Proof. intros b H. now apply phy_mode_none. Qed.
Print Assumptions C09_phy_refuted.
Example C09_refuted_case : phy_operation_mode (mkPhyConfig xaf) = None.
Proof. reflexivity. Qed.

(** A mode as a number is its place in PHYCFGR: it decodes back, whatever the other bits say. *)
Theorem C09_mode_value :
  forall m, phy_mode_u8 m = 8 * opmdc m /\
    (forall b, phy_operation_mode (mkPhyConfig b) = Some m <-> N.land (b2n b) (N.shiftl 7 3) = phy_mode_u8 m) /\
    phy_operation_mode (mkPhyConfig (u8 (phy_mode_u8 m))) = Some m.
Proof.
  intros m. split; [destruct m; reflexivity|]. split; [|destruct m; reflexivity].
  intros b. rewrite phy_mode_iff. destruct m, b; vm_compute; split; congruence.
Qed.
Print Assumptions C09_mode_value.
Example C09_case_value : phy_operation_mode (mkPhyConfig (u8 (N.lor (phy_mode_u8 FullDuplex100bt) 0xC7))) = Some FullDuplex100bt.
Proof. reflexivity. Qed.

(** C10 *)
Theorem C10_status :
  forall b,
    (forall s, status_try_from b = Some s <-> b2n b = sr_code s) /\
    (status_try_from b = None <->
       ~ In (b2n b) [SOCK_CLOSED; SOCK_INIT; SOCK_LISTEN; SOCK_SYNSENT; SOCK_SYNRECV;
          SOCK_ESTABLISHED; SOCK_FIN_WAIT; SOCK_CLOSING; SOCK_TIME_WAIT; SOCK_CLOSE_WAIT;
          SOCK_LAST_ACK; SOCK_UDP; SOCK_MACRAW]).
Proof.
  intros b. split; [intros s; apply status_iff|]. rewrite status_none. split.
  - intros H Hin. cbn in Hin.
    repeat destruct Hin as [E|Hin]; try contradiction;
      [eapply (H StClosed)|eapply (H StInit)|eapply (H StListen)|eapply (H StSynSent)|eapply (H StSynRecv)
      |eapply (H StEstablished)|eapply (H StFinWait)|eapply (H StClosing)|eapply (H StTimeWait)
      |eapply (H StCloseWait)|eapply (H StLastAck)|eapply (H StUdp)|eapply (H StMacRaw)]; symmetry; exact E.
  - intros H s E. apply H. rewrite E. destruct s; cbn; tauto.
Qed.
Print Assumptions C10_status.
Example C10_case : status_try_from x1c = Some StCloseWait /\ sr_code StCloseWait = SOCK_CLOSE_WAIT
  /\ status_try_from x11 = None.
Proof. repeat split. Qed.

(** C11 *)
Theorem C11_mac_address :
  forall m,
    mac_from (mac_octets m) = m /\
    (forall a b c d e f, mac_octets (mac_new a b c d e f) = [a; b; c; d; e; f]) /\
    (forall l, List.length l = 6%nat -> mac_octets (mac_from l) = l) /\
    mac_display m = String.concat ":" (map hex_pair (mac_octets m)) /\
    (forall m', mac_display m' = mac_display m -> m' = m) /\
    (* each pair is two upper-case hex digits from which the byte can be recovered *)
    (forall b, exists h l, hex_pair b = String h (String l EmptyString) /\ unhex h l = b /\
       In h (list_ascii_of_string hex_digits) /\ In l (list_ascii_of_string hex_digits)).
Proof.
  intros m. destruct (mac_roundtrip m) as (H & _). split; [exact H|].
  split; [intros; apply mac_octets_new|]. split; [apply mac_octets_from|].
  split; [apply mac_display_spec|]. split; [intros m' E; now apply mac_display_inj|].
  intros b. destruct b; eexists; eexists; (split; [reflexivity|]; split; [reflexivity|]; cbn; tauto).
Qed.
Print Assumptions C11_mac_address.
Example C11_case : mac_display (Mac x00 x3f xa0 x0b xff x1c) = "00:3F:A0:0B:FF:1C"%string.
Proof. reflexivity. Qed.

(** C12 *)
Theorem C12_socket_blocks :
  forall i, i < 8 ->
    register (socket_new i) = BSB_REG i /\ tx_buffer (socket_new i) = BSB_TX i /\
    rx_buffer (socket_new i) = BSB_RX i /\ index (socket_new i) = i /\
    (forall b, In b [register (socket_new i); tx_buffer (socket_new i); rx_buffer (socket_new i)] ->
       b <> BSB_COMMON /\ b < 32 /\ b / 4 = i) /\
    NoDup [register (socket_new i); tx_buffer (socket_new i); rx_buffer (socket_new i)] /\
    (forall j b, j < 8 -> j <> i ->
       In b [register (socket_new i); tx_buffer (socket_new i); rx_buffer (socket_new i)] ->
       ~ In b [register (socket_new j); tx_buffer (socket_new j); rx_buffer (socket_new j)]).
Proof.
  intros i H. destruct (socket_blocks i H) as (-> & -> & -> & ->). unfold BSB_REG, BSB_TX, BSB_RX, BSB_COMMON.
  repeat split; auto.
  - cbn [In] in H0. lia.
  - cbn [In] in H0. lia.
  - cbn [In] in H0. lia.
  - repeat (constructor; [cbn [In]; lia|]). constructor.
  - intros j b Hj Hne Hin. destruct (socket_blocks j Hj) as (-> & -> & -> & _).
    unfold BSB_REG, BSB_TX, BSB_RX. cbn [In] in *. lia.
Qed.
Print Assumptions C12_socket_blocks.
Example C12_case : socket_new 7 = mkSocket 7 29 30 31.
Proof. reflexivity. Qed.

(** C13: [udp_record] is how the chip stores a datagram *)
Theorem C13_udp_header :
  forall (a b c d : byte) port data, port < 65536 -> len data < 65536 ->
    udp_header_from (firstn 8 (udp_record [a; b; c; d] port data)) =
    mkUdpHeader (Addr4 (Ip4 a b c d) port) (len data).
Proof.
  intros a b c d port data Hp Hd. unfold udp_record. cbn [List.app firstn].
  pose proof (udp_header_roundtrip (Ip4 a b c d) port (len data) [] Hp Hd) as H. exact H.
Qed.
Print Assumptions C13_udp_header.
Example C13_case :
  udp_header_from (firstn 8 (udp_record [x0a; x00; x00; x01] 53 [xff; xfe])) =
  mkUdpHeader (Addr4 (Ip4 x0a x00 x00 x01) 53) 2.
Proof. reflexivity. Qed.
