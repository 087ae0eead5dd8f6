(** Proofs about the driver's pure value conversions (registers, addresses, headers). *)
From Coq Require Import Strings.Ascii Strings.String.
From Verif Require Export BytesFacts Uninit.
From Verif Require Import Datasheet.
Open Scope N_scope.

(** ** RetryTime *)
Lemma rt_from_millis_small checked ms :
  ms <= 6553 ->
  exists r, rt_from_millis checked ms = Some r /\ rt_to_u16 r = 10 * ms /\ rt_to_millis r = ms.
Proof.
  intros H. unfold rt_from_millis, rt_to_u16, rt_to_millis.
  destruct (N.ltb_spec (ms * 10) 65536); [|lia].
  eexists; split; [reflexivity|]. cbn [rt]. split; lia.
Qed.

Lemma rt_from_millis_large ms :
  6553 < ms -> ms < 65536 ->
  rt_from_millis true ms = None /\
  exists r, rt_from_millis false ms = Some r /\ rt_to_millis r <> ms.
Proof.
  intros H H2. unfold rt_from_millis, rt_to_millis.
  destruct (N.ltb_spec (ms * 10) 65536); [lia|].
  split; [reflexivity|]. eexists; split; [reflexivity|]. cbn [rt].
  assert ((ms * 10) mod 65536 < 65536) by (apply N.mod_lt; lia). lia.
Qed.

Lemma rt_register_roundtrip n : n < 65536 -> rt_from_register (rt_to_register (mkRetryTime n)) = mkRetryTime n.
Proof. intros H. unfold rt_from_register, rt_to_register. cbn [rt]. now rewrite from_be_to_be. Qed.

(** ** Mode *)
Lemma mode_bits m :
  mode_to_u8 m < 256 /\
  (N.testbit (mode_to_u8 m) 5 = true <-> on_wake_on_lan m = WolInvokeInterrupt) /\
  (N.testbit (mode_to_u8 m) 4 = true <-> on_ping_request m = PingIgnore) /\
  (N.testbit (mode_to_u8 m) 3 = true <-> connection_type m = CtPPoE) /\
  (N.testbit (mode_to_u8 m) 1 = true <-> arp_responses m = ArpDropAfterUse) /\
  (forall i, i = 7 \/ i = 6 \/ i = 2 \/ i = 0 -> N.testbit (mode_to_u8 m) i = false) /\
  mode_to_register m = [u8 (mode_to_u8 m)].
Proof.
  destruct m as [[] [] [] []]; cbn;
    (repeat split; try reflexivity; try discriminate; intros i [-> | [-> | [-> | ->]]]; reflexivity).
Qed.

Lemma mode_inj m m' : mode_to_register m = mode_to_register m' -> m = m'.
Proof. destruct m as [[] [] [] []], m' as [[] [] [] []]; vm_compute; congruence. Qed.

(** ** PHYCFGR *)
(** the operation mode field (bits 5..3) of PHYCFGR, datasheet section 4.1 *)
Definition opmdc (m : PhyOperationMode) : N :=
  match m with
  | HalfDuplex10bt => 0 | FullDuplex10bt => 1 | HalfDuplex100bt => 2 | FullDuplex100bt => 3
  | HalfDuplex100btAuto => 4 | PowerDown => 6 | Auto => 7
  end.

Lemma phy_mode_table b :
  phy_operation_mode (mkPhyConfig b) =
  match (b2n b / 8) mod 8 with
  | 0 => Some HalfDuplex10bt | 1 => Some FullDuplex10bt | 2 => Some HalfDuplex100bt
  | 3 => Some FullDuplex100bt | 4 => Some HalfDuplex100btAuto | 6 => Some PowerDown
  | 7 => Some Auto | _ => None
  end.
Proof. destruct b; reflexivity. Qed.

Lemma phy_mode_iff b m :
  phy_operation_mode (mkPhyConfig b) = Some m <-> (b2n b / 8) mod 8 = opmdc m.
Proof.
  rewrite phy_mode_table. assert (H : (b2n b / 8) mod 8 < 8) by (apply N.mod_lt; discriminate).
  revert H. generalize ((b2n b / 8) mod 8) as n. intros n H.
  assert (n = 0 \/ n = 1 \/ n = 2 \/ n = 3 \/ n = 4 \/ n = 5 \/ n = 6 \/ n = 7) as C by lia.
  destruct m; decompose [or] C; subst; cbn; split; congruence.
Qed.

Lemma phy_mode_none b :
  phy_operation_mode (mkPhyConfig b) = None <-> (b2n b / 8) mod 8 = 5.
Proof.
  rewrite phy_mode_table. assert (H : (b2n b / 8) mod 8 < 8) by (apply N.mod_lt; discriminate).
  revert H. generalize ((b2n b / 8) mod 8) as n. intros n H.
  assert (n = 0 \/ n = 1 \/ n = 2 \/ n = 3 \/ n = 4 \/ n = 5 \/ n = 6 \/ n = 7) as C by lia.
  decompose [or] C; subst; cbn; split; congruence.
Qed.

Lemma phy_flags b :
  (phy_link_up (mkPhyConfig b) = true <-> b2n b mod 2 = 1) /\
  (phy_speed (mkPhyConfig b) = Mbps100 <-> (b2n b / 2) mod 2 = 1) /\
  (phy_duplex (mkPhyConfig b) = FullDuplex <-> (b2n b / 4) mod 2 = 1).
Proof. destruct b; vm_compute; repeat split; congruence. Qed.

(** ** Sn_SR *)
Definition sr_code (s : Status) : N :=
  match s with
  | StClosed => SOCK_CLOSED | StInit => SOCK_INIT | StListen => SOCK_LISTEN
  | StEstablished => SOCK_ESTABLISHED | StCloseWait => SOCK_CLOSE_WAIT | StUdp => SOCK_UDP
  | StMacRaw => SOCK_MACRAW | StSynSent => SOCK_SYNSENT | StSynRecv => SOCK_SYNRECV
  | StFinWait => SOCK_FIN_WAIT | StClosing => SOCK_CLOSING | StTimeWait => SOCK_TIME_WAIT
  | StLastAck => SOCK_LAST_ACK
  end.

Lemma status_iff b s : status_try_from b = Some s <-> b2n b = sr_code s.
Proof.
  split.
  - destruct b; intros E; vm_compute in E; try discriminate; injection E as <-; reflexivity.
  - intros E. rewrite <- (u8_b2n b), E. destruct s; reflexivity.
Qed.

Lemma status_none b : status_try_from b = None <-> forall s, b2n b <> sr_code s.
Proof.
  split.
  - intros H s E. apply status_iff in E. congruence.
  - intros H. destruct (status_try_from b) eqn:E; [|reflexivity].
    apply status_iff in E. now apply H in E.
Qed.

Lemma status_codes s : status_u8 s = sr_code s.
Proof. destruct s; reflexivity. Qed.

(** ** MacAddress *)
Definition hex_digits : string := "0123456789ABCDEF".
(** the two hexadecimal digits of a byte *)
Definition hex_pair (b : byte) : string :=
  match String.get (N.to_nat (b2n b / 16)) hex_digits, String.get (N.to_nat (b2n b mod 16)) hex_digits with
  | Some h, Some l => String h (String l EmptyString)
  | _, _ => EmptyString
  end.

Lemma hex02_pair b rest : hex02 b rest = (hex_pair b ++ rest)%string.
Proof. destruct b; reflexivity. Qed.

Lemma mac_display_spec m : mac_display m = String.concat ":" (map hex_pair (mac_octets m)).
Proof.
  destruct m as [a b c d e f]. unfold mac_display, mac_octets.
  cbn [m0 m1 m2 m3 m4 m5 map]. rewrite !hex02_pair. unfold colon.
  change (ascii_of_N 58) with ":"%char.
  assert (E : forall x, (x ++ "" = x)%string) by (intros x; induction x; cbn; congruence).
  cbn [String.concat String.append]. rewrite E. reflexivity.
Qed.

Lemma hex_pair_2 b : exists h l, hex_pair b = String h (String l EmptyString).
Proof. destruct b; vm_compute; eexists; eexists; reflexivity. Qed.

(** reading the text back *)
Definition unhex1 (c : ascii) : N :=
  let n := N_of_ascii c in if n <? 58 then n - 48 else n - 55.
Definition unhex (h l : ascii) : byte := u8 (16 * unhex1 h + unhex1 l).

Lemma unhex_pair b h l : hex_pair b = String h (String l EmptyString) -> unhex h l = b.
Proof. intros E. destruct b; vm_compute in E; injection E as <- <-; reflexivity. Qed.

Lemma mac_display_inj m m' : mac_display m = mac_display m' -> m = m'.
Proof.
  destruct m as [a b c d e f], m' as [a' b' c' d' e' f'].
  unfold mac_display. cbn [m0 m1 m2 m3 m4 m5]. rewrite !hex02_pair.
  assert (H : forall x y r r', (hex_pair x ++ r = hex_pair y ++ r')%string -> x = y /\ r = r').
  { intros x y r r' E. destruct (hex_pair_2 x) as (h & l & Ex), (hex_pair_2 y) as (h' & l' & Ey).
    rewrite Ex, Ey in E. cbn in E. injection E as -> -> ->.
    apply unhex_pair in Ex. apply unhex_pair in Ey. now subst. }
  assert (H' : forall x y r r', (hex_pair x ++ String colon r = hex_pair y ++ String colon r')%string -> x = y /\ r = r').
  { intros x y r r' E. apply H in E as [-> E]. injection E as ->. auto. }
  intros E.
  apply H' in E as [-> E]. apply H' in E as [-> E]. apply H' in E as [-> E].
  apply H' in E as [-> E]. apply H' in E as [-> E]. apply H in E as [-> _]. reflexivity.
Qed.

Lemma mac_roundtrip m :
  mac_from (mac_octets m) = m /\ mac_new (m0 m) (m1 m) (m2 m) (m3 m) (m4 m) (m5 m) = m /\
  List.length (mac_octets m) = 6%nat.
Proof. destruct m. repeat split. Qed.
Lemma mac_octets_from l : List.length l = 6%nat -> mac_octets (mac_from l) = l.
Proof. destruct l as [|? [|? [|? [|? [|? [|? [|]]]]]]]; try discriminate. reflexivity. Qed.
Lemma mac_octets_new a b c d e f : mac_octets (mac_new a b c d e f) = [a; b; c; d; e; f].
Proof. reflexivity. Qed.

Lemma ipv4_from_octets i : ipv4_from (octets i) = i.
Proof. destruct i. reflexivity. Qed.
Lemma octets_from l : List.length l = 4%nat -> octets (ipv4_from l) = l.
Proof. destruct l as [|? [|? [|? [|? [|]]]]]; try discriminate. reflexivity. Qed.
Lemma octets_inj i j : octets i = octets j -> i = j.
Proof. intros H. rewrite <- (ipv4_from_octets i), <- (ipv4_from_octets j), H. reflexivity. Qed.
Lemma mac_octets_inj i j : mac_octets i = mac_octets j -> i = j.
Proof. intros H. destruct (mac_roundtrip i) as [<- _], (mac_roundtrip j) as [<- _]. now rewrite H. Qed.
Lemma ipv4_eqb_eq a b : ipv4_eqb a b = true <-> a = b.
Proof. unfold ipv4_eqb. rewrite bytes_eqb_eq. split; [apply octets_inj|congruence]. Qed.
Lemma mac_eqb_eq a b : mac_eqb a b = true <-> a = b.
Proof. unfold mac_eqb. rewrite bytes_eqb_eq. split; [apply mac_octets_inj|congruence]. Qed.
Lemma addr4_eqb_eq a b : addr4_eqb a b = true <-> a = b.
Proof.
  unfold addr4_eqb. rewrite andb_true_iff, ipv4_eqb_eq, N.eqb_eq.
  destruct a, b; cbn. split; [intros [-> ->]; auto | intros [= -> ->]; auto].
Qed.

(** ** socket blocks *)
Lemma socket_blocks i : i < 8 ->
  register (socket_new i) = BSB_REG i /\ tx_buffer (socket_new i) = BSB_TX i /\
  rx_buffer (socket_new i) = BSB_RX i /\ index (socket_new i) = i.
Proof.
  intros H. unfold socket_new, BSB_REG, BSB_TX, BSB_RX; cbn [register tx_buffer rx_buffer index].
  repeat split; lia.
Qed.

(** ** UDP header *)
Lemma udp_header_roundtrip ip port n rest :
  port < 65536 -> n < 65536 ->
  udp_header_from (octets ip ++ to_be port ++ to_be n ++ rest) = mkUdpHeader (Addr4 ip port) n.
Proof.
  intros Hp Hn. destruct ip as [a b c d]. unfold udp_header_from, octets, to_be. cbn [ip0 ip1 ip2 ip3 app nth].
  change [u8 (port / 256); u8 port] with (to_be port). change [u8 (n / 256); u8 n] with (to_be n).
  now rewrite !from_be_to_be.
Qed.
