(** Models /repo/src/register.rs and the mode register types of /repo/src/lib.rs. *)
From Verif Require Export Bus.

(** register.rs:4 *)
Definition COMMON : N := 0.

(** register.rs:8-35, module [common] *)
Definition c_MODE : N := 0x0.
Definition c_GATEWAY : N := 0x01.
Definition c_SUBNET_MASK : N := 0x05.
Definition c_MAC : N := 0x09.
Definition c_IP : N := 0x0F.
Definition c_SOCKET_INTERRUPT_MASK : N := 0x18.
Definition c_RETRY_TIME : N := 0x19.
Definition c_RETRY_COUNT : N := 0x1B.
Definition c_PHY_CONFIG : N := 0x2E.
Definition c_VERSION : N := 0x39.

(** register.rs:55, [RetryTime(u16)] *)
Record RetryTime := mkRetryTime { rt : N }.
(** register.rs:59-61 *)
Definition rt_to_u16 (r : RetryTime) : N := rt r.
(** register.rs:64-66 *)
Definition rt_to_register (r : RetryTime) : list byte := to_be (rt r).
(** register.rs:69-71 *)
Definition rt_from_register (l : list byte) : RetryTime := mkRetryTime (from_be l).
(** register.rs:74-76: [milliseconds * 10] in u16.  [checked] is whether the crate was
    built with overflow checks: [None] is the overflow panic; otherwise the product wraps. *)
Definition rt_from_millis (checked : bool) (ms : N) : option RetryTime :=
  if ms * 10 <? 65536 then Some (mkRetryTime (ms * 10))
  else if checked then None else Some (mkRetryTime ((ms * 10) mod 65536)).
(** register.rs:79-81 *)
Definition rt_to_millis (r : RetryTime) : N := rt r / 10.

(** register.rs:84-88 *)
Definition rt_default (checked : bool) : option RetryTime := rt_from_millis checked 200.

(** register.rs:92-108 *)
Inductive PhyOperationMode :=
| HalfDuplex10bt | FullDuplex10bt | HalfDuplex100bt | FullDuplex100bt
| HalfDuplex100btAuto | PowerDown | Auto.
(** register.rs:94-107 discriminants, 110-114 *)
Definition phy_mode_u8 (m : PhyOperationMode) : N :=
  match m with
  | HalfDuplex10bt => 0 | FullDuplex10bt => 8 | HalfDuplex100bt => 16
  | FullDuplex100bt => 24 | HalfDuplex100btAuto => 32 | PowerDown => 48 | Auto => 56
  end.
(** register.rs:118-132 *)
Inductive PhySpeedStatus := Mbps10 | Mbps100.
Inductive PhyDuplexStatus := HalfDuplex | FullDuplex.
(** register.rs:135, 191-195: [PhyConfig([u8; 1])] *)
Record PhyConfig := mkPhyConfig { phy : byte }.
(** register.rs:139-143, 154-156; [get_bit] of bit_field is a bit test *)
Definition phy_link_up (p : PhyConfig) : bool := N.testbit (b2n (phy p)) 0.
(** register.rs:159-165 *)
Definition phy_speed (p : PhyConfig) : PhySpeedStatus :=
  if negb (N.testbit (b2n (phy p)) 1) then Mbps10 else Mbps100.
(** register.rs:168-174 *)
Definition phy_duplex (p : PhyConfig) : PhyDuplexStatus :=
  if negb (N.testbit (b2n (phy p)) 2) then HalfDuplex else FullDuplex.
(** register.rs:177-188; [None] is the [unreachable!()] panic *)
Definition phy_operation_mode (p : PhyConfig) : option PhyOperationMode :=
  match N.land (b2n (phy p)) 56 with
  | 0 => Some HalfDuplex10bt
  | 8 => Some FullDuplex10bt
  | 16 => Some HalfDuplex100bt
  | 24 => Some FullDuplex100bt
  | 32 => Some HalfDuplex100btAuto
  | 48 => Some PowerDown
  | 56 => Some Auto
  | _ => None
  end.

(** register.rs:234-442, module [socketn] *)
Definition s_MODE : N := 0x00.
Definition s_COMMAND : N := 0x01.
Definition s_INTERRUPT : N := 0x02.
Definition s_STATUS : N := 0x03.
Definition s_SOURCE_PORT : N := 0x04.
Definition s_DESTINATION_IP : N := 0x0C.
Definition s_DESTINATION_PORT : N := 0x10.
Definition s_RXBUF_SIZE : N := 0x1E.
Definition s_TXBUF_SIZE : N := 0x1F.
Definition s_TX_FREE_SIZE : N := 0x20.
Definition s_TX_DATA_READ_POINTER : N := 0x22.
Definition s_TX_DATA_WRITE_POINTER : N := 0x24.
Definition s_RECEIVED_SIZE : N := 0x26.
Definition s_RX_DATA_READ_POINTER : N := 0x28.
Definition s_INTERRUPT_MASK : N := 0x2C.

(** register.rs:238-243 *)
Inductive Protocol := PrClosed | PrTcp | PrUdp | PrMacRaw.
Definition protocol_u8 (p : Protocol) : N :=
  match p with PrClosed => 0 | PrTcp => 1 | PrUdp => 2 | PrMacRaw => 4 end.

(** register.rs:254-275 *)
Inductive Command := CmOpen | CmListen | CmConnect | CmDiscon | CmClose | CmSend | CmReceive.
Definition command_u8 (c : Command) : N :=
  match c with
  | CmOpen => 0x01 | CmListen => 0x02 | CmConnect => 0x04 | CmDiscon => 0x08
  | CmClose => 0x10 | CmSend => 0x20 | CmReceive => 0x40
  end.

(** register.rs:289-308 *)
Inductive Interrupt := InAll | InSendOk | InTimeout | InReceive | InDisconnect | InConnect.
Definition interrupt_u8 (i : Interrupt) : N :=
  match i with
  | InAll => 255 | InSendOk => 16 | InTimeout => 8 | InReceive => 4
  | InDisconnect => 2 | InConnect => 1
  end.

(** register.rs:329-351 *)
Inductive Status :=
| StClosed | StInit | StListen | StEstablished | StCloseWait | StUdp | StMacRaw
| StSynSent | StSynRecv | StFinWait | StClosing | StTimeWait | StLastAck.
Definition status_u8 (s : Status) : N :=
  match s with
  | StClosed => 0x00 | StInit => 0x13 | StListen => 0x14 | StEstablished => 0x17
  | StCloseWait => 0x1c | StUdp => 0x22 | StMacRaw => 0x42
  | StSynSent => 0x15 | StSynRecv => 0x16 | StFinWait => 0x18 | StClosing => 0x1a
  | StTimeWait => 0x1b | StLastAck => 0x1d
  end.
(** register.rs:327 [#[derive(TryFromPrimitive)]]: the variant with that discriminant,
    or [Err]; the error payload (the byte itself) is dropped, no caller looks at it *)
Definition status_try_from (b : byte) : option Status :=
  match b2n b with
  | 0x00 => Some StClosed | 0x13 => Some StInit | 0x14 => Some StListen
  | 0x17 => Some StEstablished | 0x1c => Some StCloseWait | 0x22 => Some StUdp
  | 0x42 => Some StMacRaw | 0x15 => Some StSynSent | 0x16 => Some StSynRecv
  | 0x18 => Some StFinWait | 0x1a => Some StClosing | 0x1b => Some StTimeWait
  | 0x1d => Some StLastAck
  | _ => None
  end.

(** lib.rs:29-75 *)
Inductive OnWakeOnLan := WolInvokeInterrupt | WolIgnore.
Inductive OnPingRequest := PingRespond | PingIgnore.
Inductive ConnectionType := CtPPoE | CtEthernet.
Inductive ArpResponses := ArpCache | ArpDropAfterUse.
Definition wol_u8 (x : OnWakeOnLan) : N := match x with WolInvokeInterrupt => 32 | WolIgnore => 0 end.
Definition ping_u8 (x : OnPingRequest) : N := match x with PingRespond => 0 | PingIgnore => 16 end.
Definition ct_u8 (x : ConnectionType) : N := match x with CtPPoE => 8 | CtEthernet => 0 end.
Definition arp_u8 (x : ArpResponses) : N := match x with ArpCache => 0 | ArpDropAfterUse => 2 end.
(** lib.rs:79-84 *)
Record Mode := mkMode
  { on_wake_on_lan : OnWakeOnLan; on_ping_request : OnPingRequest;
    connection_type : ConnectionType; arp_responses : ArpResponses }.
(** lib.rs:91-99 *)
Definition mode_to_u8 (m : Mode) : N :=
  let r := 0 in
  let r := N.lor r (wol_u8 (on_wake_on_lan m)) in
  let r := N.lor r (ping_u8 (on_ping_request m)) in
  let r := N.lor r (ct_u8 (connection_type m)) in
  let r := N.lor r (arp_u8 (arp_responses m)) in
  r.
(** lib.rs:87-89 *)
Definition mode_to_register (m : Mode) : list byte := [u8 (mode_to_u8 m)].
(** lib.rs:102-111 *)
Definition mode_default : Mode := mkMode WolIgnore PingRespond CtEthernet ArpDropAfterUse.
