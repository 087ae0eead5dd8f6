(** Models /repo/src/device.rs and the parts of tcp.rs / udp.rs that touch the device's
    socket pool.  A [Device] owns the bus and its [State]; here the state is a value that
    is passed along, the bus is implicit in [prog]. *)
From Verif Require Export Udp Host.

(** device.rs:15-18 *)
Inductive ResetError := SocketsNotReleased | RsOther (e : berr).

(** device.rs:40-43; [sockets] is a u8 used as a bit set, 1 = free *)
Record DeviceState := mkDS { ds_host : host; ds_sockets : N }.

(** device.rs:46-51 *)
Definition ds_new (h : host) : DeviceState := mkDS h 0xFF.

(** device.rs:58-63: scan [index in is] for a set bit *)
Fixpoint first_free (is : list N) (sockets : N) : option N :=
  match is with
  | [] => None
  | i :: is' => if N.testbit sockets i then Some i else first_free is' sockets
  end.

(** device.rs:57-65, 117-120 (take_socket), 77-79 (the [&mut T] forwarding impl) *)
Definition take_socket (d : DeviceState) : DeviceState * option Socket :=
  match first_free [0; 1; 2; 3; 4; 5; 6; 7] (ds_sockets d) with
  | Some i => (mkDS (ds_host d) (N.clearbit (ds_sockets d) i), Some (socket_new i))
  | None => (d, None)
  end.

(** device.rs:67-69, 122-124, 81-83; bit_field's [set_bit] panics ([None]) for a bit
    index outside the u8 *)
Definition release_socket (d : DeviceState) (s : Socket) : option DeviceState :=
  if index s <? 8 then Some (mkDS (ds_host d) (N.setbit (ds_sockets d) (index s))) else None.

(** device.rs:71-73, 85-87 *)
Definition any_allocated (d : DeviceState) : bool := negb (ds_sockets d =? 0xFF).

(** device.rs:161-167 *)
Definition reset_device : prog (res unit berr) :=
  write_frame COMMON c_MODE [u8 128].

(** device.rs:104-111.  [Ok tt] stands for the UninitializedDevice that is handed back; in
    either error case the device is gone. *)
Definition dev_reset (d : DeviceState) : prog (res unit ResetError) :=
  if any_allocated d then Ret (Err SocketsNotReleased)
  else try a <- reset_device else (fun e => Err (RsOther e)) ;; Ret (Ok tt).

(** device.rs:126-131 *)
Definition dev_gateway : prog (res ipv4 berr) :=
  try o <- read_reg COMMON c_GATEWAY 4 else Err ;; Ret (Ok (ipv4_from o)).
(** device.rs:133-138 *)
Definition dev_subnet_mask : prog (res ipv4 berr) :=
  try o <- read_reg COMMON c_SUBNET_MASK 4 else Err ;; Ret (Ok (ipv4_from o)).
(** device.rs:140-145 *)
Definition dev_mac : prog (res mac berr) :=
  try o <- read_reg COMMON c_MAC 6 else Err ;; Ret (Ok (mac_from o)).
(** device.rs:147-152 *)
Definition dev_ip : prog (res ipv4 berr) :=
  try o <- read_reg COMMON c_IP 4 else Err ;; Ret (Ok (ipv4_from o)).
(** device.rs:154-159 *)
Definition dev_phy_config : prog (res PhyConfig berr) :=
  try o <- read_reg COMMON c_PHY_CONFIG 1 else Err ;; Ret (Ok (mkPhyConfig (byte0 o))).
(** device.rs:169-176, uninitialized_device.rs:129-136 *)
Definition dev_set_mode (m : Mode) : prog (res unit berr) :=
  write_frame COMMON c_MODE (mode_to_register m).
(** device.rs:178-188, uninitialized_device.rs:138-148 *)
Definition dev_version : prog (res byte berr) :=
  try o <- read_reg COMMON c_VERSION 1 else Err ;; Ret (Ok (byte0 o)).
(** device.rs:206-215, uninitialized_device.rs:164-173 *)
Definition dev_set_retry_timeout (r : RetryTime) : prog (res unit berr) :=
  try a <- write_frame COMMON c_RETRY_TIME (rt_to_register r) else Err ;; Ret (Ok tt).
(** device.rs:222-232, uninitialized_device.rs:178-188 *)
Definition dev_current_retry_timeout : prog (res RetryTime berr) :=
  try o <- read_reg COMMON c_RETRY_TIME 2 else Err ;; Ret (Ok (rt_from_register o)).
(** device.rs:250-258, uninitialized_device.rs:206-214 *)
Definition dev_set_retry_count (n : byte) : prog (res unit berr) :=
  try a <- write_frame COMMON c_RETRY_COUNT [n] else Err ;; Ret (Ok tt).
(** device.rs:266-276, uninitialized_device.rs:221-231 *)
Definition dev_current_retry_count : prog (res byte berr) :=
  try o <- read_reg COMMON c_RETRY_COUNT 1 else Err ;; Ret (Ok (byte0 o)).

(** device.rs:285: InactiveDevice wraps the state *)
Record InactiveDevice := mkInactive { inactive_state : DeviceState }.
(** device.rs:278-280; the bus half of the pair is implicit *)
Definition deactivate (d : DeviceState) : InactiveDevice := mkInactive d.
(** device.rs:289-291 (and 293-298, whose state is a reference to the same value) *)
Definition activate (i : InactiveDevice) : DeviceState := inactive_state i.

(** tcp.rs:224-229 *)
Definition tcp_socket (d : DeviceState) : DeviceState * res TcpSocket terr :=
  match take_socket d with
  | (d', Some s) => (d', Ok (mkTcp s))
  | (d', None) => (d', Err TNoMoreSockets)
  end.

(** udp.rs:484-490 *)
Definition udp_socket (d : DeviceState) : DeviceState * res UdpSocket uerr :=
  match take_socket d with
  | (d', Some s) => (d', Ok (udp_new s))
  | (d', None) => (d', Err UNoMoreSockets)
  end.

(** tcp.rs:263-267: the handle is consumed in every case *)
Definition tcp_close (d : DeviceState) (t : TcpSocket) : prog (DeviceState * res unit terr) :=
  try a <- tcp_socket_close t else (fun e => (d, Err e)) ;;
  match release_socket d (t_socket t) with
  | Some d' => Ret (d', Ok tt)
  | None => Panic P_set_bit
  end.

(** udp.rs:520-524 *)
Definition udp_close (d : DeviceState) (u : UdpSocket) : prog (DeviceState * res unit uerr) :=
  try a <- udp_socket_close u else (fun e => (d, Err e)) ;;
  match release_socket d (u_socket u) with
  | Some d' => Ret (d', Ok tt)
  | None => Panic P_set_bit
  end.
