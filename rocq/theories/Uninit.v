(** Models /repo/src/uninitialized_device.rs.  [reset], [set_mode], [version] and the retry
    registers are the same code as in device.rs and reuse those definitions. *)
From Verif Require Export Device RawDevice.

(** uninitialized_device.rs:121-128 *)
Definition uninit_reset : prog (res unit berr) :=
  write_frame COMMON c_MODE [u8 128].

(** uninitialized_device.rs:233-245 *)
Definition assert_chip_version (expected : N) : prog (res unit InitializeError) :=
  try v <- dev_version else (fun e => Err (SpiError e)) ;;
  if negb (b2n v =? expected) then Ret (Err ChipNotConnected) else Ret (Ok tt).

(** uninitialized_device.rs:91-105.  [assertion] is true unless the crate feature
    [no-chip-version-assertion] is on (lines 96, 233). *)
Definition initialize_with_host (assertion : bool) (h : host) (m : Mode)
  : prog (res DeviceState InitializeError) :=
  let E := fun e => Err (SpiError e) in
  let rest :=
    try a <- uninit_reset else E ;;
    try b <- dev_set_mode m else E ;;
    do r <- refresh h ;;
    match snd r with
    | Err e => Ret (E e)
    | Ok _ => Ret (Ok (ds_new (fst r)))
    end in
  if assertion then try v <- assert_chip_version 0x4 else Err ;; rest else rest.

(** uninitialized_device.rs:54-61 *)
Definition initialize (assertion : bool) (mc : mac) (m : Mode) :=
  initialize_with_host assertion (dhcp_new mc) m.

(** uninitialized_device.rs:79-89 *)
Definition initialize_advanced (assertion : bool) (mc : mac) (ip gateway subnet : ipv4) (m : Mode) :=
  initialize_with_host assertion (manual_new mc ip gateway subnet) m.

(** uninitialized_device.rs:66-77 *)
Definition initialize_manual (assertion : bool) (mc : mac) (ip : ipv4) (m : Mode) :=
  let gateway := Ip4 (ip0 ip) (ip1 ip) (ip2 ip) (u8 1) in
  let subnet := Ip4 (u8 255) (u8 255) (u8 255) (u8 0) in
  initialize_advanced assertion mc ip gateway subnet m.

(** uninitialized_device.rs:107-119 *)
Definition initialize_macraw (mc : mac) : prog (res RawDevice InitializeError) :=
  let E := fun e => Err (SpiError e) in
  try a <- write_frame COMMON c_MODE [u8 0x80] else E ;;
  try b <- write_frame COMMON c_MAC (mac_octets mc) else E ;;
  raw_new.
