(** Models /repo/src/raw_device.rs. *)
From Verif Require Export Cursor Tcp.

(** uninitialized_device.rs:21-25 *)
Inductive InitializeError := SpiError (e : berr) | ChipNotConnected.

(** raw_device.rs:6-9; the bus is implicit *)
Record RawDevice := mkRaw { raw_socket : Socket }.

(** raw_device.rs:26-30: [for socket_index in 1..8] *)
Fixpoint raw_zero_buffers (is : list N) : prog (res unit berr) :=
  match is with
  | [] => Ret (Ok tt)
  | i :: is' =>
      let s := socket_new i in
      try a <- write_frame (register s) s_TXBUF_SIZE [u8 0] else Err ;;
      try b <- write_frame (register s) s_RXBUF_SIZE [u8 0] else Err ;;
      raw_zero_buffers is'
  end.

(** raw_device.rs:19-40 *)
Definition raw_new : prog (res RawDevice InitializeError) :=
  let E := fun e => Err (SpiError e) in
  let s := socket_new 0 in
  try a <- write_frame (register s) s_TXBUF_SIZE [u8 16] else E ;;
  try b <- write_frame (register s) s_RXBUF_SIZE [u8 16] else E ;;
  try c <- raw_zero_buffers [1; 2; 3; 4; 5; 6; 7] else E ;;
  let mode := N.lor (N.shiftl 1 7) (protocol_u8 PrMacRaw) in
  try d <- write_frame (register s) s_MODE [u8 mode] else E ;;
  try e <- command s CmOpen else E ;;
  Ret (Ok (mkRaw s)).

(** raw_device.rs:49-57 *)
Definition raw_enable_interrupts (r : RawDevice) (which : byte) : prog (res unit berr) :=
  try a <- set_interrupt_mask (raw_socket r) (b2n which) else Err ;;
  try b <- write_frame COMMON c_SOCKET_INTERRUPT_MASK [u8 1] else Err ;;
  Ret (Ok tt).

(** raw_device.rs:67-70 *)
Definition raw_clear_interrupts (r : RawDevice) : prog (res unit berr) :=
  reset_interrupt (raw_socket r) InAll.

(** raw_device.rs:74-82 *)
Definition raw_disable_interrupts (r : RawDevice) : prog (res unit berr) :=
  try a <- write_frame COMMON c_SOCKET_INTERRUPT_MASK [u8 0] else Err ;;
  try b <- set_interrupt_mask (raw_socket r) 0xFF else Err ;;
  Ret (Ok tt).

(** raw_device.rs:108-114 *)
Definition raw_read_body (s : Socket) (c : cursor) (expected : N) (frame : list byte)
  : prog (list byte * res N berr) :=
  do r <- rx_read_upto s c frame expected ;;
  match snd r with
  | Err e => Ret (fst r, Err e)
  | Ok cn =>
      let received := snd cn in
      let c' := if received <? expected then fst (rx_skip (fst cn) (expected - received))
                else fst cn in
      try a <- rx_commit s c' else (fun e => (fst r, Err e)) ;;
      Ret (fst r, Ok received)
  end.

(** raw_device.rs:91-115; answers the new contents of [frame] and the result *)
Definition raw_read_frame (fuel : nat) (r : RawDevice) (frame : list byte)
  : prog (list byte * res N berr) :=
  let s := raw_socket r in
  try c <- rx_new fuel s else (fun e => (frame, Err e)) ;;
  if available c =? 0 then Ret (frame, Ok 0) else
  do h <- rx_read s c (zeros 2) ;;
  match snd h with
  | Err e => Ret (frame, Err e)
  | Ok cn =>
      if snd cn =? 2 then
        raw_read_body s (fst cn) (ssub16 (from_be (fst h)) 2) frame
      else Panic P_raw_assert
  end.

(** raw_device.rs:124-140 *)
Definition raw_write_frame (fuel : nat) (r : RawDevice) (frame : list byte)
  : prog (res N berr) :=
  let s := raw_socket r in
  try a <- reset_interrupt s InSendOk else Err ;;
  try c <- tx_new s else Err ;;
  try cn <- tx_write s c frame else Err ;;
  try b <- tx_commit s (fst cn) else Err ;;
  try d <- wait_send_ok fuel s else Err ;;
  Ret (Ok (snd cn)).
