(** Models /repo/src/socket.rs. *)
From Verif Require Export Net.

(** socket.rs:8-13 *)
Record Socket := mkSocket { index : N; register : N; tx_buffer : N; rx_buffer : N }.

(** socket.rs:17-35; u8 arithmetic, written as wrapping.  Only ever called with
    index < 8 (device.rs:58-61, raw_device.rs:21,26-27), where nothing overflows:
    [C12_socket_blocks]. *)
Definition socket_new (i : N) : Socket :=
  let block := (i * 4) mod 256 in
  mkSocket i ((block + 1) mod 256) ((block + 2) mod 256) ((block + 3) mod 256).

(** socket.rs:47-55 *)
Definition set_mode (s : Socket) (m : Protocol) : prog (res unit berr) :=
  write_frame (register s) s_MODE [u8 (protocol_u8 m)].

(** socket.rs:57-61 *)
Definition get_status (s : Socket) : prog (res byte berr) :=
  try d <- read_reg (register s) s_STATUS 1 else Err ;; Ret (Ok (byte0 d)).

(** socket.rs:63-71 *)
Definition reset_interrupt (s : Socket) (code : Interrupt) : prog (res unit berr) :=
  write_frame (register s) s_INTERRUPT [u8 (interrupt_u8 code)].

(** socket.rs:73-82; Rust parses [data[0] & code as u8 != 0] as [(data[0] & code) != 0] *)
Definition has_interrupt (s : Socket) (code : Interrupt) : prog (res bool berr) :=
  try d <- read_reg (register s) s_INTERRUPT 1 else Err ;;
  Ret (Ok (negb (N.land (b2n (byte0 d)) (interrupt_u8 code) =? 0))).

(** socket.rs:84-92 *)
Definition set_source_port (s : Socket) (port : N) : prog (res unit berr) :=
  write_frame (register s) s_SOURCE_PORT (to_be port).

(** socket.rs:94-102 *)
Definition set_destination_ip (s : Socket) (ip : ipv4) : prog (res unit berr) :=
  write_frame (register s) s_DESTINATION_IP (octets ip).

(** socket.rs:104-112 *)
Definition set_destination_port (s : Socket) (port : N) : prog (res unit berr) :=
  write_frame (register s) s_DESTINATION_PORT (to_be port).

(** socket.rs:114-118 *)
Definition get_tx_read_pointer (s : Socket) : prog (res N berr) :=
  try d <- read_reg (register s) s_TX_DATA_READ_POINTER 2 else Err ;; Ret (Ok (from_be d)).

(** socket.rs:120-128 (dead code in the crate) *)
Definition set_tx_read_pointer (s : Socket) (p : N) : prog (res unit berr) :=
  write_frame (register s) s_TX_DATA_READ_POINTER (to_be p).

(** socket.rs:130-137 *)
Definition get_tx_write_pointer (s : Socket) : prog (res N berr) :=
  try d <- read_reg (register s) s_TX_DATA_WRITE_POINTER 2 else Err ;; Ret (Ok (from_be d)).

(** socket.rs:139-147 *)
Definition set_tx_write_pointer (s : Socket) (p : N) : prog (res unit berr) :=
  write_frame (register s) s_TX_DATA_WRITE_POINTER (to_be p).

(** socket.rs:149-153 *)
Definition get_rx_read_pointer (s : Socket) : prog (res N berr) :=
  try d <- read_reg (register s) s_RX_DATA_READ_POINTER 2 else Err ;; Ret (Ok (from_be d)).

(** socket.rs:155-163 *)
Definition set_rx_read_pointer (s : Socket) (p : N) : prog (res unit berr) :=
  write_frame (register s) s_RX_DATA_READ_POINTER (to_be p).

(** socket.rs:165-173; [mask] is a u8 *)
Definition set_interrupt_mask (s : Socket) (mask : N) : prog (res unit berr) :=
  write_frame (register s) s_INTERRUPT_MASK [u8 mask].

(** socket.rs:175-183 *)
Definition command (s : Socket) (c : Command) : prog (res unit berr) :=
  write_frame (register s) s_COMMAND [u8 (command_u8 c)].

(** socket.rs:188-198: loop until two consecutive reads agree *)
Fixpoint get_receive_size (fuel : nat) (s : Socket) : prog (res N berr) :=
  match fuel with
  | O => Spin
  | S fuel' =>
      try sample_0 <- read_reg (register s) s_RECEIVED_SIZE 2 else Err ;;
      try sample_1 <- read_reg (register s) s_RECEIVED_SIZE 2 else Err ;;
      if bytes_eqb sample_0 sample_1 then Ret (Ok (from_be sample_0))
      else get_receive_size fuel' s
  end.

(** socket.rs:203-207 *)
Definition get_tx_free_size (s : Socket) : prog (res N berr) :=
  try d <- read_reg (register s) s_TX_FREE_SIZE 2 else Err ;; Ret (Ok (from_be d)).
