(** Models /repo/src/udp.rs. *)
From Verif Require Export Tcp.

(** udp.rs:28-37 *)
Record UdpHeader := mkUdpHeader { origin : addr4; h_len : N }.

(** udp.rs:40-42, 45-59; the argument is an 8-byte array *)
Definition udp_header_from (h : list byte) : UdpHeader :=
  mkUdpHeader
    (Addr4 (Ip4 (nth 0 h x00) (nth 1 h x00) (nth 2 h x00) (nth 3 h x00))
           (from_be [nth 4 h x00; nth 5 h x00]))
    (from_be [nth 6 h x00; nth 7 h x00]).

(** udp.rs:417-441 *)
Inductive uerr :=
| UNoMoreSockets | UUnsupportedAddress | UUnrecognisedStatus | UBufferOverflow | UBufferFull
| UDestinationNotSet | USocketNotOpen | UOther (e : berr) | UWriteTimeout.

(** udp.rs:63-70 *)
Record UdpSocket := mkUdp { u_socket : Socket; u_dest : option addr4; u_port : N }.

(** udp.rs:449-465: a bus error inside an NbResult *)
Definition uE {A} (e : berr) : res A (nberr uerr) := Err (NbOther (UOther e)).

(** udp.rs:73-83 *)
Definition udp_new (s : Socket) : UdpSocket := mkUdp s None (49849 + index s).

(** udp.rs:85-97 *)
Definition udp_open (u : UdpSocket) : prog (res unit berr) :=
  let s := u_socket u in
  try a <- command s CmClose else Err ;;
  try b <- reset_interrupt s InAll else Err ;;
  try p <- set_source_port s (u_port u) else Err ;;
  try c <- set_mode s PrUdp else Err ;;
  try d <- set_interrupt_mask s open_mask else Err ;;
  try e <- command s CmOpen else Err ;;
  Ret (Ok tt).

(** udp.rs:100-102 *)
Definition udp_get_port (u : UdpSocket) : N := u_port u.

(** udp.rs:104-113: the field is updated before the bus is used *)
Definition udp_set_port (u : UdpSocket) (local_port : N) : prog (UdpSocket * res unit uerr) :=
  let u' := mkUdp (u_socket u) (u_dest u) local_port in
  try a <- set_source_port (u_socket u') (u_port u') else (fun e => (u', Err (UOther e))) ;;
  Ret (u', Ok tt).

(** udp.rs:115-139: the registers are written only when the cached destination differs,
    and the cache is updated only after both writes *)
Definition udp_set_destination (u : UdpSocket) (remote : addr4)
  : prog (UdpSocket * res unit uerr) :=
  if match u_dest u with Some dest => negb (addr4_eqb dest remote) | None => true end then
    try a <- set_destination_ip (u_socket u) (a_ip remote) else (fun e => (u, Err (UOther e))) ;;
    try b <- set_destination_port (u_socket u) (a_port remote)
      else (fun e => (u, Err (UOther e))) ;;
    Ret (mkUdp (u_socket u) (Some remote) (u_port u), Ok tt)
  else Ret (u, Ok tt).

(** udp.rs:266-296 *)
Definition udp_try_flush_tx (u : UdpSocket) : prog (res unit (nberr uerr)) :=
  let s := u_socket u in
  try tx_read <- get_tx_read_pointer s else uE ;;
  try tx_write <- get_tx_write_pointer s else uE ;;
  if tx_read =? tx_write then
    try ok <- has_interrupt s InSendOk else uE ;;
    if ok then
      try a <- reset_interrupt s InSendOk else uE ;;
      Ret (Ok tt)
    else
      try tmo <- has_interrupt s InTimeout else uE ;;
      if tmo then
        try a <- reset_interrupt s InTimeout else uE ;;
        Ret (Err (NbOther UWriteTimeout))
      else Ret (Ok tt)
  else Ret (Err WouldBlock).

(** udp.rs:258-263 *)
Fixpoint udp_flush_loop (fuel : nat) (u : UdpSocket) : prog (res unit (nberr uerr)) :=
  match fuel with
  | O => Spin
  | S fuel' =>
      do r <- udp_try_flush_tx u ;;
      match r with
      | Err WouldBlock => udp_flush_loop fuel' u
      | result => Ret result
      end
  end.

(** udp.rs:251-264 *)
Definition udp_block_send_command (fuel : nat) (u : UdpSocket) : prog (res unit (nberr uerr)) :=
  try a <- command (u_socket u) CmSend else uE ;;
  udp_flush_loop fuel u.

(** udp.rs:235-247: the part of socket_send after the slice to send is chosen *)
Definition udp_send_data (fuel : nat) (u : UdpSocket) (write_data : list byte)
  : prog (res N (nberr uerr)) :=
  let s := u_socket u in
  try wp <- get_tx_write_pointer s else uE ;;
  try a <- write_frame (tx_buffer s) wp write_data else uE ;;
  try b <- set_tx_write_pointer s (wadd16 wp (as_u16 (len write_data))) else uE ;;
  try c <- udp_block_send_command fuel u else Err ;;
  Ret (Ok (len write_data)).

(** udp.rs:146-150, 205-209, 330-334: the status gate shared by send, send_all, receive *)
Definition udp_status_gate (st : byte) : res unit (nberr uerr) :=
  match status_try_from st with
  | Some StUdp => Ok tt
  | Some _ => Err (NbOther USocketNotOpen)
  | None => Err (NbOther UUnrecognisedStatus)
  end.

(** udp.rs:200-248 *)
Definition udp_socket_send (fuel : nat) (u : UdpSocket) (send_buffer : list byte)
  : prog (res N (nberr uerr)) :=
  let s := u_socket u in
  try st <- get_status s else uE ;;
  match udp_status_gate st with
  | Err e => Ret (Err e)
  | Ok _ =>
    match u_dest u with
    | None => Ret (Err (NbOther UDestinationNotSet))
    | Some _ =>
      try free_size <- get_tx_free_size s else uE ;;
      if free_size =? 0 then Ret (Err (NbOther UBufferFull)) else
      if len send_buffer <? free_size then udp_send_data fuel u send_buffer
      else slice_to P_udp_send_slice free_size send_buffer
             (fun front => udp_send_data fuel u front)
    end
  end.

(** udp.rs:171-189; [outer] bounds the number of iterations of this loop, [fuel] the
    busy-wait inside each *)
Fixpoint udp_send_loop (outer fuel : nat) (u : UdpSocket) (send_buffer : list byte)
    (free_size total_sent : N) : prog (res unit (nberr uerr)) :=
  if total_sent =? len send_buffer then Ret (Ok tt)
  else match outer with
  | O => Spin
  | S outer' =>
      slice_from P_udp_send_slice total_sent send_buffer (fun remaining_bytes =>
      let write_len := N.min free_size (len remaining_bytes) in
      slice_to P_udp_send_slice write_len remaining_bytes (fun send_batch =>
      try sent <- udp_socket_send fuel u send_batch else Err ;;
      try free_size' <- get_tx_free_size (u_socket u) else uE ;;
      udp_send_loop outer' fuel u send_buffer free_size' (total_sent + sent)))
  end.

(** udp.rs:141-190 *)
Definition udp_send_all (fuel : nat) (u : UdpSocket) (send_buffer : list byte)
  : prog (res unit (nberr uerr)) :=
  let s := u_socket u in
  try st <- get_status s else uE ;;
  match udp_status_gate st with
  | Err e => Ret (Err e)
  | Ok _ =>
    match u_dest u with
    | None => Ret (Err (NbOther UDestinationNotSet))
    | Some _ =>
      try free_size <- get_tx_free_size s else uE ;;
      if free_size =? 0 then Ret (Err (NbOther UBufferFull)) else
      udp_send_loop fuel fuel u send_buffer free_size 0
    end
  end.

(** udp.rs:304-313 *)
Definition udp_send_to_v4 (fuel : nat) (u : UdpSocket) (remote : addr4) (send_buffer : list byte)
  : prog (UdpSocket * res unit (nberr uerr)) :=
  do r <- udp_set_destination u remote ;;
  match snd r with
  | Err e => Ret (fst r, Err (NbOther e))
  | Ok _ => do q <- udp_send_all fuel (fst r) send_buffer ;; Ret (fst r, q)
  end.

(** udp.rs:325-397; answers the new contents of [receive_buffer] and the result *)
Definition udp_socket_receive (fuel : nat) (u : UdpSocket) (receive_buffer : list byte)
  : prog (list byte * res (N * UdpHeader) (nberr uerr)) :=
  let s := u_socket u in
  let bail e := (receive_buffer, uE e) in
  try st <- get_status s else bail ;;
  match udp_status_gate st with
  | Err e => Ret (receive_buffer, Err e)
  | Ok _ =>
    try has <- has_interrupt s InReceive else bail ;;
    if negb has then Ret (receive_buffer, Err WouldBlock) else
    try rx_size <- get_receive_size fuel s else bail ;;
    if rx_size =? 0 then Ret (receive_buffer, Err WouldBlock) else
    let buffer_size := len receive_buffer in
    if buffer_size =? 0 then Ret (receive_buffer, Err (NbOther UBufferOverflow)) else
    let read_max_size := N.min rx_size buffer_size in
    try read_pointer <- get_rx_read_pointer s else bail ;;
    try header <- read_reg (rx_buffer s) read_pointer 8 else bail ;;
    let udp_header := udp_header_from header in
    let data_read_pointer := wadd16 read_pointer 8 in
    let read_length := N.max read_max_size (h_len udp_header) in
    slice_to P_udp_recv_slice read_length receive_buffer (fun read_buffer =>
    do gr <- read_into (rx_buffer s) data_read_pointer read_buffer ;;
    let receive_buffer' := fst gr ++ drop read_length receive_buffer in
    let bail' e := (receive_buffer', uE e) in
    match snd gr with
    | Err e => Ret (bail' e)
    | Ok _ =>
      try a <- set_rx_read_pointer s (wadd16 read_pointer (as_u16 rx_size)) else bail' ;;
      try b <- command s CmReceive else bail' ;;
      try c <- reset_interrupt s InReceive else bail' ;;
      Ret (receive_buffer', Ok (read_length, udp_header))
    end)
  end.

(** udp.rs:399-406 *)
Definition udp_socket_close (u : UdpSocket) : prog (res unit uerr) :=
  let s := u_socket u in
  try a <- set_mode s PrClosed else (fun e => Err (UOther e)) ;;
  try b <- command s CmClose else (fun e => Err (UOther e)) ;;
  Ret (Ok tt).

(** udp.rs:410-412 *)
Definition udp_index (u : UdpSocket) : N := index (u_socket u).

(** udp.rs:492-503 *)
Definition udp_connect (u : UdpSocket) (remote : sockaddr) : prog (UdpSocket * res unit uerr) :=
  match remote with
  | V6 => Ret (u, Err UUnsupportedAddress)
  | V4 r =>
      try a <- udp_open u else (fun e => (u, Err (UOther e))) ;;
      udp_set_destination u r
  end.

(** udp.rs:505-508 *)
Definition udp_send (fuel : nat) (u : UdpSocket) (buffer : list byte)
  : prog (res unit (nberr uerr)) := udp_send_all fuel u buffer.

(** udp.rs:510-518; SocketAddr::V4(origin) *)
Definition udp_receive (fuel : nat) (u : UdpSocket) (buffer : list byte)
  : prog (list byte * res (N * sockaddr) (nberr uerr)) :=
  do r <- udp_socket_receive fuel u buffer ;;
  Ret (fst r, match snd r with
              | Ok nh => Ok (fst nh, V4 (origin (snd nh)))
              | Err e => Err e
              end).

(** udp.rs:532-536 *)
Definition udp_bind (u : UdpSocket) (local_port : N) : prog (UdpSocket * res unit uerr) :=
  do r <- udp_set_port u local_port ;;
  match snd r with
  | Err e => Ret r
  | Ok _ =>
      try a <- udp_open (fst r) else (fun e => (fst r, Err (UOther e))) ;;
      Ret (fst r, Ok tt)
  end.

(** udp.rs:538-550 *)
Definition udp_send_to (fuel : nat) (u : UdpSocket) (remote : sockaddr) (buffer : list byte)
  : prog (UdpSocket * res unit (nberr uerr)) :=
  match remote with
  | V6 => Ret (u, Err (NbOther UUnsupportedAddress))
  | V4 r => udp_send_to_v4 fuel u r buffer
  end.
