(** Models /repo/src/tcp.rs. *)
From Verif Require Export Socket.

(** tcp.rs:17-23 *)
Inductive terr :=
| TNoMoreSockets | TNotConnected | TUnsupportedAddress | TOther (e : berr) | TUnsupportedMode.

(** tcp.rs:25-32; embedded_nal::TcpErrorKind has more variants, only these are produced *)
Inductive tkind := KPipeClosed | KOther.
Definition terr_kind (e : terr) : tkind :=
  match e with TNotConnected => KPipeClosed | _ => KOther end.

(** nb::Error *)
Inductive nberr (E : Type) := WouldBlock | NbOther (e : E).
Arguments WouldBlock {E}.
Arguments NbOther {E} e.

(** tcp.rs:42-44 *)
Record TcpSocket := mkTcp { t_socket : Socket }.

(** [Err(e.into())] of a bus error, tcp.rs:34-38 *)
Definition tE {A} (e : berr) : res A terr := Err (TOther e).

(** [SendOk as u8 & Timeout as u8], tcp.rs:54, 72 and udp.rs:92 *)
Definition open_mask : N := N.land (interrupt_u8 InSendOk) (interrupt_u8 InTimeout).

(** tcp.rs:47-59 *)
Definition tcp_reopen (t : TcpSocket) : prog (res unit terr) :=
  let s := t_socket t in
  try a <- command s CmClose else tE ;;
  try b <- reset_interrupt s InAll else tE ;;
  try c <- set_mode s PrTcp else tE ;;
  try d <- set_interrupt_mask s open_mask else tE ;;
  try e <- command s CmOpen else tE ;;
  Ret (Ok tt).

(** tcp.rs:60-77 *)
Definition tcp_open (t : TcpSocket) (local_port : N) : prog (res unit terr) :=
  let s := t_socket t in
  try a <- command s CmClose else tE ;;
  try b <- reset_interrupt s InAll else tE ;;
  try p <- set_source_port s local_port else tE ;;
  try c <- set_mode s PrTcp else tE ;;
  try d <- set_interrupt_mask s open_mask else tE ;;
  try e <- command s CmOpen else tE ;;
  Ret (Ok tt).

(** tcp.rs:79-83 *)
Definition tcp_socket_close (t : TcpSocket) : prog (res unit terr) :=
  let s := t_socket t in
  try a <- set_mode s PrClosed else tE ;;
  try b <- command s CmClose else tE ;;
  Ret (Ok tt).

(** tcp.rs:116-137: poll until Established or Closed *)
Fixpoint tcp_connect_wait (fuel : nat) (t : TcpSocket) : prog (res unit terr) :=
  match fuel with
  | O => Spin
  | S fuel' =>
      try st <- get_status (t_socket t) else tE ;;
      match status_try_from st with
      | Some StEstablished => Ret (Ok tt)
      | Some StClosed =>
          try a <- tcp_socket_close t else Err ;;
          tcp_reopen t
      | _ => tcp_connect_wait fuel' t
      end
  end.

(** tcp.rs:108-137: the part of socket_connect after the socket is known to be ready *)
Definition tcp_do_connect (fuel : nat) (t : TcpSocket) (remote : addr4) : prog (res unit terr) :=
  let s := t_socket t in
  try a <- set_destination_ip s (a_ip remote) else tE ;;
  try b <- set_destination_port s (a_port remote) else tE ;;
  try c <- command s CmConnect else tE ;;
  tcp_connect_wait fuel t.

(** tcp.rs:85-138 *)
Definition tcp_socket_connect (fuel : nat) (t : TcpSocket) (remote : addr4)
  : prog (res unit terr) :=
  try st <- get_status (t_socket t) else tE ;;
  match status_try_from st with
  | Some StInit => tcp_do_connect fuel t remote
  | None | Some StMacRaw | Some StUdp => Ret (Err TUnsupportedMode)
  | Some _ =>
      try a <- tcp_socket_close t else Err ;;
      try b <- tcp_reopen t else Err ;;
      tcp_do_connect fuel t remote
  end.

(** tcp.rs:140-142 *)
Definition tcp_is_connected (t : TcpSocket) : prog (res bool terr) :=
  try st <- get_status (t_socket t) else tE ;;
  Ret (Ok (b2n st =? status_u8 StEstablished)).

(** tcp.rs:173: [while !has_interrupt(SendOk)? {}]; also raw_device.rs:134-137 *)
Fixpoint wait_send_ok (fuel : nat) (s : Socket) : prog (res unit berr) :=
  match fuel with
  | O => Spin
  | S fuel' =>
      try ok <- has_interrupt s InSendOk else Err ;;
      if ok then Ret (Ok tt) else wait_send_ok fuel' s
  end.

(** tcp.rs:161-177: the part of socket_send after the slice to send is chosen *)
Definition tcp_send_data (fuel : nat) (t : TcpSocket) (write_data : list byte)
  : prog (res N terr) :=
  let s := t_socket t in
  try wp <- get_tx_write_pointer s else tE ;;
  try a <- write_frame (tx_buffer s) wp write_data else tE ;;
  try b <- set_tx_write_pointer s (wadd16 wp (as_u16 (len write_data))) else tE ;;
  try c <- command s CmSend else tE ;;
  try d <- wait_send_ok fuel s else tE ;;
  try e <- reset_interrupt s InSendOk else tE ;;
  Ret (Ok (len write_data)).

(** tcp.rs:144-178 *)
Definition tcp_socket_send (fuel : nat) (t : TcpSocket) (data : list byte) : prog (res N terr) :=
  try conn <- tcp_is_connected t else Err ;;
  if negb conn then Ret (Err TNotConnected) else
  try max_size <- get_tx_free_size (t_socket t) else tE ;;
  if len data <? max_size then tcp_send_data fuel t data
  else slice_to P_tcp_send_slice max_size data (fun front => tcp_send_data fuel t front).

(** tcp.rs:205-216: the part of socket_receive after the slice to fill is chosen
    ([n] bytes at the front of [data]); answers the new contents of [data] and the result *)
Definition tcp_receive_data (t : TcpSocket) (n : N) (data : list byte)
  : prog (list byte * res N terr) :=
  let s := t_socket t in
  let read_buffer := take n data in
  try rp <- get_rx_read_pointer s else (fun e => (data, tE e)) ;;
  do gr <- read_into (rx_buffer s) rp read_buffer ;;
  let data' := fst gr ++ drop n data in
  match snd gr with
  | Err e => Ret (data', tE e)
  | Ok _ =>
      try b <- set_rx_read_pointer s (wadd16 rp (as_u16 (len read_buffer)))
        else (fun e => (data', tE e)) ;;
      try c <- command s CmReceive else (fun e => (data', tE e)) ;;
      try d <- reset_interrupt s InReceive else (fun e => (data', tE e)) ;;
      Ret (data', Ok (len read_buffer))
  end.

(** tcp.rs:180-217 *)
Definition tcp_socket_receive (fuel : nat) (t : TcpSocket) (data : list byte)
  : prog (list byte * res N terr) :=
  try conn <- tcp_is_connected t else (fun e => (data, Err e)) ;;
  if negb conn then Ret (data, Err TNotConnected) else
  try has <- has_interrupt (t_socket t) InReceive else (fun e => (data, tE e)) ;;
  if negb has then Ret (data, Ok 0) else
  try rx_size <- get_receive_size fuel (t_socket t) else (fun e => (data, tE e)) ;;
  if len data <? rx_size then tcp_receive_data t (len data) data
  else if rx_size <=? len data then tcp_receive_data t rx_size data
  else Panic P_tcp_recv_slice.

(** The embedded-nal entry points below take the device's bus and the socket handle; the
    parts that also touch the device's socket pool ([socket], [close]) are in Device.v. *)

(** tcp.rs:231-244; nb::Error::Other is applied by [?] *)
Definition tcp_connect (fuel : nat) (t : TcpSocket) (remote : sockaddr)
  : prog (res unit (nberr terr)) :=
  match remote with
  | V6 => Ret (Err (NbOther TUnsupportedAddress))
  | V4 r =>
      try a <- tcp_open t (49849 + index (t_socket t)) else (fun e => Err (NbOther e)) ;;
      try b <- tcp_socket_connect fuel t r else (fun e => Err (NbOther e)) ;;
      Ret (Ok tt)
  end.

(** tcp.rs:246-253 *)
Definition tcp_send (fuel : nat) (t : TcpSocket) (buffer : list byte)
  : prog (res N (nberr terr)) :=
  try n <- tcp_socket_send fuel t buffer else (fun e => Err (NbOther e)) ;;
  Ret (Ok n).

(** tcp.rs:255-261 *)
Definition tcp_receive (fuel : nat) (t : TcpSocket) (buffer : list byte)
  : prog (list byte * res N (nberr terr)) :=
  do r <- tcp_socket_receive fuel t buffer ;;
  Ret (fst r, match snd r with Ok n => Ok n | Err e => Err (NbOther e) end).
