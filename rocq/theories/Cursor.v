(** Models /repo/src/cursor.rs.  A cursor borrows the socket and the bus; here the socket
    is passed along and the cursor keeps [ptr] and [size]. *)
From Verif Require Export Socket.

(** cursor.rs:5-13 and 74-82 *)
Record cursor := mkCursor { ptr : N; size : N }.

(** cursor.rs:19-28 *)
Definition rx_new (fuel : nat) (s : Socket) : prog (res cursor berr) :=
  try sz <- get_receive_size fuel s else Err ;;
  try p <- get_rx_read_pointer s else Err ;;
  Ret (Ok (mkCursor p sz)).

(** cursor.rs:31-33, 100-102 *)
Definition available (c : cursor) : N := size c.

(** cursor.rs:58-63: new cursor and the bounded count.  [size - bounded] cannot
    underflow since [bounded = min available count] *)
Definition rx_skip (c : cursor) (count : N) : cursor * N :=
  let bounded := N.min (available c) count in
  (mkCursor (wadd16 (ptr c) bounded) (size c - bounded), bounded).

(** cursor.rs:36-45: new buffer contents, and new cursor with the number of bytes read.
    [buf.len() as u16] truncates. *)
Definition rx_read (s : Socket) (c : cursor) (buf : list byte)
  : prog (list byte * res (cursor * N) berr) :=
  match buf with
  | [] => Ret (buf, Ok (c, 0))
  | _ =>
      let count := N.min (available c) (as_u16 (len buf)) in
      slice_to P_cursor_slice count buf (fun front =>
      do gr <- read_into (rx_buffer s) (ptr c) front ;;
      let buf' := fst gr ++ drop count buf in
      match snd gr with
      | Err e => Ret (buf', Err e)
      | Ok _ => Ret (buf', Ok (rx_skip c count))
      end)
  end.

(** cursor.rs:48-56 *)
Definition rx_read_upto (s : Socket) (c : cursor) (buf : list byte) (max : N)
  : prog (list byte * res (cursor * N) berr) :=
  if max <? len buf then
    slice_to P_cursor_slice max buf (fun front =>
    do r <- rx_read s c front ;;
    Ret (fst r ++ drop max buf, snd r))
  else rx_read s c buf.

(** cursor.rs:67-71 *)
Definition rx_commit (s : Socket) (c : cursor) : prog (res unit berr) :=
  try u <- set_rx_read_pointer s (ptr c) else Err ;;
  try v <- command s CmReceive else Err ;;
  Ret (Ok tt).

(** cursor.rs:88-97 *)
Definition tx_new (s : Socket) : prog (res cursor berr) :=
  try sz <- get_tx_free_size s else Err ;;
  try p <- get_tx_write_pointer s else Err ;;
  Ret (Ok (mkCursor p sz)).

(** cursor.rs:106-117 *)
Definition tx_write (s : Socket) (c : cursor) (buf : list byte)
  : prog (res (cursor * N) berr) :=
  if (len buf =? 0) || (available c <? len buf) then Ret (Ok (c, 0))
  else
    let count := as_u16 (len buf) in
    slice_to P_cursor_slice count buf (fun front =>
    try u <- write_frame (tx_buffer s) (ptr c) front else Err ;;
    if size c <? count then Panic P_cursor_sub
    else Ret (Ok (mkCursor (wadd16 (ptr c) count) (size c - count), count))).

(** cursor.rs:121-125 *)
Definition tx_commit (s : Socket) (c : cursor) : prog (res unit berr) :=
  try u <- set_tx_write_pointer s (ptr c) else Err ;;
  try v <- command s CmSend else Err ;;
  Ret (Ok tt).
