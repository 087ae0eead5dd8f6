(** The SPI side of the W5500 (datasheet section 2): how a stream of bytes on MOSI is
    understood.  Environment, not code in /repo.

    A frame is: address high, address low, control byte (5 bits block select, 1 bit
    read(0)/write(1), 2 bits operation mode), then data.  In variable length mode (OM = 00)
    the data phase lasts until chip select is released; in the fixed length modes
    (OM = 01, 10, 11) it is 1, 2 or 4 bytes, after which the next frame starts. *)
From Verif Require Export Chip Spi.

Inductive spi_state :=
| WaitHi | WaitLo (h : byte) | WaitCtl (a : N)
| Data (blk : N) (write : bool) (a : N) (more : option N).  (* None: until CS is released *)

Definition ctl_block (c : byte) : N := b2n c / 8.
Definition ctl_write (c : byte) : bool := N.testbit (b2n c) 2.
Definition ctl_length (c : byte) : option N :=
  match N.land (b2n c) 3 with 0 => None | 1 => Some 1 | 2 => Some 2 | _ => Some 4 end.

Definition after_byte (more : option N) (st : option N -> spi_state) : spi_state :=
  match more with
  | None => st None
  | Some l => if l <=? 1 then WaitHi else st (Some (l - 1))
  end.

(** one byte exchanged; the answer is what the chip drives on MISO (0 when it drives
    nothing meaningful -- the driver discards those bytes) *)
Definition spi_byte (e : env) (m : byte) (x : spi_state * sys) : byte * (spi_state * sys) :=
  let (st, s) := x in
  match st with
  | WaitHi => (x00, (WaitLo m, s))
  | WaitLo h => (x00, (WaitCtl (b2n h * 256 + b2n m), s))
  | WaitCtl a => (x00, (Data (ctl_block m) (ctl_write m) a (ctl_length m), s))
  | Data blk w a more =>
      let s1 := tick e s in
      let s2 := if w then on_chip (fun c => wbyte c blk a m) s1 else s1 in
      (if w then x00 else rbyte (s_chip s1) blk a,
       (after_byte more (Data blk w (next_addr a)), s2))
  end.
Fixpoint spi_bytes (e : env) (mosi : list byte) (x : spi_state * sys)
  : list byte * (spi_state * sys) :=
  match mosi with
  | [] => ([], x)
  | m :: mosi' =>
      let (b, x1) := spi_byte e m x in
      let (l, x2) := spi_bytes e mosi' x1 in (b :: l, x2)
  end.

Definition op_bytes (o : spi_op) : list byte :=
  match o with OpWrite l => l | OpTransferInPlace l => l end.
(** the operation's buffer after [miso] came back for it, when only [length miso] bytes of
    it were transferred *)
Definition op_after (o : spi_op) (miso : list byte) : list byte :=
  match o with
  | OpWrite l => l
  | OpTransferInPlace l => miso ++ skipn (length miso) l
  end.
(** perform the operations, at most [budget] bytes in all ([None]: no limit) *)
Fixpoint spi_ops (e : env) (budget : option nat) (ops : list spi_op) (x : spi_state * sys)
  : list (list byte) * (spi_state * sys) :=
  match ops with
  | [] => ([], x)
  | o :: ops' =>
      let d := match budget with None => op_bytes o | Some b => firstn b (op_bytes o) end in
      let (miso, x1) := spi_bytes e d x in
      let budget' := match budget with None => None | Some b => Some (b - length (op_bytes o))%nat end in
      let (l, x2) := spi_ops e budget' ops' x1 in
      (op_after o miso :: l, x2)
  end.

(** SPI code against the chip.  A transaction asserts chip select first and releases it
    afterwards, which restarts the frame decoder.  SpiBus calls leave chip select alone. *)
Fixpoint spi_run {A} (e : env) (p : sprog A) (x : spi_state * sys)
  : outcome A * (spi_state * sys) :=
  match p with
  | SRet a => (Done a, x)
  | SPanic w => (Panicked w, x)
  | SSpin => (Looping, x)
  | STransaction ops k =>
      let s := snd x in
      match fails e (s_call s) with
      | None =>
          let (bufs, x1) := spi_ops e None ops (WaitHi, s) in
          spi_run e (k (bufs, Ok tt)) (WaitHi, end_call (snd x1))
      | Some (b, err) =>
          let (bufs, x1) := spi_ops e (Some b) ops (WaitHi, s) in
          spi_run e (k (bufs, Err err)) (WaitHi, end_call (snd x1))
      end
  | SWrite l k =>
      match fails e (s_call (snd x)) with
      | None =>
          let (_, x1) := spi_bytes e l x in
          spi_run e (k (Ok tt)) (fst x1, end_call (snd x1))
      | Some (b, err) =>
          let (_, x1) := spi_bytes e (firstn b l) x in
          spi_run e (k (Err err)) (fst x1, end_call (snd x1))
      end
  | STransfer l k =>
      match fails e (s_call (snd x)) with
      | None =>
          let (miso, x1) := spi_bytes e l x in
          spi_run e (k (miso, Ok tt)) (fst x1, end_call (snd x1))
      | Some (b, err) =>
          let (miso, x1) := spi_bytes e (firstn b l) x in
          spi_run e (k (miso ++ skipn b l, Err err)) (fst x1, end_call (snd x1))
      end
  end.
