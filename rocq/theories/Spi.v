(** Models /repo/src/bus/four_wire.rs and /repo/src/bus/three_wire.rs: the two [Bus]
    implementations, as computations over embedded-hal's SPI traits. *)
From Verif Require Export Bus.

(** embedded_hal::spi::Operation, the two variants the driver uses *)
Inductive spi_op := OpWrite (l : list byte) | OpTransferInPlace (l : list byte).

(** Code that talks to the SPI peripheral: SpiDevice::transaction (one chip-select
    window), and SpiBus::write / SpiBus::transfer_in_place (no chip select). *)
Inductive sprog (A : Type) : Type :=
| SRet (a : A)
| SPanic (w : site)
| SSpin
| STransaction (ops : list spi_op) (k : list (list byte) * res unit berr -> sprog A)
    (* answers the contents of every operation's buffer afterwards *)
| SWrite (l : list byte) (k : res unit berr -> sprog A)
| STransfer (l : list byte) (k : list byte * res unit berr -> sprog A).
Arguments SRet {A} a.
Arguments SPanic {A} w.
Arguments SSpin {A}.
Arguments STransaction {A} ops k.
Arguments SWrite {A} l k.
Arguments STransfer {A} l k.

Fixpoint sbind {A B} (p : sprog A) (f : A -> sprog B) : sprog B :=
  match p with
  | SRet a => f a
  | SPanic w => SPanic w
  | SSpin => SSpin
  | STransaction o k => STransaction o (fun r => sbind (k r) f)
  | SWrite l k => SWrite l (fun r => sbind (k r) f)
  | STransfer l k => STransfer l (fun r => sbind (k r) f)
  end.

(** [block << 3] on a u8: the high bits fall off *)
Definition shl3 (block : N) : N := (block * 8) mod 256.

(** four_wire.rs:8 *)
Definition FW_WRITE_MODE_MASK : N := 4.

(** four_wire.rs:30-41 *)
Definition fw_read_frame (block address : N) (data : list byte)
  : sprog (list byte * res unit berr) :=
  let address_phase := to_be address in
  let control_phase := shl3 block in
  STransaction [OpWrite address_phase; OpWrite [u8 control_phase]; OpTransferInPlace data]
    (fun r => SRet (nth 2 (fst r) [], snd r)).

(** four_wire.rs:43-54 *)
Definition fw_write_frame (block address : N) (data : list byte) : sprog (res unit berr) :=
  let control_phase := N.lor (shl3 block) FW_WRITE_MODE_MASK in
  let address_phase := to_be address in
  STransaction [OpWrite address_phase; OpWrite [u8 control_phase]; OpWrite data]
    (fun r => SRet (snd r)).

(** three_wire.rs:8: the literal is [0b00000_1_0], i.e. 2 *)
Definition TW_WRITE_MODE_MASK : N := 2.
(** three_wire.rs:10-12 *)
Definition FIXED_DATA_LENGTH_MODE_1 : N := 1.
Definition FIXED_DATA_LENGTH_MODE_2 : N := 2.
Definition FIXED_DATA_LENGTH_MODE_4 : N := 3.

(** three_wire.rs:56-65, 86-95: the mask to or in and the chunk length *)
Definition tw_chunk (n : N) : N * N :=
  if 4 <=? n then (FIXED_DATA_LENGTH_MODE_4, 4)
  else if 2 <=? n then (FIXED_DATA_LENGTH_MODE_2, 2)
  else (FIXED_DATA_LENGTH_MODE_1, 1).

(** [address += n] on a u16; [None] is the overflow panic of a build with overflow checks *)
Definition add_u16 (checked : bool) (a n : N) : option N :=
  if a + n <? 65536 then Some (a + n)
  else if checked then None else Some ((a + n) mod 65536).

(** three_wire.rs:55-77.  The loop consumes at least one byte per iteration; [fuel] is the
    length of the data and never runs out ([tw_read_loop_no_spin]). *)
Fixpoint tw_read_loop (checked : bool) (fuel : nat) (control_phase address : N)
    (data_phase : list byte) : sprog (list byte * res unit berr) :=
  match data_phase with
  | [] => SRet ([], Ok tt)
  | _ =>
    match fuel with
    | O => SSpin
    | S fuel' =>
      let control_phase := N.lor control_phase (fst (tw_chunk (len data_phase))) in
      let n := snd (tw_chunk (len data_phase)) in
      SWrite (to_be address) (fun r =>
      match r with
      | Err e => SRet (data_phase, Err e)
      | Ok _ =>
        SWrite [u8 control_phase] (fun r =>
        match r with
        | Err e => SRet (data_phase, Err e)
        | Ok _ =>
          STransfer (take n data_phase) (fun gr =>
          match snd gr with
          | Err e => SRet (fst gr ++ drop n data_phase, Err e)
          | Ok _ =>
            match add_u16 checked address n with
            | None => SPanic P_add_overflow
            | Some address' =>
                sbind (tw_read_loop checked fuel' control_phase address' (drop n data_phase))
                  (fun rest => SRet (fst gr ++ fst rest, snd rest))
            end
          end)
        end)
      end)
    end
  end.

(** three_wire.rs:45-78 *)
Definition tw_read_frame (checked : bool) (block address : N) (data : list byte) :=
  tw_read_loop checked (length data) (shl3 block) address data.

(** three_wire.rs:85-105 *)
Fixpoint tw_write_loop (checked : bool) (fuel : nat) (control_phase address : N)
    (data_phase : list byte) : sprog (res unit berr) :=
  match data_phase with
  | [] => SRet (Ok tt)
  | _ =>
    match fuel with
    | O => SSpin
    | S fuel' =>
      let control_phase := N.lor control_phase (fst (tw_chunk (len data_phase))) in
      let n := snd (tw_chunk (len data_phase)) in
      SWrite (to_be address) (fun r =>
      match r with
      | Err e => SRet (Err e)
      | Ok _ =>
        SWrite [u8 control_phase] (fun r =>
        match r with
        | Err e => SRet (Err e)
        | Ok _ =>
          SWrite (take n data_phase) (fun r =>
          match r with
          | Err e => SRet (Err e)
          | Ok _ =>
            match add_u16 checked address n with
            | None => SPanic P_add_overflow
            | Some address' =>
                tw_write_loop checked fuel' control_phase address' (drop n data_phase)
            end
          end)
        end)
      end)
    end
  end.

(** three_wire.rs:80-107 *)
Definition tw_write_frame (checked : bool) (block address : N) (data : list byte) :=
  tw_write_loop checked (length data) (N.lor (shl3 block) TW_WRITE_MODE_MASK) address data.

(** A driver computation with the bus plugged in (the generic parameter [SpiBus: Bus]
    of Device, UninitializedDevice, RawDevice instantiated). *)
Section Plug.
  Variable rd : N -> N -> list byte -> sprog (list byte * res unit berr).
  Variable wr : N -> N -> list byte -> sprog (res unit berr).
  Fixpoint plug {A} (p : prog A) : sprog A :=
    match p with
    | Ret a => SRet a
    | Panic w => SPanic w
    | Spin => SSpin
    | BusRead b a d k => sbind (rd b a d) (fun r => plug (k r))
    | BusWrite b a d k => sbind (wr b a d) (fun r => plug (k r))
    end.
End Plug.

Definition over_four_wire {A} (p : prog A) : sprog A := plug fw_read_frame fw_write_frame p.
Definition over_three_wire {A} (checked : bool) (p : prog A) : sprog A :=
  plug (tw_read_frame checked) (tw_write_frame checked) p.
