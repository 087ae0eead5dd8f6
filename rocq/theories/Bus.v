(** Driver code as data: a computation that talks to the chip through the [Bus] trait.
    Models /repo/src/bus/mod.rs:10-16 (the trait) and Rust's [Result], [?], panics
    and busy-wait loops.

    A driver function is a tree ([prog]): every node is one call of
    [Bus::read_frame] / [Bus::write_frame], its children are indexed by what that call
    answered.  How the bus answers is not fixed here: [Exec.v] lets it answer anything,
    [Chip.v] lets a model of the W5500 answer. *)
From Verif Require Export Bytes.

(** [core::result::Result] *)
Inductive res (A E : Type) : Type := Ok (a : A) | Err (e : E).
Arguments Ok {A E} a.
Arguments Err {A E} e.

(** [Bus::Error].  The driver is generic in it and never looks inside, so one
    arbitrary infinite type stands for all. *)
Definition berr := N.

(** The places where the modelled Rust code can panic. *)
Inductive site : Type :=
| P_tcp_send_slice      (* tcp.rs:158  &data[..max_size] *)
| P_tcp_recv_slice      (* tcp.rs:202  &mut data[..rx_size] *)
| P_udp_send_slice      (* udp.rs:173,178,232 slices of the send buffer *)
| P_udp_recv_slice      (* udp.rs:376  &mut receive_buffer[..read_length] *)
| P_raw_assert          (* raw_device.rs:103 assert! *)
| P_cursor_slice        (* cursor.rs:43,50,113 slices *)
| P_cursor_sub          (* cursor.rs:61,115 u16 subtraction *)
| P_set_bit             (* device.rs:68 bit index out of range in bit_field *)
| P_phy_unreachable     (* register.rs:186 unreachable!() *)
| P_add_overflow.       (* three_wire.rs:74,103 / register.rs:75 arithmetic overflow *)

Inductive prog (A : Type) : Type :=
| Ret (a : A)
| Panic (w : site)
| Spin                       (* a busy-wait loop used up its fuel: it is still looping *)
| BusRead (blk addr : N) (buf : list byte) (k : list byte * res unit berr -> prog A)
    (* read_frame(blk, addr, &mut buf): answers the buffer's new contents and Ok/Err *)
| BusWrite (blk addr : N) (data : list byte) (k : res unit berr -> prog A).
    (* write_frame(blk, addr, &data) *)
Arguments Ret {A} a.
Arguments Panic {A} w.
Arguments Spin {A}.
Arguments BusRead {A} blk addr buf k.
Arguments BusWrite {A} blk addr data k.

(** sequencing *)
Fixpoint bind {A B} (p : prog A) (f : A -> prog B) : prog B :=
  match p with
  | Ret a => f a
  | Panic w => Panic w
  | Spin => Spin
  | BusRead b a d k => BusRead b a d (fun r => bind (k r) f)
  | BusWrite b a d k => BusWrite b a d (fun r => bind (k r) f)
  end.

(** the [?] operator: on [Err e] leave the function with [onerr e] *)
Definition try_ {A E R} (p : prog (res A E)) (onerr : E -> R) (k : A -> prog R) : prog R :=
  bind p (fun r => match r with Ok a => k a | Err e => Ret (onerr e) end).

Notation "'do' x <- p ;; k" := (bind p (fun x => k))
  (at level 200, x name, p at level 100, k at level 200, right associativity).
Notation "'try' x <- p 'else' h ;; k" := (try_ p h (fun x => k))
  (at level 200, x name, p at level 100, h at level 100, k at level 200, right associativity).

(** a bounds-checked slice [&l[..n]]; panics at [w] when [n > l.len()] *)
Definition slice_to {R} (w : site) (n : N) (l : list byte) (k : list byte -> prog R) : prog R :=
  if n <=? len l then k (take n l) else Panic w.
(** [&l[n..]] *)
Definition slice_from {R} (w : site) (n : N) (l : list byte) (k : list byte -> prog R) : prog R :=
  if n <=? len l then k (drop n l) else Panic w.

(** Bus::write_frame as a function returning its [Result]; bus/mod.rs:15 *)
Definition write_frame (blk addr : N) (data : list byte) : prog (res unit berr) :=
  BusWrite blk addr data Ret.

(** Bus::read_frame into an existing buffer: new buffer contents and [Result]; bus/mod.rs:13 *)
Definition read_into (blk addr : N) (buf : list byte) : prog (list byte * res unit berr) :=
  BusRead blk addr buf Ret.

(** [let mut d = [0u8; n]; bus.read_frame(blk, addr, &mut d)?; d] -- the idiom used for
    every register read *)
Definition read_reg (blk addr : N) (n : nat) : prog (res (list byte) berr) :=
  BusRead blk addr (zeros n)
    (fun gr => Ret match snd gr with Ok _ => Ok (fst gr) | Err e => Err e end).
