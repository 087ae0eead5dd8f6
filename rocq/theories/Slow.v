(** A chip that takes its time over a command.

    The chip of Chip.v obeys a command the moment the code is written to Sn_CR (the driver
    never reads Sn_CR back: socket.rs:84-90 and every caller of it, theorem C94_never_read).
    The W5500 clears Sn_CR when it has taken the command, some time later (data sheet, 4.2
    "Sn_CR").  Here a command written waits until the surroundings say that its socket takes
    it; everything else is the chip of Chip.v. *)
From Verif Require Export Chip.
From Verif Require Import Datasheet.

(** [w_wait]: the commands written and not taken yet, oldest first (socket, code).
    The other two are notes for the theorems, which nothing reads.  [w_late]: a socket was
    touched, by the bus or by the network, while a command to it was still waiting.  [w_upset]:
    the same, but not counting what makes no difference if the command is a SEND (below) *)
Record slow := mkSlow { w_sys : sys; w_wait : list (N * byte); w_late : bool; w_upset : bool }.

(** the surroundings: those of Chip.v, and which sockets take what waits for them before the
    i-th byte on the bus *)
Record senv := mkSenv { at_once : env; takes : nat -> N -> bool }.

Definition waits_for (l : list (N * byte)) (n : N) : bool := existsb (fun p => fst p =? n) l.
Definition obey (c : chip) (p : N * byte) : chip :=
  set_sock c (fst p) (do_command (fst p) (socks c (fst p)) (b2n (snd p))).
(** what waits for the sockets of [f] is obeyed, in the order it was written; the rest waits on *)
Fixpoint obeying (f : N -> bool) (l : list (N * byte)) (c : chip) : chip * list (N * byte) :=
  match l with
  | [] => (c, [])
  | p :: l' =>
      if f (fst p) then obeying f l' (obey c p)
      else let (c', r) := obeying f l' c in (c', p :: r)
  end.

Definition ev_late (l : list (N * byte)) (e : nevent) : bool :=
  match ev_sock e with Some n => waits_for l n | None => false end.

(** What makes no difference while a SEND waits.  On the bus: everything but the command register
    and writing the TX write pointer, from which the SEND will know how far to send.  From the
    network: everything, unless an earlier SEND is still going out, a connection is being made, or
    the SENDOK of an earlier SEND comes. *)
Definition all_sends (l : list (N * byte)) : bool := forallb (fun p => b2n (snd p) =? CR_SEND) l.
Definition only_sends (l : list (N * byte)) (n : N) : bool :=
  forallb (fun p => negb (fst p =? n) || (b2n (snd p) =? CR_SEND)) l.
Definition calm (x : sock) : bool :=
  negb (tx_busy x) && negb (sr x =? SOCK_SYNSENT) && negb (sr x =? SOCK_LISTEN).
Definition ev_upset (c : chip) (l : list (N * byte)) (e : nevent) : bool :=
  match ev_sock e with
  | Some n => waits_for l n && negb (only_sends l n && calm (socks c n) &&
      match e with EvSendOk _ => negb (tx_okdue (socks c n)) | _ => true end)
  | None => false
  end.
Definition read_upset (l : list (N * byte)) (blk a : N) : bool :=
  negb (blk =? 0) && waits_for l (blk / 4) && negb (only_sends l (blk / 4) && negb ((blk mod 4 =? 1) && (a =? Sn_CR))).
Definition write_upset (l : list (N * byte)) (blk a : N) : bool :=
  negb (blk =? 0) && waits_for l (blk / 4) &&
  negb (only_sends l (blk / 4) && negb ((blk mod 4 =? 1) && ((a =? Sn_TX_WR) || (a =? Sn_TX_WR + 1)))).

Definition slow_tick (e : senv) (w : slow) : slow :=
  let t := s_tick (w_sys w) in
  let (c, l) := obeying (takes e t) (w_wait w) (s_chip (w_sys w)) in
  mkSlow (tick (at_once e) (mkSys c t (s_call (w_sys w)))) l
    (w_late w || existsb (ev_late l) (happens (at_once e) t))
    (w_upset w || existsb (ev_upset c l) (happens (at_once e) t)).

Definition is_reset (blk a : N) (v : byte) : bool :=
  (blk =? 0) && (a =? MR) && N.testbit (b2n v) 7.
(** a command is put in the queue, a reset empties it, all other bytes go where they go *)
Definition slow_wbyte (w : slow) (blk a : N) (v : byte) : slow :=
  let touched := negb (blk =? 0) && waits_for (w_wait w) (blk / 4) in
  if (blk mod 4 =? 1) && (a =? Sn_CR) then
    mkSlow (w_sys w) (w_wait w ++ [(blk / 4, v)]) (w_late w || touched) (w_upset w || touched)
  else if is_reset blk a v then
    mkSlow (on_chip (fun c => wbyte c blk a v) (w_sys w)) []
      (w_late w || negb (match w_wait w with [] => true | _ => false end)) (w_upset w || negb (all_sends (w_wait w)))
  else
    mkSlow (on_chip (fun c => wbyte c blk a v) (w_sys w)) (w_wait w) (w_late w || touched) (w_upset w || write_upset (w_wait w) blk a).
(** Sn_CR reads as the code that waits there *)
Fixpoint newest (l : list (N * byte)) (n : N) : byte :=
  match l with
  | [] => x00
  | p :: l' => if waits_for l' n then newest l' n else if fst p =? n then snd p else x00
  end.
Definition slow_rbyte (w : slow) (blk a : N) : byte :=
  if (blk mod 4 =? 1) && (a =? Sn_CR) then newest (w_wait w) (blk / 4)
  else rbyte (s_chip (w_sys w)) blk a.
Definition touch (w : slow) (blk a : N) : slow :=
  mkSlow (w_sys w) (w_wait w) (w_late w || (negb (blk =? 0) && waits_for (w_wait w) (blk / 4)))
    (w_upset w || read_upset (w_wait w) blk a).

(** bytes, bus calls and programs as in Chip.v *)
Fixpoint slow_read_bytes (e : senv) (blk a : N) (n : nat) (w : slow) : list byte * slow :=
  match n with
  | O => ([], w)
  | S n' =>
      let w1 := slow_tick e w in
      let b := slow_rbyte w1 blk a in
      let (l, w2) := slow_read_bytes e blk (next_addr a) n' (touch w1 blk a) in
      (b :: l, w2)
  end.
Fixpoint slow_write_bytes (e : senv) (blk a : N) (d : list byte) (w : slow) : slow :=
  match d with
  | [] => w
  | b :: d' => slow_write_bytes e blk (next_addr a) d' (slow_wbyte (slow_tick e w) blk a b)
  end.
Definition slow_end (w : slow) : slow := mkSlow (end_call (w_sys w)) (w_wait w) (w_late w) (w_upset w).
Definition slow_bus_read (e : senv) (blk a : N) (buf : list byte) (w : slow)
  : (list byte * res unit berr) * slow :=
  match fails (at_once e) (s_call (w_sys w)) with
  | None =>
      let (got, w') := slow_read_bytes e blk a (length buf) w in
      ((got, Ok tt), slow_end w')
  | Some (k, err) =>
      let (got, w') := slow_read_bytes e blk a (Nat.min k (length buf)) w in
      ((got ++ skipn k buf, Err err), slow_end w')
  end.
Definition slow_bus_write (e : senv) (blk a : N) (d : list byte) (w : slow) : res unit berr * slow :=
  match fails (at_once e) (s_call (w_sys w)) with
  | None => (Ok tt, slow_end (slow_write_bytes e blk a d w))
  | Some (k, err) => (Err err, slow_end (slow_write_bytes e blk a (firstn k d) w))
  end.
Fixpoint slow_run {A} (e : senv) (p : prog A) (w : slow) : outcome A * slow :=
  match p with
  | Ret a => (Done a, w)
  | Panic x => (Panicked x, w)
  | Spin => (Looping, w)
  | BusRead blk a buf k => let (r, w') := slow_bus_read e blk a buf w in slow_run e (k r) w'
  | BusWrite blk a d k => let (r, w') := slow_bus_write e blk a d w in slow_run e (k r) w'
  end.
(** a chip with nothing waiting *)
Definition rested (s : sys) : slow := mkSlow s [] false false.
