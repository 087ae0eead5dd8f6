(** A model of the W5500 as seen through register reads and writes, with the network on the
    other side.  This is the driver's environment, not code in /repo: it is written from the
    datasheet (the passages quoted in /repo/src/register.rs:37-55, 245-275, 277-308, 312-326,
    374-442 and socket.rs:185-187) and is part of the trusted base; see DESIGN.md.

    Everything the network or the chip does on its own is a [nevent].  Any list of events may
    happen before any single byte that crosses the bus, so a multi-byte register can change
    between the bytes of one read.  An event that does not apply in the current state does
    nothing.  Any bus call can be made to fail after any number of its bytes. *)
From Verif Require Export Exec.
From Verif Require Import Datasheet.

(** a datagram, a TCP segment's payload or (MACRAW) a frame that left the chip *)
Record packet := mkPacket
  { p_sport : N; p_ip : list byte; p_dport : N; p_data : list byte }.

Record sock := mkSock {
  regs : N -> byte;  (* host-written registers (everything not listed below), by address *)
  sr : N;  (* Sn_SR *)
  ir : N;  (* Sn_IR *)
  tx_rd : N;  (* Sn_TX_RD *)
  tx_ack : N;  (* everything before this is acknowledged: free space *)
  tx_end : N;  (* Sn_TX_WR as latched by the last SEND *)
  tx_busy : bool;  (* a SEND is in progress *)
  tx_okdue : bool;  (* SEND finished, SENDOK not raised yet *)
  rx_wr : N;  (* Sn_RX_WR *)
  rx_base : N;  (* Sn_RX_RD as committed by the last RECV *)
  txm : N -> byte;  (* TX memory, by physical offset *)
  rxm : N -> byte;  (* RX memory, by physical offset *)
  seed_tx : N;  (* pointer value OPEN/CONNECT initialises to *)
  seed_rx : N;
  sent : list packet;  (* everything put on the wire so far (history) *)
  rxlog : list byte;  (* everything put into the RX buffer since OPEN/CONNECT (history) *)
  dialled : list (N * list byte * N)  (* CONNECTs issued: local port, remote ip, remote port (history) *)
}.

(** field updates *)
Definition set_regs (s : sock) (v : N -> byte) : sock := mkSock v (sr s) (ir s) (tx_rd s) (tx_ack s) (tx_end s) (tx_busy s) (tx_okdue s) (rx_wr s) (rx_base s) (txm s) (rxm s) (seed_tx s) (seed_rx s) (sent s) (rxlog s) (dialled s).
Definition set_sr (s : sock) (v : N) : sock := mkSock (regs s) v (ir s) (tx_rd s) (tx_ack s) (tx_end s) (tx_busy s) (tx_okdue s) (rx_wr s) (rx_base s) (txm s) (rxm s) (seed_tx s) (seed_rx s) (sent s) (rxlog s) (dialled s).
Definition set_ir (s : sock) (v : N) : sock := mkSock (regs s) (sr s) v (tx_rd s) (tx_ack s) (tx_end s) (tx_busy s) (tx_okdue s) (rx_wr s) (rx_base s) (txm s) (rxm s) (seed_tx s) (seed_rx s) (sent s) (rxlog s) (dialled s).
Definition set_tx_rd (s : sock) (v : N) : sock := mkSock (regs s) (sr s) (ir s) v (tx_ack s) (tx_end s) (tx_busy s) (tx_okdue s) (rx_wr s) (rx_base s) (txm s) (rxm s) (seed_tx s) (seed_rx s) (sent s) (rxlog s) (dialled s).
Definition set_tx_ack (s : sock) (v : N) : sock := mkSock (regs s) (sr s) (ir s) (tx_rd s) v (tx_end s) (tx_busy s) (tx_okdue s) (rx_wr s) (rx_base s) (txm s) (rxm s) (seed_tx s) (seed_rx s) (sent s) (rxlog s) (dialled s).
Definition set_tx_end (s : sock) (v : N) : sock := mkSock (regs s) (sr s) (ir s) (tx_rd s) (tx_ack s) v (tx_busy s) (tx_okdue s) (rx_wr s) (rx_base s) (txm s) (rxm s) (seed_tx s) (seed_rx s) (sent s) (rxlog s) (dialled s).
Definition set_tx_busy (s : sock) (v : bool) : sock := mkSock (regs s) (sr s) (ir s) (tx_rd s) (tx_ack s) (tx_end s) v (tx_okdue s) (rx_wr s) (rx_base s) (txm s) (rxm s) (seed_tx s) (seed_rx s) (sent s) (rxlog s) (dialled s).
Definition set_tx_okdue (s : sock) (v : bool) : sock := mkSock (regs s) (sr s) (ir s) (tx_rd s) (tx_ack s) (tx_end s) (tx_busy s) v (rx_wr s) (rx_base s) (txm s) (rxm s) (seed_tx s) (seed_rx s) (sent s) (rxlog s) (dialled s).
Definition set_rx_wr (s : sock) (v : N) : sock := mkSock (regs s) (sr s) (ir s) (tx_rd s) (tx_ack s) (tx_end s) (tx_busy s) (tx_okdue s) v (rx_base s) (txm s) (rxm s) (seed_tx s) (seed_rx s) (sent s) (rxlog s) (dialled s).
Definition set_rx_base (s : sock) (v : N) : sock := mkSock (regs s) (sr s) (ir s) (tx_rd s) (tx_ack s) (tx_end s) (tx_busy s) (tx_okdue s) (rx_wr s) v (txm s) (rxm s) (seed_tx s) (seed_rx s) (sent s) (rxlog s) (dialled s).
Definition set_txm (s : sock) (v : N -> byte) : sock := mkSock (regs s) (sr s) (ir s) (tx_rd s) (tx_ack s) (tx_end s) (tx_busy s) (tx_okdue s) (rx_wr s) (rx_base s) v (rxm s) (seed_tx s) (seed_rx s) (sent s) (rxlog s) (dialled s).
Definition set_rxm (s : sock) (v : N -> byte) : sock := mkSock (regs s) (sr s) (ir s) (tx_rd s) (tx_ack s) (tx_end s) (tx_busy s) (tx_okdue s) (rx_wr s) (rx_base s) (txm s) v (seed_tx s) (seed_rx s) (sent s) (rxlog s) (dialled s).
Definition set_seed_tx (s : sock) (v : N) : sock := mkSock (regs s) (sr s) (ir s) (tx_rd s) (tx_ack s) (tx_end s) (tx_busy s) (tx_okdue s) (rx_wr s) (rx_base s) (txm s) (rxm s) v (seed_rx s) (sent s) (rxlog s) (dialled s).
Definition set_seed_rx (s : sock) (v : N) : sock := mkSock (regs s) (sr s) (ir s) (tx_rd s) (tx_ack s) (tx_end s) (tx_busy s) (tx_okdue s) (rx_wr s) (rx_base s) (txm s) (rxm s) (seed_tx s) v (sent s) (rxlog s) (dialled s).
Definition set_sent (s : sock) (v : list packet) : sock := mkSock (regs s) (sr s) (ir s) (tx_rd s) (tx_ack s) (tx_end s) (tx_busy s) (tx_okdue s) (rx_wr s) (rx_base s) (txm s) (rxm s) (seed_tx s) (seed_rx s) v (rxlog s) (dialled s).
Definition set_rxlog (s : sock) (v : list byte) : sock := mkSock (regs s) (sr s) (ir s) (tx_rd s) (tx_ack s) (tx_end s) (tx_busy s) (tx_okdue s) (rx_wr s) (rx_base s) (txm s) (rxm s) (seed_tx s) (seed_rx s) (sent s) v (dialled s).
Definition set_dialled (s : sock) (v : list (N * list byte * N)) : sock := mkSock (regs s) (sr s) (ir s) (tx_rd s) (tx_ack s) (tx_end s) (tx_busy s) (tx_okdue s) (rx_wr s) (rx_base s) (txm s) (rxm s) (seed_tx s) (seed_rx s) (sent s) (rxlog s) v.

(** functional update of a byte memory *)
Definition upd (m : N -> byte) (a : N) (v : byte) : N -> byte :=
  fun x => if x =? a then v else m x.

(** a 16-bit register held as two bytes, high byte first *)
Definition get16 (m : N -> byte) (a : N) : N := b2n (m a) * 256 + b2n (m (a + 1)).
Definition put16 (m : N -> byte) (a v : N) : N -> byte :=
  upd (upd m a (u8 (v / 256))) (a + 1) (u8 v).
Definition hi (n : N) : byte := u8 (n / 256).
Definition lo (n : N) : byte := u8 n.

Definition tx_wr (s : sock) : N := get16 (regs s) Sn_TX_WR.
Definition rx_rd (s : sock) : N := get16 (regs s) Sn_RX_RD.
(** Sn_TXBUF_SIZE / Sn_RXBUF_SIZE are in KiB *)
Definition tx_size (s : sock) : N := b2n (regs s Sn_TXBUF_SIZE) * 1024.
Definition rx_size (s : sock) : N := b2n (regs s Sn_RXBUF_SIZE) * 1024.
(** 16-bit pointer difference *)
Definition sub16 (a b : N) : N := (a + 65536 - b) mod 65536.
(** Sn_TX_FSR: buffer size minus what is not yet acknowledged *)
Definition tx_fsr (s : sock) : N := tx_size s - sub16 (tx_wr s) (tx_ack s).
(** Sn_RX_RSR: received and not yet given back by RECV *)
Definition rx_rsr (s : sock) : N := sub16 (rx_wr s) (rx_base s).

(** ring memory: offsets are taken modulo the buffer size *)
Fixpoint ring_read (m : N -> byte) (size at_ : N) (n : nat) : list byte :=
  match n with
  | O => []
  | S n' => m (at_ mod size) :: ring_read m size (at_ + 1) n'
  end.
Fixpoint ring_write (m : N -> byte) (size at_ : N) (l : list byte) : N -> byte :=
  match l with
  | [] => m
  | b :: l' => ring_write (upd m (at_ mod size) b) size (at_ + 1) l'
  end.

(** OPEN and CONNECT (re)initialise the buffer pointers *)
Definition init_pointers (s : sock) : sock :=
  let t := seed_tx s mod 65536 in
  let r := seed_rx s mod 65536 in
  let s := set_regs s (put16 (put16 (regs s) Sn_TX_WR t) Sn_RX_RD r) in
  let s := set_tx_rd (set_tx_ack (set_tx_end s t) t) t in
  let s := set_rx_wr (set_rx_base s r) r in
  set_rxlog (set_tx_busy (set_tx_okdue s false) false) [].

Definition is_sending_state (x : N) : bool :=
  (x =? SOCK_ESTABLISHED) || (x =? SOCK_CLOSE_WAIT) || (x =? SOCK_UDP) || (x =? SOCK_MACRAW).

(** a byte written to Sn_CR; [n] is the socket number *)
Definition do_command (n : N) (s : sock) (c : N) : sock :=
  if c =? CR_OPEN then
    if sr s =? SOCK_CLOSED then
      let p := N.land (b2n (regs s Sn_MR)) 15 in
      if p =? MR_TCP then set_sr (init_pointers s) SOCK_INIT
      else if p =? MR_UDP then set_sr (init_pointers s) SOCK_UDP
      else if (p =? MR_MACRAW) && (n =? 0) then set_sr (init_pointers s) SOCK_MACRAW
      else s
    else s
  else if c =? CR_LISTEN then
    if sr s =? SOCK_INIT then set_sr s SOCK_LISTEN else s
  else if c =? CR_CONNECT then
    if sr s =? SOCK_INIT then
      let s' := set_sr (init_pointers s) SOCK_SYNSENT in
      set_dialled s' (dialled s ++
        [(get16 (regs s) Sn_PORT,
          [regs s Sn_DIPR; regs s (Sn_DIPR + 1); regs s (Sn_DIPR + 2); regs s (Sn_DIPR + 3)],
          get16 (regs s) Sn_DPORT)])
    else s
  else if c =? CR_DISCON then
    if sr s =? SOCK_ESTABLISHED then set_sr s SOCK_FIN_WAIT
    else if sr s =? SOCK_CLOSE_WAIT then set_sr s SOCK_LAST_ACK else s
  else if c =? CR_CLOSE then set_tx_okdue (set_tx_busy (set_sr s SOCK_CLOSED) false) false
  else if c =? CR_SEND then
    if is_sending_state (sr s) then
      set_tx_okdue (set_tx_busy (set_tx_end s (tx_wr s)) true) false
    else s
  else if c =? CR_RECV then set_rx_base s (rx_rd s)
  else s.

(** socket register block: one byte read / written *)
Definition sock_rd (s : sock) (a : N) : byte :=
  if a =? Sn_CR then x00
  else if a =? Sn_IR then u8 (ir s)
  else if a =? Sn_SR then u8 (sr s)
  else if a =? Sn_TX_FSR then hi (tx_fsr s)
  else if a =? Sn_TX_FSR + 1 then lo (tx_fsr s)
  else if a =? Sn_TX_RD then hi (tx_rd s)
  else if a =? Sn_TX_RD + 1 then lo (tx_rd s)
  else if a =? Sn_RX_RSR then hi (rx_rsr s)
  else if a =? Sn_RX_RSR + 1 then lo (rx_rsr s)
  else if a =? Sn_RX_WR then hi (rx_wr s)
  else if a =? Sn_RX_WR + 1 then lo (rx_wr s)
  else regs s a.
Definition read_only (a : N) : bool :=
  (a =? Sn_SR) || (a =? Sn_TX_FSR) || (a =? Sn_TX_FSR + 1) || (a =? Sn_TX_RD)
  || (a =? Sn_TX_RD + 1) || (a =? Sn_RX_RSR) || (a =? Sn_RX_RSR + 1) || (a =? Sn_RX_WR)
  || (a =? Sn_RX_WR + 1).
Definition sock_wr (n : N) (s : sock) (a : N) (v : byte) : sock :=
  if a =? Sn_CR then do_command n s (b2n v)
  else if a =? Sn_IR then set_ir s (N.ldiff (ir s) (b2n v))
  else if read_only a then s
  else set_regs s (upd (regs s) a v).

Record chip := mkChip { com : N -> byte; socks : N -> sock }.
Definition set_com (c : chip) (m : N -> byte) : chip := mkChip m (socks c).
Definition set_sock (c : chip) (n : N) (s : sock) : chip :=
  mkChip (com c) (fun i => if i =? n then s else socks c i).

(** register values after reset: RTR = 2000, RCR = 8, PHYCFGR = 0xB8, VERSIONR = 4 *)
Definition com_reset (a : N) : byte :=
  if a =? RTR then x07 else if a =? RTR + 1 then xd0 else if a =? RCR then x08
  else if a =? PHYCFGR then xb8 else if a =? VERSIONR then x04 else x00.
Definition regs_reset (a : N) : byte :=
  if (a =? Sn_RXBUF_SIZE) || (a =? Sn_TXBUF_SIZE) then x02
  else if (6 <=? a) && (a <=? 11) then xff
  else if a =? 0x16 then x80 else if a =? Sn_IMR then xff else if a =? 0x2D then x40
  else x00.
Definition sock_reset (s : sock) : sock :=
  mkSock regs_reset SOCK_CLOSED 0 0 0 0 false false 0 0 (txm s) (rxm s) (seed_tx s) (seed_rx s)
    (sent s) [] (dialled s).
(** a hardware reset restores the PHY, so the link bits read back as the reset value *)
Definition chip_reset (c : chip) : chip :=
  mkChip com_reset (fun n => sock_reset (socks c n)).

(** one byte at (block, address) read / written over the bus.  Blocks 4n+1, 4n+2, 4n+3 are
    socket n's registers, TX and RX memory; 4, 8, ... are reserved. *)
Definition rbyte (c : chip) (blk a : N) : byte :=
  if blk =? 0 then com c a
  else let s := socks c (blk / 4) in
    match blk mod 4 with
    | 1 => sock_rd s a
    | 2 => if tx_size s =? 0 then x00 else txm s (a mod tx_size s)
    | 3 => if rx_size s =? 0 then x00 else rxm s (a mod rx_size s)
    | _ => x00
    end.
Definition wbyte (c : chip) (blk a : N) (v : byte) : chip :=
  if blk =? 0 then
    if a =? MR then
      if N.testbit (b2n v) 7 then chip_reset c else set_com c (upd (com c) MR v)
    else if a =? VERSIONR then c
    else set_com c (upd (com c) a v)
  else
    let n := blk / 4 in let s := socks c n in
    match blk mod 4 with
    | 1 => set_sock c n (sock_wr n s a v)
    | 2 => if tx_size s =? 0 then c
           else set_sock c n (set_txm s (upd (txm s) (a mod tx_size s) v))
    | 3 => if rx_size s =? 0 then c
           else set_sock c n (set_rxm s (upd (rxm s) (a mod rx_size s) v))
    | _ => c
    end.

(** what the chip and the network do on their own; [n] is the socket number *)
Inductive nevent : Type :=
| EvEstablished (n : N)                     (* SYN/ACK arrived, or a peer connected *)
| EvConnectFailed (n : N)                   (* ARP or SYN timeout, or RST *)
| EvPeerFin (n : N)                         (* peer closed its sending side *)
| EvDropped (n : N) (timeout : bool)        (* RST or retransmission timeout; or closing done *)
| EvTcpData (n : N) (d : list byte)         (* in-order TCP payload arrived *)
| EvDatagram (n : N) (ip : list byte) (port : N) (d : list byte)
| EvFrame (d : list byte)                   (* an Ethernet frame for the MACRAW socket *)
| EvTransmit (n : N) (k : N)                (* some (TCP) or all of the SEND goes out *)
| EvSendOk (n : N)                          (* the SENDOK interrupt is raised *)
| EvSendTimeout (n : N) (advance : bool)    (* SEND given up; TX_RD may or may not move *)
| EvAck (n : N) (k : N)                     (* peer acknowledged k more bytes *)
| EvLink (v : byte).                        (* PHY status bits changed *)

(** append to the RX buffer if it fits, else the data is dropped *)
Definition rx_append (s : sock) (chunk : list byte) : sock :=
  if len chunk <=? rx_size s - rx_rsr s then
    let s' := set_rxm s (ring_write (rxm s) (rx_size s) (rx_wr s) chunk) in
    let s' := set_rx_wr s' ((rx_wr s + len chunk) mod 65536) in
    set_rxlog (set_ir s' (N.lor (ir s) IR_RECV)) (rxlog s ++ chunk)
  else s.

(** how the chip presents a UDP datagram in the RX buffer (udp.rs:22-26): peer address,
    peer port, length, data *)
Definition udp_record (ip : list byte) (port : N) (d : list byte) : list byte :=
  ip ++ [hi port; lo port] ++ [hi (len d); lo (len d)] ++ d.
(** how the chip presents an Ethernet frame (raw_device.rs:99-100): total length
    including these two bytes, then the frame *)
Definition raw_record (d : list byte) : list byte :=
  [hi (len d + 2); lo (len d + 2)] ++ d.

(** [k] bytes leave the TX buffer.  UDP and MACRAW send the whole SEND as one packet. *)
Definition transmit (s : sock) (k : N) : sock :=
  if tx_busy s then
    let rest := sub16 (tx_end s) (tx_rd s) in
    let whole := (sr s =? SOCK_UDP) || (sr s =? SOCK_MACRAW) in
    let k := if whole then rest else N.min k rest in
    let s' := if k =? 0 then s else
      set_sent s (sent s ++
        [mkPacket (get16 (regs s) Sn_PORT)
           [regs s Sn_DIPR; regs s (Sn_DIPR + 1); regs s (Sn_DIPR + 2); regs s (Sn_DIPR + 3)]
           (get16 (regs s) Sn_DPORT)
           (ring_read (txm s) (tx_size s) (tx_rd s) (N.to_nat k))]) in
    let s' := set_tx_rd s' ((tx_rd s + k) mod 65536) in
    let s' := if whole then set_tx_ack s' ((tx_rd s + k) mod 65536) else s' in
    if k =? rest then set_tx_okdue (set_tx_busy s' false) true else s'
  else s.

Definition sock_step (s : sock) (e : nevent) : sock :=
  match e with
  | EvEstablished _ =>
      if (sr s =? SOCK_SYNSENT) || (sr s =? SOCK_LISTEN)
      then set_ir (set_sr s SOCK_ESTABLISHED) (N.lor (ir s) IR_CON) else s
  | EvConnectFailed _ =>
      if sr s =? SOCK_SYNSENT
      then set_ir (set_sr s SOCK_CLOSED) (N.lor (ir s) IR_TIMEOUT) else s
  | EvPeerFin _ =>
      if sr s =? SOCK_ESTABLISHED
      then set_ir (set_sr s SOCK_CLOSE_WAIT) (N.lor (ir s) IR_DISCON) else s
  | EvDropped _ timeout =>
      if (sr s =? SOCK_ESTABLISHED) || (sr s =? SOCK_CLOSE_WAIT)
         || (sr s =? SOCK_FIN_WAIT) || (sr s =? SOCK_LAST_ACK)
      then set_tx_okdue (set_tx_busy (set_ir (set_sr s SOCK_CLOSED)
             (N.lor (ir s) (if timeout then IR_TIMEOUT else IR_DISCON))) false) false
      else s
  | EvTcpData _ d => if sr s =? SOCK_ESTABLISHED then rx_append s d else s
  | EvDatagram _ ip port d =>
      if (sr s =? SOCK_UDP) && (len ip =? 4) && (port <? 65536) && (len d <? 65536)
      then rx_append s (udp_record ip port d) else s
  | EvFrame d =>
      if (sr s =? SOCK_MACRAW) && (len d <? 65534) then rx_append s (raw_record d) else s
  | EvTransmit _ k => transmit s k
  | EvSendOk _ =>
      if tx_okdue s then set_tx_okdue (set_ir s (N.lor (ir s) IR_SENDOK)) false else s
  | EvSendTimeout _ advance =>
      if tx_busy s then
        let s' := set_tx_busy (set_ir s (N.lor (ir s) IR_TIMEOUT)) false in
        let s' := if advance then set_tx_ack (set_tx_rd s' (tx_end s)) (tx_end s) else s' in
        if (sr s =? SOCK_UDP) || (sr s =? SOCK_MACRAW) then s' else set_sr s' SOCK_CLOSED
      else s
  | EvAck _ k =>
      set_tx_ack s ((tx_ack s + N.min k (sub16 (tx_rd s) (tx_ack s))) mod 65536)
  | EvLink _ => s
  end.

Definition ev_sock (e : nevent) : option N :=
  match e with
  | EvEstablished n | EvConnectFailed n | EvPeerFin n | EvDropped n _ | EvTcpData n _
  | EvDatagram n _ _ _ | EvTransmit n _ | EvSendOk n | EvSendTimeout n _ | EvAck n _ => Some n
  | EvFrame _ => Some 0
  | EvLink _ => None
  end.

Definition nstep (c : chip) (e : nevent) : chip :=
  match ev_sock e with
  | Some n => set_sock c n (sock_step (socks c n) e)
  | None =>
      match e with
      | EvLink v => set_com c (upd (com c) PHYCFGR
          (u8 (N.lor (N.ldiff (b2n (com c PHYCFGR)) 7) (N.land (b2n v) 7))))
      | _ => c
      end
  end.
Definition nsteps (c : chip) (l : list nevent) : chip := fold_left nstep l c.

(** the surroundings of a run: what happens before the i-th byte on the bus, and whether the
    j-th bus call fails (after how many data bytes, with which error) *)
Record env := mkEnv { happens : nat -> list nevent; fails : nat -> option (nat * berr) }.
Definition no_faults (e : env) : Prop := forall j, fails e j = None.

Record sys := mkSys { s_chip : chip; s_tick : nat; s_call : nat }.

Definition tick (e : env) (s : sys) : sys :=
  mkSys (nsteps (s_chip s) (happens e (s_tick s))) (S (s_tick s)) (s_call s).
Definition on_chip (f : chip -> chip) (s : sys) : sys :=
  mkSys (f (s_chip s)) (s_tick s) (s_call s).
Definition end_call (s : sys) : sys := mkSys (s_chip s) (s_tick s) (S (s_call s)).

(** the address auto-increments within a frame *)
Definition next_addr (a : N) : N := (a + 1) mod 65536.

Fixpoint read_bytes (e : env) (blk a : N) (n : nat) (s : sys) : list byte * sys :=
  match n with
  | O => ([], s)
  | S n' =>
      let s1 := tick e s in
      let b := rbyte (s_chip s1) blk a in
      let (l, s2) := read_bytes e blk (next_addr a) n' s1 in
      (b :: l, s2)
  end.
Fixpoint write_bytes (e : env) (blk a : N) (d : list byte) (s : sys) : sys :=
  match d with
  | [] => s
  | b :: d' =>
      let s1 := tick e s in
      write_bytes e blk (next_addr a) d' (on_chip (fun c => wbyte c blk a b) s1)
  end.

(** one bus call.  A failing read leaves the untransferred rest of the buffer as it was; a
    failing write has written a prefix. *)
Definition bus_read (e : env) (blk a : N) (buf : list byte) (s : sys)
  : (list byte * res unit berr) * sys :=
  match fails e (s_call s) with
  | None =>
      let (got, s') := read_bytes e blk a (length buf) s in
      ((got, Ok tt), end_call s')
  | Some (k, err) =>
      let (got, s') := read_bytes e blk a (Nat.min k (length buf)) s in
      ((got ++ skipn k buf, Err err), end_call s')
  end.
Definition bus_write (e : env) (blk a : N) (d : list byte) (s : sys) : res unit berr * sys :=
  match fails e (s_call s) with
  | None => (Ok tt, end_call (write_bytes e blk a d s))
  | Some (k, err) => (Err err, end_call (write_bytes e blk a (firstn k d) s))
  end.

(** a driver computation against the chip *)
Fixpoint run {A} (e : env) (p : prog A) (s : sys) : outcome A * sys :=
  match p with
  | Ret a => (Done a, s)
  | Panic w => (Panicked w, s)
  | Spin => (Looping, s)
  | BusRead blk a buf k => let (r, s') := bus_read e blk a buf s in run e (k r) s'
  | BusWrite blk a d k => let (r, s') := bus_write e blk a d s in run e (k r) s'
  end.
