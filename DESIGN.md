# Formal model of kellerkindt/w5500 in Rocq

`/repo` is the driver (Rust, read as text).  `/verif/rocq/theories` holds the model, the
environment it runs in, and the proofs.  `properties.jsonl` lists the properties (C01...),
`MANIFEST.json` maps them to theorem names, `seeded/LOG.jsonl` records the wrong-program tests.

## How the code is modelled

A driver function is a value of `prog A` (`Bus.v`): a tree whose nodes are calls of the `Bus`
trait (`read_frame`, `write_frame`) and whose children are indexed by the answer.  `Ret` is the
function's result, `Panic w` a Rust panic at place `w`, `Spin` a busy-wait loop that has gone
round `fuel` times (every statement quantifies over all `fuel`).  `?` is `try x <- p else h ;; k`.

| file | models |
|---|---|
| `Bytes.v` | u8/u16 arithmetic, byte arrays, slices |
| `Bus.v` | `bus/mod.rs` (trait), `Result`, `?`, panics, slicing |
| `Registers.v` | `register.rs`, mode types of `lib.rs` |
| `Net.v` | `net.rs`, `core::net` addresses |
| `Socket.v` | `socket.rs` |
| `Cursor.v` | `cursor.rs` |
| `Tcp.v` | `tcp.rs` |
| `Udp.v` | `udp.rs` |
| `Host.v` | `host/mod.rs`, `host/manual.rs`, `host/dhcp.rs` |
| `Device.v` | `device.rs`, pool parts of `tcp.rs`/`udp.rs` |
| `RawDevice.v` | `raw_device.rs` |
| `Uninit.v` | `uninitialized_device.rs` |
| `Spi.v` | `bus/four_wire.rs`, `bus/three_wire.rs` |
| `History.v` | a program: any sequence of public API calls (device, TCP, UDP, raw `Socket` methods) with Rust's ownership of handles |
| `RawHistory.v` | a program using a `RawDevice` |
| `Life.v` | the whole life of a chip: `UninitializedDevice`, `Device`, `RawDevice`, reset, release, re-initialisation, devices put away and woken up by value or by reference |
| `TwoDevices.v` | a program using two `Device`s of the same type |

Environment (not code in `/repo`; trusted):

| file | what |
|---|---|
| `Dotted.v` | the bytes of an address, in the order they go over the wire, written separately from the model |
| `Datasheet.v` | register map constants, written separately from `Registers.v` |
| `Exec.v` | the adversarial bus: any answer, any error, cut-off between any two calls |
| `Chip.v` | the W5500 behind its register map, with network events before every single byte on the bus, and bus calls that fail after any number of bytes |
| `SpiChip.v` | the W5500's SPI frame decoder |
| `Pin.v` | the W5500's interrupt pin |
| `Wire.v` (first section: `spi_event`, `sexec`) | an SPI peripheral that answers anything to every operation, with cut-off between any two |

Proof files (nothing in them is trusted):

| files | what |
|---|---|
| `BytesFacts`, `ValueFacts` | bytes, u16, register encodings |
| `ProgFacts`, `ApiFacts`, `ErrorFacts`, `ExecFacts`, `CallFacts`, `RawExact` | every function over the adversarial bus: blocks touched, panics, error propagation, exact return conditions |
| `AccessFacts` | the register map, and every access a program can make |
| `Recovery`, `RecoverySend`, `RecoveryRaw` | what receives, sends, read_frame and write_frame leave behind when they report a bus error |
| `Pipe`, `PipeCalls`, `PipeSend`, `PipeSession` | where the bytes that leave a socket come from, over whole programs with bus errors |
| `SizeFacts`, `System`, `UdpWire` | buffer sizes over whole programs; whole programs over FourWire |
| `Deaf` | whole programs over ThreeWire |
| `Traffic` | how many bus calls and writes each call can make |
| `RawStays` | what stays fixed through MACRAW programs with bus errors |
| `LifeFacts` | handles, common registers and addresses over the whole life of a chip |
| `LifeWire` | every access of a program over that life is one FourWire can carry |
| `LifePanic` | the calls of that life that can abort the program (C23) |
| `LifeAccess`, `LifeCalls`, `LifeRegs`, `LifeHandshake` | C61, C84, C85, C88 and C94 lifted from programs on one device to that life |
| `Commands` | which writes reach a command register, call by call |
| `Causes` | the accesses that lead to each error, call by call |
| `SockRegs` | which socket settings a call can touch, and what they are after it |
| `Remembered` | the destination a UDP handle remembers and the one in the chip, over whole programs |
| `Verdicts` | the states of the chip in which the accesses of a run were made; statuses a chip can show |
| `Origin` | where the bytes in the RX memory come from |
| `Goodbye` | the driver gives neither LISTEN nor DISCON: the states a socket is ever in (C96) |
| `Slow`, `SlowFacts`, `SlowSend` | a chip that takes a command some time after it was written; the same as `Chip` while no socket is touched with a command waiting; a SEND taken late is a network that transmits late |
| `Handshake` | what is read between two commands given to a socket |
| `Dial` | whom a socket dials, over programs with bus errors |
| `Liveness` | calls that return: receiving always, sending if the chip goes on; a UDP send that never does |
| `Asleep` | devices put away and woken up, by value or by reference (C18) |
| `Ends` | whole programs that end: buffers and pointers of a chip that was initialised, and every call of the life on a network that answers (C97) |
| `Literal` | bus answers of a chip that hides masked flags, and what every call makes of them (C99) |
| `Refusals` | which calls have written something when they answer an error of their own (C100) |
| `Ports` | the local ports of UDP handles (C101) |
| `Stays` | what waits in a receive buffer during calls that take nothing out of it (C102) |
| `FirstSend` | UDP sockets through which nothing was sent since they were opened (C103, C104) |
| `Timely` | programs whose receives leave nothing behind (C109, C110) |
| `Phy` | invariant of the operation mode bits of PHYCFGR over whole lives (C112) |
| `Wire` | executions of the two bus implementations against an arbitrary SPI peripheral (C114) |
| `WireRefine` | refinement of SPI-level executions to executions over an arbitrary bus (C115) |
| `WireBlocks` | the SPI operations of a whole computation over ThreeWire, one by one; computations that stay at the registers (C115) |
| `Adaptive` | programs that choose each call by the answers so far, and the lists of calls they come down to |
| `Waits` | what a call has read when it is caught in one of its busy-waits, over an arbitrary bus |
| `Fuel` | the order "does the same as far as it goes" on computations, and that more polls go further |
| `Transcript` | the complete bus traffic of the data calls that answer Ok |
| `Answers` | executions side by side, buses as functions of the history, and executions built from the answers |
| `Nays` | the complete traffic of the calls that are refused or panic |
| `PinFacts` | which calls touch the interrupt masks and flags (C98) |
| `HistoryFacts`, `PoolFacts`, `TwoDeviceFacts` | the socket pool over whole programs |
| `LeakFacts` | which sockets are allocated without a handle after a program |
| `SpiFacts`, `ThreeWireFacts` | SPI framing |
| `RingFacts`, `NetFacts`, `ChipLogic`, `SockSpecs`, `FrameFacts`, `ReadFacts`, `ComFacts`, `OpenFacts` | ring buffers; what network events preserve; weakest preconditions against the chip; one lemma per socket register access; other sockets untouched |
| `TxFacts`, `RxFacts`, `TcpConnect`, `TcpSend`, `TcpReceive`, `TcpSession`, `TcpLimits`, `Progress` | TCP |
| `PacketSend`, `UdpSend`, `UdpReceive`, `UdpSession`, `UdpCalls` | UDP |
| `InitFacts`, `RawFrames`, `RawSession`, `RawCalls` | initialisation, MACRAW |
| `Cases` | networks and start states for the concrete cases |

Statements: `Properties_*.v` (values, pool, calls, spi, tcp, stream, udp, chip, raw,
access, live, recovery, pipe, system, traffic, life).  Each theorem is
followed by `Print Assumptions` and by a concrete case meeting its hypotheses.

## Two semantics

* `exec p tr o`: with nothing assumed about the bus, `p` can perform exactly the calls `tr` and
  then be in situation `o` (returned, panicked, still looping, or cut off).  Used for properties
  that must hold for all bus answers, failures and crash points.
* `run env p sys`: against the chip model.  `env` gives the list of network events before the
  i-th byte on the bus and which bus calls fail after how many bytes.  Used for properties about
  what reaches the wire or the application.  Proved through a weakest-precondition calculus on one
  socket's state (`ChipLogic.v`), sound for every environment.

## Properties: what is modelled and how it is proved

* C01, C02: `fw_read_frame`/`fw_write_frame` against `SpiChip.spi_run`; simulation by induction on the
  program: `spi_run (over_four_wire p) = run p`; for whole programs and for the whole life of a chip.
* C03-C05: `tw_*` against `spi_run`.  The code is wrong here; refuted with witnesses, plus the exact
  set of lengths/addresses that work.
* C06, C25-C27, C29, C30, C57: `run` on the chip's registers, all prior states.  C27 refuted.
* C07-C13: pure functions; proved for all values (byte cases by computation over all 256 values).
  C07 and C09 fail for some inputs: refuted and exact domain proved.
* C14-C19: `History.run_ops` under `exec`: invariant by induction over the calls.  C16 fails on bus
  errors (refuted; proved when the bus works); C19 refuted with a two-device program.
* C20, C22-C24: structural induction on `prog` trees, for every API function.  C23 is false for
  three functions (C51, C54, PHY decode); proved for all others, and over whole lives (`LifePanic`).
* C21: `run`: other sockets' state equals what the network events alone produce.
* C28: `exec` and `run`.
* C31: `run`, ghost list of dialled peers.  C32, C33, C37, C39, C40, C42 are false of the code:
  refuted by a concrete history, with the strongest true variant proved as `_partial`.
* C34, C41, C48, C52, C54: `exec`: exact conditions on what was read.
* C35, C36, C38, C53, C55: `wp` with ring-buffer invariants; sequences of calls by induction.
* C43, C60: `run`; C60 refuted.
* C44-C47: `wp`; C44 refuted under bus faults and proved without; C46, C47 refuted.
* C49-C51: refuted; exact behaviour proved.
* C58, C59: `wp`: tearing lemmas.
* C62-C64: `run`, with bus failures.  C62 refuted for a chip that gives up without moving TX_RD; the rest
  by a measure on the bus bytes until the chip acts (sends) or the room left in the RX buffer (receives).
* C65-C70: `wp` with bus failures at any byte of any access; each refuted by a failing bus call, with the
  exact set of states such a call can leave behind as `_partial`.
* C71-C73: an invariant tying what was sent and what the TX buffer holds to the bytes handed over so far,
  kept by every byte on the bus; by induction over the calls.  Refuted for torn pointer writes.
* C61: structural induction on `prog` trees against the datasheet register map; for every program.
* C74: the C61 walk with the size registers excluded, and a chip invariant under the remaining writes.
* C75: C35, C38, C53, C55 moved to the wires by C02, with C74 for the buffer sizes.
* C77: C44, C45, C49, C50 joined call by call along a program, moved to the wires in the same way.
* C78: structural: a cost on `prog` trees, induction on the fuel of the polling loops and on the bytes left to send.
* C79: an invariant of the whole chip under network events and the bytes MACRAW calls write.
* C80-C83: `Life.run_life`: the pool invariant (and, filtered by age, its restriction to recent handles) under
  `exec`; a table of what each call makes of the common registers, by induction over the calls under `run`.
* C84: a property of every write of a `prog` tree, call by call.
* C85: the destination registers followed write by write through connect with failing transfers; every other
  call by C84; induction over the calls.
* C86: a condition on result and accesses, propagated backwards through the `prog` trees.
* C87: C82 (and C80 for the addresses) followed by what a read frame of the chip answers.
* C88: a frame condition on every write of a call (`SockRegs.inside`), and a strongest-postcondition reading of the
  `prog` trees over the register files of all sockets (`SockRegs.follow`), sound for `run`.
* C89: C88's readings of each call, the pool invariant (other handles have other sockets), induction over the calls;
  refuted in general.
* C90: C71-C73 under the environment the SPI failures amount to (C02), with the buffer sizes of C74; refuted in general.
* C91: C86 (what the call read), carried to the chip by the states the accesses of the run were made in; refuted for
  BufferFull by a torn read of the free size.
* C94: a watcher (Handshake.v) of one socket follows the bus accesses of a computation and says whether a SEND or CONNECT is still on
  its way; `watched` computations give no command then.  The theorems speak of traces only.
* C95: the slow chip (Slow.v) keeps the commands written in a queue and notes when a socket is touched that has one
  waiting.  While that has not happened, the fast chip is the slow one with the queue obeyed, socket by socket; this is kept
  by every byte and every event.  For a SEND that waits the two chips may differ in where the last SEND ended (`eqv`), and the
  turns at which the network would have sent for the fast chip are taken out of its surroundings (`muted`).
* C96: the commands of a computation (Commands.v, LifeCalls.v) are neither LISTEN nor DISCON, and no other command or event
  leaves the seven states; the end of a session from C35 and C16.
* C97: a device only exists after a reset by the program, and from then on every socket keeps pointers and sizes that fit (`Ends.sane`),
  bus errors or not; with these each waiting call ends on a network that answers (Liveness.v), and so does the life, by induction.
* C98: invariants of the whole chip (both masks off; masks as enable_interrupts set them; a flag up; nothing waiting or RECV up) under
  network events and the bytes each call writes; a size read other than 0 shows that RECV is up.
* C99: a weakest precondition over bus answers that hide masked flags (`Literal.lp`); every call keeps a mask of 0, under which
  `has_interrupt` answers false.
* C100: a weakest precondition that tracks whether anything was written (`Refusals.ne`), for every call of the Device API.
* C101: from C85 over whole lives; for UDP an invariant of the handle table.
* C102: an invariant of one socket (its queue starts with what was waiting), kept by every network event and by every byte such a call may write.  For devices put away in between (`Properties_stayslife`): the same along whole lives of one device, whose pool invariant is that of `LifeFacts`.
* C103, C104: an invariant of a UDP socket since it was opened (nothing in the TX buffer, no flag of an earlier SEND left), then C47.
* C105: the invariant of the address registers of C80, with nothing but zero to write.  C106: a witness.
* C107, C108: from what `initialize_with_host` leaves in the registers (C80).
* C109, C110: the invariant "the RECV flag is up, or nothing waits" (`settled`), kept by every call but a receive that leaves something behind.
* C111: from C49 and C44, one receive and one send put together.
* C112: no program writes PHYCFGR (one predicate on writes, shown for every call), a reset sets the mode bits, the link changes only the status bits; a device exists only after a reset.
* C113: the echo program is a program over `step` that looks at the answers of its calls; induction on the number of calls, each call one more step of the session of C34-C38 (`session_next`). The stall: the RECV flag stays down (`receive_flag_down`), induction on the number of calls.
* C114: a third semantics, `sexec` (`Wire.v`), runs the SPI-level computations against a peripheral that answers anything. Frames: induction over the pieces. Calls: "the first error ends the computation and is its result" (`estop`, shown for every call for C22) is carried through the bus implementations by `sstop_plug`.
* C115: refinement from `sexec` to `exec` by induction on the computation; a ThreeWire frame that does not end is still an access of the computation, so what is known of all accesses (`pt_step`, `at_step`) says where it can overflow.
* C116: induction on the rounds with the session invariant of C53/C55 (`raw_step_effect`); the buffer keeps its length, so every frame is cut at the same place.
* C117: induction on the order of service with two session invariants at once; the connection that is not served in a step is untouched by it (`spares`), also while the call is waiting.
* C118: induction on the rounds with the UDP session invariant; the destination remembered differs from round to round, the queue only grows during a send, also one that is waiting (`qgrow`).
* C119: induction on the number of calls, for any notion of call (`Adaptive.play`), instantiated with `lstep`/`run_life` and `step`/`run_ops`.
* C120: executions that end in `Looping`, split at each sequencing point; induction on the number of polls for each of the four loops, everything else has no loop (`Liveness.spinless`).
* C121: a simulation order on `prog` trees (`Fuel.ext`), closed under sequencing; induction on the number of polls for the loops.
* C122: peeling one bus call at a time off an arbitrary execution (`Transcript`), induction on the polls for the loops and on the datagrams for UDP send.
* C123: induction on `exec` for two executions side by side, on the program for the existence of one; the executions of C122 built up again one bus call at a time (`Answers`).
* C124: the same peeling and building, for straight-line calls.
* C125: the peeling of C122 for errors that are not bus errors, the building of C123; an inductive relation for the datagrams of a UDP send that is cut short.
* C93: every byte on the bus and every event keeps `brought_since` (Origin.v): the RX memory of an open UDP or MACRAW socket is the
  records of a subsequence of the datagrams (frames) that came for it.  With C77 (C75) on either side and the injectivity of the records.
  For TCP `segs_since`: the CLOSE at the start of connect empties the claim, and no call on an open handle gives OPEN or a reset.
* C92: each method is one access; the registers it meets are those of the chip the network alone has left at that byte.
  Refuted for the two 16-bit registers the chip changes by itself and the code reads only once.
* C61, C84, C85, C88, C94 again over `Life.run_life` (Properties_whole.v): the call lemmas hold for any table of well-formed handles, which
  every life keeps (`LifeWire.wired`); initialisations, resets and sleeping devices add their own writes.
* C76: refuted, by following the frame decoder through the initialisation; after it an absorbing decoder state.

## Not modelled

* `Debug`/`defmt` formatting, derives, doc comments.
* Timing.  Busy-wait loops are fuel-bounded; "does not terminate" means: for every fuel the run is
  still looping.  That the fuel shows in nothing else is proved (C121).
* `Host::refresh` for user-written `Host` implementations (only `Manual` and `Dhcp`): the one function that
  would take one, `initialize_with_host`, is private.
* Listening sockets, IPv6 and `TcpFullStack`: not in the code.  (A program can put a raw socket into
  LISTEN with `Socket::command`; the chip model then lets a peer connect.)
* Raw `Socket` methods and `UdpSocket::set_port` take the bus, which an application has between
  `deactivate` and `activate`; the model lets it call them at any time.  Direct use of the bus object
  by the application, bypassing the crate, is not modelled.
* The chip executes a command the moment Sn_CR is written, and Sn_CR then reads 0.  A real W5500 takes a moment, and the
  datasheet asks the host to wait for Sn_CR to read 0; the driver never does (C94).  Slow.v models a chip that takes its
  time: C95 says when the theorems against `Chip` carry over to it and shows what goes wrong when they do not.
* A flag in Sn_IR goes up whatever Sn_IMR says; the mask only decides about the pin (Pin.v).  The datasheet can be read to say
  that a masked flag does not go up at all; C99 (Literal.v) proves what the driver, which masks every flag for TCP and UDP (C60),
  would do on such a chip: no TCP send would succeed and nothing would ever be received.
* The chip takes Sn_PORT and the destination registers as they are when a packet leaves, also if they
  are rewritten while the socket is open.
* Two handles used concurrently: the driver takes `&mut` everywhere, so calls are sequential.
* The Rust compiler, embedded-hal implementations, bit_field, num_enum: their documented behaviour
  is assumed (`get_bit`/`set_bit`, `TryFromPrimitive`).

## Trusted base

Coq 8.16.1's kernel; the model's faithfulness to `/repo` (each definition cites its lines); the
environment files above.  No axioms of our own.  `Print Assumptions` output per theorem is printed
during the build: every theorem in `MANIFEST.json` reports "Closed under the global context", so none
of them depends on any axiom, of ours or of a library.  (`Coq.ssr.ssrunder.Under_rel`, which a global
`coqchk` lists, is loaded with the standard library and used by none of them.)
