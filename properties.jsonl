{"id": "C01", "title": "FourWire frames reach the chip exactly", "statement": "Over FourWire, write_frame(block, address, data) makes the chip write exactly data to consecutive addresses from address in that block and nothing else; read_frame fills the buffer with exactly the bytes stored there, whatever the buffer held before, and changes nothing on the chip.", "quantifier": "all blocks 0..31, all 16-bit addresses, all data/buffer contents and lengths, all chip states, all network activity during the frame, any failure point of the SPI transaction", "why_tests_cant": "Unit tests drive a mock SPI with one literal script; the claim is about every value.", "anchors": ["src/bus/four_wire.rs: FourWire::read_frame, FourWire::write_frame, WRITE_MODE_MASK"]}
{"id": "C02", "title": "A whole program over FourWire behaves as over the register bus", "statement": "Any sequence of calls of UninitializedDevice, Device and RawDevice, resets and re-initialisations included, run over FourWire and real SPI framing returns the same results and leaves the chip in the same state as the same sequence run directly against the chip's register map.", "quantifier": "all call sequences, arguments, network schedules, SPI failure points", "why_tests_cant": "Ranges over all call sequences; tests exercise a few short ones.", "anchors": ["src/bus/four_wire.rs", "src/bus/mod.rs: Bus", "src/device.rs", "src/tcp.rs", "src/udp.rs"]}
{"id": "C03", "title": "ThreeWire read_frame returns the chip's bytes", "statement": "Over ThreeWire, read_frame(block, address, buf) fills buf with the bytes stored at consecutive addresses and leaves the link ready for the next frame.", "quantifier": "all blocks, addresses and buffer lengths", "why_tests_cant": "The chunking 4/2/1 interacts with the control byte across chunks; only some lengths work.", "anchors": ["src/bus/three_wire.rs: ThreeWire::read_frame"]}
{"id": "C04", "title": "ThreeWire write_frame writes the chip", "statement": "Over ThreeWire, a write_frame that returns Ok has stored data at the given address of the given block.", "quantifier": "all blocks, addresses and data", "why_tests_cant": "Unit tests drive a mock SPI with one literal script; the claim is about every value.", "anchors": ["src/bus/three_wire.rs: ThreeWire::write_frame, WRITE_MODE_MASK"]}
{"id": "C05", "title": "ThreeWire address arithmetic never panics", "statement": "ThreeWire frames addressed to the 16-bit buffer space never abort the program, including frames that reach or wrap past address 0xFFFF, which the driver issues because TX/RX pointers are free-running 16-bit values.", "quantifier": "all addresses and lengths, builds with and without overflow checks", "why_tests_cant": "Only addresses within one frame of 0xFFFF trigger it.", "anchors": ["src/bus/three_wire.rs: address += last_length_written"]}
{"id": "C06", "title": "Retry timeout and retry count read back what was set", "statement": "After set_retry_timeout(t) (set_retry_count(n)) succeeds, current_retry_timeout (current_retry_count) returns t (n), and no other register changed.", "quantifier": "all 16-bit timeouts, all counts, all chip states", "why_tests_cant": "Unit tests drive a mock SPI with one literal script; the claim is about every value.", "anchors": ["src/device.rs: set_retry_timeout, current_retry_timeout, set_retry_count, current_retry_count", "src/register.rs: RetryTime"]}
{"id": "C07", "title": "RetryTime millisecond conversion", "statement": "RetryTime::from_millis(ms) is the register value 10*ms and to_millis gives ms back; for values whose product does not fit 16 bits the conversion does not silently produce another timeout.", "quantifier": "all 16-bit millisecond values, builds with and without overflow checks", "why_tests_cant": "65536 inputs times two build modes; the doc tests check two.", "anchors": ["src/register.rs: RetryTime::from_millis, to_millis, to_register, from_register"]}
{"id": "C08", "title": "Mode register encoding", "statement": "Every Mode value encodes to a distinct MR byte in which bits 5,4,3,1 are WOL, ping block, PPPoE and force-ARP and the reset bit and reserved bits are 0; so set_mode never resets the chip.", "quantifier": "all Mode values", "why_tests_cant": "The two literal examples in the test do not show distinctness nor that RST stays clear for all.", "anchors": ["src/lib.rs: Mode::to_u8, to_register, OnWakeOnLan, OnPingRequest, ConnectionType, ArpResponses"]}
{"id": "C09", "title": "PHY configuration decoding", "statement": "phy_config decodes link, speed, duplex and operation mode from the PHYCFGR byte for every byte the chip can return, without aborting the program.", "quantifier": "all 256 register values", "why_tests_cant": "No test covers the register; one bit pattern aborts.", "anchors": ["src/register.rs: PhyConfig, PhyOperationMode", "src/device.rs: phy_config"]}
{"id": "C10", "title": "Socket status decoding", "statement": "A status byte is recognised iff it is one of the 13 Sn_SR codes, and then as that state.", "quantifier": "all 256 status bytes", "why_tests_cant": "The unit test checks one byte.", "anchors": ["src/register.rs: socketn::Status"]}
{"id": "C11", "title": "MacAddress text and byte forms", "statement": "MacAddress::new/from/octets round-trip, and Display prints six two-digit upper-case hex groups separated by colons from which the address can be recovered; different addresses print differently.", "quantifier": "all 2^48 addresses", "why_tests_cant": "Cannot be enumerated by tests.", "anchors": ["src/net.rs: MacAddress"]}
{"id": "C12", "title": "Socket block layout", "statement": "The register, TX and RX blocks used for sockets 0..7 are those of the chip's block map, pairwise distinct, distinct from the common block, and fit five bits.", "quantifier": "all socket indices", "why_tests_cant": "Listed literally in a test; distinctness and range are not.", "anchors": ["src/socket.rs: Socket::new", "src/register.rs: SOCKETn constants"]}
{"id": "C13", "title": "UDP header decoding", "statement": "The origin address, port and length reported for a datagram are those the chip stored in front of it.", "quantifier": "all addresses, ports and lengths", "why_tests_cant": "2^64 headers.", "anchors": ["src/udp.rs: UdpHeader::from"]}
{"id": "C14", "title": "A hardware socket is never handed out twice", "statement": "In any program using one Device, no two live socket handles (TCP, UDP or raw) refer to the same hardware socket, and every handle's index is below 8.", "quantifier": "all call sequences, all bus behaviour and failures, every point in the program", "why_tests_cant": "Ranges over all call sequences; tests exercise a few short ones.", "anchors": ["src/device.rs: DeviceState::socket, release_socket, take_socket", "src/tcp.rs: socket, close", "src/udp.rs: socket, close"]}
{"id": "C15", "title": "Socket allocation is exact", "statement": "socket()/take_socket succeeds iff some hardware socket is not allocated, returns the lowest such index, touches nothing else and uses no bus traffic; otherwise it returns NoMoreSockets (None). At most 8 handles are ever live.", "quantifier": "all device states reachable by any program", "why_tests_cant": "Ranges over all call sequences; tests exercise a few short ones.", "anchors": ["src/device.rs: DeviceState::socket", "src/tcp.rs: socket", "src/udp.rs: socket"]}
{"id": "C16", "title": "Closing a socket makes it available again", "statement": "close(socket) switches the hardware socket off and returns it to the pool, so programs that open and close never run out of sockets.", "quantifier": "all device states, all bus failures during close", "why_tests_cant": "Must hold for every bus call that can fail and every point where execution stops; tests inject a few.", "anchors": ["src/tcp.rs: close, socket_close", "src/udp.rs: close, socket_close"]}
{"id": "C17", "title": "Device::reset needs all sockets back", "statement": "Device::reset refuses with SocketsNotReleased, without touching the bus, iff a socket is still allocated; otherwise it resets the chip, so that every register has its reset value.", "quantifier": "all reachable device states", "why_tests_cant": "Ranges over all call sequences; tests exercise a few short ones.", "anchors": ["src/device.rs: reset, any_allocated, reset_device"]}
{"id": "C18", "title": "Deactivate/activate preserves allocation", "statement": "Moving a device through deactivate and activate keeps the set of allocated sockets and all handles valid.", "quantifier": "all device states and all programs with suspensions inserted anywhere", "why_tests_cant": "Ranges over all call sequences; tests exercise a few short ones.", "anchors": ["src/device.rs: deactivate, InactiveDevice::activate, activate_ref"]}
{"id": "C19", "title": "Handles of two devices do not mix", "statement": "With two devices of the same type, no two live handles of one device refer to the same hardware socket, whatever the program does with the handles.", "quantifier": "all programs over two devices", "why_tests_cant": "Ranges over all call sequences; tests exercise a few short ones.", "anchors": ["src/device.rs: release_socket", "src/udp.rs: close", "src/tcp.rs: close"]}
{"id": "C20", "title": "Calls on one socket touch only that socket's blocks", "statement": "A TCP/UDP call on a socket with index i accesses only blocks 4i+1, 4i+2, 4i+3; device register calls access only the common block; at every point, including when interrupted.", "quantifier": "all calls, arguments, bus answers, failures, interruption points", "why_tests_cant": "Must hold for every bus call that can fail and every point where execution stops; tests inject a few.", "anchors": ["src/tcp.rs", "src/udp.rs", "src/socket.rs", "src/device.rs"]}
{"id": "C21", "title": "Sockets do not disturb each other", "statement": "Running any TCP/UDP call on one socket leaves the registers, buffers and connection state of all other sockets, and the common registers, exactly as the network activity alone would have left them.", "quantifier": "all calls, chip states, network schedules, failures", "why_tests_cant": "Depends on what the chip and network do between any two bytes on the bus; a test fixes one schedule.", "anchors": ["src/tcp.rs", "src/udp.rs", "src/socket.rs"]}
{"id": "C22", "title": "A bus error stops the call and is reported", "statement": "If a bus access fails with e inside any API call, no further bus access is made by that call and it returns the error wrapping e; conversely a call that returns anything else had no failing access.", "quantifier": "all API calls, all bus behaviours, every access", "why_tests_cant": "Must hold for every bus call that can fail and every point where execution stops; tests inject a few.", "anchors": ["src/tcp.rs", "src/udp.rs", "src/device.rs", "src/raw_device.rs", "src/uninitialized_device.rs", "src/host/mod.rs", "src/cursor.rs"]}
{"id": "C23", "title": "No panics", "statement": "No API call of Device, TcpSocket, UdpSocket or RawDevice aborts the program, whatever the chip answers.", "quantifier": "all API calls, arguments, bus answers", "why_tests_cant": "Panics hide in index arithmetic on values the chip supplies.", "anchors": ["src/tcp.rs", "src/udp.rs", "src/raw_device.rs", "src/cursor.rs"]}
{"id": "C24", "title": "Which calls can report WouldBlock", "statement": "TCP connect/send/receive and UDP send/send_to never return nb::Error::WouldBlock (they block internally instead); UDP receive returns WouldBlock only when the chip shows no received datagram, and then nothing on the chip changed.", "quantifier": "all arguments and bus behaviours", "why_tests_cant": "Depends on what the chip and network do between any two bytes on the bus; a test fixes one schedule.", "anchors": ["src/tcp.rs: connect, send, receive", "src/udp.rs: send, send_to, receive"]}
{"id": "C25", "title": "Manual initialisation programs the requested configuration", "statement": "After initialize_advanced(mac, ip, gateway, subnet, mode) succeeds, the chip's MR, SHAR, SIPR, GAR and SUBR hold exactly those values, whatever they were before, no socket is allocated, and the getters return the requested values.", "quantifier": "all addresses (including all-zero ones, whose writes are skipped), all modes, all prior chip states", "why_tests_cant": "Unit tests drive a mock SPI with one literal script; the claim is about every value.", "anchors": ["src/uninitialized_device.rs: initialize_advanced, initialize_with_host", "src/host/mod.rs: write_settings", "src/host/manual.rs", "src/device.rs: gateway, subnet_mask, mac, ip"]}
{"id": "C26", "title": "initialize_manual derives gateway and mask", "statement": "initialize_manual(mac, ip, mode) configures gateway = ip with last octet 1 and mask 255.255.255.0.", "quantifier": "all ip addresses", "why_tests_cant": "Unit tests drive a mock SPI with one literal script; the claim is about every value.", "anchors": ["src/uninitialized_device.rs: initialize_manual"]}
{"id": "C27", "title": "initialize configures the given MAC address", "statement": "After initialize(mac, mode) succeeds the chip uses mac as its hardware address.", "quantifier": "all MAC addresses", "why_tests_cant": "The call is never run against a chip in tests.", "anchors": ["src/uninitialized_device.rs: initialize", "src/host/dhcp.rs: Dhcp::new, refresh"]}
{"id": "C28", "title": "Initialisation checks the chip first", "statement": "initialize, initialize_manual and initialize_advanced return ChipNotConnected iff the version register does not read 4, and in that case nothing was written to the chip; with the no-chip-version-assertion feature it is never returned.", "quantifier": "all version bytes, all bus behaviours, both feature settings", "why_tests_cant": "Unit tests drive a mock SPI with one literal script; the claim is about every value.", "anchors": ["src/uninitialized_device.rs: assert_chip_version, version, initialize_with_host"]}
{"id": "C29", "title": "Host refresh is resumable and idempotent", "statement": "refresh on a Manual host writes each differing setting once; after a bus failure at any point a later successful refresh completes the rest without rewriting what was already written, ending with all settings on the chip; once successful, refresh does nothing.", "quantifier": "all settings, every failure point, any number of failed attempts", "why_tests_cant": "Must hold for every bus call that can fail and every point where execution stops; tests inject a few.", "anchors": ["src/host/mod.rs: write_settings", "src/host/manual.rs: refresh"]}
{"id": "C30", "title": "MACRAW initialisation", "statement": "After initialize_macraw(mac) succeeds socket 0 is open in MACRAW mode with the MAC filter on and 16 KiB TX and RX buffers, sockets 1..7 have none, and the chip's MAC address is mac.", "quantifier": "all MAC addresses and prior chip states", "why_tests_cant": "Unit tests drive a mock SPI with one literal script; the claim is about every value.", "anchors": ["src/raw_device.rs: RawDevice::new", "src/uninitialized_device.rs: initialize_macraw"]}
{"id": "C31", "title": "TCP connect dials the requested peer", "statement": "A TCP connect(remote) that runs without bus errors makes the chip dial exactly remote's address and port, from local port 49849+index, once, with the socket in TCP mode; sockets with different index use different local ports.", "quantifier": "all remotes, sockets, prior socket states, network schedules", "why_tests_cant": "Depends on what the chip and network do between any two bytes on the bus; a test fixes one schedule.", "anchors": ["src/tcp.rs: connect, open, socket_connect, reopen"]}
{"id": "C32", "title": "TCP connect Ok means connected", "statement": "If TCP connect returns Ok the connection is established.", "quantifier": "all network schedules", "why_tests_cant": "Depends on what the chip and network do between any two bytes on the bus; a test fixes one schedule.", "anchors": ["src/tcp.rs: socket_connect"]}
{"id": "C33", "title": "TCP connect terminates", "statement": "TCP connect returns once the connection attempt has been decided (accepted, refused or timed out).", "quantifier": "all network schedules", "why_tests_cant": "Depends on what the chip and network do between any two bytes on the bus; a test fixes one schedule.", "anchors": ["src/tcp.rs: socket_connect"]}
{"id": "C34", "title": "TCP send requires an established connection", "statement": "send returns NotConnected iff the status read is not Established, and then nothing was written to the chip.", "quantifier": "all status bytes, arguments, bus behaviours", "why_tests_cant": "Unit tests drive a mock SPI with one literal script; the claim is about every value.", "anchors": ["src/tcp.rs: socket_send, socket_is_connected"]}
{"id": "C35", "title": "TCP send transmits exactly the accepted prefix", "statement": "When send(data) returns Ok(n) without bus faults, exactly the first n bytes of data were transmitted on that connection, in order, after everything sent before; so the transmitted stream is the concatenation of all accepted prefixes.", "quantifier": "all data, buffer pointers (including 16-bit wrap), network schedules, sequences of sends", "why_tests_cant": "Depends on what the chip and network do between any two bytes on the bus; a test fixes one schedule.", "anchors": ["src/tcp.rs: socket_send", "src/socket.rs: get_tx_free_size, set_tx_write_pointer"]}
{"id": "C36", "title": "TCP send never overruns the TX buffer", "statement": "send never writes more bytes than are free in the chip's TX buffer, so unacknowledged data is never overwritten, even if the free-size register changes between the two bytes of its read.", "quantifier": "all data, all schedules including tearing of the 16-bit read", "why_tests_cant": "Depends on what the chip and network do between any two bytes on the bus; a test fixes one schedule.", "anchors": ["src/tcp.rs: socket_send", "src/socket.rs: get_tx_free_size"]}
{"id": "C37", "title": "TCP send terminates", "statement": "TCP send returns even if the connection is lost while sending.", "quantifier": "all network schedules", "why_tests_cant": "Depends on what the chip and network do between any two bytes on the bus; a test fixes one schedule.", "anchors": ["src/tcp.rs: socket_send: while !has_interrupt(SendOk)"]}
{"id": "C38", "title": "TCP receive delivers the peer's byte stream", "statement": "The bytes returned by successive receive calls on a connection are a prefix of what the peer sent: no loss, duplication or reordering; each call returns at most the buffer's length and leaves the rest of the buffer unchanged.", "quantifier": "all buffer sizes, read pointers, network schedules, sequences of receives", "why_tests_cant": "Depends on what the chip and network do between any two bytes on the bus; a test fixes one schedule.", "anchors": ["src/tcp.rs: socket_receive", "src/socket.rs: get_receive_size, set_rx_read_pointer"]}
{"id": "C39", "title": "TCP receive returns data that is available", "statement": "While connected, if received bytes are waiting in the chip, receive with a non-empty buffer returns at least one byte.", "quantifier": "all histories of receives and arrivals", "why_tests_cant": "Depends on what the chip and network do between any two bytes on the bus; a test fixes one schedule.", "anchors": ["src/tcp.rs: socket_receive: has_interrupt(Receive), reset_interrupt(Receive)"]}
{"id": "C40", "title": "TCP data sent before the peer closed can be read", "statement": "Bytes received before the peer closed its side can still be read by receive.", "quantifier": "all schedules with a peer close", "why_tests_cant": "Depends on what the chip and network do between any two bytes on the bus; a test fixes one schedule.", "anchors": ["src/tcp.rs: socket_receive: socket_is_connected"]}
{"id": "C41", "title": "TCP receive without data changes nothing", "statement": "receive returns NotConnected iff the status is not Established and Ok(0) if no receive interrupt is pending; in both cases nothing is written to the chip and the buffer is unchanged.", "quantifier": "all status and interrupt bytes, buffers, bus behaviours", "why_tests_cant": "Unit tests drive a mock SPI with one literal script; the claim is about every value.", "anchors": ["src/tcp.rs: socket_receive"]}
{"id": "C42", "title": "TCP send Ok is never stale", "statement": "send returning Ok means this call's data was transmitted, also after an earlier call on the socket failed with a bus error.", "quantifier": "all histories with bus faults", "why_tests_cant": "Must hold for every bus call that can fail and every point where execution stops; tests inject a few.", "anchors": ["src/tcp.rs: socket_send: reset_interrupt(SendOk)"]}
{"id": "C43", "title": "UDP bind and connect configure the socket", "statement": "After UDP bind(port) or connect(remote) succeeds the chip's socket is open in UDP mode with the socket's local port (port for bind, else 49849+index), and get_port reports it; after connect the destination registers hold remote.", "quantifier": "all ports, remotes, prior socket states, network schedules", "why_tests_cant": "Depends on what the chip and network do between any two bytes on the bus; a test fixes one schedule.", "anchors": ["src/udp.rs: bind, connect, open, set_port, set_destination, get_port"]}
{"id": "C44", "title": "UDP datagrams go to the requested destination", "statement": "Every datagram transmitted for send_to(remote, ..) (or send after connect(remote)) is addressed to remote, in any program.", "quantifier": "all programs, destinations, network schedules, bus faults", "why_tests_cant": "Ranges over all call sequences; tests exercise a few short ones.", "anchors": ["src/udp.rs: set_destination (cached destination), socket_send_to"]}
{"id": "C45", "title": "UDP send transmits the whole buffer in order", "statement": "When send/send_to returns Ok, the payloads transmitted by the call concatenate to exactly the given buffer; a buffer that fits the free TX space is one datagram.", "quantifier": "all buffers, pointers, network schedules", "why_tests_cant": "Depends on what the chip and network do between any two bytes on the bus; a test fixes one schedule.", "anchors": ["src/udp.rs: socket_send_all, socket_send, block_send_command, try_flush_tx"]}
{"id": "C46", "title": "One UDP send is one datagram", "statement": "send(buffer) returning Ok transmitted exactly one datagram with payload buffer.", "quantifier": "all buffers including empty ones and ones larger than the TX buffer", "why_tests_cant": "Depends on what the chip and network do between any two bytes on the bus; a test fixes one schedule.", "anchors": ["src/udp.rs: socket_send_all"]}
{"id": "C47", "title": "UDP send reports timeouts", "statement": "If the chip gave up sending (ARP timeout), send returns WriteTimeout.", "quantifier": "all network schedules", "why_tests_cant": "Depends on what the chip and network do between any two bytes on the bus; a test fixes one schedule.", "anchors": ["src/udp.rs: try_flush_tx"]}
{"id": "C48", "title": "UDP send preconditions", "statement": "send returns SocketNotOpen / UnrecognisedStatus / DestinationNotSet / BufferFull exactly when the status is another known one / unknown, no destination is set, or the free size reads 0, and in those cases nothing was written to the chip.", "quantifier": "all status bytes, free sizes, buffers, bus behaviours", "why_tests_cant": "Unit tests drive a mock SPI with one literal script; the claim is about every value.", "anchors": ["src/udp.rs: socket_send_all, socket_send"]}
{"id": "C49", "title": "UDP receive returns the datagram", "statement": "receive returns the number of payload bytes stored (payload length, or the buffer length if shorter) with exactly those bytes at the front of the buffer, and the sender's address.", "quantifier": "all datagrams and buffer sizes", "why_tests_cant": "Depends on what the chip and network do between any two bytes on the bus; a test fixes one schedule.", "anchors": ["src/udp.rs: socket_receive: read_max_size.max(udp_header.len)"]}
{"id": "C50", "title": "UDP receive consumes one datagram per call", "statement": "receive removes exactly one datagram from the chip, so queued datagrams are returned by successive calls in order.", "quantifier": "all numbers and sizes of queued datagrams", "why_tests_cant": "Depends on what the chip and network do between any two bytes on the bus; a test fixes one schedule.", "anchors": ["src/udp.rs: socket_receive: set_rx_read_pointer(read_pointer + rx_size)"]}
{"id": "C51", "title": "UDP receive never panics", "statement": "receive never aborts the program, whatever datagram arrives.", "quantifier": "all datagrams and buffer sizes", "why_tests_cant": "A remote peer chooses the datagram length.", "anchors": ["src/udp.rs: receive_buffer[..read_length]"]}
{"id": "C52", "title": "UDP receive preconditions", "statement": "receive returns WouldBlock, SocketNotOpen, UnrecognisedStatus or BufferOverflow exactly in the documented situations, with the buffer and the chip unchanged.", "quantifier": "all status/interrupt/size values, buffers, bus behaviours", "why_tests_cant": "Unit tests drive a mock SPI with one literal script; the claim is about every value.", "anchors": ["src/udp.rs: socket_receive"]}
{"id": "C53", "title": "MACRAW read_frame returns queued frames in order", "statement": "Each read_frame returns the next queued Ethernet frame truncated to the buffer, leaves the rest of the buffer unchanged and removes exactly that frame, so successive calls return all frames in arrival order; Ok(0) with nothing changed if none is queued.", "quantifier": "all frames, buffer sizes, pointers (16-bit wrap), network schedules, sequences of calls", "why_tests_cant": "Depends on what the chip and network do between any two bytes on the bus; a test fixes one schedule.", "anchors": ["src/raw_device.rs: read_frame", "src/cursor.rs: RxCursor"]}
{"id": "C54", "title": "MACRAW read_frame stays inside the received data", "statement": "Whatever the chip answers, read_frame never reads or consumes more than the received size it was told, never writes past the caller's buffer, and aborts only if the received size is 1. A call that succeeds reads the size, the pointer, the length field and as much of the record as the buffer takes, moves the read pointer behind the whole record (at most to the end of what was received) and issues RECV; a length field below 2 makes the record just that field.", "quantifier": "all bus answers, buffers of any length", "why_tests_cant": "Length header and size register are independent chip-supplied values.", "anchors": ["src/raw_device.rs: read_frame", "src/cursor.rs: RxCursor::read, read_upto, skip, commit"]}
{"id": "C55", "title": "MACRAW write_frame is all or nothing", "statement": "write_frame returns Ok(len) after the chip transmitted exactly the frame, or Ok(0) if the frame is empty or larger than the free TX space and then no byte of it is written; a returned Ok(len) always refers to this call's transmission.", "quantifier": "all frames, pointers, network schedules", "why_tests_cant": "Depends on what the chip and network do between any two bytes on the bus; a test fixes one schedule.", "anchors": ["src/raw_device.rs: write_frame", "src/cursor.rs: TxCursor"]}
{"id": "C56", "title": "MACRAW write_frame terminates when nothing was queued", "statement": "write_frame of an empty or oversized frame returns without waiting for a transmission.", "quantifier": "all frames and free sizes", "why_tests_cant": "Depends on what the chip and network do between any two bytes on the bus; a test fixes one schedule.", "anchors": ["src/raw_device.rs: write_frame: while !has_interrupt(SendOk)"]}
{"id": "C57", "title": "MACRAW interrupt control", "statement": "enable_interrupts(which) leaves exactly the given socket-0 interrupts enabled and socket 0 unmasked; disable_interrupts masks all sockets; clear_interrupts clears all pending socket-0 interrupts; none affects data transfer state.", "quantifier": "all masks and chip states", "why_tests_cant": "Unit tests drive a mock SPI with one literal script; the claim is about every value.", "anchors": ["src/raw_device.rs: enable_interrupts, disable_interrupts, clear_interrupts"]}
{"id": "C58", "title": "Received size is read consistently", "statement": "The received size the driver acts on is the exact size at one instant during the call, even though the register is read byte by byte while data arrives.", "quantifier": "all interleavings of arriving data with the bytes of the reads", "why_tests_cant": "Depends on what the chip and network do between any two bytes on the bus; a test fixes one schedule.", "anchors": ["src/socket.rs: get_receive_size"]}
{"id": "C59", "title": "UDP flush returns only when the chip took the data", "statement": "block_send/try_flush only reports completion when the chip's TX read pointer really equals the write pointer, even though both are read byte by byte.", "quantifier": "all interleavings of transmission progress with the bytes of the reads", "why_tests_cant": "Depends on what the chip and network do between any two bytes on the bus; a test fixes one schedule.", "anchors": ["src/udp.rs: try_flush_tx"]}
{"id": "C60", "title": "Opening a socket enables its SENDOK and TIMEOUT interrupts", "statement": "After connect/bind the socket's interrupt mask enables SENDOK and TIMEOUT.", "quantifier": "all sockets", "why_tests_cant": "Needs the register value on the chip.", "anchors": ["src/tcp.rs: open, reopen: set_interrupt_mask", "src/udp.rs: open"]}
{"id": "C61", "title": "Bus accesses fit the register map", "statement": "From power-up on, every bus access of any program reads a whole register or receive memory, or writes a whole host-writable register (commands, socket modes and buffer sizes with a value the datasheet defines) or transmit memory; no access straddles registers, reads transmit memory, writes receive memory or exceeds 65535 bytes. The only exception is the raw socket method set_tx_read_pointer, which writes the read-only register Sn_TX_RD.", "quantifier": "all programs over the Device / RawDevice API, hosts, modes, bus answers and bus errors", "why_tests_cant": "Needs every reachable access, for arbitrary chip answers that feed back into addresses and lengths.", "anchors": ["src/socket.rs: all register accessors", "src/cursor.rs", "src/device.rs", "src/raw_device.rs", "src/uninitialized_device.rs", "src/register.rs"]}
{"id": "C62", "title": "UDP sends return when the chip is done with the datagram", "statement": "If from the call on the chip disposes of every SEND within W bus bytes - by transmitting it or by giving up on it - then send and send_to return, after at most W+1 polls per datagram, with Ok, a timeout or a bus error.", "quantifier": "all programs, buffers, network schedules and bus errors, by induction on the remaining bus bytes and on the remaining buffer", "why_tests_cant": "An infinite busy-wait cannot be observed by a test.", "anchors": ["src/udp.rs: block_send_command, try_flush_tx, send_all"]}
{"id": "C63", "title": "Only connect and the sends wait for the network", "statement": "Every API call other than TCP connect, TCP send, UDP send and UDP send_to ends, whatever the network and the bus do; the receive calls need at most one poll of the received size more than the receive buffer has bytes.", "quantifier": "all programs, chip states with datasheet buffer sizes, network schedules and bus errors", "why_tests_cant": "The received size is polled until two reads agree, while data keeps arriving.", "anchors": ["src/socket.rs: get_receive_size", "src/tcp.rs: receive", "src/udp.rs: receive", "src/raw_device.rs: read_frame"]}
{"id": "C64", "title": "MACRAW write_frame returns while the chip transmits", "statement": "If from the call on the chip transmits and raises SENDOK within W bus bytes of every SEND, write_frame returns after at most 2W polls, for every frame.", "quantifier": "all MACRAW programs, frames, network schedules and bus errors", "why_tests_cant": "An infinite busy-wait cannot be observed by a test.", "anchors": ["src/raw_device.rs: write_frame"]}
{"id": "C65", "title": "A failed TCP receive consumes nothing", "statement": "A TCP receive that reports a bus error has taken nothing out of the connection, so that repeating it delivers the same bytes.", "quantifier": "all sessions, buffers, network schedules and bus failures", "why_tests_cant": "Needs a bus that fails at an arbitrary byte of an arbitrary access, with the chip keeping the bytes that got through.", "anchors": ["src/tcp.rs: receive"]}
{"id": "C66", "title": "A failed TCP send hands nothing over", "statement": "A TCP send that reports a bus error has handed nothing to the chip or the peer, so that repeating it transmits the data once.", "quantifier": "all sessions, data, network schedules and bus failures", "why_tests_cant": "Needs a bus that fails at an arbitrary byte of an arbitrary access, with the chip keeping the bytes that got through.", "anchors": ["src/tcp.rs: send"]}
{"id": "C67", "title": "A failed UDP receive loses no datagram", "statement": "A UDP receive that reports a bus error leaves every queued datagram to be received.", "quantifier": "all sessions, buffers, queues, network schedules and bus failures", "why_tests_cant": "Needs a bus that fails at an arbitrary byte of an arbitrary access, with the chip keeping the bytes that got through.", "anchors": ["src/udp.rs: receive"]}
{"id": "C68", "title": "A failed UDP send leaves nothing behind", "statement": "A UDP send that reports a bus error leaves nothing in the chip that a later send would transmit.", "quantifier": "all sessions, buffers, destinations, network schedules and bus failures", "why_tests_cant": "Needs a bus that fails at an arbitrary byte of an arbitrary access, with the chip keeping the bytes that got through.", "anchors": ["src/udp.rs: send_all, socket_send, set_destination"]}
{"id": "C69", "title": "A failed MACRAW read loses no frame", "statement": "A read_frame that reports a bus error leaves every queued frame to be read.", "quantifier": "all MACRAW programs, buffers, network schedules and bus failures", "why_tests_cant": "Needs a bus that fails at an arbitrary byte of an arbitrary access, with the chip keeping the bytes that got through.", "anchors": ["src/raw_device.rs: read_frame", "src/cursor.rs: RxCursor::commit"]}
{"id": "C70", "title": "A failed MACRAW write leaves nothing behind", "statement": "A write_frame that reports a bus error leaves nothing in the chip that a later write_frame would transmit.", "quantifier": "all MACRAW programs, frames, network schedules and bus failures", "why_tests_cant": "Needs a bus that fails at an arbitrary byte of an arbitrary access, with the chip keeping the bytes that got through.", "anchors": ["src/raw_device.rs: write_frame", "src/cursor.rs: TxCursor::commit"]}
{"id": "C71", "title": "Only bytes passed to a send leave a socket", "statement": "From initialize on, whichever bus transfers fail, the packets that leave a socket consist of the bytes passed to sends on that socket since, in their order, each byte at most once.", "quantifier": "all programs over the Device API, network schedules and bus failures", "why_tests_cant": "Needs a bus that fails at an arbitrary byte of an arbitrary access, with the chip keeping the bytes that got through.", "anchors": ["src/tcp.rs: send", "src/udp.rs: send_all, socket_send", "src/socket.rs: set_tx_write_pointer"]}
{"id": "C72", "title": "A TCP stream survives bus errors without loss inside", "statement": "From a successful connect on, whichever bus transfers fail, what has left the socket is a prefix of the bytes the sends handed over, in order and without loss or repetition inside, in packets to the peer only; a send that fails hands over a prefix of its data.", "quantifier": "all programs using the handle for sends and receives, other handles for anything; network schedules and bus failures", "why_tests_cant": "Needs a bus that fails at an arbitrary byte of an arbitrary access, with the chip keeping the bytes that got through.", "anchors": ["src/tcp.rs: send, receive", "src/socket.rs: set_tx_write_pointer, set_tx_read_pointer"]}
{"id": "C73", "title": "Only written frames leave a MACRAW device", "statement": "In every MACRAW program, whichever bus transfers fail, what leaves the chip consists of bytes of the frames passed to write_frame, in their order; a frame is handed over whole or not at all.", "quantifier": "all MACRAW programs, network schedules and bus failures", "why_tests_cant": "Needs a bus that fails at an arbitrary byte of an arbitrary access, with the chip keeping the bytes that got through.", "anchors": ["src/raw_device.rs: write_frame", "src/cursor.rs: TxCursor"]}
{"id": "C74", "title": "Buffer sizes stay at 2 KiB", "statement": "Once initialize has succeeded, the transmit and receive buffers of all eight sockets are 2 KiB each throughout every Device program: no call writes a size register, and a reset restores the same sizes.", "quantifier": "all programs over the Device API (raw socket handles included), network schedules and bus failures; at every point, also one where the program panics or polls for ever", "why_tests_cant": "A stray write of one register byte; needs every program and every failure point.", "anchors": ["src/device.rs", "src/socket.rs", "src/register.rs: socketn::TXBUF_SIZE, RXBUF_SIZE"]}
{"id": "C75", "title": "TCP and MACRAW streams are intact on the SPI wires", "statement": "A Device program run over FourWire, from the first bus byte of initialize: between the return of a successful connect and the end of the program the chip has sent exactly the bytes the sends on that handle accepted, in order and to the peer only, and what the receives delivered followed by what the chip still holds is exactly what the peer sent.  For a MACRAW program, the frames sent are those written and the frames read are those received, in order.", "quantifier": "all programs, hosts, modes, initial chip states, network schedules and SPI failures outside the handle concerned", "why_tests_cant": "Spans initialisation, socket code, the bus layer and the chip's frame decoder, over unbounded programs.", "anchors": ["src/bus/four_wire.rs", "src/uninitialized_device.rs: initialize_with_host", "src/tcp.rs: connect, send, receive", "src/raw_device.rs: read_frame, write_frame"]}
{"id": "C76", "title": "Initialisation over ThreeWire configures the chip", "statement": "When initialize over ThreeWire returns Ok, the chip has been reset and holds the configured mode and addresses.", "quantifier": "all configurations, chip states, network schedules", "why_tests_cant": "No test has the chip's decoder in the loop; a mock accepts any bytes.", "anchors": ["src/bus/three_wire.rs: write_frame", "src/uninitialized_device.rs: initialize_with_host", "src/host/mod.rs: write_settings"]}
{"id": "C77", "title": "UDP datagrams on the SPI wires keep their boundaries, order and addresses", "statement": "A Device program run over FourWire that binds or connects a new UDP handle: every datagram the chip sends for it afterwards is one whole piece (2048 bytes, or what is left) of the buffer of one send, in order, from the bound port to the remote that send meant, and no other call makes one; the datagrams received are, in order, those the receives took and those still waiting, and each receive returned the oldest, sender included.", "quantifier": "all programs, hosts, modes, initial chip states, network schedules and SPI failures outside the handle concerned", "why_tests_cant": "Spans initialisation, socket code, the bus layer and the chip's frame decoder, over unbounded programs with rebinding and changing destinations.", "anchors": ["src/bus/four_wire.rs", "src/udp.rs: bind, connect, send, send_to, receive", "src/uninitialized_device.rs: initialize_with_host"]}
{"id": "C78", "title": "Bounded bus traffic: waiting never writes", "statement": "The number of bus writes a call can make is bounded independently of how often it polls (for instance 23 for connect, 4 for a TCP send, 3 for a receive, 4 per byte for a UDP send), and each round of a waiting loop costs at most two reads.  For the UDP sends this needs a chip that never answers a free size of zero.", "quantifier": "all states a program reaches, calls, and bus answers and failures at every access; also calls cut off half way", "why_tests_cant": "A test sees the traffic of one bus behaviour; a write in a polling loop shows only when the chip is slow.", "anchors": ["src/socket.rs: get_receive_size", "src/tcp.rs", "src/udp.rs", "src/raw_device.rs", "src/uninitialized_device.rs"]}
{"id": "C79", "title": "A MACRAW device stays a MACRAW device", "statement": "Once initialize_macraw has succeeded, at every moment of every program over the RawDevice: socket 0 is open in MACRAW mode with MAC filtering and 16 KiB each way, the other sockets are closed, have no memory and send and take in nothing, and the MAC address is the one given.", "quantifier": "all MACRAW programs, network schedules and bus failures; at every point, also one where the program panics or polls for ever", "why_tests_cant": "Needs every program and every failure point.", "anchors": ["src/raw_device.rs", "src/cursor.rs", "src/uninitialized_device.rs: initialize_macraw"]}
{"id": "C80", "title": "A Device keeps its addresses", "statement": "The MAC address, IP address, gateway and subnet mask given at initialisation stay in the chip for as long as the Device lives.", "quantifier": "all configurations, programs over the Device API, network schedules and bus failures; at every point, also one where the program panics or polls for ever", "why_tests_cant": "Needs every program and every failure point; no test reads the addresses back after a reset.", "anchors": ["src/device.rs: reset_device, reset", "src/host/mod.rs: write_settings", "src/uninitialized_device.rs: initialize_with_host"]}
{"id": "C81", "title": "Socket handles stay distinct over re-initialisation", "statement": "Over the whole life of a chip (initialisations, calls, resets, releases, devices put away and activated again, and re-initialisations in any order) the live socket handles of a program refer to pairwise different hardware sockets.", "quantifier": "all programs over UninitializedDevice, Device and RawDevice; all bus answers and failures", "why_tests_cant": "Needs programs that re-initialise while holding old handles.", "anchors": ["src/device.rs: reset, release, deactivate, InactiveDevice::activate, activate_ref, DeviceState::socket", "src/uninitialized_device.rs: new, initialize"]}
{"id": "C82", "title": "The common registers hold what the calls put there", "statement": "At the end of every program, every common register but PHYCFGR holds what the last call that is to change it put there: the reset value after a reset or an initialisation, the mode, retry and address values of the call that set them, the interrupt mask of the MACRAW calls; no other call changes any of them.", "quantifier": "all programs over UninitializedDevice, Device and RawDevice; all chip states before, network schedules, and bus failures in all other calls", "why_tests_cant": "Quantifies over every sequence of calls and all 57 registers at once.", "anchors": ["src/uninitialized_device.rs", "src/device.rs", "src/raw_device.rs: enable_interrupts, disable_interrupts", "src/host/mod.rs"]}
{"id": "C83", "title": "Settings made before initialisation survive it", "statement": "The retry time, retry count and mode set on an UninitializedDevice are in force on the Device or RawDevice it becomes.", "quantifier": "all settings, configurations, chip states, network schedules", "why_tests_cant": "A mock bus has no registers to be reset.", "anchors": ["src/uninitialized_device.rs: set_retry_timeout, set_retry_count, set_mode, initialize_with_host, initialize_macraw"]}
{"id": "C84", "title": "Each call gives a socket only its own commands", "statement": "A write that reaches the command register of a socket is one byte, to the socket of the handle the call is about, and one of the commands of that call: CLOSE, OPEN, CONNECT for a TCP connect, CLOSE and OPEN for UDP bind and connect, SEND for sends, RECV for receives, CLOSE for close, the one given for Socket::command, and none for any other call; in a MACRAW device RECV for read_frame and SEND for write_frame, to socket 0.  A call about no socket writes no socket register.", "quantifier": "all states a program reaches, calls, and bus answers and failures at every access; also calls cut off half way", "why_tests_cant": "A stray command shows only on the path that gives it (closing, timeout, error); a mock bus accepts it.", "anchors": ["src/socket.rs: command", "src/tcp.rs", "src/udp.rs", "src/raw_device.rs", "src/cursor.rs: commit", "src/register.rs: socketn::Command"]}
{"id": "C85", "title": "Sockets dial the peers asked for, and no others", "statement": "The peers a chip socket dials during a program that gives no CONNECT itself through Socket::command are those passed to TCP connect calls on handles of that socket, each from port 49849 + socket number, in the order of the calls and at most once per call, also when bus errors leave the destination registers half written.", "quantifier": "all programs over the Device API, chip states before, network schedules and bus failures; at every point, also one where the program panics or polls for ever", "why_tests_cant": "Needs a bus that fails at an arbitrary byte of an arbitrary access, with the chip keeping the bytes that got through.", "anchors": ["src/tcp.rs: open, connect, socket_connect", "src/socket.rs: set_destination_ip, set_destination_port, set_source_port, command"]}
{"id": "C86", "title": "Every reported error has its cause", "statement": "Each error a TCP or UDP call returns follows from what that call saw: NoMoreSockets and UnsupportedAddress without any bus access; NotConnected (kind PipeClosed) only from send and receive whose one access read a status other than Established; UnsupportedMode, SocketNotOpen and UnrecognisedStatus from a last access that read such a status; BufferFull from a free size of zero; WriteTimeout from SENDOK clear and TIMEOUT set, which was then cleared; DestinationNotSet only on a handle without destination; BufferOverflow only for an empty buffer with data waiting; Other(e) only if the last access failed with e.", "quantifier": "all states a program reaches, calls, bus answers and failures at every access", "why_tests_cant": "Each error has several paths to it, most of which need particular register values at a particular poll.", "anchors": ["src/tcp.rs: TcpSocketError, kind, socket_connect, socket_send, socket_receive", "src/udp.rs: UdpSocketError, socket_send_all, socket_send, try_flush_tx, socket_receive"]}
{"id": "C87", "title": "The getters answer what the calls set", "statement": "The gateway, subnet mask, IP and MAC address, version, retry time and retry count getters of Device and UninitializedDevice answer, at any point of the life of a chip, what the calls so far have put into those registers, or a bus error; after initialize_advanced, until the chip is reset again, the address getters answer the addresses passed to it.", "quantifier": "all programs over UninitializedDevice, Device and RawDevice, chip states before and network schedules; for the addresses also all bus failures", "why_tests_cant": "A mock bus answers whatever the test put there; a getter at the wrong register, or with its bytes swapped, passes.", "anchors": ["src/device.rs: gateway, subnet_mask, mac, ip, version, current_retry_timeout, current_retry_count", "src/uninitialized_device.rs: version, current_retry_timeout, current_retry_count", "src/bus/four_wire.rs: read_frame"]}
{"id": "C88", "title": "The settings of the sockets hold what the calls put there", "statement": "A call changes of the socket registers that are plain memory (all but command, interrupt, status and buffer pointers) only those it is to change (mode, interrupt mask, source port, destination), only of the socket of its handle, also when a bus error cuts it short; when none does, they are exactly as its arguments say: TCP connect leaves port 49849 + socket number, mode 1, mask 0 and the remote, UDP bind and connect their port, mode 2, mask 0 and (if not remembered) the remote, send_to the remote, close mode 0, the Socket setters their argument, reset_device the reset values.  After initialisation, settings that no call of a program is to change hold their reset values at every moment.", "quantifier": "all states programs over the Device API reach, chip states before, network schedules, bus failures; for the first part also calls that panic or poll for ever", "why_tests_cant": "Needs all registers of all sockets to be compared around every call, on every path.", "anchors": ["src/socket.rs: set_mode, set_interrupt_mask, set_source_port, set_destination_ip, set_destination_port", "src/tcp.rs: open, reopen, socket_connect, socket_close", "src/udp.rs: open, set_port, set_destination, socket_close", "src/register.rs: socketn"]}
{"id": "C89", "title": "The destination a UDP handle remembers is the chip's", "statement": "At the end of every program the destination a UDP handle remembers is in the destination registers of its socket, so that connect and send_to may leave out the writes for a remembered remote and still aim at the remote they are given.", "quantifier": "all programs over the Device API, chip states before, network schedules and bus failures", "why_tests_cant": "Needs a bus failure between the writes of the two registers, or a reset, followed by a call with the remote used before.", "anchors": ["src/udp.rs: set_destination, connect, send_to", "src/device.rs: reset_device"]}
{"id": "C90", "title": "What leaves the chip was sent, also when SPI transactions fail", "statement": "A program over FourWire whose SPI transactions may fail at any byte: every packet that leaves a socket consists of bytes passed to sends on handles of that socket, in their order; after a TCP connect, what leaves is a prefix of the bytes contributed by the sends (those reported by the successful ones, a prefix of the argument by the failed ones), all of it to the peer; what leaves a MACRAW device consists of whole frames passed to write_frame, in order.", "quantifier": "all programs over the Device and RawDevice API, hosts, modes, initial chip states, network schedules and failing SPI transactions", "why_tests_cant": "Spans initialisation, socket code, the bus layer and the chip's frame decoder; a failure shows only in what a later send transmits.", "anchors": ["src/bus/four_wire.rs", "src/tcp.rs", "src/udp.rs", "src/raw_device.rs", "src/cursor.rs", "src/uninitialized_device.rs"]}
{"id": "C91", "title": "The errors tell the truth about the chip", "statement": "NotConnected is said only when the socket is not in ESTABLISHED at the byte the call reads; UnsupportedMode never; SocketNotOpen only when the socket is not an open UDP socket; UnrecognisedStatus never; BufferFull only when the TX buffer has no room; WriteTimeout only when the TIMEOUT flag was up and SENDOK down, and TIMEOUT is down afterwards; BufferOverflow only when data has been received.", "quantifier": "all programs over the Device API, chip states before that show statuses of the datasheet, network schedules (events between any two bytes on the bus) and bus failures", "why_tests_cant": "Needs the chip to change its registers between two bytes of one read.", "anchors": ["src/tcp.rs: socket_connect, socket_send, socket_receive", "src/udp.rs: socket_send_all, socket_send, try_flush_tx, socket_receive", "src/socket.rs: get_status, get_tx_free_size, has_interrupt, get_receive_size"]}
{"id": "C92", "title": "The methods of Socket read and change the registers they name", "statement": "get_status, has_interrupt and the pointer and free-size getters of a raw socket answer the value its register had at a byte of the call, and leave the chip alone; reset_interrupt clears the flags of its argument and no other, the pointer setters set exactly their pointer (the read-only Sn_TX_RD stays), command() has the chip execute that command, each on the socket of the handle only; phy_config() answers link, speed, duplex and mode as in PHYCFGR.", "quantifier": "all programs before, sockets, arguments, chip states and network schedules (events between any two bytes on the bus)", "why_tests_cant": "Needs the chip to change a pointer between two bytes of one read; a test on a mock sees only the bytes it supplied.", "anchors": ["src/socket.rs: get_status, has_interrupt, reset_interrupt, get_tx_read_pointer, set_tx_read_pointer, get_tx_write_pointer, set_tx_write_pointer, get_rx_read_pointer, set_rx_read_pointer, command, get_tx_free_size", "src/device.rs: phy_config"]}
{"id": "C93", "title": "From one program to the other", "statement": "A program on one device sends from a UDP handle, a program on another receives on one.  If the network may lose, reorder and repeat datagrams but neither invents nor changes any, every receive that returns Ok with the first device as the sender has in its buffer a whole piece (of at most 2048 bytes) of the data of one send call of the first program that meant the second device; if the network keeps the order and repeats nothing, the receives give the pieces in the order sent, each at most once.  A receive never gives a datagram that was not brought to its socket since initialisation.  For MACRAW: the frames read are frames the other device wrote with success, in order, each at most once.  For TCP: the bytes received on a connection are those of segments brought to its socket since the connect began, whole, in order, each at most once; and over a network that carries the stream, they are the start of the bytes the program on the other device had accepted.", "quantifier": "all pairs of programs over FourWire, hosts, modes, chip states before, network schedules on both sides; no bus error on the two handles", "why_tests_cant": "Two drivers, two chips and the network between them: no test of one driver shows it.", "anchors": ["src/udp.rs", "src/tcp.rs", "src/raw_device.rs", "src/cursor.rs", "src/bus/four_wire.rs", "src/uninitialized_device.rs"]}
{"id": "C94", "title": "A command is given only once the one before is taken", "statement": "Between two commands a call or program gives a socket, with no bus error in between, the chip is seen to have taken the first: Sn_CR read back 0.  In particular after SEND the next command comes only once the chip has said that the SEND is over, and after CONNECT only once it has said that the connection is up or has failed.", "quantifier": "all programs over the Device and RawDevice API; all bus answers and failures; programs cut off anywhere", "why_tests_cant": "A mock bus, and a chip that is fast enough, never shows a command given too early.", "anchors": ["src/socket.rs: command", "src/tcp.rs: open, reopen, socket_connect, socket_send", "src/udp.rs: open, block_send_command, try_flush_tx", "src/raw_device.rs: write_frame", "src/cursor.rs: commit", "src/register.rs: socketn::COMMAND"]}
{"id": "C95", "title": "The time the chip takes over a command does not show", "statement": "A program comes to the same end, with the same answers of every call, against a chip that takes a command some time after it was written to Sn_CR as against one that obeys at once; in particular receive and read_frame hand over only what arrived, and a socket just opened can be used.", "quantifier": "all programs over the Device, UninitializedDevice and RawDevice API, chip states before, network schedules, bus failures, and delays of each command", "why_tests_cant": "A mock bus has no delays, and on hardware they are a matter of a few bytes on the bus.", "anchors": ["src/socket.rs: command", "src/tcp.rs: socket_receive, open, socket_connect", "src/udp.rs: open, socket_receive", "src/cursor.rs: RxCursor::commit", "src/raw_device.rs: read_frame"]}
{"id": "C96", "title": "A TCP connection ends in order", "statement": "close tells the peer that the stream has ended (DISCON) and gives up the socket only once everything send accepted has been acknowledged.", "quantifier": "all TCP sessions, network schedules and programs over the whole life of a chip", "why_tests_cant": "Whether the peer has acknowledged everything when close is called depends on the network; a mock has no peer.", "anchors": ["src/tcp.rs: socket_close, close", "src/socket.rs: command", "src/register.rs: socketn::Command"]}
{"id": "C97", "title": "A program comes to its end when the network answers", "statement": "If no connection is lost, no SEND is given up, no peer accepts and closes between two bytes on the bus, and the decision about a connection, a transmission and the report of its completion are never more than W bus bytes away, then no call of a program goes on polling: every loop is left after at most 2W + 1 rounds, or one round per byte of the largest buffer or of the data of a UDP send, and the program comes to its end or aborts.", "quantifier": "all programs over the whole life of a chip (initialisations, resets, sleeping, raw devices), chip states before, network schedules that answer, and bus failures", "why_tests_cant": "A loop that never ends under one rare order of events is not found by waiting.", "anchors": ["src/tcp.rs: socket_connect, socket_send, socket_receive", "src/udp.rs: socket_send_all, block_send_command, try_flush_tx, socket_receive", "src/raw_device.rs: write_frame, read_frame", "src/socket.rs: get_receive_size, command", "src/uninitialized_device.rs"]}
{"id": "C98", "title": "The interrupt pin", "statement": "The chip pulls its interrupt pin only after enable_interrupts, then exactly for the kinds of interrupt asked for; clear_interrupts lets go of it, disable_interrupts silences it; and as long as the program only reads and writes frames no event is lost: a flag that is up keeps the pin asserted, a frame that arrives asserts it, and once nothing was left to read anything waiting later has asserted it.", "quantifier": "all programs over the whole life of a chip (first part) and all MACRAW programs, network schedules, bus failures", "why_tests_cant": "A lost wake-up needs a frame arriving between two particular bytes on the bus; no mock has an interrupt pin.", "anchors": ["src/raw_device.rs: enable_interrupts, clear_interrupts, disable_interrupts, read_frame, write_frame", "src/socket.rs: set_interrupt_mask, reset_interrupt", "src/register.rs: common::SOCKET_INTERRUPT_MASK, socketn::INTERRUPT_MASK"]}
{"id": "C99", "title": "The driver works whichever way the interrupt mask is meant", "statement": "The datasheet can be read to say that a flag which Sn_IMR masks does not show in Sn_IR at all.  The driver does not depend on that: on such a chip, too, TCP send completes, receive delivers what arrived, UDP reports timeouts, and a raw device goes on writing frames after enable_interrupts.", "quantifier": "all programs over the Device and RawDevice API, all bus answers and failures consistent with such a chip, all fuel", "why_tests_cant": "The meaning of a mask is a property of the silicon; a mock answers what its author believes.", "anchors": ["src/tcp.rs: open, reopen, socket_send, socket_receive", "src/udp.rs: open, try_flush_tx, socket_receive", "src/raw_device.rs: enable_interrupts, write_frame", "src/socket.rs: set_interrupt_mask, has_interrupt"]}
{"id": "C100", "title": "A call that is refused has no effect", "statement": "When a call of the Device API answers an error of its own (neither a bus error nor the write timeout the network caused) or WouldBlock, it has written nothing on the bus, and the device, the program's handles and the caller's buffer are as before.  A remote with an IPv6 address is always refused with UnsupportedAddress, without any access on the bus.", "quantifier": "all programs before, calls, arguments, bus answers and failures, fuel", "why_tests_cant": "Each refusal has its own path, and a mock that answers the refusing status seldom watches what was written before.", "anchors": ["src/tcp.rs: connect, socket_connect, socket_send, socket_receive", "src/udp.rs: connect, set_destination, socket_send_all, socket_send, socket_send_to, send_to, socket_receive", "src/device.rs: take_socket"]}
{"id": "C101", "title": "Connections can be told apart", "statement": "Two connections a program makes never have both ends in common, so a peer can tell a new connection from an old one; UDP sockets that the program did not bind have different local ports.", "quantifier": "all programs over the whole life of a chip, chip states before, network schedules and bus failures", "why_tests_cant": "On a bench the old connection is usually gone before the next is made; a mock has no peer that remembers.", "anchors": ["src/tcp.rs: connect, open, reopen", "src/udp.rs: UdpSocket::new, open, set_port, connect, send_to", "src/socket.rs: set_source_port"]}
{"id": "C102", "title": "What has arrived waits until it is asked for", "statement": "What a socket has received stays in the chip, in order and at the front of its queue, until the program receives it, closes or connects the socket, or resets the chip: sends, calls on other sockets and calls that fail lose nothing of it.  (Connecting or binding a UDP socket does not lose datagrams that are already waiting.)", "quantifier": "all Device programs and raw-device programs, calls, outcomes (bus errors, aborts and endless waits included), network schedules and bus failures", "why_tests_cant": "What another call does to a waiting datagram shows only if one waits at that moment, and only when it is received later.", "anchors": ["src/tcp.rs: send, connect", "src/udp.rs: bind, connect, send_to, open, receive", "src/socket.rs: command, set_rx_read_pointer", "src/device.rs"]}
{"id": "C103", "title": "The first datagram after connect or bind is reported truthfully", "statement": "The first send or send_to on a UDP socket after its connect or bind, with a buffer that is not empty and fits the TX buffer, returns Ok if and only if exactly this datagram left, whole, for the remote asked for, and WriteTimeout if and only if nothing left.", "quantifier": "all programs before and between (receives, port changes, calls on other handles), remotes, data, network schedules and bus failures of other calls", "why_tests_cant": "Needs a chip that gives up a transmission, and watches the wire rather than the bus.", "anchors": ["src/udp.rs: connect, bind, open, send, send_to, socket_send_all, block_send_command, try_flush_tx"]}
{"id": "C104", "title": "The README's example does what it says", "statement": "initialize_manual, socket, connect, send, close: afterwards the chip has the addresses asked for, exactly the datagram given left socket 0 from port 49849 for the remote given, or send said WriteTimeout and nothing left, and the socket is free again.", "quantifier": "all addresses, modes, remotes, data of 1 to 2048 bytes, chip states before and network schedules; no bus error", "why_tests_cant": "The README's program is compiled against a mock that answers nothing (no_run).", "anchors": ["README.md", "src/uninitialized_device.rs: initialize_manual", "src/udp.rs: socket, connect, send, close", "src/device.rs: take_socket, release_socket"]}
{"id": "C105", "title": "A device set up with initialize comes by an address", "statement": "A device that was set up with initialize, which is meant for DHCP, has an IP address at some time.", "quantifier": "all programs, chip states, network schedules and bus failures", "why_tests_cant": "That something never happens is not shown by a test.", "anchors": ["src/uninitialized_device.rs: initialize", "src/host/dhcp.rs: refresh"]}
{"id": "C106", "title": "A connected UDP socket hears only its peer", "statement": "receive on a UDP socket that was connected to a remote delivers only datagrams of this remote.", "quantifier": "all UDP sessions and network schedules", "why_tests_cant": "A bench has one peer.", "anchors": ["src/udp.rs: connect, socket_receive", "src/socket.rs: set_destination_ip, set_destination_port"]}
{"id": "C107", "title": "The crate's defaults are the chip's", "statement": "After initialize with Mode::default every common register holds the value the chip resets it to; HostConfig::default and RetryTime::default are those values.", "quantifier": "all chip states before, hardware addresses, network schedules", "why_tests_cant": "The unit tests compare literals with literals, not with the chip's reset values.", "anchors": ["src/lib.rs: Mode::default", "src/host/mod.rs: HostConfig::default", "src/register.rs: RetryTime::default", "src/uninitialized_device.rs: initialize"]}
{"id": "C108", "title": "The gateway initialize_manual makes up", "statement": "initialize_manual sets a gateway that is another host of this device's subnet, which is 255.255.255.0.", "quantifier": "all addresses, modes, chip states before and network schedules", "why_tests_cant": "The address that breaks it is one in 256.", "anchors": ["src/uninitialized_device.rs: initialize_manual, initialize_advanced"]}
{"id": "C109", "title": "A TCP program that reads in time gets every byte", "statement": "If every receive since the connect had room for all that was waiting, and nothing arrived while it ran, then one more such receive on the connection returns all that waits: what the receives delivered together is all that arrived since the connect.", "quantifier": "all programs, fuels, handles, peers, buffers, network schedules, bus errors on other handles", "why_tests_cant": "The driver clears RECV after every read; that this never hides a byte from a reader in time concerns every interleaving of arrivals and calls.", "anchors": ["src/tcp.rs: socket_receive, receive", "src/socket.rs: reset_interrupt"]}
{"id": "C110", "title": "A UDP program that reads in time gets every datagram", "statement": "If every receive since the bind or connect found at most one datagram, and none arrived while it ran, then all datagrams that arrived are those the receives returned, one each and in order, followed by those that wait, and the flag is up while any waits; receive says WouldBlock only if none waits.", "quantifier": "all programs, fuels, handles, buffers, network schedules, bus errors on other handles", "why_tests_cant": "receive drops whatever else is queued; that nothing is lost otherwise concerns every interleaving of arrivals and calls.", "anchors": ["src/udp.rs: socket_receive, receive", "src/socket.rs: set_rx_read_pointer, reset_interrupt"]}
{"id": "C111", "title": "An answer over UDP tells the asker what they sent and nothing else", "statement": "If a program sends what receive returned, the first n bytes of the buffer, with send_to to the address receive returned, then all that leaves goes to the sender of the datagram and is the datagram's data.", "quantifier": "all programs, buffers, queues of datagrams and network schedules", "why_tests_cant": "It takes a second datagram in the queue, or a buffer longer than the datagram, and a look at the answer on the wire.", "anchors": ["src/udp.rs: socket_receive, receive, send_to"]}
{"id": "C112", "title": "A device always reports the default operation mode of the PHY", "statement": "Whatever the chip was used for before, every phy_config that a device answers with Ok decodes to PhyOperationMode::default(), so operation_mode() does not abort; from the first successful initialisation on the operation mode bits of PHYCFGR hold that value, whatever is called afterwards and however the calls end.", "quantifier": "all chip states at the start, programs over the whole life of the chip, network schedules and bus errors", "why_tests_cant": "operation_mode aborts only for one value of three bits that no test chip has after a reset; that no call ever writes the register, and that no failed call does, is a statement about all of them.", "anchors": ["src/register.rs: PhyOperationMode, PhyConfig::operation_mode", "src/device.rs: phy_config", "src/uninitialized_device.rs: initialize_with_host"]}
{"id": "C113", "title": "A TCP echo program gives the peer its own bytes back in order", "statement": "A program that receives when it has nothing to give back and otherwise sends what is left to be given back, for any number of calls on an established connection: all that the peer has sent so far is, in order, what has gone back to it, what the program still holds, and what waits in the chip; nothing goes to anyone else; while a call waits, what has gone back is the start of what the peer has sent. It need not all go back: with a buffer smaller than what arrived the program can go on for ever without giving back the rest, although every call succeeds.", "quantifier": "all numbers of calls, buffers, sizes of arriving pieces and of accepted pieces, network schedules, poll budgets", "why_tests_cant": "The composition of partial sends and partial receives depends on where the network splits the stream, at every bus access; a loopback test sees a few splits, and the stall needs unboundedly many calls to be called one.", "anchors": ["src/tcp.rs: TcpSocket::receive, TcpSocket::send", "src/cursor.rs"]}
{"id": "C114", "title": "SPI operations of a frame, and SPI errors", "statement": "A ThreeWire frame asks the SPI peripheral, piece by piece (fours, then at most a two and a one), for the address, the control byte and the data of the piece, with exactly the bytes given by the block, the address and the data; it stops at the first operation that fails and answers its error, and answers Ok only if all were done; a read leaves in the buffer what the transfers answered and nothing else. Over either bus, an SPI operation that fails is the last of the driver call that it belongs to, and the call answers that error; a call that answers a bus error did nothing after the operation that failed with it.", "quantifier": "all answers of the SPI peripheral (data and errors, at any operation), all blocks, addresses, data, and all calls with all their arguments", "why_tests_cant": "A test needs an SPI mock that fails at one chosen operation; the claim is about a failure at any operation of any call, and about data of any length.", "anchors": ["src/bus/three_wire.rs: read_frame, write_frame", "src/bus/four_wire.rs: read_frame, write_frame", "src/device.rs", "src/tcp.rs", "src/udp.rs", "src/raw_device.rs", "src/uninitialized_device.rs"]}
{"id": "C115", "title": "What holds for every bus holds over both wires", "statement": "With an SPI peripheral that answers anything: over FourWire a driver computation makes one transaction per bus access, with exactly the bytes of the access, and the accesses are an execution over an arbitrary bus that ends in the same way; over ThreeWire the same with one frame per access, except that the computation can also abort in the middle of a frame by address overflow. Hence a call of a device aborts over FourWire only in UDP receive, and over ThreeWire besides only by overflow, in a build with overflow checks, in the buffer memory of its own socket, never at a register; over FourWire the control byte of every transaction selects a block of the socket of the handle; over ThreeWire the operations of a call come in threes, address, control byte selecting a block of the socket with the write bit clear, and one, two or four bytes. Initialisation, refresh, reset and the MACRAW interrupt settings never abort over either wire.", "quantifier": "all driver computations, all answers of the SPI peripheral at every operation, all programs and calls", "why_tests_cant": "The driver is generic in its bus; a test picks one bus and one peripheral. That nothing proved for every bus is lost when the two real buses are plugged in is a statement about all computations.", "anchors": ["src/bus/four_wire.rs", "src/bus/three_wire.rs: address += last_length_written", "src/bus/mod.rs: Bus", "src/device.rs", "src/udp.rs", "src/tcp.rs"]}
{"id": "C116", "title": "A MACRAW repeater sends the frames that came, in order, once each", "statement": "A program that reads a frame and writes it out again, round by round: at any moment of a MACRAW program without bus errors, after any number of rounds, the frames that were queued and those that have come since are, in order, those taken and those still queued; what has gone out is exactly the frames taken, in order and once each, cut to the buffer (empty ones leave nothing). Every round takes a frame while there is one. With a buffer that is long enough nothing is cut.", "quantifier": "all MACRAW programs before it, all network behaviour, all numbers of rounds, all buffers up to the chip's 16 KiB", "why_tests_cant": "A loss or a duplicate needs a certain interleaving of arrivals with the pointer reads of read_frame and the flag of write_frame; tests run one.", "anchors": ["src/raw_device.rs: read_frame", "src/raw_device.rs: write_frame", "src/cursor.rs"]}
{"id": "C117", "title": "A program passing bytes between two TCP connections loses, doubles, swaps and reorders none", "statement": "A program that holds two connected TCP sockets and serves the two directions in any order, receiving from the one and sending what it got on the other: without bus errors, in both directions, all that one peer has sent is, in order, what has gone to the other peer, what the program still has to pass on and what waits in the chip. While a call waits for the network, what has gone to one peer is the start of what the other has sent.", "quantifier": "all programs before it, all network behaviour on both connections, all orders of service, all buffers", "why_tests_cant": "Mixing up the two sockets' buffers, pointers or interrupt flags shows only with both connections busy at particular moments; the test suite has no chip.", "anchors": ["src/tcp.rs: TcpSocket::receive", "src/tcp.rs: TcpSocket::send", "src/socket.rs", "src/cursor.rs"]}
{"id": "C118", "title": "A UDP server answers those who asked, in order", "statement": "A program that receives datagrams on an open UDP handle and answers each with send_to to the address receive returned, by whatever rule, round by round, without bus errors: what waited and what has come since is, in order, what was taken and what waits; the packets that left are the answers to what was taken, in order, each to the one who asked, made of their address and of bytes that start with what they said (just that if the buffer is as long as the datagram). Nobody gets an answer meant for another, nor one that they did not ask for. So too while a send waits, and when receive panics.", "quantifier": "all programs before it, all network behaviour, all answering rules, all numbers of rounds, all buffers", "why_tests_cant": "The remembered destination, the registers and the receive pointer change in every round; a mix-up needs two askers and a certain interleaving of arrivals, timeouts and sends.", "anchors": ["src/udp.rs: UdpSocket::receive", "src/udp.rs: UdpSocket::send_to", "src/udp.rs: set_destination", "src/cursor.rs"]}
{"id": "C119", "title": "What holds of every list of calls holds of every program that chooses its calls by the answers", "statement": "A program that picks each next call by the answers of all calls so far, by any rule and for any number of calls, does from any state and against any chip, network and bus what some list of calls does: same outcome, same final state, same bus traffic; the calls are exactly those the rule picks. Hence every statement proved for all lists of calls (over the life of a device or on one device) is true of every such program. For instance: when the network answers, it comes to its end or aborts.", "quantifier": "all rules, all numbers of calls, all start states, all environments, all buses", "why_tests_cant": "There are uncountably many rules; a test runs one.", "anchors": ["src/device.rs", "src/uninitialized_device.rs", "src/tcp.rs", "src/udp.rs", "src/raw_device.rs"]}
{"id": "C120", "title": "A call that waits has been told to wait", "statement": "Over any bus, which may answer anything and fail at any time, a program of any calls that is caught in a busy-wait is so for a visible reason: all calls before returned, and the last bus calls of the one it is in are its polls, all of them without a bus error. connect polls right after its CONNECT command and has read neither ESTABLISHED nor CLOSED; TCP send and write_frame poll right after their SEND command and have not read SENDOK; the UDP sends poll right after a SEND command and have read a transmit read pointer different from the write pointer each time, or have given as many SEND commands as they may poll; the receiving calls have read two different received sizes each time. No other call (set-up, reset, open, close, bind, registers, PHY, interrupts, pool) waits at all.", "quantifier": "all programs over whole device lives, all buses, all numbers of polls", "why_tests_cant": "Tests use a bus that answers as the test author expects; a call polling the wrong register or the wrong bit hangs only with other answers.", "anchors": ["src/tcp.rs:85-178", "src/udp.rs:141-296", "src/socket.rs:73-82", "src/socket.rs:188-198", "src/raw_device.rs:91-140"]}
{"id": "C121", "title": "How long a call polls is no part of what it does", "statement": "The busy-wait loops of the code have no bound. A program of any calls that comes to its end (returns, aborts, or is cut off) with at most n polls per wait does exactly the same with any larger number of polls: same answers, same final state of handles and chip, same bus traffic, and the same on both SPI wires, against any chip and network and over any bus. Two bounds that are enough give the same; one that is not enough shows in no other way than in the program being caught polling, at a point the larger bound passes too.", "quantifier": "all programs over whole device lives, all bounds, all chips, networks and buses, both wires; also programs that choose calls by the answers", "why_tests_cant": "A property of two runs with different bounds, for all bounds; it is what makes statements about bounded polling statements about the unbounded loops of the code.", "anchors": ["src/tcp.rs:116-137", "src/tcp.rs:173", "src/udp.rs:171-189", "src/udp.rs:258-263", "src/socket.rs:188-198", "src/raw_device.rs:134-137"]}
{"id": "C122", "title": "A call that succeeds has done exactly this on the bus", "statement": "Over an arbitrary bus, the whole bus traffic of a data call that answers Ok is fixed up to what the bus answered, in order, with nothing before, between or after. TCP send: status, free size, write pointer, one copy of as many bytes as were answered, pointer moved by that, SEND, flags until SEND_OK, SEND_OK cleared. TCP receive: status and flags, and if data is flagged the size until two readings agree, read pointer, one copy, pointer moved, RECV, flag cleared. TCP connect: the opening writes, one status, a second opening unless INIT, address, port, CONNECT, statuses until ESTABLISHED or CLOSED, after CLOSED another opening. UDP receive, UDP send (a sequence of datagrams that put together are the data, each followed by the pointer pairs until they agree) and MACRAW write likewise.", "quantifier": "all buses and all their answers, all sockets, all data, buffers, addresses and cached destinations", "why_tests_cant": "The statement is about the whole sequence for every answer the bus can give; a test sees the sequence for the answers it scripts.", "anchors": ["src/tcp.rs:47-138", "src/tcp.rs:144-219", "src/udp.rs:141-397", "src/raw_device.rs:124-141", "src/socket.rs:188-198"]}
{"id": "C123", "title": "What a program does is a function of what the bus answers", "statement": "Two executions of the same program, over any two buses, are the same up to the first bus access that is answered differently, and that access is the same in both (same block, address, and length or data). On a bus whose answers are any function of what happened before, a program has exactly one behaviour. And the traffic that a successful data call must have had (C122) is exactly what makes it succeed: for TCP send, receive and connect, UDP receive and send, and MACRAW write and read, a call answers Ok with these results and this traffic, for some number of polls, if and only if the traffic is of that form.", "quantifier": "all programs over whole device lives, all buses, all data; both directions for the data calls", "why_tests_cant": "An equivalence over all traffic and a statement about all pairs of runs; tests sample single runs.", "anchors": ["src/bus/mod.rs:9-16", "src/tcp.rs:47-219", "src/udp.rs:104-397", "src/raw_device.rs:124-141"]}
{"id": "C124", "title": "The calls that carry no data have fixed traffic", "statement": "Initialisation (with DHCP host, manual, advanced, MACRAW), TCP and UDP close, UDP bind and connect, reset, the getters and setters of the device and the interrupt calls of MACRAW answer Ok if and only if their whole bus traffic is a fixed sequence that depends on their arguments only (and on the cached destination for UDP connect), every access succeeding. Initialisation reads the version (04, unless the check is switched off), resets, writes the mode, then gateway, mask, MAC and IP in this order, each unless it is zero; initialize with the DHCP host writes no address at all.", "quantifier": "all buses, arguments, sockets and cached destinations; both directions", "why_tests_cant": "An equivalence between success and the complete traffic, for all arguments and all bus answers.", "anchors": ["src/uninitialized_device.rs:54-128", "src/host/mod.rs:43-69", "src/raw_device.rs:19-82", "src/tcp.rs:79-83", "src/udp.rs:85-139", "src/udp.rs:399-406", "src/udp.rs:492-536", "src/device.rs:104-272"]}
{"id": "C125", "title": "A call that is refused, or panics, has done exactly this on the bus", "statement": "An error other than a bus error, or a panic, has one of the following complete traffics and no other, and each of them gives it. TCP send and receive: the status read, not ESTABLISHED. TCP connect: nothing (IPv6), or the opening and a status that is UDP, MACRAW or unknown. UDP receive: the status read, not UDP; or the flags without RECV; or RECV and a size of 0 (would block) or a buffer of length 0 (overflow); the buffer is unchanged. UDP send: the status read, not UDP, or UDP without a destination; or no free space; or some datagrams as in a send that succeeds and then one refused by its status, by no space, or by TIMEOUT after SEND. UDP send_to: nothing (IPv6), or the destination unless it is the cached one and then the traffic of a refused send; the handle has the new destination. UDP receive panics if and only if the header gives more than the buffer holds, and a MACRAW read if and only if the size is 1; neither has written anything.", "quantifier": "all buses, sockets, buffers, payloads of any length and numbers of polls; both directions", "why_tests_cant": "An equivalence between the error and the complete traffic, which is unbounded.", "anchors": ["src/tcp.rs:60-217", "src/tcp.rs:231-261", "src/udp.rs:115-313", "src/udp.rs:325-397", "src/udp.rs:505-518", "src/udp.rs:538-549", "src/raw_device.rs:91-115", "src/cursor.rs:19-56"]}
