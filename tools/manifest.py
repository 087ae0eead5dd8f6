"""Writes MANIFEST.json.  Run from /verif: python3 tools/manifest.py"""
import json, re, glob

P, Q = "proved", "partial"
CLAIMS = [
 ("C01", P, ["C01_four_wire_write", "C01_four_wire_read"], ""),
 ("C02", P, ["C02_whole_program_four_wire", "C02_whole_life_four_wire"], ""),
 ("C03", Q, ["C03_three_wire_read_partial", "C03_three_wire_read_refuted"],
  "Refuted: only frames of 0, 1, 2 or a multiple of 4 bytes leave the link idle, and longer ones can "
  "return wrong bytes. Proved exact for those lengths."),
 ("C04", Q, ["C04_three_wire_write_refuted", "C04_three_wire_never_stores", "C04_three_wire_write_reports_ok"],
  "Refuted: the write bit is never set, so no write frame from an idle link ever stores anything, although it reports Ok."),
 ("C05", Q, ["C05_three_wire_overflow_partial", "C05_three_wire_overflow_refuted"],
  "Refuted: with overflow checks, any non-empty frame with address + length >= 2^16 panics. The exact condition is proved."),
 ("C07", Q, ["C07_retry_time_partial", "C07_retry_time_refuted", "C07_default_is_reset_value"],
  "Refuted: above 6553 ms the conversion wraps (or panics in a checked build). Proved up to 6553 ms."),
 ("C08", P, ["C08_mode_register"], ""),
 ("C09", Q, ["C09_phy_partial", "C09_mode_value", "C09_phy_refuted"],
  "Refuted: operation mode bits 101 panic. Proved for all other bytes."),
 ("C10", P, ["C10_status"], ""),
 ("C11", P, ["C11_mac_address"], ""),
 ("C12", P, ["C12_socket_blocks"], ""),
 ("C13", P, ["C13_udp_header"], ""),
 ("C14", P, ["C14_unique"], ""),
 ("C15", P, ["C15_allocation", "C15_lowest"], ""),
 ("C16", Q, ["C16_close_partial", "C16_close_chip", "C16_close_refuted"],
  "Refuted: a close that meets a bus error consumes the handle and leaks the hardware socket. "
  "Proved for programs in which every close succeeds."),
 ("C17", P, ["C17_reset", "C17_reset_chip"], ""),
 ("C18", P, ["C18_suspend", "C18_put_away", "C18_by_reference"], ""),
 ("C19", Q, ["C19_two_devices_partial", "C19_two_devices_refuted"],
  "Refuted: releasing a handle into the other device. Proved when every handle is used on its own device."),
 ("C20", P, ["C20_blocks", "C20_blocks_other", "C20_index"], ""),
 ("C22", P, ["C22_bus_errors"], ""),
 ("C23", Q, ["C23_no_panic_partial", "C23_whole_life_partial", "C23_no_panic_refuted", "C23_whole_life_refuted"],
  "Refuted: UDP receive and MACRAW read_frame can panic. Proved for all other calls, also over the whole life of a chip, with what was read just before an abort."),
 ("C24", P, ["C24_would_block"], ""),
 ("C28", P, ["C28_version_check"], ""),
 ("C29", P, ["C29_refresh", "C29_refresh_chip"], ""),
 ("C31", P, ["C31_connect_dials", "C31_local_ports_differ"], ""),
 ("C32", Q, ["C32_connect_ok_refuted", "C32_connect_ok_partial"],
  "Refuted: when the peer refuses or does not answer, connect closes and reopens the socket and returns Ok. "
  "Proved: Ok means Established was seen or the socket is freshly reopened."),
 ("C33", Q, ["C33_connect_terminates_refuted", "C33_connect_terminates_partial"],
  "Refuted: a peer that accepts and closes between two polls leaves the socket in CLOSE_WAIT and connect polls forever. "
  "Proved: connect returns if the attempt succeeds or fails within some window of every poll and the peer never accepts and closes between two bytes on the bus."),
 ("C34", P, ["C34_send_needs_established"], ""),
 ("C35", P, ["C35_stream", "C35_send"], ""),
 ("C36", P, ["C36_send_bounds"], ""),
 ("C37", Q, ["C37_send_terminates_refuted", "C37_send_terminates_partial"],
  "Refuted: a connection lost between the status check and the SEND command makes send poll for ever. "
  "Proved: send returns if the connection stays up and the chip reports completion within some window."),
 ("C38", P, ["C38_stream", "C38_receive"], ""),
 ("C39", Q, ["C39_receive_available_refuted", "C39_receive_race_refuted", "C39_receive_available_partial"],
  "Refuted: receive clears the RECV flag although bytes are left (small buffer, or bytes that arrive during the call); "
  "every later receive returns Ok(0) until new data arrives. Proved: after an arrival since the last receive, Ok(n) delivers what is waiting."),
 ("C40", Q, ["C40_read_after_close_refuted", "C40_read_after_close_partial"],
  "Refuted: in CLOSE_WAIT every receive returns NotConnected, the bytes stay in the chip. "
  "Proved: NotConnected is only returned when the connection has left Established."),
 ("C42", Q, ["C42_send_not_stale_refuted", "C42_send_not_stale_partial"],
  "Refuted: a bus error while clearing SENDOK makes the next send report Ok before, or without, its data being transmitted. "
  "Proved when the transmitter is at rest, whatever happened before."),
 ("C41", P, ["C41_receive_nothing"], ""),
 ("C48", Q, ["C48_send_preconditions_partial", "C48_send_preconditions_refuted"],
  "Refuted: a buffer larger than the free space goes out in several datagrams, so BufferFull or "
  "SocketNotOpen can be returned after part of it was sent. Everything else is proved."),
 ("C43", Q, ["C43_bind", "C43_new_socket", "C43_connect_partial", "C43_connect_refuted"],
  "bind is proved in full. Refuted for connect: after reset_device the handle still remembers its destination, so connecting "
  "to the same remote again leaves the destination registers at zero. Proved when the remembered destination is the chip's."),
 ("C44", Q, ["C44_addressed_partial", "C44_addressed_refuted", "C44_connect_refuted"],
  "Refuted: a bus error between the two destination registers makes a later send_to use the wrong address; send_to also redirects "
  "later sends of a connected socket. Proved for the remote last named by connect or send_to while no call on the handle meets a bus error."),
 ("C45", Q, ["C45_whole_buffer_partial", "C45_whole_buffer_refuted"],
  "Refuted: a SENDOK left over from the previous send makes a send that timed out return Ok. Proved when no such flag is left, "
  "or no timeout is pending at the end."),
 ("C46", Q, ["C46_one_datagram_partial", "C46_one_datagram_refuted"],
  "Refuted: an empty buffer sends nothing, one larger than the TX buffer sends several. Proved for buffers that fit, under the condition of C45."),
 ("C47", Q, ["C47_timeout_partial", "C47_timeout_refuted"],
  "Refuted by the same stale SENDOK as C45. Proved when no flag of an earlier send is left and the buffer fits."),
 ("C49", Q, ["C49_queue", "C49_datagram_partial", "C49_datagram_refuted"],
  "Refuted: the returned length is min(queued bytes, buffer length), not the payload length. The payload, its place and the sender are proved."),
 ("C50", Q, ["C50_one_per_call_partial", "C50_one_per_call_refuted"],
  "Refuted: one receive discards everything queued when it read the size. Proved when a single datagram is queued; order is proved always."),
 ("C51", Q, ["C51_receive_panics_partial", "C51_receive_panics_session_partial", "C51_receive_panics_refuted"],
  "Refuted: a datagram longer than the buffer panics. The exact condition is proved, for any bus behaviour and for any program against the chip."),
 ("C59", P, ["C59_flush", "C59_try_flush", "C59_send"], ""),
 ("C52", P, ["C52_receive_preconditions"], ""),
 ("C60", Q, ["C60_mask_refuted", "C60_mask_udp_refuted"],
  "Refuted: the mask written is SENDOK AND TIMEOUT = 0, so both interrupts are disabled, for every socket."),
 ("C54", P, ["C54_raw_read_bounds", "C54_raw_read_exact"], ""),
 ("C06", P, ["C06_retry_timeout", "C06_retry_count"], ""),
 ("C21", P, ["C21_no_interference"], ""),
 ("C25", P, ["C25_initialize_advanced"], ""),
 ("C26", P, ["C26_initialize_manual"], ""),
 ("C27", Q, ["C27_mac_refuted"],
  "Refuted: the argument is dropped; the hardware address always stays 00:00:00:00:00:00."),
 ("C58", P, ["C58_consistent_size"], ""),
 ("C30", P, ["C30_macraw_initialisation"], ""),
 ("C53", P, ["C53_frames_in_order", "C53_read_frame"], ""),
 ("C55", P, ["C55_write_frame", "C55_frames_on_the_wire"], ""),
 ("C56", Q, ["C56_write_returns_refuted"],
  "Refuted: the SEND command is issued and SENDOK awaited for every frame; without SENDOK the call never returns."),
 ("C61", P, ["C61_accesses", "C61_accesses_macraw", "C61_sizes", "C61_set_tx_read_pointer", "C61_whole_life"], ""),
 ("C62", Q, ["C62_send_returns_refuted", "C62_send_waits_refuted", "C62_send_returns_partial"],
  "Refuted: if the chip gives up without moving its read pointer (TIMEOUT raised), the pointers never agree and the interrupt is never looked at. Proved for chips that transmit or move the pointer on."),
 ("C63", P, ["C63_others_end", "C63_receive_ends", "C63_whole_life"], ""),
 ("C64", P, ["C64_write_returns"], ""),
 ("C65", Q, ["C65_receive_error_refuted", "C65_receive_error_partial", "C65_resume_partial"],
  "Refuted: a bus failure between the RX pointer and RECV makes the next receive return bytes the peer never sent; after RECV the bytes are gone. Proved: what was taken is at the front of the buffer, nothing is lost between buffer and chip, and the connection goes on if the pointer is in step."),
 ("C66", Q, ["C66_send_error_refuted", "C66_send_error_partial"],
  "Refuted: a bus failure before SEND leaves the data to be sent with the next send's; after SEND the peer has it. Proved: at most a prefix of the data goes out, and what the transmit buffer then holds."),
 ("C67", Q, ["C67_receive_error_refuted", "C67_receive_error_partial"],
  "Refuted: a bus failure after RECV loses the datagram, one before RECV makes the next receive panic. Proved: all datagrams stay queued, or the first is whole in the buffer."),
 ("C68", Q, ["C68_send_error_refuted", "C68_send_error_partial"],
  "Refuted: after a bus failure before SEND the next datagram carries both buffers. Proved: only pieces of the buffer go out, in order, to the destination; at most the next piece stays unsent, or the write pointer is torn."),
 ("C69", Q, ["C69_read_error_refuted", "C69_read_error_partial"],
  "Refuted: a bus failure after the read pointer was written loses the frame. Proved: all frames stay queued, or the first one alone is gone and is in the buffer."),
 ("C70", Q, ["C70_write_error_refuted", "C70_write_error_partial"],
  "Refuted: after a bus failure before SEND the next frame on the wire is both frames glued together. Proved: the whole frame goes out or nothing, and nothing but the frame stays unsent, or the write pointer is torn."),
 ("C71", Q, ["C71_origin_refuted", "C71_origin_partial", "C71_origin_running_partial"],
  "Refuted: a bus failure between the two bytes of the TX write pointer makes the next send transmit old buffer memory. Proved if no two-byte register write is cut in the middle, for programs that do not set the TX write pointer of a raw socket."),
 ("C72", Q, ["C72_stream_refuted", "C72_stream_partial", "C72_stream_running_partial"],
  "Refuted: a torn TX write pointer puts old buffer memory into the stream. Proved if no two-byte register write is cut in the middle."),
 ("C73", Q, ["C73_raw_origin_refuted", "C73_raw_origin_partial"],
  "Refuted: a torn TX write pointer puts old buffer memory on the wire. Proved if no two-byte register write is cut in the middle."),
 ("C74", P, ["C74_sizes"], ""),
 ("C75", P, ["C75_tcp", "C75_macraw"], ""),
 ("C76", Q, ["C76_three_wire_refuted"],
  "Refuted for every gateway other than 0.0.0.0 with a third octet divisible by 8: initialisation reports Ok and no later call reaches the chip. The second part of the theorem shows that success is always reported."),
 ("C77", P, ["C77_udp"], ""),
 ("C78", P, ["C78_traffic", "C78_traffic_init", "C78_room_needed"],
  "C78_room_needed: without the condition on the free size the bound for UDP fails, with a bus that makes the call send empty datagrams for ever."),
 ("C79", P, ["C79_macraw_stays"], ""),
 ("C80", Q, ["C80_addresses_stay_refuted", "C80_addresses_asleep_refuted", "C80_addresses_stay_partial", "C80_addresses_until_reset_partial", "C80_addresses_all_or_none_partial"],
  "False as stated: Device::reset_device resets the chip and nothing writes the addresses again. Proved for every program without reset_device, bus errors and unfinished calls included; with reset_device they are all as configured or all zero. Over the whole life of the chip: they stay until the next call that resets it, whatever devices are put away and woken up; but a device woken up after another initialisation finds the addresses of that one."),
 ("C81", Q, ["C81_handles_over_lives_refuted", "C81_handles_by_reference_refuted", "C81_handles_over_resets_partial", "C81_handles_since_initialisation_partial"],
  "False as stated: UninitializedDevice::new on the bus that release gave back leads to two live handles of one socket; so does Device::reset on a device made by InactiveDevice::activate_ref, which leaves the inactive device alive. Proved for every life without UninitializedDevice::new in which resets and activate_ref do not both occur (Device::reset refuses while handles are out), and in general for the handles obtained since the last initialisation as long as no older one is used."),
 ("C82", P, ["C82_common_registers_follow_the_calls"], ""),
 ("C83", Q, ["C83_settings_survive_refuted", "C83_settings_survive_partial"],
  "False as stated: the initialize functions reset the chip first. Proved: what is in force after each of them, whatever was set before."),
 ("C84", P, ["C84_own_commands", "C84_own_commands_macraw", "C84_whole_life"], ""),
 ("C85", P, ["C85_dialled_as_asked", "C85_one_call", "C85_whole_life"], ""),
 ("C86", P, ["C86_tcp_errors", "C86_udp_errors", "C86_error_kind"], ""),
 ("C87", P, ["C87_getters_answer_what_the_calls_set", "C87_addresses_read_back"], ""),
 ("C88", P, ["C88_settings_untouched", "C88_settings_after_each_call", "C88_table_complete", "C88_other_settings_are_reset_values",
  "C88_whole_life_untouched", "C88_whole_life_after_each_call", "C88_whole_life_reset_values"], ""),
 ("C89", Q, ["C89_remembered_partial", "C89_aims_as_told_partial", "C89_agreement_restored", "C89_remembered_refuted"],
  "Full statement refuted: a bus error between the writes of the two registers, and reset_device, leave handle and chip apart. Proved for programs without reset_device in which no connect or send_to on the handle reported a bus error; and a later call with another remote restores the agreement whatever happened."),
 ("C90", Q, ["C90_tcp_stream_partial", "C90_origin_partial", "C90_macraw_origin_partial", "C90_tcp_stream_refuted", "C90_macraw_origin_refuted"],
  "Full statement refuted: a transaction that ends between the two bytes of the write pointer puts old buffer memory on the network. Proved for transactions that fail anywhere else."),
 ("C91", Q, ["C91_tcp_errors", "C91_udp_errors_partial", "C91_buffer_full_refuted"],
  "Full statement refuted: the free size is read once, byte by byte; when a waiting datagram leaves between the two bytes, 0x00FF and 0x0800 are read as 0 and BufferFull is returned although there was room all the time. Everything else is proved."),
 ("C92", Q, ["C92_reads_partial", "C92_reads_refuted", "C92_writes", "C92_phy"],
  "Full statement refuted for Sn_TX_RD (and Sn_TX_FSR): the two bytes are read at two moments, and a pointer going from 0x00FF to 0x0100 in between is answered as 0. Proved: their exact answer, and that it is the register if nothing happens to the socket between the two bytes; everything else in full."),
 ("C93", P, ["C93_udp_device", "C93_udp", "C93_udp_in_order", "C93_macraw_device", "C93_macraw", "C93_tcp_device", "C93_tcp"],
  "Up to the known flaws of receive: n may be larger than the piece (C50) and the datagrams behind the one returned are lost."),
 ("C94", Q, ["C94_never_read", "C94_never_read_macraw", "C94_connect_close_open", "C94_refuted", "C94_partial", "C94_macraw_partial",
  "C94_never_read_whole_life", "C94_whole_life_partial"],
  "The full statement is false: no program ever reads Sn_CR, and for instance every TCP connect gives CLOSE and OPEN with only register writes between.  Proved: after SEND and CONNECT the outcome is awaited (unless a bus access fails), in every program that gives no command through Socket::command itself.  Missing: nothing is waited for after OPEN, CLOSE and RECV."),
 ("C95", Q, ["C95_tcp_refuted", "C95_macraw_refuted", "C95_udp_refuted", "C95_in_time_partial", "C95_next_byte", "C95_late_send_partial", "C95_any_delay"],
  "The full statement is false, since the driver never looks whether a command was taken (C94): a RECV still waiting when the next receive or read_frame asks for the received size makes it return bytes that never arrived, and an OPEN still waiting makes the next call say SocketNotOpen.  Proved: the end is the same, answers and chip, whenever no socket is touched by the bus or the network while a command to it waits, in particular when every command is taken before the next byte on the bus; a SEND may wait on while the driver polls for SENDOK, receives data or fills the TX buffer, and then the end is that of a chip obeying at once whose network lets some turns to transmit pass; and against a chip however slow, what happens is an execution of Exec.v."),
 ("C96", Q, ["C96_close_refuted", "C96_close_partial", "C96_never_disconnects"],
  "The full statement is false: close gives CLOSE, so the peer hears nothing and bytes accepted but not acknowledged are never sent again; and no program that does not give DISCON itself through Socket::command ever has a socket in a state of an orderly end.  Proved: when close answers Ok, every byte send accepted has left once, to the peer, and nothing else has or will; the socket is closed and back in the pool."),
 ("C97", P, ["C97_program_ends"],
  "That none of the conditions on the network can be dropped for every call is shown by C33, C37, C56 and C62 (refuted)."),
 ("C98", P, ["C98_silent", "C98_enabled", "C98_not_lost", "C98_clear", "C98_disabled", "C98_waiting_refuted"],
  "The refuted theorem shows that the moment with nothing left to read cannot be dropped: a frame can wait behind a cleared flag."),
 ("C99", Q, ["C99_masked_refuted", "C99_raw_partial", "C99_raw_enabled_refuted"],
  "False: connect and bind mask every flag (C60), so on such a chip TCP send never succeeds, receive returns nothing and UDP never delivers or reports a timeout, in every program.  Proved: read_frame and write_frame of a raw device are not affected, unless enable_interrupts leaves out SENDOK."),
 ("C100", Q, ["C100_no_effect_partial", "C100_no_effect_refuted", "C100_ipv6"],
  "Three refusals do have effects (C100_no_effect_refuted): connect answers UnsupportedMode after opening the socket, a UDP send larger than the free size may be refused after the first batch left, send_to sets the new destination before it looks at the socket.  Proved for every other refusal."),
 ("C101", Q, ["C101_sockets_partial", "C101_reconnect_refuted", "C101_udp"],
  "False of connections one socket makes one after the other: they always have the same local port (49849 + socket number), and close does not tell the peer (C96).  Proved for connections of different sockets and for UDP."),
 ("C102", Q, ["C102_waits_partial", "C102_waits_refuted", "C102_frames_wait", "C102_put_away"],
  "The part in brackets is false: UDP connect and bind open the socket anew, and a datagram that was waiting is gone (C102_waits_refuted).  Proved for everything else, for the frames that wait in a raw device (C102_frames_wait), and across deactivate and activate (C102_put_away)."),
 ("C103", P, ["C103_first_send"], ""),
 ("C104", P, ["C104_readme"], ""),
 ("C105", Q, ["C105_address_refuted"],
  "Refuted for every program: Dhcp::refresh negotiates nothing, and no call sets an address later."),
 ("C106", Q, ["C106_peer_refuted"],
  "Refuted: connect only sets where sends go to.  The address receive returns is the true sender's (C49), so a program can filter itself."),
 ("C107", Q, ["C107_defaults_partial", "C107_defaults_refuted"],
  "False of the mode register: Mode::default sets force ARP, which is off after a reset.  Proved of every other common register but PHYCFGR, which the crate does not write."),
 ("C108", Q, ["C108_gateway_partial", "C108_gateway_refuted"],
  "False of addresses that end in 1: the gateway is then this device itself.  Proved: always in the subnet, and another host exactly if the address does not end in 1."),
 ("C109", P, ["C109_tcp_in_time", "C109_tcp_noticed"],
  "The conditions are those C39 shows to be needed.  A connection the peer has closed answers NotConnected instead (C40)."),
 ("C110", P, ["C110_udp_in_time", "C110_udp_next"],
  "The conditions are those C50 shows to be needed."),
 ("C111", Q, ["C111_reply_partial", "C111_reply_refuted"],
  "False: the n returned by receive covers whatever else is in the chip's buffer, so the answer to one sender can contain the datagram of another.  Proved: everything goes to the sender and begins with their data, and is exactly that if and only if the buffer is as long as the data."),
 ("C112", P, ["C112_phy", "C112_register"],
  "Over whole lives of a chip, with any start state, link changes, bus errors and abandoned calls."),
 ("C113", P, ["C113_echo", "C113_all_back_refuted"],
  "C113_all_back_refuted shows the last sentence of the statement: that everything goes back in the end is false, by a session in which it does not for any number of calls."),
 ("C114", P, ["C114_write", "C114_read", "C114_calls"],
  "The peripheral is adversarial here: any data, any result, at every operation."),
 ("C115", P, ["C115_four_wire", "C115_three_wire", "C115_aborts", "C115_blocks", "C115_blocks_three_wire", "C115_no_abort"],
  "Frames over ThreeWire are spelt out in C114. C115_case shows the overflow in a UDP send."),
 ("C116", P, ["C116_repeater", "C116_unchanged"],
  "C116_case: frames of three, no and five bytes through a buffer of four."),
 ("C117", P, ["C117_relay"],
  "C117_case: three bytes one way in two segments, two bytes the other way, one byte in hand at the end. That everything is passed on in the end is false as for C113 (C39 is why)."),
 ("C118", P, ["C118_server"],
  "C118_case: three datagrams of three senders, a buffer of three bytes; two are answered. That every datagram is answered is false: C50_one_per_call_refuted; that an answer is made only of what its asker said: C111_reply_refuted."),
 ("C119", P, ["C119_as_calls", "C119_any_bus", "C119_whatever_holds", "C119_ends"],
  "C119_case: a program that sets up, connects, sends, and closes the socket when a call fails; the peer accepts or refuses."),
 ("C120", P, ["C120_waits", "C120_call"],
  "C120_case: five programs caught in the five kinds of waits, with the polls they made."),
 ("C121", P, ["C121_more_polls", "C121_one_answer", "C121_wires", "C121_calls"],
  "C121_case: a connect that three polls are not enough for; seven and a thousand give the same."),
 ("C122", P, ["C122_tcp_send", "C122_tcp_receive", "C122_tcp_connect", "C122_udp_receive", "C122_udp_send", "C122_raw_write"],
  "C122_case_tcp, C122_case_udp: executions meeting the hypotheses; the MACRAW read is C54_raw_read_exact and C123_raw_read."),
 ("C123", P, ["C123_determined", "C123_one_way", "C123_tcp_send", "C123_tcp_receive", "C123_tcp_connect", "C123_udp_receive", "C123_udp_send", "C123_raw_write", "C123_raw_read"],
  "C123_case: a bus and the one behaviour of a send on it; successes in C122_case_tcp, C122_case_udp and C123_case_raw_read."),
 ("C124", P, ["C124_initialize", "C124_initialize_macraw", "C124_close", "C124_udp_bind", "C124_udp_connect", "C124_registers"],
  "C124_case: a manual initialisation, and one with a gateway of zero."),
 ("C125", P, ["C125_tcp_send", "C125_tcp_receive", "C125_tcp_connect", "C125_udp_receive", "C125_udp_send", "C125_udp_send_unconnected", "C125_udp_send_to", "C125_udp_panic", "C125_raw_panic"],
  "C125_case_send, C125_case_tcp, C125_case_others: a send whose second datagram times out, and one case of each other refusal and of both panics."),
 ("C57", P, ["C57_enable_interrupts", "C57_disable_interrupts", "C57_clear_interrupts"], ""),
]

if __name__ == "__main__":
    names = set()
    for f in glob.glob("rocq/theories/Properties_*.v"):
        names |= set(re.findall(r"^Theorem (\w+)", open(f).read(), re.M))
    used = {t for c in CLAIMS for t in c[2]}
    assert used <= names, used - names
    if names - used: print("not claimed:", sorted(names - used))
    props = [json.loads(l)["id"] for l in open("properties.jsonl")]
    have = {c[0] for c in CLAIMS}
    print("without theorem:", [p for p in props if p not in have])
    out = [{"property": p, "status": s, "theorems": t, "note": n} for p, s, t, n in sorted(CLAIMS)]
    with open("MANIFEST.json", "w") as f:
        f.write('{"claims": [\n' + ",\n".join(json.dumps(c) for c in out) + "\n]}\n")
