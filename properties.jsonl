{"id": "C01", "title": "Packetisation is lossless and DSP0236-shaped", "statement": "mctp_message_tx(eid, to, tag, msg) on an enabled bus queues packets whose payloads concatenate to exactly msg; the first and only the first carries SOM, the last and only the last EOM; sequence numbers are 0,1,2,3,0,...; every packet but the last carries exactly the bus MTU and the last between 1 and MTU bytes; each header carries the binding version (low nibble), the destination, the bus EID as source, the tag and the tag-owner bit.", "quantifier": "every message length and content, every EID/tag/tag-owner, every pkt_size >= 68", "why_tests_cant": "message lengths and MTUs are unbounded; tests try a handful of sizes", "anchors": ["core.c:mctp_message_tx_on_bus", "core.c:mctp_message_tx", "core.c:mctp_pktbuf_alloc"]}
{"id": "C02", "title": "Transmit queue is FIFO, loss-free and duplicate-free", "statement": "Over any history of mctp_message_tx, mctp_binding_set_tx_enabled and binding->tx outcomes, the packets that the binding accepts (returns 0) or rejects for good (-EMSGSIZE), in call order, followed by the packets still queued, are exactly the packets that were enqueued, in order: nothing is lost, duplicated or reordered when the binding returns -EBUSY or any other error or when tx is disabled.", "quantifier": "every history of API calls and every sequence of binding->tx return codes", "why_tests_cant": "unbounded histories and adversarial return codes", "anchors": ["core.c:mctp_send_tx_queue", "core.c:mctp_packet_tx", "core.c:mctp_message_tx_on_bus", "core.c:mctp_binding_set_tx_enabled"]}
{"id": "C03", "title": "binding->tx is only called while transmit is enabled", "statement": "In any history binding->tx is never invoked on a bus whose last effective mctp_binding_set_tx_enabled was not 'true' (including never enabled).", "quantifier": "every history of API calls", "why_tests_cant": "unbounded histories", "anchors": ["core.c:mctp_packet_tx", "core.c:mctp_binding_set_tx_enabled"]}
{"id": "C04", "title": "mctp_message_tx argument and state checks", "statement": "A tag above 7 gives -EINVAL, no bus gives 0, a bus never enabled gives -ENXIO, each with no packet queued, no binding call and no state change; otherwise the call returns 0 whatever the binding does; an empty message queues nothing and returns 0.", "quantifier": "every tag, EID, message and bus state", "why_tests_cant": "tests use a few tags", "anchors": ["core.c:mctp_message_tx", "core.c:mctp_message_tx_on_bus", "core.c:find_bus_for_eid"]}
{"id": "C05", "title": "Reassembly soundness", "statement": "Whenever a multi-packet message from a non-null source EID is delivered, the multi-packet-message packets received so far with that source, destination and tag (i.e. not counting packets with both SOM and EOM, packets without payload, and packets for other endpoints) end in a run: one SOM packet, then packets with neither flag, then one EOM packet, sequence numbers consecutive modulo 4, all packets before the last the same size, the last no larger; the delivered bytes are exactly the concatenation of their payloads.", "quantifier": "every history of received packets, interleaved over any keys, with any flags/sequence/size", "why_tests_cant": "packet histories are unbounded; interleavings explode", "anchors": ["core.c:mctp_bus_rx", "core.c:mctp_msg_ctx_lookup", "core.c:mctp_msg_ctx_create", "core.c:mctp_msg_ctx_add_pkt", "core.c:mctp_msg_ctx_drop", "core.c:mctp_msg_ctx_reset"]}
{"id": "C06", "title": "Reassembly completeness: transmit then receive delivers the message exactly once", "statement": "Feeding the packets produced by mctp_message_tx for msg, in order, to mctp_bus_rx of an endpoint whose EID is the destination and that has a free context delivers exactly one callback with the same source, tag, tag-owner and bytes, provided packets fit 4096 bytes, msg is at most 64 KiB and the limit is the default.", "quantifier": "every message, MTU, EIDs, tag, tag owner and every reachable state of the receiver", "why_tests_cant": "unbounded sizes and receiver histories", "anchors": ["core.c:mctp_message_tx_on_bus", "core.c:mctp_bus_rx", "core.c:mctp_rx"]}
{"id": "C07", "title": "Concurrent reassembly contexts are isolated", "statement": "Receiving any packet never changes the partial message held for a different (source, destination, tag) triple with non-null source; at most 16 partial messages exist; no two contexts hold the same live triple.", "quantifier": "every reachable reassembly state and every packet", "why_tests_cant": "all interleavings of up to 16 keys", "anchors": ["core.c:mctp_bus_rx", "core.c:mctp_msg_ctx_create", "core.c:mctp_msg_ctx_lookup"]}
{"id": "C08", "title": "Endpoint delivers only local packets", "statement": "In endpoint mode a packet whose destination is neither the bus EID nor 0 nor 255 causes no callback, no transmission and no change to any reassembly state.", "quantifier": "every packet and every state", "why_tests_cant": "all header bytes times all states", "anchors": ["core.c:mctp_rx_dest_is_local", "core.c:mctp_bus_rx", "core.c:mctp_rx"]}
{"id": "C09", "title": "Control-message dispatch", "statement": "For a locally delivered message exactly one handler runs: control_rx if it is set and the message has at least 4 bytes, type byte 0 (integrity bit clear), request bit set and a command in 0xF0..0xFF; otherwise message_rx if set; never both.", "quantifier": "every message content, every handler configuration", "why_tests_cant": "256^3 header combinations and all lengths", "anchors": ["core.c:mctp_rx", "core.c:mctp_ctrl_handle_msg", "core.c:mctp_ctrl_cmd_is_request", "core.c:mctp_ctrl_cmd_is_transport"]}
{"id": "C10", "title": "control_rx receives its arguments in the declared order [violated]", "statement": "A control_rx handler (type mctp_rx_fn) should receive the tag-owner bit as second and the tag as third argument. FALSE of the code: the two are swapped; the theorem is a refutation plus the exact characterisation of what the handler receives.", "quantifier": "every control request", "why_tests_cant": "tests check only that the handler is called", "anchors": ["core.c:mctp_ctrl_handle_msg", "libmctp.h:mctp_rx_fn"]}
{"id": "C11", "title": "Reassembly memory is bounded by the configured limit", "statement": "With a constant mctp_set_max_message_size limit L, no reassembly buffer is ever larger than L, so no multi-packet message longer than L is delivered and total reassembly memory is at most 16*L.", "quantifier": "every packet history and every L", "why_tests_cant": "unbounded histories", "anchors": ["core.c:mctp_msg_ctx_add_pkt", "core.c:mctp_set_max_message_size"]}
{"id": "C12", "title": "Every message within the limit is accepted [violated in general]", "statement": "A multi-packet message of at most max_message_size bytes should be reassembled. FALSE of the code for limits below 4096, for limits not of the form 4096*2^k and for first fragments above 4096 bytes, because of the buffer growth rule; TRUE when fragments carry at most 4096 bytes and the limit is the default 65536.", "quantifier": "every limit, fragment size and message size", "why_tests_cant": "needs exact growth arithmetic over all sizes", "anchors": ["core.c:mctp_msg_ctx_add_pkt", "core.c:MCTP_MAX_MESSAGE_SIZE"]}
{"id": "C13", "title": "Packet buffers are freed exactly once", "statement": "Over any history each packet buffer handed to mctp_bus_rx is freed exactly once by that call, and each packet buffer allocated by mctp_message_tx is either still queued or has been freed exactly once after the binding's final verdict; no freed buffer is ever passed to the binding or to capture.", "quantifier": "every history of API calls and binding verdicts", "why_tests_cant": "unbounded histories", "anchors": ["core.c:mctp_bus_rx", "core.c:mctp_send_tx_queue", "core.c:mctp_pktbuf_free"]}
{"id": "C14", "title": "mctp_bus_rx is memory-safe on every well-formed packet", "statement": "If reallocation does not fail, mctp_bus_rx never reads or writes outside a buffer, never dereferences a null or freed pointer and never trips an assertion, for any packet contents and any reachable state.", "quantifier": "every packet and every reachable state", "why_tests_cant": "adversarial packets over unbounded histories", "anchors": ["core.c:mctp_bus_rx", "core.c:mctp_msg_ctx_add_pkt"]}
{"id": "C15", "title": "Out-of-memory during reassembly is survived [violated when a buffer grows]", "statement": "If growing a reassembly buffer fails the packet should be dropped and the library stay usable. FALSE of the code: the old buffer is freed but the context keeps the dangling pointer and capacity; the theorem exhibits histories ending in a use-after-free on a later packet and in a double free in mctp_destroy. TRUE for a receiving endpoint whose application does not send from its callbacks and whose limit (mctp_set_max_message_size) is below 8192, so that no buffer is ever grown: whichever allocations fail, every call returns, the instance can be destroyed, and the outcome (state and everything the application sees) is that of the same history without failures but with the limit at 0 for some of the packets, so that all other properties hold on; 8192 is the least limit for which this fails.", "quantifier": "histories with one failing realloc (refutation); all reachable receivers, all packets and settings, all patterns of failing allocations (positive part)", "why_tests_cant": "allocation failure injection is not in the tests", "anchors": ["core.c:mctp_msg_ctx_add_pkt", "core.c:mctp_destroy"]}
{"id": "C16", "title": "A message is only delivered after its own SOM packet, for every source [violated for source EID 0]", "statement": "No callback should happen for an EOM packet whose source never sent SOM. FALSE of the code for source EID 0: EID 0 doubles as the 'free slot' marker, so an EOM packet from EID 0 can resurrect a dropped context and deliver another endpoint's old bytes as its own message; and two sources can share a slot. TRUE for every non-zero source (C05).", "quantifier": "every history", "why_tests_cant": "needs adversarial ordering", "anchors": ["core.c:mctp_msg_ctx_lookup", "core.c:mctp_msg_ctx_create", "core.c:mctp_msg_ctx_drop"]}
{"id": "C17", "title": "Messages that differ only in tag owner are kept apart [violated]", "statement": "Two messages with the same source, destination and tag but different TO bits are different messages (DSP0236). FALSE of the code: the TO bit is not part of the context key and the delivered TO bit is that of the last packet; refutation shows a message assembled from packets of both.", "quantifier": "interleavings of two fragmented messages", "why_tests_cant": "needs interleaving", "anchors": ["core.c:mctp_msg_ctx_lookup", "core.c:mctp_bus_rx"]}
{"id": "C18", "title": "Bridge transparency", "statement": "In bridge mode every complete message received on one bus is queued on every other enabled bus with the same source, destination, tag, tag-owner and bytes, re-packetised for that bus; no callback is run and nothing is queued on the bus it came from.", "quantifier": "every message, every pair of MTUs, every bridge state", "why_tests_cant": "unbounded sizes and MTU pairs", "anchors": ["core.c:mctp_rx", "core.c:mctp_bridge_busses", "core.c:mctp_message_tx_on_bus"]}
{"id": "C19", "title": "Bus state machine", "statement": "A bus becomes transmit-enabled the first time only if its pkt_size is at least 68; it never returns to the constructed state; disabling a constructed bus is a no-op; enabling an enabled bus or disabling a disabled bus is a no-op; re-enabling flushes the queue.", "quantifier": "every history of enable/disable calls", "why_tests_cant": "unbounded call sequences", "anchors": ["core.c:mctp_binding_set_tx_enabled"]}
{"id": "C20", "title": "Registration life cycle", "statement": "mctp_register_bus followed by any traffic and mctp_destroy frees every object once; if binding->start fails the registration is undone and a later registration works. The sequences register/unregister/destroy and register-with-out-of-memory/mctp_message_tx are NOT safe in the code (double free of the bus array; null dereference; queued packets leaked): refutations given.", "quantifier": "every history of life-cycle calls", "why_tests_cant": "teardown orderings are not tested", "anchors": ["core.c:mctp_register_bus", "core.c:mctp_unregister_bus", "core.c:mctp_destroy", "core.c:mctp_bridge_busses"]}
{"id": "C21", "title": "Packet buffer operations stay in bounds", "statement": "From mctp_pktbuf_alloc, any sequence of push, pop, alloc_start and alloc_end calls whose arguments meet the documented limits keeps start <= end <= size, never touches a byte outside the buffer, pop after push returns the pushed bytes, and a refused push or pop changes nothing. push's check wraps for lengths near SIZE_MAX (refutation).", "quantifier": "every call sequence and every length", "why_tests_cant": "all lengths including wrap-around", "anchors": ["core.c:mctp_pktbuf_alloc", "core.c:mctp_pktbuf_push", "core.c:mctp_pktbuf_pop", "core.c:mctp_pktbuf_alloc_start", "core.c:mctp_pktbuf_alloc_end", "core.c:mctp_pktbuf_size"]}
{"id": "C22", "title": "Serial framing round trip", "statement": "The bytes the serial binding writes for a packet, fed to the serial receiver in its idle state in any chunking, hand exactly that packet to the core once and leave the receiver idle; hence any sequence of packets is received exactly, in order.", "quantifier": "every packet of 4..68 bytes, every chunking, every number of packets", "why_tests_cant": "all contents and chunkings", "anchors": ["serial.c:mctp_binding_serial_tx", "serial.c:mctp_serial_pkt_escape", "serial.c:mctp_rx_consume_one", "serial.c:mctp_serial_rx"]}
{"id": "C23", "title": "Serial receiver accepts only intact frames", "statement": "Every packet the serial receiver hands to the core is the unescaped body of a contiguous piece of the input stream of the form 7E 01 len body fcs_hi fcs_lo 7E with len in 4..68, a body that unescapes to exactly len bytes and an FCS equal to the CRC-16 of 01 len body.", "quantifier": "every byte stream", "why_tests_cant": "2^(8n) streams", "anchors": ["serial.c:mctp_rx_consume_one"]}
{"id": "C24", "title": "Serial receiver never faults", "statement": "No byte stream can make the serial receiver overrun its packet buffer, trip its internal assertion or dereference null, provided packet allocation succeeds; if a packet allocation fails the next byte trips the assertion (refutation).", "quantifier": "every byte stream and chunking", "why_tests_cant": "adversarial streams", "anchors": ["serial.c:mctp_rx_consume_one", "serial.c:mctp_serial_start_packet"]}
{"id": "C25", "title": "Serial receiver resynchronises", "statement": "From any receiver state, any 142 or more consecutive non-7E bytes bring the receiver back to idle, after which frames are received as in C22.", "quantifier": "every receiver state and every garbage stream", "why_tests_cant": "all garbage streams", "anchors": ["serial.c:mctp_rx_consume_one"]}
{"id": "C26", "title": "Serial receiver releases the buffers of rejected frames [violated]", "statement": "Each packet buffer allocated by the receiver should be freed. FALSE of the code: a frame with a bad FCS or missing end flag leaks its buffer; every accepted frame's buffer is freed exactly once.", "quantifier": "every byte stream", "why_tests_cant": "leaks are invisible to functional tests", "anchors": ["serial.c:mctp_serial_finish_packet"]}
{"id": "C27", "title": "Serial transmit buffer never overflows and writes are all-or-error", "statement": "For every packet of up to 68 bytes the frame fits the 256-byte buffer, so -EMSGSIZE never happens; with a write function that accepts between 1 and n of n bytes or fails, tx returns 0 exactly when the whole frame was written in order and otherwise the error with a strict prefix written; a write function that keeps returning 0 makes the call spin forever (refutation).", "quantifier": "every packet and every pattern of partial writes", "why_tests_cant": "all partial-write patterns", "anchors": ["serial.c:mctp_binding_serial_tx", "serial.c:mctp_write_all"]}
{"id": "C28", "title": "End-to-end over serial", "statement": "A message sent with mctp_message_tx on one serial endpoint, whose output bytes are fed to another serial endpoint in any chunking, is delivered there exactly once with the same bytes, source, tag and tag owner.", "quantifier": "every message of 1..65536 bytes, tags, EIDs, chunkings", "why_tests_cant": "unbounded sizes", "anchors": ["serial.c", "core.c"]}
{"id": "C29", "title": "CRC-16 and CRC-32 compute the documented polynomials", "statement": "The table-driven CRC-16 equals the bit-serial reflected 0x8408 division for every input, and CRC-32 equals the reflected 0xEDB88320 division with the documented initial and final XOR; both can be computed incrementally.", "quantifier": "every byte string", "why_tests_cant": "all strings", "anchors": ["crc-16-ccitt.c:crc_16_ccitt", "crc-16-ccitt.c:crc_16_ccitt_table", "crc32.c:crc32"]}
{"id": "C30", "title": "CRC error detection", "statement": "Two byte strings of equal length that differ only inside a window of 2 (CRC-16) or 4 (CRC-32) consecutive bytes have different check values, so any such corruption of a serial packet body or an astlpc v3 packet is rejected.", "quantifier": "every string, every window position, every corruption", "why_tests_cant": "all strings times all error patterns", "anchors": ["crc-16-ccitt.c:crc_16_ccitt_byte", "crc32.c:crc32", "astlpc.c:astlpc_pktbuf_validate_v3", "serial.c:mctp_rx_consume_one"]}
{"id": "C31", "title": "astlpc version negotiation picks the highest common version", "statement": "For any two advertised ranges negotiation yields the largest version in both ranges, or 0 if a bound is 0, a range is empty or they do not meet; the result never indexes outside the protocol table on either side whatever the peer advertises.", "quantifier": "all 2^64 combinations of 16-bit versions", "why_tests_cant": "2^64 inputs", "anchors": ["astlpc.c:mctp_astlpc_negotiate_version", "astlpc.c:mctp_astlpc_validate_version", "astlpc.c:mctp_astlpc_init_host", "astlpc.c:mctp_astlpc_init_channel"]}
{"id": "C32", "title": "astlpc layout validation is exact", "statement": "A buffer layout is accepted if and only if, as mathematical integers, both buffers lie inside the 1 MiB window, start at or after byte 256, hold a BTU packet for the protocol version and do not intersect.", "quantifier": "all 2^128 offset/size combinations", "why_tests_cant": "32-bit wrap-around corners", "anchors": ["astlpc.c:mctp_astlpc_layout_validate", "astlpc.c:mctp_astlpc_buffer_validate"]}
{"id": "C33", "title": "astlpc BMC start-up", "statement": "For a requested MTU of 0 or 64..2^32-13 the BMC publishes a valid symmetric layout whose MTU is the requested one or the largest multiple of 16 that fits; for 1..63 start-up fails with -EINVAL and nothing is published; for the remaining values it trips an assertion or fails.", "quantifier": "every 32-bit requested MTU", "why_tests_cant": "2^32 values", "anchors": ["astlpc.c:mctp_astlpc_init_bmc", "astlpc.c:mctp_binding_astlpc_start_bmc"]}
{"id": "C34", "title": "astlpc negotiation agrees on both sides, or the host is refused", "statement": "When a host asking for MTU h registers against a BMC whose MTU is b (64..524144, 0 meaning the default), then, whatever the interleaving of the two sides: if 64 <= h <= b both sides end up, once their bus is up, with protocol version 3, packets of h + 4 bytes and mirrored buffers of h + 12 bytes (each side's transmit buffer is the other's receive buffer); otherwise the host's registration fails with -EHOSTDOWN or -EINVAL, having written nothing to the window or the registers.", "quantifier": "every pair of requested MTUs, every interleaving", "why_tests_cant": "2^64 pairs and unboundedly many interleavings", "anchors": ["astlpc.c:mctp_astlpc_negotiate_layout_host", "astlpc.c:mctp_astlpc_negotiate_layout_bmc", "astlpc.c:mctp_astlpc_calculate_mtu", "astlpc.c:mctp_astlpc_finalise_channel"]}
{"id": "C35", "title": "astlpc is safe against an arbitrary peer [BMC side true; host side violated]", "statement": "Whatever bytes the peer puts in the shared window and KCS registers, at any moment, mctp_astlpc_poll and mctp_message_tx never access the window out of bounds, never overrun a packet buffer, never call a null protocol operation and never trip an assertion. TRUE of the BMC side. FALSE of the host side: a BMC that sends the Initialise command to the host trips an assertion, and a BMC that raises channel-active without bmc-ready and then bmc-ready makes the host's next transmission call a null function pointer (refutations); TRUE of the host side against a BMC that does neither.", "quantifier": "every peer behaviour and every history of calls", "why_tests_cant": "adversarial concurrent memory", "anchors": ["astlpc.c:mctp_astlpc_poll", "astlpc.c:mctp_astlpc_rx_start", "astlpc.c:mctp_binding_astlpc_tx", "astlpc.c:mctp_astlpc_init_channel", "astlpc.c:mctp_astlpc_update_channel"]}
{"id": "C36", "title": "astlpc v3 packet protection round trip [violated for one damage position]", "statement": "A packet protected with the v3 trailer, read back from the window unmodified, validates and yields the original packet, exactly once; a packet is handed over only if it was read together with its CRC-32. If up to 4 consecutive bytes of packet or trailer differ it is dropped, its buffer released and no callback runs. That last part is FALSE of the code in exactly one position: damage to the last two packet bytes together with the first two trailer bytes can go unnoticed, because the trailer is stored most significant byte first (refutation); TRUE everywhere else.", "quantifier": "every packet and every corruption", "why_tests_cant": "all contents", "anchors": ["astlpc.c:astlpc_pktbuf_protect_v3", "astlpc.c:astlpc_pktbuf_validate_v3", "astlpc.c:mctp_astlpc_rx_start"]}
{"id": "C37", "title": "astlpc buffer ownership is exclusive under every interleaving", "statement": "From power-on, for every interleaving of the two sides at the granularity of single register and window accesses (register accesses do not fail), the two sides are never about to access a common byte of the packet buffers, and never a common byte of the control space with one of them writing, except that the host may read the negotiated version (bytes 12-13) while the BMC writes it; and no command is written over one that has not been read, except a dummy value over a dummy value.", "quantifier": "every schedule of both sides, every history of polls and transmissions", "why_tests_cant": "schedules are unbounded", "anchors": ["astlpc.c:mctp_astlpc_poll", "astlpc.c:mctp_binding_astlpc_tx", "astlpc.c:mctp_astlpc_rx_start", "astlpc.c:mctp_astlpc_kcs_send"]}
{"id": "C38", "title": "astlpc delivers packets in order, exactly once, uncorrupted", "statement": "Under the conditions of C37 the packets each side has handed to its core are, at every moment, a prefix of the packets the other side's core has given to its binding, byte for byte, with at most two missing (one in the shared buffer, one between the buffer and the core), and neither side ever makes an access out of bounds, trips an assertion or dereferences a null pointer.", "quantifier": "every schedule and every history", "why_tests_cant": "schedules are unbounded", "anchors": ["astlpc.c"]}
{"id": "C39", "title": "astlpc hand-offs are eventually performed", "statement": "If a buffer hand-off was refused because the KCS register was full, mctp_astlpc_init_pollfd asks for POLLOUT until mctp_astlpc_poll performs the hand-off, which it does on the first poll that finds the register free.", "quantifier": "every state", "why_tests_cant": "needs all register states", "anchors": ["astlpc.c:mctp_astlpc_poll", "astlpc.c:mctp_astlpc_init_pollfd", "astlpc.c:mctp_astlpc_kcs_send"]}
{"id": "C40", "title": "A KCS write error does not corrupt later traffic [violated]", "statement": "If the KCS data write fails during transmission the packet should be retried unmodified. FALSE of the code: the v3 checksum is appended to the queued packet, which is later transmitted again with the checksum as payload; refutation.", "quantifier": "histories with one failing KCS access", "why_tests_cant": "I/O error injection", "anchors": ["astlpc.c:mctp_binding_astlpc_tx", "core.c:mctp_send_tx_queue"]}
{"id": "C41", "title": "Protocol v1 keeps the MTU at the BTU [violated]", "statement": "The binding document says v1 peers use the BTU regardless of buffer sizes. FALSE of the code: pkt_size keeps the requested (or previously negotiated) MTU under v1; refutation.", "quantifier": "every requested MTU", "why_tests_cant": "needs mixed-version history", "anchors": ["astlpc.c:mctp_astlpc_negotiate_layout_bmc", "astlpc.c:__mctp_astlpc_init"]}
{"id": "C42", "title": "Channel-down handling [violated in two ways]", "statement": "After the host sees bmc-ready drop its buffers should be idle; and a BMC whose channel initialisation failed should accept no packets. Both FALSE of the code: refutations. TRUE: transmission is disabled in both cases.", "quantifier": "every state at the moment of loss", "why_tests_cant": "corner sequence", "anchors": ["astlpc.c:mctp_astlpc_update_channel", "astlpc.c:mctp_astlpc_finalise_channel", "astlpc.c:mctp_astlpc_init_channel"]}
{"id": "C43", "title": "Host recovers from a BMC restart [violated when the restart falls between two polls]", "statement": "If the BMC restarts the host should renegotiate. TRUE if the host polls while bmc-ready is clear. FALSE otherwise: refutation shows the host never sends Initialise again however often it polls.", "quantifier": "every number of further polls", "why_tests_cant": "liveness over unbounded polls", "anchors": ["astlpc.c:mctp_astlpc_update_channel", "astlpc.c:mctp_astlpc_poll"]}
{"id": "C44", "title": "Demux daemon forwards each message to exactly the clients of its type [refined]", "statement": "For every client table and message of at least 2 bytes, the daemon sends the source EID followed by the message to exactly the clients whose announced type is its first byte, in table order, once each; shorter messages go nowhere; a connected client to which sending did not fail stays. Over whole runs every datagram sent to a client is a message delivered by the MCTP stack or one a client addressed to the daemon's own EID, and if its first byte is not 0 the client announced that type before. VIOLATED for type 0: a client that has announced nothing yet is sent the messages whose first byte is 0; refutation.", "quantifier": "every client table and every message", "why_tests_cant": "all client tables", "anchors": ["utils/mctp-demux-daemon.c:rx_message"]}
{"id": "C45", "title": "Demux daemon removes closed clients [violated]", "statement": "After client_remove_inactive no inactive client should remain, the others keep their order and no descriptor is leaked. FALSE of the code: the entry following a removed one is skipped; refutation, plus the exact result computed.", "quantifier": "every client table", "why_tests_cant": "adjacent failures", "anchors": ["utils/mctp-demux-daemon.c:client_remove_inactive"]}
{"id": "C46", "title": "Packet capture records the packet exactly [violated for socket capture]", "statement": "capture_binding records exactly the packet's bytes after a 20-byte SLL2 header. capture_socket should record header plus payload; FALSE of the code: the record is one byte too long and ends in an uninitialised byte; refutation.", "quantifier": "every packet", "why_tests_cant": "byte-exact length", "anchors": ["utils/mctp-capture.c:capture_binding", "utils/mctp-capture.c:capture_socket"]}
{"id": "C47", "title": "Allocator dispatch", "statement": "Whatever combination of hooks is set, and however it changes over time, the library's allocations, resizes and frees act on the user's heap as malloc, realloc and free would, m_realloc standing in for a missing m_alloc (as m_realloc(NULL, n)) or m_free (as m_realloc(p, 0)); the library asserts exactly when neither the hook nor its stand-in is set. VIOLATED for NULL: without m_free, freeing NULL calls m_realloc(NULL, 0), which allocates (mctp_destroy without a registered bus does this).", "quantifier": "every hook configuration", "why_tests_cant": "configuration matrix", "anchors": ["alloc.c"]}
{"id": "C48", "title": "Demux daemon reads only from clients that poll reported [violated]", "statement": "The daemon should read only from clients the latest poll reported ready. FALSE of the code: when a client is removed because sending to it failed, the poll table is not rebuilt, readiness is taken for another client's, and an innocent client is dropped; refutation by a run. It holds in every run in which no send falls short (and the uninitialised flag of rx_message happens to be false).", "quantifier": "every run of the daemon, every behaviour of the kernel, clients and MCTP stack", "why_tests_cant": "interleavings of failures and readiness", "anchors": ["utils/mctp-demux-daemon.c:run_daemon", "utils/mctp-demux-daemon.c:rx_message"]}
{"id": "C49", "title": "Demux daemon copes with a client that leaves before announcing its type [violated]", "statement": "A client that closes its connection before announcing a type should be removed. FALSE of the code: for every number of rounds, while nothing else happens, the daemon goes on polling (each poll returns at once) and reading 0 bytes, and never closes the descriptor.", "quantifier": "every client table and every number of rounds", "why_tests_cant": "an endless loop cannot be observed by a test", "anchors": ["utils/mctp-demux-daemon.c:client_process_recv", "utils/mctp-demux-daemon.c:run_daemon"]}
{"id": "C50", "title": "Demux daemon never indexes its tables out of bounds", "statement": "For every behaviour of the kernel, the clients and the MCTP stack, over any number of rounds, the daemon never accesses its client or poll table outside its bounds, although clients are removed while it iterates over them.", "quantifier": "every run of any length", "why_tests_cant": "all histories of connects, removals and readiness", "anchors": ["utils/mctp-demux-daemon.c:run_daemon", "utils/mctp-demux-daemon.c:client_remove_inactive", "utils/mctp-demux-daemon.c:rx_message"]}
{"id": "C51", "title": "Demux daemon neither leaks nor double-closes client descriptors", "statement": "At any time the descriptors accepted so far are, counted with multiplicity, exactly those closed so far plus those in the client table.", "quantifier": "every run of any length", "why_tests_cant": "all histories", "anchors": ["utils/mctp-demux-daemon.c:client_remove_inactive", "utils/mctp-demux-daemon.c:socket_process"]}
{"id": "C52", "title": "Demux daemon transmits each client message once", "statement": "The sequence of mctp_message_tx calls is, in order, one call per datagram received from a client and not addressed to the daemon's own EID, with the first byte as destination, the rest as message, tag owner set and tag 0.", "quantifier": "every run of any length", "why_tests_cant": "all histories", "anchors": ["utils/mctp-demux-daemon.c:client_process_recv", "utils/mctp-demux-daemon.c:tx_message"]}
{"id": "C53", "title": "A client announces its type once", "statement": "Every type in the client table other than 0 was announced by that descriptor; a client that has a type is never again read for an announcement.", "quantifier": "every run of any length", "why_tests_cant": "all histories", "anchors": ["utils/mctp-demux-daemon.c:client_process_recv"]}
{"id": "C54", "title": "The host can miss the BMC's announcement of the channel", "statement": "There is an interleaving in which both sides register without error and the BMC brings the channel up, but the host consumes the announcement together with a status it read before; from then on, however often both sides poll, the host's bus does not come up and every message it sends is refused with -ENXIO.", "quantifier": "every number of later polls by either side", "why_tests_cant": "it needs a particular interleaving inside one poll, and then a claim about every continuation", "anchors": ["astlpc.c:mctp_astlpc_poll", "astlpc.c:mctp_astlpc_update_channel", "astlpc.c:mctp_astlpc_init_channel"]}
{"id": "C55", "title": "Destroying the BMC's binding is announced to the host", "statement": "Whatever the state of the device, mctp_astlpc_destroy on the BMC clears bmc-ready and channel-active and leaves the dummy value for the host, without touching the window or what the host has sent; the host's poll that finds this stops transmitting. On the host mctp_astlpc_destroy touches neither registers nor window.", "quantifier": "every device state, every reachable host state", "why_tests_cant": "all states of the peer at the moment of destruction", "anchors": ["astlpc.c:mctp_astlpc_destroy", "astlpc.c:mctp_astlpc_kcs_set_status", "astlpc.c:mctp_astlpc_update_channel"]}
{"id": "C56", "title": "Messages cross the astlpc channel end to end", "statement": "Two libmctp instances, one per side, talk over the KCS/LPC channel, their calls interleaved at every register and window access; both applications may send from their receive callback. At every moment the messages handed to one side's application are the first of those the other side asked to transmit while its bus had been up and which are addressed to it: complete, unchanged, in order, none twice. When both sides have returned, the sender's queue is empty and the channel holds nothing unread, they are all of them.", "quantifier": "every interleaving, every pair of call histories and applications; sender EID not 0, host MTU at most 4096, messages at most 65536 bytes, receiver installs its handler first", "why_tests_cant": "all interleavings of two processes and all call histories", "anchors": ["astlpc.c:mctp_astlpc_poll", "astlpc.c:mctp_binding_astlpc_tx", "core.c:mctp_message_tx_on_bus", "core.c:mctp_bus_rx", "core.c:mctp_send_tx_queue"]}
{"id": "C57", "title": "The two sides of the astlpc channel never deadlock and every queued packet arrives", "statement": "Once both sides have enabled their bus: if in some period each side makes and completes at least one call of mctp_astlpc_poll, then either something was exchanged over the channel in that period (a register written, a data register read, a packet handed to the binding) or every packet that either side had queued before the period has reached the other side's core. Consequently, after more than 32 + 5k such periods, where k is the number of packets handed to the bindings in the meantime, every packet queued at the beginning has arrived, and every message that one application had sent by then has been given to the other. Every call returns after finitely many of the side's own accesses: no call waits for the other side.", "quantifier": "every interleaving of accesses, every choice of calls and callbacks made on either side at any time (calls are chosen as the session goes)", "why_tests_cant": "progress under all schedules of two processes; a test shows one schedule", "anchors": ["astlpc.c:mctp_astlpc_poll", "astlpc.c:mctp_astlpc_kcs_send", "astlpc.c:mctp_astlpc_tx_complete", "astlpc.c:mctp_astlpc_rx_start", "core.c:mctp_send_tx_queue", "core.c:mctp_binding_set_tx_enabled"]}
{"id": "C58", "title": "The linked transmit queue behaves as a FIFO and is never followed through a released packet", "statement": "The transmit queue of a bus is a linked list of packet buffers with a head and a tail pointer. For every sequence of messages, transmit enable/disable calls and binding results, the packets offered to binding->tx, the releases, the return codes and any abort are exactly those of a plain first-in first-out list; no released buffer is ever read through head, tail or a next pointer, whatever addresses the allocator reuses; after every call the links are consistent and exactly the pending packets are on the heap. Destroying the instance releases each pending packet once.", "quantifier": "every sequence of calls, every binding, every environment, every placement of buffers by the allocator", "why_tests_cant": "pointer consistency over all histories and all address reuse patterns", "anchors": ["core.c:mctp_send_tx_queue", "core.c:mctp_message_tx_on_bus", "core.c:mctp_bus_destroy", "core.c:mctp_binding_set_tx_enabled", "libmctp.h:struct mctp_pktbuf"]}
{"id": "C59", "title": "A binding's transmit function may hand messages to the core [violated]", "statement": "A call of mctp_message_tx made while binding->tx of the same bus is running (a synchronous loop back, e.g. two endpoints joined in one process through mctp_serial_set_tx_fn whose application answers from its receive callback) is queued and served like any other. Violated for every queue content: the inner call transmits the packet being transmitted a second time and releases it; when the outer binding->tx returns success the core reads the released packet.", "quantifier": "every content of the queue and every reply", "why_tests_cant": "use after free depends on the nesting of calls; shown for all queue contents", "anchors": ["core.c:mctp_send_tx_queue", "core.c:mctp_message_tx_on_bus", "serial.c:mctp_serial_set_tx_fn"]}
{"id": "C60", "title": "The transmit guarantees of the core survive a hostile LPC peer", "statement": "On a bus whose binding is astlpc, in either role, for every behaviour of the peer and the shared window and for every failing KCS access: binding->tx is always offered the oldest packet that is neither sent nor given up, and only while the bus was last enabled; every packet buffer is used and released only while it is allocated, none is allocated twice or released twice, and at every return to the caller the buffers that are still allocated are exactly the packets pending on the queue (a received packet, accepted or rejected, never stays behind).", "quantifier": "every MTU that registers, every sequence of sends, setting changes and polls, every peer (for the host: a BMC that never sends Initialise and never claims an active channel without being ready), every pattern of KCS failures, every application", "why_tests_cant": "ranges over all peer behaviours, all KCS error patterns and all call histories", "anchors": ["core.c:mctp_send_tx_queue", "core.c:mctp_binding_set_tx_enabled", "astlpc.c:mctp_binding_astlpc_tx", "astlpc.c:mctp_astlpc_rx_start", "astlpc.c:mctp_astlpc_poll"]}
{"id": "C61", "title": "What an LPC endpoint receives is accounted for by what it read from the window", "statement": "On a bus whose binding is astlpc, in either role and for every behaviour of the peer: each packet passed to the core is the prefix, of the length given by the length field, of bytes just read from the window behind that length field, and carries MCTP header version 1; and each message delivered to the application or the control handler is accounted for by the packets passed to the core: it is the payload of a single-packet message, or the concatenation of a first, in-sequence middle and last packets of one (source, destination, tag).", "quantifier": "every MTU that registers, every sequence of calls, every peer (as in C60), every KCS failure pattern, every application", "why_tests_cant": "no invented or spliced messages over all peer behaviours and histories", "anchors": ["astlpc.c:mctp_astlpc_rx_start", "core.c:mctp_bus_rx", "core.c:mctp_rx", "core.c:mctp_msg_ctx_add_pkt"]}
{"id": "C62", "title": "Up to three flipped bits are always noticed", "statement": "Serial: if the unescaped body and check sequence of a received frame differ from those of a sent packet in one, two or three bits, wherever they are, the receiver hands nothing to the core and is ready for the next frame; the check sequence notices every odd number of flipped bits at any length. LPC version 3: if the packet and checksum found in the window differ from what was sent in one, two or three bits (packets up to 11450 bytes; one or two bits for packets up to 512 MiB), nothing is handed to the core and the buffer is released. Four bits (serial), and three bits one byte beyond the LPC bound, can go unnoticed.", "quantifier": "every packet, every position of the flipped bits in packet or check value, every reachable receiver state", "why_tests_cant": "the number of error patterns is astronomically large", "anchors": ["crc-16-ccitt.c", "crc32.c", "serial.c:mctp_rx_consume", "astlpc.c:astlpc_validate_v3", "astlpc.c:astlpc_protect_v3"]}
{"id": "C63", "title": "The capture handler sees exactly the traffic", "statement": "While mctp_set_capture_handler has a handler installed, the handler is called once for every packet passed to a binding's tx operation (direction outgoing) and once for every packet longer than its header that a binding passes to mctp_bus_rx (direction incoming), including packets not addressed to us and packets that reassembly drops, with the packet's bytes and in the order of the traffic; without a handler it is never called, and no handler is installed at mctp_init. A packet the binding refuses is shown again at each retry.", "quantifier": "every reachable state, every further history of calls that does not change the handler, every binding behaviour", "why_tests_cant": "must hold for every interleaving of sends, refusals, retries and receptions", "anchors": ["core.c:mctp_packet_tx", "core.c:mctp_bus_rx", "core.c:mctp_set_capture_handler"]}
{"id": "C64", "title": "Each side of the LPC channel keeps to its own registers and memory", "statement": "BMC: in every history of calls, against every peer and with every failing access, even in runs that end in undefined behaviour, the binding writes only the header (the fixed 32 bytes at start-up, then a negotiated version of at most 3, and layout fields that keep the two areas where they are with one common size between 72 bytes and the configured one) and the packet area at offset 256 of the size fixed by the configured MTU, reads only the header and the packet area behind it, and writes only 0x80/0x81/0xC1 to the status and 1/2/0xFF to the data register. Host: against every peer that never sends it the Initialise command, it writes only its two version fields (always 1 and 3), the receive-size field (the size for its own MTU, only if that size is valid in the header it read just before) and the packet area that some header it has read assigns to its transmissions, reads only the header (not before the status register has shown the BMC ready) and the other area, never writes the KCS status register, and announced areas lie behind the control area, inside the window, disjoint and large enough for a baseline packet. Both read the data register only right after a status read showed it full. A peer that does send Initialise makes the host write the BMC's fields.", "quantifier": "all histories of API calls (mtu, messages, polls, registration failures), all peers, all memory contents, all failures", "why_tests_cant": "the bound must hold for every content the peer writes into shared memory between any two accesses", "anchors": ["astlpc.c:mctp_binding_astlpc_tx", "astlpc.c:mctp_astlpc_rx_start", "astlpc.c:mctp_astlpc_init_bmc", "astlpc.c:mctp_astlpc_init_host", "astlpc.c:mctp_astlpc_finalise_channel", "astlpc.c:mctp_astlpc_init_channel", "astlpc.c:mctp_astlpc_layout_write"]}
{"id": "C65", "title": "A stream of messages over a serial line arrives", "statement": "A serial endpoint with an empty queue makes any number of mctp_message_tx calls (any tags, messages up to the receiver's limit) and all its writes succeed. The bytes written, passed in any chunks to mctp_serial_rx of another serial endpoint that has no half-received frame or message, while that endpoint does anything else (including sending), cause its message handler to be called for exactly the messages addressed to it, to the null EID or to everyone that have completely arrived, in the order sent, each once and byte for byte with source, tag and tag owner; when all bytes have arrived, for all of them.", "quantifier": "all lists of messages, all chunkings, every point of the stream, all interleaved activity of the receiver, all reachable start states", "why_tests_cant": "unbounded streams, every chunk boundary and every interleaving", "anchors": ["serial.c:mctp_binding_serial_tx", "serial.c:mctp_rx_consume_one", "core.c:mctp_message_tx", "core.c:mctp_bus_rx"]}
{"id": "C66", "title": "mctp-pipe and mctp-in reproduce their input", "statement": "mctp-pipe (utils): whatever the sizes of the reads and the timing of poll, it does not crash, what it has written to standard output is at every moment a prefix of what it has read, and when it exits it is all of it; after end of input it exits within as many iterations as bytes remain in the socket plus one; it cannot block if the socket holds 16 times the input. Finding: since one process both fills and drains the socket with blocking writes, for every socket size a long enough input that is always ready (reads of 1024 bytes) blocks it forever with output missing. mctp-in: fed in any chunks the bytes a serial endpoint sends for its messages, it prints the contents of exactly those addressed to EID 8, to the null EID or to everyone, in order.", "quantifier": "all inputs, all sizes of reads, all poll timings, all socket capacities", "why_tests_cant": "all schedules of a two-ended event loop and all input lengths", "anchors": ["utils/mctp-pipe.c:main", "utils/mctp-pipe.c:rx_message", "utils/mctp-in.c:main", "serial.c:mctp_serial_read"]}
{"id": "C67", "title": "Requests over the astlpc channel are answered in order", "statement": "The BMC's application answers each message it is given by transmitting from its message handler (as utils/mctp-astlpc-daemon.c does) and otherwise only polls; the host sends whatever it likes. At every moment of every interleaving of the two sides, what the host's application has been given is a prefix of the answers to what the BMC's application has been given, which is a prefix of what the host has asked for: no answer is wrong, missing in between, duplicated or out of order. Once both buses have been enabled, whatever the host has asked for has been answered and the answers have been given to its application after boundedly many periods in which both sides poll. Finding: with the roles swapped this is false: the host can be handed a packet before its bus is enabled (C54), and the answer its handler sends is then refused; a later answer overtakes the lost one.", "quantifier": "all interleavings, all answer functions, all requests up to 64 KiB, all compatible configurations", "why_tests_cant": "all interleavings of two processes at the granularity of register and memory accesses", "anchors": ["utils/mctp-astlpc-daemon.c:rx_message", "astlpc.c:mctp_astlpc_poll", "core.c:mctp_message_tx"]}
{"id": "C68", "title": "Sleeping in poll(2) as told by mctp_astlpc_init_pollfd loses no wake-up and never spins", "statement": "Both sides of an astlpc channel that has come up call mctp_astlpc_poll only when the KCS descriptor is ready for what mctp_astlpc_init_pollfd asks: POLLOUT (the side's own output register has been read) while a buffer hand-over is pending, else POLLIN (an unread command). In every interleaving with arbitrary transmissions: if both sides sleep, every packet either has queued has reached the other's core, nothing is left in the registers, and the application of each has been given exactly the messages meant for it; the same when one sleeps and the other polls by itself without anything being exchanged. The number of wake-ups is at most 34 and five for each packet passed to the bindings in the meantime. Finding: during the handshake this is false: both can sleep for ever with the host's bus never enabled.", "quantifier": "all interleavings at the granularity of register and memory accesses, all calls, all compatible configurations", "why_tests_cant": "a deadlock or busy loop depends on the interleaving of two processes and on unbounded histories", "anchors": ["astlpc.c:mctp_astlpc_init_pollfd", "astlpc.c:mctp_astlpc_poll", "astlpc.c:mctp_astlpc_kcs_send"]}
{"id": "C69", "title": "Tearing of shared-memory accesses is not observable", "statement": "The window through which the two astlpc sides exchange packets is ordinary shared memory: a copy of many bytes is not atomic, and the other side may run between any two bytes of it. Nevertheless, with byte-by-byte copies, every interleaving of the two sides shows the same calls, the same register accesses, the same packets and the same bytes read as some interleaving in which each copy is one step. In particular, with torn copies: neither side faults; packets arrive byte for byte and in order, at most two missing; while one side is in the middle of a copy the other never accesses the same bytes unless both read, except that the host may read the negotiated version while the BMC writes it; applications are given the first of the messages sent to them, in order, and all of them when both sides sleep in poll(2).", "quantifier": "all interleavings at the granularity of single bytes of the window and single register accesses, all calls, all compatible configurations", "why_tests_cant": "tearing depends on the interleaving of two processors within one memcpy", "anchors": ["astlpc.c:mctp_astlpc_lpc_read", "astlpc.c:mctp_astlpc_lpc_write", "astlpc.c:mctp_binding_astlpc_tx", "astlpc.c:mctp_astlpc_rx_start", "astlpc.c:mctp_astlpc_negotiate_layout_host"]}
{"id": "C70", "title": "Crashes and restarts of either side do no damage outside the channel", "statement": "Either side of an astlpc channel may at any access be killed without warning and started again with any configuration, or take its binding down in order, any number of times, while the other side carries on; the KCS registers and the shared window keep what they held. Then neither side ever accesses memory out of bounds, trips an assertion or does anything else undefined. If the BMC is always started with the same MTU, then at every moment the BMC writes only the header and the first packet area, the host only its version and size fields and the second packet area, and each reads only the header and the other's area.", "quantifier": "all crash points (every register and window access of either side), all interleavings, all numbers of restarts, all configurations and initial contents", "why_tests_cant": "the state a crash leaves in shared memory and in the registers depends on the access at which it happens, and histories of crashes are unbounded", "anchors": ["astlpc.c:mctp_astlpc_start_bmc", "astlpc.c:mctp_astlpc_start_host", "astlpc.c:mctp_astlpc_init_host", "astlpc.c:mctp_astlpc_destroy", "astlpc.c:mctp_astlpc_poll"]}
{"id": "C71", "title": "A restarted host may take an old announcement for the answer to its request", "statement": "Finding. Exclusive access to the packet areas (C37) and agreement about packet sizes (C34) do not survive a restart of the host: a channel announcement (0xff) left unread in the data register by the previous host is taken by the new one as the answer to its own Initialise, which the BMC has not read yet. There is an execution in which the new host then writes a packet over the one the BMC is reading, and one in which, with everything read and both sides up, the host's packets are larger than the BMC accepts: a message it sends leaves its binding without error, never reaches the BMC's core, and the host's transmitter stays off however often both sides poll after that.", "quantifier": "existence of executions; the stall is shown for all schedules of any number of polls", "why_tests_cant": "depends on a crash point and an interleaving; the stall is about unboundedly many polls", "anchors": ["astlpc.c:mctp_astlpc_update_channel", "astlpc.c:mctp_astlpc_finalise_channel", "astlpc.c:mctp_astlpc_init_host", "astlpc.c:mctp_astlpc_rx_start"]}
{"id": "C72", "title": "Which restarts bring an astlpc channel back", "statement": "(a) After any crash of both sides, whatever registers, status and window were left behind: if both are started again, the BMC's registration completes before the host touches the channel, and no command byte of the old host is pending, then the execution from there is an ordinary session as from power-on, so every theorem about sessions (exclusive access, agreed sizes, exactly-once delivery, progress) applies. (b) Finding: after a crash of only the BMC (without mctp_binding_astlpc's status being cleared by an orderly stop), with the host registered and having noted the BMC ready and no Initialise pending, nothing recovers the channel: under every schedule of register and window accesses, polls, transmissions and further BMC crashes, the BMC's bus never leaves its initial state, it offers and receives no packet, never enables its transmitter and never writes a status other than 'ready, not active', until the host process is restarted or the BMC shut down in order and the host polls in between.", "quantifier": "every state left by any history of crashes and restarts; every schedule, all calls, all polls and any number of further BMC crashes", "why_tests_cant": "crash points, leftover register contents and an unbounded future of schedules", "anchors": ["astlpc.c:mctp_astlpc_init_bmc", "astlpc.c:mctp_astlpc_init_host", "astlpc.c:mctp_astlpc_update_channel", "astlpc.c:mctp_astlpc_poll", "astlpc.c:mctp_binding_astlpc_start_bmc"]}
{"id": "C73", "title": "Creating an astlpc binding on files acquires and releases its resources", "statement": "Whatever the kernel answers to open, ioctl and mmap: mctp_astlpc_init_fileio returns a binding exactly if no call failed. On success the result is a BMC-mode binding with the largest MTU and holds exactly itself, one open descriptor (that of the KCS path given) and one mapping of the size the driver reported; the LPC descriptor is closed again; the window lies in the mapping (all accesses of at most 1 MiB) if the reported size is at least 1 MiB, and for sizes up to 2^28 the reserved memory is mapped at the top of the 28-bit firmware address space. On failure NULL is returned, no descriptor stays open and the binding is released. No call is made on a descriptor that is not open or a binding not on the heap. mctp_astlpc_destroy shows the BMC gone and releases the binding. Findings: the mapping stays if opening the KCS device fails; that failure path releases with libc free() what came from the configured allocator; a reported size below 1 MiB is accepted and the window then begins before the mapping; destroy leaves descriptor and mapping; a binding made with the caller's own operations hands out descriptor 0 in mctp_astlpc_init_pollfd.", "quantifier": "all sequences of answers of the system calls", "why_tests_cant": "needs every combination of failing system calls on hardware-specific devices", "anchors": ["astlpc.c:mctp_astlpc_init_fileio", "astlpc.c:mctp_astlpc_init_fileio_lpc", "astlpc.c:mctp_astlpc_init_fileio_kcs", "astlpc.c:mctp_astlpc_destroy", "astlpc.c:mctp_astlpc_init", "astlpc.c:mctp_astlpc_init_pollfd"]}
{"id": "C74", "title": "The demux daemon starts completely or fails, and leaves in order", "statement": "Whatever the system answers: the daemon's main loop is entered at most once, and exactly if the command line names a binding with the right parameters and no call failed other than mctp_register_bus and the open of a serial device; it is entered with a listening socket (passed by systemd, or newly created, bound and listening), with every requested capture file open, and with the binding's bus registered. The exit status is 0 exactly if the loop was entered and returned 0, and 1 otherwise. On every exit all capture files are closed (and the pcap handles, unless opening a capture file failed), and an astlpc binding that was registered has shown the BMC gone, been unregistered and released. No call is made on something not held. The only null-pointer store is mctp_serial_init's, when its allocation fails. Findings: a serial device that cannot be opened and a failed registration do not keep the daemon from running, and after the latter a poll that receives the host's Initialise dereferences NULL.", "quantifier": "all parsed command lines, all sequences of answers of system calls, libpcap, systemd and the library", "why_tests_cant": "every combination of failing calls during start-up and shutdown", "anchors": ["utils/mctp-demux-daemon.c:main", "utils/mctp-demux-daemon.c:binding_init", "utils/mctp-demux-daemon.c:binding_astlpc_init", "utils/mctp-demux-daemon.c:binding_serial_init", "utils/mctp-demux-daemon.c:socket_init", "utils/mctp-capture.c:capture_prepare", "serial.c:mctp_serial_init", "serial.c:mctp_serial_open_path"]}
{"id": "C75", "title": "Many endpoints talk at once, directly or across a bridge", "statement": "An endpoint that has no message half received hears each of up to 16 peers completely and in order, however the packets of the different peers are interleaved and whatever else it does meanwhile (transmit, answer, receive packets for others): for each peer, what the application is given from it is exactly the messages meant for it among a prefix of what that peer sent, and all of them if none of the peer's packets is outstanding; nothing is heard that no peer sent. A bridge (up to 16 sources, each on one bus) puts each source's messages, in order, each cut again into packets for the other bus, on the other bus and nothing from it on its own. An endpoint puts on its bus exactly the packets of the messages its application asked for (by calls and from callbacks), in order. Hence endpoint to endpoint across a bridge, each endpoint's messages arrive likewise. The bound is sharp: with 17 interleaved senders and no packet lost, one message is dropped.", "quantifier": "all sets of at most 16 senders, all messages within the size limit, all packet sizes up to 4100 bytes, all interleavings, all histories of the node, bindings, applications and environments without allocation failure", "why_tests_cant": "unbounded interleavings of unboundedly many messages over 16 reassembly contexts", "anchors": ["core.c:mctp_rx", "core.c:mctp_bus_rx", "core.c:mctp_msg_ctx_lookup", "core.c:mctp_msg_ctx_create", "core.c:mctp_message_tx_on_bus", "core.c:mctp_bridge_busses"]}
{"id": "C76", "title": "An LPC endpoint survives memory shortage while it receives, but one failed packet buffer silences its peer", "statement": "Take an LPC endpoint (BMC, or host facing a well-behaved BMC) in any state it can reach. Once its application has set a message size limit below 8192 and while it only receives (polls, changes of configuration, no transmissions and no answers from callbacks), no pattern of failing allocations makes it fault or touch memory it should not, whatever its peer writes; and once memory is back, any traffic runs without fault. (Transmitting without memory is different: it dereferences NULL.) But a poll that reads the peer's Tx Begin for a packet of legal length and cannot allocate the packet buffer returns 0 without writing Rx Complete, and from then on, as long as the peer sends no further command - and it does not send packets, because it waits for its buffer - no history of polls and transmissions ever writes Rx Complete, however much memory there is.", "quantifier": "all reachable states of either role, all limits below 8192, all histories of receiving calls, all allocation failure patterns, all peer behaviour and window contents; for the wedge: all later histories of polls and transmissions in all environments in which the peer sends no command", "why_tests_cant": "The failure patterns range over subsets of all allocations in a history of any length against an arbitrary peer; that something is never written afterwards is a statement about every continuation.", "anchors": ["/repo/astlpc.c: mctp_astlpc_rx_start, mctp_astlpc_poll", "/repo/core.c: mctp_pktbuf_alloc, mctp_bus_rx, mctp_msg_ctx_add_pkt"]}
{"id": "C77", "title": "The demux daemon's command line means what it says, with three surprises", "statement": "A command line made of the documented words (long options, abbreviated if unambiguous, with their value after '=' or in the next word; short options v, b, s, joined or not, b and s with their value attached, b also in the next word; operands anywhere, '--' before operands) sets, for each option, the value given last and keeps the operands in order: the first is the binding's name (null, serial or astlpc; no other is known), the others its parameters. An EID is read as an optional sign and decimal digits after white space; anything behind the digits is ignored, and without digits it is 0. No other command line is accepted: the daemon leaves with status 1, having made no other call, exactly if there is no operand or at the first word that names no option, is an ambiguous abbreviation, gives --verbose a value or lacks its argument. An accepted command line starts the daemon as C74 describes with these settings, and the EID of its bus is the number given, modulo 256. Surprises: (1) any word of short options containing e crashes the daemon, with or without a number after it; (2) a path in the word after -s is not the capture file but an operand, so the binding's name; (3) with an EID outside 0..255 the daemon's bus has the number modulo 256 but its clients' messages to that EID are never looped back to its clients: over any run, all of them go to the bus.", "quantifier": "all lists of words; for the last surprise all runs of the daemon of any length against all clients and kernels", "why_tests_cant": "Command lines have unbounded length and options combine; that nothing else is accepted or looped back is about every line and every run.", "anchors": ["/repo/utils/mctp-demux-daemon.c: main, options, binding_lookup, client_process_recv"]}
{"id": "C78", "title": "Log messages go where the latest setting says", "statement": "Whatever the order of mctp_set_log_* calls and log messages: a message goes to the sink chosen by the latest mctp_set_log_* call before it, exactly once and in order: to standard error with a newline if its level is at most the one given to mctp_set_log_stdio (nowhere otherwise, or if the library is built without stdio), to syslog with its level (nowhere if built without it), or to the custom function with its level. Before any such call nothing is written. A NULL custom function is called, i.e. crashes, at the next message. The demux daemon writes errors and warnings, and information and debugging messages exactly if -v or --verbose is anywhere among its options.", "quantifier": "all sequences of settings and messages, both build options; all accepted command lines", "why_tests_cant": "The histories are unbounded; that nothing else is written is about every history.", "anchors": ["/repo/log.c: mctp_prlog, mctp_set_log_stdio, mctp_set_log_syslog, mctp_set_log_custom", "/repo/utils/mctp-demux-daemon.c: main"]}
{"id": "C79", "title": "A well-behaved client of the demux daemon gets every message of its type", "statement": "Take a client that connects, announces a type other than 0, takes every message it is sent whole, sends no empty message and does not hang up, while the daemon's buffer can grow. Over any run of the daemon, whatever the other clients and the bus do, and although closed clients are removed wrongly (C45) and clients are read that poll did not report (C48): once it has announced its type t it is sent exactly the messages that come in (delivered by the MCTP stack, or sent by any client to the daemon's own EID), have at least two bytes and begin with t, each behind its EID, once, in order and whole, and nothing else; before announcing it is sent those of type 0; and it is never disconnected. This also holds for a descriptor number that was used before.", "quantifier": "all runs of any number of rounds, all behaviour of the other clients, the kernel and the stack, all clients that behave", "why_tests_cant": "It is a statement about every interleaving of an unbounded number of clients, messages and disconnections.", "anchors": ["/repo/utils/mctp-demux-daemon.c: rx_message, client_process_recv, client_remove_inactive, socket_process, run_daemon"]}
{"id": "C80", "title": "From a client of one demux daemon to the clients of another, across a serial line", "statement": "Two machines each run the demux daemon on the two ends of a serial line, with EIDs a and b; a is not 0. Both serve any clients and transmit and receive in any order. If no write of the first fails and its clients send messages of at most 65536 bytes, and the second has read any part of the bytes the first wrote, in any chunks, then the messages its MCTP stack has given the second daemon are those that the first one's clients sent to b, to the null EID or to everyone (not empty, and not to a itself): in order, each once, whole, behind the source EID a; all of them once all bytes have been read. A client of the second daemon that announced a type t and behaves (C79) is sent, of those that arrive from then on, exactly the ones that begin with t and have at least two bytes, in order and once.", "quantifier": "all runs of both daemons, all clients, all messages, all chunkings of the line, any traffic in the other direction", "why_tests_cant": "It composes the daemon's loop, packetisation, framing, the byte-wise receiver and reassembly over unbounded histories and every interleaving of sending and receiving.", "anchors": ["/repo/utils/mctp-demux-daemon.c: tx_message, rx_message, client_process_recv, run_daemon", "/repo/core.c: mctp_message_tx, mctp_bus_rx", "/repo/serial.c: mctp_binding_serial_tx, mctp_serial_read, mctp_rx_consume_one"]}
{"id": "C81", "title": "The demux daemon never truncates or overruns a client's message, and captures each", "statement": "Over any run of the daemon, whenever it calls recv on a client's socket, the size it passes is that of its buffer at that moment (4096 or what realloc last gave), and directly before it (apart from growing the buffer) it asked that same socket for the length of the waiting message, which is at most that size: recv writes nothing behind the buffer and cuts nothing off. If a capture file for the sockets was requested, every non-empty message received from a client is written to it once, in order, with its destination, and otherwise nothing is.", "quantifier": "all runs of any number of rounds, all clients, message lengths and allocation results", "why_tests_cant": "Message lengths and histories of buffer growth are unbounded; the claim is about every recv call in every run.", "anchors": ["/repo/utils/mctp-demux-daemon.c: client_process_recv, run_daemon, main"]}
{"id": "C82", "title": "What stops the demux daemon", "statement": "The daemon leaves its loop if and only if poll failed or reported the signal descriptor, the binding's process function failed, or accept failed, and then at once, apart from handing on the messages already delivered; no answer of a client's socket makes it leave. But the process can be killed by a client: sendmsg is called without MSG_NOSIGNAL and SIGPIPE keeps its default action, so if a client that announced a type hangs up and a message of that type arrives before the daemon polls again, the daemon sends to it and dies of SIGPIPE, whatever poll reports about the clients. What it did up to then is the beginning of a run in which the send merely fails or succeeds.", "quantifier": "all runs of any number of rounds, all reachable client tables, all messages", "why_tests_cant": "That nothing else stops the daemon is about every behaviour of every client; the fatal schedule is a race.", "anchors": ["/repo/utils/mctp-demux-daemon.c: run_daemon, rx_message, client_process_recv, socket_process"]}
{"id": "C83", "title": "Host and clients of the BMC's demux daemon over the LPC channel", "statement": "A demultiplexing daemon on the BMC serves clients over the astlpc binding while a host's stack polls and transmits on the other side, in any interleaving of their accesses to the KCS registers and the window. What clients send to the daemon and is meant for the host is given to the host's application in order, each message once, whole, with the BMC's EID as its source, except that whatever was sent before the channel first came up is lost without a trace; once nothing is under way, all of it has arrived. In the other direction, what the host sends to the BMC's EID, the null EID or everyone is handed to the daemon in order, once and whole, and a well-behaved client that announced a type gets exactly the messages of that type that arrive afterwards.", "quantifier": "all interleavings of the two sides, all clients' and host's messages up to 65536 bytes, all behaviours of the daemon's clients and runs of any number of rounds, all compatible MTUs up to 4096", "why_tests_cant": "It composes the daemon's loop, the core and the two-party channel over every schedule; a test sees one schedule.", "anchors": ["/repo/utils/mctp-demux-daemon.c: client_process_recv, rx_message, tx_message, binding_astlpc_process, run_daemon", "/repo/astlpc.c: mctp_astlpc_poll, mctp_binding_astlpc_tx", "/repo/core.c: mctp_message_tx, mctp_bus_rx"]}
{"id": "C84", "title": "A binding made by mctp_astlpc_init_fileio touches only its own device and mapping", "statement": "A binding returned by mctp_astlpc_init_fileio(path), if the reserved memory the driver reported is at least 1 MiB, is driven by system calls and memory copies as follows, whatever calls the application makes after registering it, whatever the host does and whichever accesses the kernel fails: the process never touches memory outside the mapping and meets no other undefined behaviour; it makes only single-byte preads and pwrites at offsets 0 and 1 of the file opened at path, writing there only the commands 1, 2, 255 and the status words 128, 129, 193; it loads only from the header and the host's area and stores only to the header and its own area of the last MiB of the mapping. Everything proved of the binding for register and window accesses holds of it on files. If the reserved memory is smaller, the function still succeeds and registering the binding writes outside the mapping (or fails an assertion).", "quantifier": "every path, every answer of the kernel, every sequence of calls and polls on the registered BMC binding, every host behaviour and memory content", "why_tests_cant": "It is about every address computed over unbounded histories against an arbitrary host and kernel; a test sees some accesses.", "anchors": ["/repo/astlpc.c: mctp_astlpc_init_fileio, mctp_astlpc_init_fileio_lpc, __mctp_astlpc_fileio_kcs_read, __mctp_astlpc_fileio_kcs_write, mctp_astlpc_lpc_read, mctp_astlpc_lpc_write"]}
{"id": "C85", "title": "What the daemon does when its tables cannot be reallocated", "statement": "The daemon never checks the allocations of its client and poll tables. As long as none of them fails it behaves exactly as if they could not. Until the first failure it has made no other calls than such a run makes. When the client table cannot be grown for a new client, or the poll table cannot be made, the process makes not one call more: it is killed by a null access or (poll table, no clients) stops. When the client table cannot be shrunk after a client has gone, the daemon serves no client until it accepts another one: meanwhile it only polls, accepts and drains the binding, or is killed. When it then does accept one, the other entries of the new table are uninitialised memory, and the daemon can close or write to descriptors it was never given.", "quantifier": "every local EID, capture setting, number of rounds, every behaviour of clients, kernel and MCTP stack, every pattern of failing table allocations", "why_tests_cant": "Allocation failure at every point of every history; the defect needs a particular failure followed by a particular client.", "anchors": ["/repo/utils/mctp-demux-daemon.c: client_remove_inactive, socket_process, run_daemon, rx_message, client_process_recv"]}
{"id": "C86", "title": "A node taken off the bus and put back", "statement": "An object may be registered, used and unregistered any number of times with the same binding, under any EIDs, and finally registered (or bridged) once more. In all such histories nothing faults; buffers are released at most once, and the ones never released are exactly those still queued and those that were in use at an unregistration; every message delivered is accounted for by packets received, in whatever stays; in each stay transmission is loss-free and in order and the binding is called only while it is enabled in that stay, never with a packet queued in an earlier one. A final mctp_destroy releases all but what was left behind. Between two stays mctp_message_tx reports success and drops the message without a trace; giving the object a packet, enabling or disabling the binding, unregistering again or destroying the object are faults. Unregistering one binding of a bridge leaves the other one with a dangling pointer: its next packet reads released memory.", "quantifier": "every number of stays, every EIDs, every traffic in every stay and everything the application may do in between, every binding behaviour", "why_tests_cant": "What survives an unregistration (reassembly contexts, settings, the dangling bus table, leaked packets) only shows in some later stay, for some combination of histories.", "anchors": ["/repo/core.c: mctp_register_bus, mctp_unregister_bus, mctp_bridge_busses, mctp_message_tx, mctp_bus_rx, mctp_binding_set_tx_enabled, mctp_destroy"]}
{"id": "C87", "title": "mctp_astlpc_tx_done tells the truth", "statement": "Between two calls of a side of the astlpc channel whose binding has been enabled, mctp_astlpc_tx_done answers true exactly when the side has taken an Rx Complete command for every packet its core has given to the binding, and exactly when the core may give it another. When it answers true, nothing is queued in the core, every packet queued so far has been given to the binding, and all but at most one (which the other side's poll is handing over at this moment) have reached the core of the other side, unchanged and in order; if the other side is not in a call, all have, and its application has been given exactly the messages it was to get. If both sides keep polling the answer becomes true again after a bounded number of polls. Before the channel is active the answer tells nothing: the host may be told true while mctp_message_tx refuses everything.", "quantifier": "every session of host and BMC from power-on, every interleaving of their shared-memory and register accesses, every choice of calls, every moment between two calls", "why_tests_cant": "The answer is about what the other side has done, which depends on the interleaving of two programs; a test sees one schedule.", "anchors": ["/repo/astlpc.c: mctp_astlpc_tx_done, mctp_binding_astlpc_tx, mctp_astlpc_tx_complete, mctp_astlpc_finalise_channel"]}
{"id": "C88", "title": "A stream of messages carried over any number of serial bridges arrives", "statement": "A serial endpoint with an empty queue makes any number of mctp_message_tx calls (any tags, messages up to the agreed limit) and all its writes succeed. The bytes it writes are passed, in any chunks, to mctp_serial_rx on one line of a serial bridge that has no half-received frame or message and nothing queued and may transmit on its other line; the bytes the bridge writes there go in the same way to the next bridge, and so on for any number of bridges, each of which may have got only a beginning of what was written to it. What the last one writes is passed in any chunks to mctp_serial_rx of a serial endpoint while that does anything else, including sending. Its message handler is called for exactly the messages addressed to it, to the null EID or to everyone that have completely arrived, in the order sent, each once and byte for byte with source, tag and tag owner of the original; when every stretch has arrived in full, for all of them.", "quantifier": "all lists of messages, all numbers of bridges, all chunkings on every line, every point of every stretch, all interleaved activity of the receiver, all reachable start states without half-received data", "why_tests_cant": "unbounded streams, chains of any length, every chunk boundary on every line, messages reassembled and cut again at every bridge", "anchors": ["/repo/core.c: mctp_bus_rx, mctp_rx, mctp_bridge_busses, mctp_message_tx_on_bus, mctp_send_tx_queue", "/repo/serial.c: mctp_binding_serial_tx, mctp_serial_rx, mctp_rx_consume_one"]}
{"id": "C89", "title": "A damaged serial frame costs exactly one packet buffer, nothing else costs any", "statement": "While memory does not fail, the packet buffers the serial receiver loses for good are exactly one for every complete frame with a wrong check value or without its end flag: after any activity in which complete frames, noise and repeated flags have arrived on the lines in any chunks, every packet buffer allocated has been freed or is queued, except as many as frames were damaged. If all were intact nothing is lost. Whatever bytes arrive, at most one more buffer per line is held by a frame that has begun and not ended.", "quantifier": "every byte stream made of complete frames, noise and flags (every byte stream at all for the last part), every chunking, all interleaved activity, endpoints and bridges", "why_tests_cant": "a leak is invisible to functional tests and its exact size is a statement about every stream", "anchors": ["/repo/serial.c: mctp_serial_start_packet, mctp_serial_finish_packet, mctp_rx_consume_one", "/repo/core.c: mctp_pktbuf_alloc, mctp_pktbuf_free"]}
