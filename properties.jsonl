{"id": "C01", "title": "Forwarded packets are exact slices of the received stream", "statement": "Every packet an endpoint hands to routing is a contiguous run of the bytes read from that link, the packets come out in stream order and never overlap, and the only bytes that never belong to a packet are bytes skipped while looking for a start marker or bytes of a packet that failed its checksum.", "quantifier": "all byte streams, all ways the stream is cut into reads, all initial contents of the receive buffer", "why_tests_cant": "The set of streams and read boundaries is infinite; a test fixes a few.", "anchors": ["src/endpoint.cpp: Endpoint::read_msg, Endpoint::handle_read"]}
{"id": "C02", "title": "Framing does not depend on read boundaries", "statement": "The sequence of packets extracted from a byte stream is the same however the stream is split into read() results; read boundaries may only delay a packet, never add, drop, merge, split or reorder one.", "quantifier": "all byte streams and all pairs of chunkings of the same stream", "why_tests_cant": "Needs all pairs of chunkings of every stream.", "anchors": ["src/endpoint.cpp: Endpoint::read_msg"]}
{"id": "C03", "title": "Well-formed traffic is forwarded completely", "statement": "If a link delivers a concatenation of well-formed MAVLink 1/2 packets (signed or not), every one of them is extracted exactly once, in order, with the message id, source system, source component and payload it was encoded with.", "quantifier": "all finite sequences of well-formed packets, all payloads and headers, all chunkings", "why_tests_cant": "Packet sequences and payloads are unbounded.", "anchors": ["src/endpoint.cpp: Endpoint::read_msg", "src/endpoint.h: mavlink_router_mavlink2_header, mavlink_router_mavlink1_header"]}
{"id": "C04", "title": "Checksum gate", "statement": "A packet whose message id is in the dialect is routed only if its checksum matches; a packet with an id outside the dialect is routed regardless of its checksum.", "quantifier": "all packets, all dialect tables, all receive-buffer states", "why_tests_cant": "Universal over packets and tables.", "anchors": ["src/endpoint.cpp: Endpoint::read_msg, Endpoint::_check_crc"]}
{"id": "C05", "title": "Every short corruption of a known packet is caught", "statement": "If the checksummed bytes of a valid packet with a known id are damaged by a change confined to 16 consecutive bits (so in particular any single-bit or single-byte error), with the packet length and the message id unchanged, the damaged packet is not routed.", "quantifier": "all packets, all positions, all error patterns spanning at most 16 consecutive bits", "why_tests_cant": "The number of packet/position/pattern combinations is unbounded.", "anchors": ["src/endpoint.cpp: Endpoint::_check_crc"]}
{"id": "C06", "title": "The receive buffer never overflows and never wedges", "statement": "Whatever arrives, no byte is read or written outside the receive buffer by the parser, and whenever the router asks the OS for more bytes there is room for at least three maximum-size packets, so a link can never stall on a full buffer.", "quantifier": "all histories of reads on an endpoint", "why_tests_cant": "Holds for every history; a test explores a few.", "anchors": ["src/endpoint.cpp: RX_BUF_MAX_SIZE, Endpoint::read_msg"]}
{"id": "C07", "title": "A fully received valid packet is routed before the read handler returns", "statement": "When a read delivers a complete valid packet, that packet is routed before the handler for that read event returns, even when it is preceded in the same read by a damaged packet.", "quantifier": "all reads and all receive-buffer states", "why_tests_cant": "Latency bug visible only with particular packet interleavings.", "anchors": ["src/endpoint.cpp: Endpoint::handle_read, Endpoint::read_msg"]}
{"id": "C08", "title": "Target address extraction, including trimmed zeros", "statement": "For a message type with a target field, the target used for routing is the payload byte at the declared offset, and 0 (broadcast) when MAVLink 2 trimmed that byte away; message types without the field, and unknown types, count as having no target.", "quantifier": "all packets, all dialect tables and offsets, all payload lengths", "why_tests_cant": "All payload lengths against all offsets.", "anchors": ["src/endpoint.cpp: Endpoint::read_msg"]}
{"id": "C09", "title": "Receive statistics add up", "statement": "At every moment the reported total of a link equals handled + checksum errors + sequence losses (as 32-bit counters), and handled/error byte counts equal the summed sizes of those packets.", "quantifier": "all histories of a link", "why_tests_cant": "Invariant over unbounded histories.", "anchors": ["src/endpoint.cpp: Endpoint::read_msg, Endpoint::print_statistics", "src/endpoint.h: _stat"]}
{"id": "C10", "title": "Sequence-loss statistic counts lost packets", "statement": "When k packets (0 <= k < 255) are lost between two received packets, the sequence-lost statistic grows by exactly k.", "quantifier": "all sequence numbers and all loss counts", "why_tests_cant": "Off-by-one only at wrap-around.", "anchors": ["src/endpoint.cpp: Endpoint::read_msg (sequence drops)"]}
{"id": "C11", "title": "Forwarding decision is the documented one", "statement": "An endpoint accepts a message iff the sender address is not known on that endpoint, the message passes the endpoint's outgoing filters, and it is a system broadcast, or addressed to a system/component known on that endpoint under the broadcast rules, or the configured sniffer system is known on that endpoint.", "quantifier": "all endpoint states (known addresses, filters), all messages, all sniffer settings", "why_tests_cant": "State and message space is too large to enumerate.", "anchors": ["src/endpoint.cpp: Endpoint::accept_msg, has_sys_id, has_sys_comp_id", "README.md: Message routing"]}
{"id": "C12", "title": "No echo", "statement": "A message received on an endpoint is never written back to that endpoint.", "quantifier": "all reachable router states and all event sequences", "why_tests_cant": "Must hold after every history.", "anchors": ["src/mainloop.cpp: Mainloop::route_msg", "src/endpoint.cpp: Endpoint::handle_read, _add_sys_comp_id"]}
{"id": "C13", "title": "Group members always know the same systems", "statement": "At every reachable state all endpoints configured with the same non-empty group have the same list of connected systems.", "quantifier": "all reachable states, all group configurations", "why_tests_cant": "Invariant over all histories.", "anchors": ["src/endpoint.cpp: _add_sys_comp_id, link_group_member", "src/mainloop.cpp: Mainloop::add_endpoints"]}
{"id": "C14", "title": "No forwarding between members of a group", "statement": "A message received on an endpoint is never written to another endpoint of the same group.", "quantifier": "all reachable states and event sequences", "why_tests_cant": "Must hold after every history.", "anchors": ["src/mainloop.cpp: Mainloop::route_msg", "src/endpoint.cpp: _add_sys_comp_id"]}
{"id": "C15", "title": "Learned addresses are exactly the accepted senders", "statement": "The list of systems known on an endpoint consists of exactly the source addresses of messages that passed de-duplication and the incoming filters on that endpoint or on a member of its group (plus 2/0 for loggers); it never shrinks and contains no duplicates, so it stays below 65537 entries.", "quantifier": "all reachable states and event sequences", "why_tests_cant": "History-dependent.", "anchors": ["src/endpoint.cpp: Endpoint::handle_read, _add_sys_comp_id"]}
{"id": "C16", "title": "Incoming filters drop a message completely", "statement": "A message rejected by the incoming filters of the endpoint it arrived on is written to no endpoint and adds no known system anywhere; allow lists admit only listed identifiers, block lists refuse listed ones, empty lists do nothing.", "quantifier": "all reachable states, messages and filter configurations", "why_tests_cant": "All filter combinations against all messages.", "anchors": ["src/endpoint.cpp: allowed_by_incoming_filters, handle_read"]}
{"id": "C17", "title": "A routed message is written exactly once to each accepting endpoint", "statement": "Routing a message performs exactly one write call on each endpoint that accepts it, in endpoint order, and none on any other endpoint.", "quantifier": "all router states, messages and write outcomes", "why_tests_cant": "All endpoint sets and outcomes.", "anchors": ["src/mainloop.cpp: Mainloop::route_msg, Mainloop::write_msg"]}
{"id": "C18", "title": "Forwarded bytes equal received bytes", "statement": "Every endpoint to which a message is forwarded is handed exactly the bytes that were received.", "quantifier": "all router states, messages and endpoint configurations", "why_tests_cant": "The violation needs a particular logger state and endpoint order.", "anchors": ["src/mainloop.cpp: Mainloop::route_msg", "src/ulog.cpp: ULog::_logging_data_process"]}
{"id": "C19", "title": "Unroutable messages are counted", "statement": "The 'messages to unknown endpoints' counter grows by one exactly when no endpoint accepted or filtered the message.", "quantifier": "all router states and messages", "why_tests_cant": "All endpoint sets.", "anchors": ["src/mainloop.cpp: Mainloop::route_msg"]}
{"id": "C20", "title": "A sniffer sees everything", "statement": "With SnifferSysid configured (1..255), an endpoint on which that system is known is written every routed message that did not come from an address known on that endpoint and that its outgoing filters allow.", "quantifier": "all router states and messages", "why_tests_cant": "Universal over messages and states.", "anchors": ["src/endpoint.cpp: accept_msg, sniffer_sysid"]}
{"id": "C21", "title": "A disconnected TCP endpoint rejects messages", "statement": "While a TCP endpoint is disconnected it rejects messages, so a message only it could take is reported as unroutable (NEWS: 'Reject messages on TCP when not connected').", "quantifier": "all router states with a disconnected TCP endpoint", "why_tests_cant": "Depends on static dispatch; tests call the derived class directly.", "anchors": ["src/endpoint.cpp: TcpEndpoint::accept_msg", "src/mainloop.cpp: Mainloop::route_msg", "src/endpoint.h: accept_msg", "NEWS"]}
{"id": "C22", "title": "Back-pressure never blocks, duplicates or corrupts", "statement": "If an endpoint's write would block, that copy of the message is dropped, nothing is queued, every other endpoint is still served, and write-readiness notification is requested and later withdrawn.", "quantifier": "all router states, messages and write outcomes", "why_tests_cant": "All outcome combinations.", "anchors": ["src/mainloop.cpp: Mainloop::write_msg, Mainloop::loop", "src/endpoint.cpp: write_msg, handle_canwrite"]}
{"id": "C23", "title": "Transmit statistics", "statement": "An endpoint's transmit counters grow by one message and its length exactly for the writes the OS accepted (fully or partially), and the incomplete counter grows exactly when fewer bytes were accepted.", "quantifier": "all write outcomes on all endpoint kinds", "why_tests_cant": "All outcomes.", "anchors": ["src/endpoint.cpp: UartEndpoint::write_msg, UdpEndpoint::write_msg, TcpEndpoint::write_msg"]}
{"id": "C24", "title": "Loggers cannot cause message loops", "statement": "Control messages generated by a flight-stack logger are never delivered to any logger, so routing one message triggers a bounded nesting of routing and always terminates.", "quantifier": "all reachable states, all messages", "why_tests_cant": "Recursion through the router for every state.", "anchors": ["src/logendpoint.cpp: LogEndpoint::LogEndpoint, _send_msg", "src/mainloop.cpp: route_msg"]}
{"id": "C25", "title": "De-duplication window", "statement": "With de-duplication enabled, a message is dropped iff an identical message was let through no more than DeduplicationPeriod milliseconds before (non-decreasing clock below the 32-bit millisecond wrap, no hash collision).", "quantifier": "all sequences of messages and times", "why_tests_cant": "Unbounded histories.", "anchors": ["src/dedup.cpp: DedupImpl::check_packet"]}
{"id": "C26", "title": "A duplicate restarts the de-duplication timer", "statement": "README/config.sample: a duplicate that arrives within the period resets the timer for that message, so it stays suppressed as long as copies keep arriving within the period.", "quantifier": "all sequences of messages and times", "why_tests_cant": "Needs specific time sequences.", "anchors": ["src/dedup.cpp: DedupImpl::check_packet", "README.md", "src/dedup.h"]}
{"id": "C27", "title": "De-duplication bookkeeping is always consistent", "statement": "For every sequence of messages, clock values (also backwards and wrapping) and period changes, the set of remembered hashes equals the hashes queued for expiry without duplicates, so expiry never erases a missing entry (undefined behaviour).", "quantifier": "all message/time/period sequences", "why_tests_cant": "Adversarial clocks.", "anchors": ["src/dedup.cpp"]}
{"id": "C28", "title": "De-duplication survives long uptimes", "statement": "Entries expire after the period regardless of how long the router has been running.", "quantifier": "all uptimes", "why_tests_cant": "Needs 49 days of uptime.", "anchors": ["src/dedup.cpp: time_t = uint32_t"]}
{"id": "C29", "title": "De-duplication is off by default", "statement": "With period 0 every message passes and no state is kept.", "quantifier": "all message sequences", "why_tests_cant": "Universal.", "anchors": ["src/dedup.cpp: Dedup::check_packet"]}
{"id": "C30", "title": "De-duplication never suppresses the only routed copy", "statement": "If a copy of a message is dropped as a duplicate, an identical copy was routed within the period.", "quantifier": "all multi-endpoint histories with filters", "why_tests_cant": "Needs interleaving of links and filters.", "anchors": ["src/endpoint.cpp: Endpoint::handle_read"]}
{"id": "C31", "title": "A disconnected TCP client is removed, nothing else is", "statement": "When the peer of a TCP endpoint without reconnect interval (an accepted client, or one configured with RetryTimeout=0) closes the connection (read EOF or EPIPE on write), the endpoint is removed from routing by the end of that main-loop iteration; other endpoints, and TCP endpoints with a reconnect interval, are never removed.", "quantifier": "all reachable states and event sequences", "why_tests_cant": "Interleavings.", "anchors": ["src/mainloop.cpp: process_tcp_hangups, loop", "src/endpoint.cpp: TcpEndpoint::_read_msg, write_msg"]}
{"id": "C32", "title": "Exactly one reconnect attempt timer", "statement": "A TCP client endpoint with a positive RetryTimeout is at every moment either connected with no retry timer pending or disconnected with exactly one pending, armed with that interval.", "quantifier": "all event sequences", "why_tests_cant": "Interleavings of reads, writes, timer events.", "anchors": ["src/endpoint.cpp: _schedule_reconnect, _retry_timeout_cb, TcpEndpoint::setup"]}
{"id": "C33", "title": "Reconnect starts with clean framing", "statement": "After a TCP client endpoint reconnects, packets of the new connection are framed as if the connection were fresh, whatever was left unfinished in the old one.", "quantifier": "all old and new byte streams", "why_tests_cant": "Specific partial data at disconnect.", "anchors": ["src/endpoint.cpp: TcpEndpoint::_schedule_reconnect, reopen, Endpoint::read_msg"]}
{"id": "C34", "title": "UDP destination address", "statement": "A UDP server endpoint sends nothing before the first datagram arrives, and afterwards sends to the source of the most recently received datagram; a UDP client sends to the configured address until a datagram arrives and then to its sender.", "quantifier": "all event sequences", "why_tests_cant": "Histories.", "anchors": ["src/endpoint.cpp: UdpEndpoint::_read_msg, write_msg, open_ipv4"]}
{"id": "C35", "title": "UDP client falls back after silence", "statement": "A UDP client endpoint re-arms a 5 second timer on every received datagram; when it fires the destination is the configured address again until the next datagram.", "quantifier": "all event sequences", "why_tests_cant": "Histories.", "anchors": ["src/endpoint.cpp: _nomessage_timeout_cb, _read_msg"]}
{"id": "C36", "title": "UART baud cycling", "statement": "With several baud rates configured the UART endpoint steps through them cyclically, each tick to the next, and the first packet with a known id stops the cycling for good, keeping the current rate.", "quantifier": "all event sequences and baud lists", "why_tests_cant": "Histories.", "anchors": ["src/endpoint.cpp: _change_baud_cb, UartEndpoint::read_msg, add_speeds"]}
{"id": "C37", "title": "Timer removal is exact", "statement": "Removing finished timers deletes exactly the timers marked for removal, keeps the others in order, and never follows a freed node.", "quantifier": "all timer lists and marks", "why_tests_cant": "All list shapes.", "anchors": ["src/mainloop.cpp: _del_timeouts"]}
{"id": "C38", "title": "A removed timer never fires", "statement": "After a timer was removed (or its callback asked not to be repeated) its callback is not invoked again.", "quantifier": "all event sequences", "why_tests_cant": "Batches of stale events.", "anchors": ["src/timeout.cpp: Timeout::handle_read", "src/mainloop.cpp: del_timeout, _del_timeouts"]}
{"id": "C39", "title": "Timer interval encoding", "statement": "A requested interval of n milliseconds is programmed as a valid timespec (nanoseconds below 10^9) denoting exactly n milliseconds, and only n = 0 disarms the timer.", "quantifier": "all 32-bit n", "why_tests_cant": "2^32 values.", "anchors": ["src/mainloop.cpp: mod_timeout"]}
{"id": "C40", "title": "Poll errors", "statement": "A poll error on a UART, UDP, or timer descriptor requests exit with failure; a poll error on a TCP endpoint never does.", "quantifier": "all states and events", "why_tests_cant": "All combinations.", "anchors": ["src/mainloop.cpp: loop", "src/pollable.h: is_critical", "src/endpoint.h: TcpEndpoint::is_critical"]}
{"id": "C41", "title": "No dangling event pointers", "statement": "Every pointer registered with epoll refers to a live object, and objects are destroyed only between event batches, so no event is ever dispatched to a destroyed object.", "quantifier": "all reachable states and batches", "why_tests_cant": "Use-after-free depends on schedule.", "anchors": ["src/mainloop.cpp: loop, process_tcp_hangups, _del_timeouts"]}
{"id": "C42", "title": "A new log never replaces an existing file and sorts after all of them", "statement": "A new log file is created under a name that did not exist and its index is greater than the index of every numbered file in the log directory (while indices stay below 2^32-1).", "quantifier": "all directory contents", "why_tests_cant": "All directory contents.", "anchors": ["src/logendpoint.cpp: _get_prefix, _get_file"]}
{"id": "C43", "title": "Log retention deletes the oldest logs first and no more than needed", "statement": "Before a new log is opened, closed logs are deleted in index order, oldest first, and only until both the free-space and the file-count limits are met; afterwards (if deletions succeed) at most MaxLogFiles closed logs remain.", "quantifier": "all directory contents, sizes and limits", "why_tests_cant": "All directory contents.", "anchors": ["src/logendpoint.cpp: _delete_old_logs"]}
{"id": "C44", "title": "Log retention only ever deletes closed logs", "statement": "Only read-only non-directory files whose name matches the log naming pattern are ever deleted; in particular no log currently being written and no foreign file.", "quantifier": "all directory contents and limits", "why_tests_cant": "All directory contents.", "anchors": ["src/logendpoint.cpp: _delete_old_logs"]}
{"id": "C45", "title": "A failing free-space query does not delete logs", "statement": "If the free space cannot be determined, no log is deleted for lack of space.", "quantifier": "all limits and directory contents", "why_tests_cant": "Needs fault injection plus arithmetic.", "anchors": ["src/logendpoint.cpp: _delete_old_logs (UINT64_MAX)"]}
{"id": "C46", "title": "Unfinished logs are closed at startup", "statement": "After start-up every regular numbered file in the log directory is read-only; nothing is deleted, renamed or modified.", "quantifier": "all directory contents", "why_tests_cant": "All directory contents.", "anchors": ["src/logendpoint.cpp: mark_unfinished_logs"]}
{"id": "C47", "title": "LogMode while-armed", "statement": "In while-armed mode a log is open exactly when the last heartbeat from the monitored autopilot reported armed (provided opening it succeeded), whatever other traffic is interleaved.", "quantifier": "all message sequences", "why_tests_cant": "Histories.", "anchors": ["src/logendpoint.cpp: _handle_auto_start_stop"]}
{"id": "C48", "title": "A log that cannot be opened disables logging", "statement": "After a failed start triggered by traffic the logger never tries to open a file again.", "quantifier": "all message sequences after the failure", "why_tests_cant": "Histories.", "anchors": ["src/logendpoint.cpp: _handle_auto_start_stop"]}
{"id": "C49", "title": "Log target system", "statement": "The monitored system is the configured LogSystemId, otherwise the sender of the first heartbeat from an autopilot component, and it never changes afterwards.", "quantifier": "all message sequences", "why_tests_cant": "Histories.", "anchors": ["src/logendpoint.cpp", "src/binlog.cpp", "src/ulog.cpp", "src/tlog.cpp"]}
{"id": "C50", "title": "Binary log content", "statement": "After any sequence of data blocks (duplicates, gaps, any order) the log file holds at offset 200*n the most recent data of block n, zeros for blocks never received, for block numbers below 2^32/200.", "quantifier": "all block sequences", "why_tests_cant": "Unbounded sequences in any order.", "anchors": ["src/binlog.cpp: _logging_data_process"]}
{"id": "C51", "title": "Binary log acknowledgements", "statement": "Every stored block is acknowledged, only stored blocks are acknowledged, and each block number skipped over is reported missing (NACK) with its own number.", "quantifier": "all block sequences", "why_tests_cant": "Sequences with gaps.", "anchors": ["src/binlog.cpp: _send_ack"]}
{"id": "C52", "title": "One data block causes a bounded amount of traffic", "statement": "The number of control messages sent in reaction to one data block is bounded by a constant.", "quantifier": "all block numbers", "why_tests_cant": "Adversarial sequence numbers.", "anchors": ["src/binlog.cpp: _send_ack"]}
{"id": "C53", "title": "ULog stream fidelity", "statement": "Without losses, the concatenation of what was written to the file and what is still buffered equals the received ULog byte stream, and the file always ends on a ULog message boundary when writes are complete.", "quantifier": "all in-order packet sequences, all ULog contents, all write outcomes that fit the partial-write buffer", "why_tests_cant": "Unbounded sequences and write outcomes.", "anchors": ["src/ulog.cpp: _logging_data_process, _logging_flush"]}
{"id": "C54", "title": "ULog sequence handling", "statement": "A packet is processed iff it is the expected one or ahead by less than half the 16-bit number space; retransmissions are ignored.", "quantifier": "all expected/received sequence numbers", "why_tests_cant": "2^32 pairs.", "anchors": ["src/ulog.cpp: _logging_seq"]}
{"id": "C55", "title": "ULog never writes outside its buffers", "statement": "No received packet, however malformed, makes the logger write outside its staging buffers.", "quantifier": "all packets and logger states reachable", "why_tests_cant": "Adversarial packets.", "anchors": ["src/ulog.cpp: _logging_data_process"]}
{"id": "C56", "title": "ULog processing terminates", "statement": "Processing a received packet always terminates.", "quantifier": "all packets", "why_tests_cant": "Adversarial packets.", "anchors": ["src/ulog.cpp: _logging_flush"]}
{"id": "C57", "title": "ULog never reads outside the received packet", "statement": "Processing a received packet only reads bytes of that packet.", "quantifier": "all packets", "why_tests_cant": "Adversarial packets.", "anchors": ["src/ulog.cpp: _logging_data_process, write_msg"]}
{"id": "C58", "title": "ULog resynchronises after loss", "statement": "After lost packets, logging resumes at the message boundary announced by the next packet that has one, discarding only the incomplete message.", "quantifier": "all loss patterns", "why_tests_cant": "Unbounded.", "anchors": ["src/ulog.cpp: _logging_data_process"]}
{"id": "C59", "title": "Telemetry log records", "statement": "If the system takes every write completely, the telemetry log is a concatenation of records, one per message offered to the logger while open, each an 8-byte big-endian microsecond time followed by the packet; a reader can recover all of them.", "quantifier": "all message sequences", "why_tests_cant": "Unbounded.", "anchors": ["src/tlog.cpp: write_msg"]}
{"id": "C60", "title": "Automatic dialect selection", "statement": "In auto mode the backend is chosen by the first recognised autopilot type in a heartbeat of the monitored system and never changes; before that nothing is logged.", "quantifier": "all message sequences", "why_tests_cant": "Histories.", "anchors": ["src/autolog.cpp"]}
{"id": "C61", "title": "All logs are finalised at exit", "statement": "On a requested exit every open log is closed and made read-only.", "quantifier": "all states at exit", "why_tests_cant": "Needs the combination of loggers.", "anchors": ["src/mainloop.cpp: loop", "src/logendpoint.cpp: stop"]}
{"id": "C62", "title": "Configuration text round-trip", "statement": "Printing any set of sections with keys and values as a configuration file and reading it back yields exactly those sections, keys and values.", "quantifier": "all section/key/value sets of legal characters", "why_tests_cant": "Unbounded texts.", "anchors": ["src/common/conf_file.cpp: _parse_file, _add_section, _add_config, _trim"]}
{"id": "C63", "title": "Later configuration overrides earlier", "statement": "For every key (case-insensitive) in every section (case-insensitive) the value used is the one from the last line that sets it across all files in order; all other settings are unaffected.", "quantifier": "all sequences of configuration lines and files", "why_tests_cant": "Unbounded.", "anchors": ["src/common/conf_file.cpp: _add_config, _find_config, _find_section"]}
{"id": "C64", "title": "Option parsers never see an empty value", "statement": "No configuration text can store a key or a value of length zero, so the parsers' non-empty assertions never abort the program.", "quantifier": "all configuration texts", "why_tests_cant": "Universal over inputs.", "anchors": ["src/common/conf_file.cpp: _add_config"]}
{"id": "C65", "title": "Every configuration line is honoured", "statement": "Every line of a configuration file is honoured, including the last one.", "quantifier": "all configuration texts", "why_tests_cant": "Missing final newline.", "anchors": ["src/common/conf_file.cpp: _parse_file"]}
{"id": "C66", "title": "Section enumeration", "statement": "Enumerating sections by type visits every matching section exactly once and no other, and stays within its name buffer.", "quantifier": "all configurations", "why_tests_cant": "Boundary length.", "anchors": ["src/common/conf_file.cpp: get_sections, MAX_SECTION_NAME"]}
{"id": "C67", "title": "Configuration directory", "statement": "All regular files of the configuration directory are read in alphabetical order; more files than supported are ignored without harm.", "quantifier": "all directory contents", "why_tests_cant": "129 files.", "anchors": ["src/main.cpp: parse_conf_files"]}
{"id": "C68", "title": "Required options", "statement": "Extracting options fails iff a required key is missing or a present value is malformed; otherwise each option gets the parsed value of its key and absent options keep their defaults.", "quantifier": "all tables and configurations", "why_tests_cant": "Universal.", "anchors": ["src/common/conf_file.cpp: _extract_options_from_section, extract_options"]}
{"id": "C69", "title": "Number parsing", "statement": "A numeric option accepts exactly the C integer syntax of the whole value; decimal values in range are read exactly, out-of-range values and trailing garbage are rejected.", "quantifier": "all strings", "why_tests_cant": "All strings.", "anchors": ["src/common/util.cpp: safe_atoi, safe_atoul, safe_atoull"]}
{"id": "C70", "title": "Filter lists", "statement": "A comma separated list of decimal identifiers in range is read as exactly those numbers in order.", "quantifier": "all lists", "why_tests_cant": "All lists.", "anchors": ["src/common/conf_file.cpp: parse_uint8_vector, parse_uint32_vector"]}
{"id": "C71", "title": "Booleans and enumerations", "statement": "Boolean, UDP mode, dialect, log mode and log level values are accepted case-insensitively exactly for their documented spellings.", "quantifier": "all strings", "why_tests_cant": "All strings.", "anchors": ["src/common/conf_file.cpp: parse_bool", "src/endpoint.cpp: parse_udp_mode", "src/logendpoint.cpp: parse_mavlink_dialect, parse_log_mode", "src/main.cpp: parse_log_level"]}
{"id": "C72", "title": "Automatic UDP ports do not collide", "statement": "A UDP client endpoint without explicit port gets the next port from 14550 not used by an earlier endpoint with the same address.", "quantifier": "all configurations", "why_tests_cant": "Third endpoint on one address.", "anchors": ["src/main.cpp: find_next_udp_port, parse_argv"]}
{"id": "C73", "title": "Address argument syntax", "statement": "<address>:<number> is split into exactly that address and number, also for bracketed IPv6 addresses; an address without number is accepted where the number is optional.", "quantifier": "all addresses and numbers", "why_tests_cant": "All strings.", "anchors": ["src/main.cpp: split_on_last_colon"]}
{"id": "C74", "title": "Only usable ports are accepted", "statement": "A configuration is accepted only if its port can be used as given (1..65535).", "quantifier": "all port values", "why_tests_cant": "Range of unsigned long.", "anchors": ["src/endpoint.cpp: UdpEndpoint::validate_config, TcpEndpoint::validate_config"]}
{"id": "C75", "title": "Address validation", "statement": "An accepted address is either four dot-separated groups of 1-3 digits or a bracketed colon-separated list of groups of at most four lower-case hexadecimal digits; so square brackets identify IPv6 exactly.", "quantifier": "all strings", "why_tests_cant": "All strings.", "anchors": ["src/endpoint.cpp: validate_ipv4, validate_ipv6, ip_str_is_ipv6"]}
{"id": "C76", "title": "Log directory creation", "statement": "Creating a missing log directory creates every missing component of the path in order and nothing else, and terminates for every path.", "quantifier": "all paths and directory trees", "why_tests_cant": "All paths.", "anchors": ["src/common/util.cpp: mkdir_p"]}
{"id": "C77", "title": "Endpoint set from configuration", "statement": "Each configured section or command line option creates exactly one endpoint with exactly the filters and group written in it.", "quantifier": "all configurations", "why_tests_cant": "All configurations.", "anchors": ["src/main.cpp: parse_confs", "src/endpoint.cpp: setup", "src/mainloop.cpp: add_endpoints"]}
{"id": "C78", "title": "Settings take effect", "statement": "Configured settings (sniffer system, de-duplication period, reconnect interval, TCP server port, statistics, and the kind, mode, system and retention limits of the logs) take effect with the configured value.", "quantifier": "all values", "why_tests_cant": "Truncating conversions.", "anchors": ["src/mainloop.cpp: add_endpoints", "src/dedup.h: set_dedup_period", "src/endpoint.cpp: _schedule_reconnect"]}
{"id": "C79", "title": "Bad list entries are rejected", "statement": "A filter list containing an entry that is not a number or is out of range for its type is rejected instead of being read as other identifiers.", "quantifier": "all lists", "why_tests_cant": "Values wrap silently only for particular entries.", "anchors": ["src/common/conf_file.cpp: parse_uint8_vector, parse_uint32_vector"]}
{"id": "C80", "title": "Numeric addresses are recognised", "statement": "Every numeric IPv4 or (bracketed) IPv6 address is accepted as endpoint address, and nothing else.", "quantifier": "all strings", "why_tests_cant": "All strings.", "anchors": ["src/endpoint.cpp: validate_ipv4, validate_ipv6"]}
{"id": "C81", "title": "Received packets are the packets that arrived", "statement": "Over a whole run, the packets the router receives on a link are exactly the valid packets in the data that arrived on that link, in order, each once, however the data is cut into reads and whatever happens on other links; the receive statistics of the link are those of these packets; nothing is received before it has arrived completely.", "quantifier": "all configurations, schedules and data on all links", "why_tests_cant": "The whole program must be considered: other endpoints and loggers share the buffers.", "anchors": ["src/endpoint.cpp: Endpoint::handle_read, read_msg", "src/mainloop.cpp: route_msg", "src/ulog.cpp: _logging_data_process"]}
{"id": "C82", "title": "Short or failed writes do not damage logs", "statement": "When the system takes only part of a write to a log file, or refuses it, the part of the log written before and the records written after it can still be read: at most the message of that write is lost or shortened.", "quantifier": "all message sequences and all outcomes of all writes", "why_tests_cant": "A disk that is nearly full at an arbitrary moment.", "anchors": ["src/tlog.cpp: write_msg", "src/ulog.cpp: _logging_flush", "src/binlog.cpp: _logging_data_process"]}
{"id": "C83", "title": "A ULog log consists of whole messages", "statement": "However the packets with log data are lost, repeated or delayed, and whatever the writes to the file return, a ULog log is at every moment the header followed by messages the vehicle sent: none of them changed, repeated or out of order, and none cut short except that the last may still be incomplete; once the log is closed nothing is missing at its end unless a write failed.", "quantifier": "all ULog streams, all patterns of loss, repetition and reordering, all outcomes of all writes", "why_tests_cant": "Combinations of message boundaries, packet boundaries, losses and short writes are unbounded.", "anchors": ["src/ulog.cpp: _logging_seq, _logging_data_process, _logging_flush, stop"]}
{"id": "C84", "title": "No traffic crashes or hangs the router", "statement": "Whatever arrives on the links, whenever timers expire and connections open, break or refuse data, and whatever the system calls return, the router handles every batch of events to the end: it never reads or writes outside a buffer, never uses an endpoint or timer it has destroyed, and never stays in a loop; the same holds for the end of the program. It stops only when it is asked to or an endpoint or timer reports an error.", "quantifier": "all configurations, histories, batches of events and outcomes of system calls", "why_tests_cant": "Every reachable state and every next event must be considered.", "anchors": ["src/endpoint.cpp: Endpoint::handle_read, read_msg, handle_canwrite", "src/mainloop.cpp: loop, route_msg, process_tcp_hangups", "src/timeout.cpp: handle_read", "src/ulog.cpp: _logging_data_process"]}
{"id": "C85", "title": "No configuration crashes or hangs the start-up", "statement": "Whatever the main configuration file, the files in the configuration directory, the environment and the command line contain, reading them comes to an end: the program either has a complete configuration or refuses to start, and never reads or writes outside a buffer or fails an assertion.", "quantifier": "all texts (any bytes), directories, environments and command lines", "why_tests_cant": "Every byte sequence is a possible file, and the buffers involved are exceeded only by particular lengths and numbers.", "anchors": ["src/main.cpp: main, parse_conf_files, parse_confs, parse_argv", "src/common/conf_file.cpp: parse, _parse_file, get_sections, extract_options"]}
{"id": "C86", "title": "No descriptor is leaked or closed twice", "statement": "A failed attempt to open, accept or reconnect an endpoint leaves no descriptor open; an endpoint holds at most one descriptor for its connection, and destroying it closes exactly that one, once; the number of open descriptors does not grow with the number of attempts.", "quantifier": "all endpoint kinds, all outcomes of system calls (including the numbers the kernel hands out), all histories of lost connections, retries and other activity of the process", "why_tests_cant": "Leaks show only after many failures of particular calls.", "anchors": ["src/endpoint.cpp: UartEndpoint::open, UdpEndpoint::open, open_ipv4, open_ipv6, TcpEndpoint::open, open_ipv6, close, accept, _schedule_reconnect, _retry_timeout_cb", "src/mainloop.cpp: add_timeout, _del_timeouts, handle_tcp_connection, tcp_open", "src/pollable.cpp: ~Pollable"]}
{"id": "C87", "title": "The address used is the address written", "statement": "An endpoint binds, connects or sends to the network address its configuration says: a dotted decimal IPv4 address means its four numbers, an IPv6 address in brackets means its groups, with :: for the groups left out; a text that is no address is refused.", "quantifier": "all address texts that are accepted, all interfaces and memory contents", "why_tests_cant": "The conversions have different rules for particular digits, lengths and positions of zeros.", "anchors": ["src/endpoint.cpp: UdpEndpoint::open_ipv4, UdpEndpoint::open_ipv6, TcpEndpoint::open_ipv4, TcpEndpoint::open_ipv6, validate_ip"]}
{"id": "C88", "title": "Multicast addresses are joined", "statement": "A UDP server configured with an IPv6 multicast address joins exactly that group and listens on all addresses; addresses that are not multicast are used as they are; TCP endpoints refuse multicast addresses and no others.", "quantifier": "all IPv6 addresses in all notations, all memory contents", "why_tests_cant": "Whether an address is recognised depends on how it is written.", "anchors": ["src/endpoint.cpp: ipv6_is_multicast, UdpEndpoint::open_ipv6, TcpEndpoint::open_ipv6"]}
{"id": "C89", "title": "Link-local addresses are used on their interface", "statement": "An endpoint with an IPv6 link-local address is given the interface on which the address is valid.", "quantifier": "all link-local addresses and lists of interface addresses", "why_tests_cant": "It depends on the interfaces of the machine and on how the address is written.", "anchors": ["src/endpoint.cpp: ipv6_is_linklocal, ipv6_get_scope_id, UdpEndpoint::open_ipv6, TcpEndpoint::open_ipv6"]}
{"id": "C90", "title": "The command line means what the help text says", "statement": "Every option of the help text can be given by its letter or its long name, with its value as the next word or attached, in any order and mixed with endpoints; the program acts on exactly the options and endpoints given, and refuses a command line in which a value is missing.", "quantifier": "all command lines", "why_tests_cant": "The command line is scanned twice and permuted in between; the number of combinations is unbounded.", "anchors": ["src/main.cpp: help, short_options, long_options, pre_parse_argv, parse_argv"]}
{"id": "C91", "title": "The log reaches the disk", "statement": "What was written to a log file is on the disk a bounded number of fsync periods later, and all of it when the log is stopped, whatever the disk's speed; starting and stopping logs does nothing undefined.", "quantifier": "all histories of writes, timer ticks, ends of asynchronous requests, starts and stops", "why_tests_cant": "It depends on when asynchronous requests end.", "anchors": ["src/logendpoint.cpp: LogEndpoint::_fsync, LogEndpoint::start, LogEndpoint::stop"]}
{"id": "C92", "title": "The statistics report is right", "statement": "The report printed for an endpoint gives its counters, whole kilobytes, and for wrong and lost messages the percentage of all messages, rounded down.", "quantifier": "all values of the counters", "why_tests_cant": "Counters grow for weeks.", "anchors": ["src/endpoint.cpp: Endpoint::print_statistics"]}
{"id": "C93", "title": "The configured log level decides which messages appear", "statement": "Exactly the messages up to the configured level appear, each once, whole and in order, as lines on standard error (coloured only on a terminal) or in the system log with their severity.", "quantifier": "all sequences of messages, levels and backends", "why_tests_cant": "All combinations of levels, lengths and points in time.", "anchors": ["src/common/log.cpp: Log::open, Log::logv, Log::logv_to_fd, Log::set_max_level", "src/main.cpp: main"]}
{"id": "C94", "title": "A connection that ended is let go of", "statement": "When a TCP endpoint was removed because its connection ended, its connection is closed, nothing is read from it, received from it or written to it any more, and it does not wake the router up.", "quantifier": "all configurations and histories", "why_tests_cant": "Must hold for all later events; whether the object lives on depends on the groups.", "anchors": ["src/mainloop.cpp: Mainloop::process_tcp_hangups, Mainloop::loop", "src/endpoint.cpp: Endpoint::link_group_member, TcpEndpoint::_read_msg"]}
{"id": "C95", "title": "The invocations of the README bridge vehicle and ground stations", "statement": "Started with -e address:port for each ground station and a serial device with its baud rate (or a UDP address to listen on), and without configuration files, the program sends every valid packet from the vehicle that is not addressed to a single system to every ground station at the address given, with exactly its bytes, and passes every packet of a station that is addressed to a system heard on the vehicle's link, or to all, to that link; except to links from which the sender itself was heard.", "quantifier": "all such command lines, all traffic and schedules", "why_tests_cant": "It composes everything from the command line to the system calls, for all traffic.", "anchors": ["README.md: Running", "src/main.cpp: main, parse_argv", "src/mainloop.cpp: Mainloop::loop, Mainloop::route_msg", "src/endpoint.cpp: Endpoint::read_msg, UdpEndpoint::write_msg, UartEndpoint::write_msg"]}
{"id": "C96", "title": "A peer reads whole packets", "statement": "What a TCP client or a serial device reads from the program is a sequence of whole packets, each of them received by the program with a correct checksum (or of an unknown type) or made by it.", "quantifier": "all configurations, traffic, schedules and results of the write calls", "why_tests_cant": "A packet taken in part by the system shifts the framing of everything behind it; it takes a full send buffer at the right moment.", "anchors": ["src/endpoint.cpp: TcpEndpoint::write_msg, UartEndpoint::write_msg", "src/mainloop.cpp: Mainloop::write_msg"]}
{"id": "C97", "title": "The program's own messages are valid", "statement": "Every message the program sends on its own behalf (to start, stop and acknowledge logging) is a well-formed MAVLink 2 packet with correct length, zero-trimmed payload and checksum, from system 2 component 0, of one of the types COMMAND_LONG, REMOTE_LOG_BLOCK_STATUS and LOGGING_ACK, addressed to the system the logger listens to, and reaches every endpoint unchanged.", "quantifier": "all configurations, traffic and schedules", "why_tests_cant": "Payload trimming and the sequence number depend on the values sent.", "anchors": ["src/logendpoint.cpp: LogEndpoint::_send_msg", "src/binlog.cpp: BinLog::_send_start_message, _send_stop_message, _logging_seq_send", "src/ulog.cpp: ULog::_send_start_message, _send_stop_message, write_msg"]}
{"id": "C98", "title": "Logging dialogue: ask until answered, watch for silence", "statement": "While a flight-stack log is open and the vehicle has not answered, every expiry of the one-second timer sends the monitored system exactly one request to start logging; after the answer (block 0, or the accepted command) no further start request is sent before a stop request. Every five seconds it is checked whether log data came since the last check: if none came and no answer, the vehicle is told to stop, the log is closed and a new one is asked for; if some came, the check changes nothing and sends nothing. As long as timers can be created, an open log always has one of the two timers running.", "quantifier": "all histories of messages and timer expiries, all logging modes, both protocols", "why_tests_cant": "Whether the log is stuck or restarted needlessly depends on the order of timer expiries, answers, refusals, log data, arming and failures of the file system.", "anchors": ["src/binlog.cpp: BinLog::_logging_start_timeout, write_msg, start, stop", "src/ulog.cpp: ULog::_logging_start_timeout, write_msg, start, stop", "src/logendpoint.cpp: LogEndpoint::_alive_timeout, _start_alive_timeout, _remove_logging_start_timeout, start, stop"]}
{"id": "C99", "title": "A flight-stack log belongs to the monitored vehicle", "statement": "A flight-stack logger that monitors one system is not influenced by messages of other systems: they neither reach the log, nor answer the logger's requests, nor make it send anything.", "quantifier": "all histories of messages and timer expiries, all messages of other systems, all logging modes, both protocols", "why_tests_cant": "Depends on which system sends which message in every state of the logger; tests use one vehicle.", "anchors": ["src/binlog.cpp: BinLog::write_msg", "src/ulog.cpp: ULog::write_msg", "src/logendpoint.cpp: LogEndpoint::_handle_auto_start_stop"]}
{"id": "C100", "title": "Logging dialogue in the running program", "statement": "In every run of the program with a log directory: every request of the flight-stack logger to start logging follows an expiry of its start timer, and every expiry is followed by one; after a request to which an answer was delivered, no other request is sent unless a stop request was sent after the first; while a request is unanswered and no stop request was sent, the start timer is running; when two alive checks follow each other and neither an answer nor log data was delivered to the logger in between, a stop request follows the second; when log data was delivered in between, the logger sends nothing until its next message or timer; after an answer, with no stop request since the first request, the alive check is running if timers can be created.", "quantifier": "all configurations with a log directory (both dialects and automatic choice, with or without telemetry log), all runs: any traffic on any endpoints, any order of timer expiries, connections, hang-ups and failures of system calls", "why_tests_cant": "The dialogue crosses the router: messages of many endpoints, routing, filtering and duplicate detection decide what the logger hears, and its timers share the program's timer list with all other endpoints.", "anchors": ["src/mainloop.cpp: Mainloop::loop, route_msg, add_timeout, _handle_timeout", "src/binlog.cpp: BinLog::_logging_start_timeout, write_msg", "src/ulog.cpp: ULog::_logging_start_timeout, write_msg", "src/autolog.cpp: AutoLog::write_msg", "src/logendpoint.cpp: LogEndpoint::_alive_timeout, start, stop"]}
{"id": "C101", "title": "The telemetry log is a record of the router's traffic", "statement": "In every run of the program with telemetry logging switched on, the telemetry log being written holds the messages the router received and forwarded, from the one that made the monitored system known on: each once, unchanged, in the order of their arrival, with a time, and nothing else; a reader gets them all back.", "quantifier": "all configurations with a log directory and a telemetry log, all runs: any traffic on any endpoints, any order of timer expiries, connections, hang-ups, other logs being written in the same directory, and failures of system calls", "why_tests_cant": "What the log holds depends on routing, filtering and duplicate detection of the whole traffic and on everything else that happens in the log directory during the run.", "anchors": ["src/mainloop.cpp: Mainloop::route_msg", "src/tlog.cpp: TLog::write_msg", "src/logendpoint.cpp: LogEndpoint::LogEndpoint, start, _delete_old_logs", "src/endpoint.cpp: Endpoint::accept_msg"]}
{"id": "C102", "title": "What the binary logger acknowledges is in its log file", "statement": "A data block the binary logger acknowledged is in the log file the logger is writing, until the logger asks the vehicle to stop: at 200 times its number the file holds the bytes of the acknowledged message or of a later message with the same block. A logger without a log file has asked the vehicle to stop since its last acknowledgement.", "quantifier": "every configuration with a log, every run of the program (traffic, timers, results of all system calls including failing and short writes, failing timers, other loggers deleting old files), every block number below 2^32/200", "why_tests_cant": "The vehicle forgets a block once it is acknowledged; whether it was stored depends on the results of lseek and write, on restarts in between and on what the other logger deletes.", "anchors": ["src/binlog.cpp: write_msg, _logging_data_process, _send_ack, _restart", "src/logendpoint.cpp: start, stop, _delete_old_logs, _alive_timeout", "src/mainloop.cpp"]}
{"id": "C103", "title": "What the streaming logger acknowledges", "statement": "The streaming logger acknowledges each message that asks for it, once, in order, at once and with the sequence number of that message; and data it acknowledged are stored in its log file.", "quantifier": "every configuration with a log, every run of the program (traffic, timers, results of all system calls), every message with log data", "why_tests_cant": "The vehicle drops acknowledged data; which sequence numbers are reported depends on the whole history of the logger and on how the sender trimmed its messages.", "anchors": ["src/ulog.cpp: write_msg, _logging_data_process", "src/logendpoint.cpp: _send_msg", "src/mainloop.cpp"]}
{"id": "C104", "title": "Serial ports pass bytes unchanged, in the configured way", "statement": "Once a serial endpoint has been set up, its device passes every byte unchanged in both directions: nothing is translated, echoed, edited, taken as flow control or turned into a signal. It uses 8 data bits, no parity, one stop bit, the first configured baud rate in both directions, and hardware flow control exactly if configured. Trying another baud rate changes nothing but the speed. None of this depends on what the device was used for before.", "quantifier": "every previous setting of the device (all flag words, control characters, speeds), every byte, every list of baud rates, every pattern of failing calls, any number of baud rate changes", "why_tests_cant": "There are 2^128 combinations of flag words a device may be left in, and tests run on pseudo terminals or UDP, whose settings are harmless.", "anchors": ["src/endpoint.cpp: UartEndpoint::open, set_speed, set_flow_control, add_speeds, _change_baud_cb, setup", "src/common/xtermios.cpp: reset_uart"]}
{"id": "C105", "title": "The ULog file in a running program", "statement": "In every run of the program with a streaming logger: since the logger last told the vehicle to stop, if it asked the vehicle to start, then got the header of a log and then any of its packets (some lost, repeated or out of order, between any other traffic), the file being written holds that header and whole messages of the vehicle in their order, only the end of the last one missing; before the header arrives the file is empty. When the program ends the log is closed, and the end of the last message is not missing unless a write failed.", "quantifier": "every configuration with a log, every run of the program (traffic, timers, batches of events, connections, results of all system calls), every log of a vehicle, every logging mode", "why_tests_cant": "The file depends on the whole history of the router: earlier logs, modes, checks for a vehicle that fell silent, log files deleted to make space, and traffic of other endpoints in between.", "anchors": ["src/ulog.cpp: write_msg, start, stop, _logging_start_timeout, _logging_seq, _logging_data_process", "src/logendpoint.cpp: start, stop, _start_alive_timeout", "src/autolog.cpp: write_msg", "src/mainloop.cpp: loop, route_msg"]}
{"id": "C106", "title": "Datagrams do not disturb each other", "statement": "On a UDP link each datagram stands for itself: the valid packets it holds are received, in order and each once, whatever other datagrams arrived before or after it and whichever were lost; nothing is received that does not lie within one datagram.", "quantifier": "every configuration, every run of the program, every sequence of datagrams on every link", "why_tests_cant": "What is left of one datagram meets the next in the same buffer; which combinations do harm depends on lengths and bytes of both.", "anchors": ["src/endpoint.cpp: UdpEndpoint::_read_msg, Endpoint::read_msg, handle_read"]}
{"id": "C107", "title": "The end of the program keeps the logs", "statement": "When the program ends in an orderly way, it adds, removes and renames nothing in the log directory. Every file keeps its contents, except that a streaming logger may still write to the file it has open, and no file but the one the flight stack's logger has open changes its permissions, which become read-only. So a block the binary logger acknowledged and did not take back is in the closed log.", "quantifier": "every configuration, every run of the program (traffic, timers, results of all system calls), every moment at which it is told to end, every state of the log directory", "why_tests_cant": "Closing a log sends messages through the whole router and renews timers; whether that touches other logs or deletes old ones depends on the state the program was in.", "anchors": ["src/mainloop.cpp: Mainloop::loop", "src/logendpoint.cpp: LogEndpoint::stop", "src/binlog.cpp: BinLog::stop", "src/ulog.cpp: ULog::stop"]}
{"id": "C108", "title": "An open ULog file only grows", "statement": "What is in the ULog file a logger has open stays in it unchanged: until the logger asks the vehicle to stop logging, the file stays the open one and bytes are only added at its end. Ending the program also only adds to its end.", "quantifier": "every configuration with a log, every run of the program (traffic, timers, results of all system calls, short and failing writes), every two moments of it with no stop request of the logger in between", "why_tests_cant": "A reader that follows the file while it is written sees bytes that were written at any earlier moment; whether a later write can land on them depends on every short or failed write before it.", "anchors": ["src/ulog.cpp: ULog::_logging_flush", "src/ulog.cpp: ULog::_logging_data_process", "src/ulog.cpp: ULog::stop", "src/logendpoint.cpp: LogEndpoint::start"]}
{"id": "C109", "title": "Other files in the log directory are left alone", "statement": "Once the program has started, a file in the log directory whose name is not that of a log stays exactly as it is - type, permissions and contents -, whatever traffic comes and however many logs are opened, closed and deleted. Ending the program does not change it either. What the start-up does is the subject of C46.", "quantifier": "every configuration with a log directory, every initial content of the directory, every run of the program (traffic, timers, results of all system calls, free space), every file whose name does not begin like that of a log", "why_tests_cant": "Logs are created, written, closed and deleted by name from many places; a test sees the files it thought of, in the histories it produces.", "anchors": ["src/logendpoint.cpp: LogEndpoint::_delete_old_logs", "src/logendpoint.cpp: LogEndpoint::_get_file", "src/logendpoint.cpp: LogEndpoint::start", "src/logendpoint.cpp: LogEndpoint::stop"]}
{"id": "C110", "title": "Without a log directory no file is touched", "statement": "When no log directory is configured, the program creates, changes and deletes no file in any directory where logs could be: from its start, through all traffic and all timers, to its end, the directory is as it was. In that case the program also ends whenever it is told to.", "quantifier": "every configuration without a log directory, every content of the directory, every run of the program (traffic, connections, timers, results of all system calls)", "why_tests_cant": "The code that handles log files is reached through virtual functions and timers of endpoints; only an invariant over all histories shows that none of them exists without the option.", "anchors": ["src/mainloop.cpp: Mainloop::add_endpoints", "src/mainloop.cpp: Mainloop::loop", "src/mainloop.cpp: Mainloop::route_msg", "src/logendpoint.cpp: LogEndpoint::mark_unfinished_logs"]}
