{
 "claims": [
  {
   "property": "C01",
   "status": "proved",
   "theorems": [
    "C01_exact_slices",
    "C01_segmentation_unique",
    "C01_bytes_taken"
   ],
   "note": ""
  },
  {
   "property": "C02",
   "status": "proved",
   "theorems": [
    "C02_chunking_independent",
    "C02_eventually_all"
   ],
   "note": "Read boundaries can delay packets behind a damaged packet (see C07), never change the sequence."
  },
  {
   "property": "C03",
   "status": "proved",
   "theorems": [
    "C03_roundtrip"
   ],
   "note": "For read results of at most 840 bytes (the space always free, C06); longer reads are taken in several events."
  },
  {
   "property": "C04",
   "status": "proved",
   "theorems": [
    "C04_gate_only_if",
    "C04_gate_if",
    "C04_checksum_is_crc16"
   ],
   "note": ""
  },
  {
   "property": "C05",
   "status": "proved",
   "theorems": [
    "C05_short_bursts_caught",
    "C05_checksum_field_damage_caught",
    "C05_damaged_id_refuted"
   ],
   "note": "The id must stay the same: damage that turns the id into one outside the dialect is let through (C05_damaged_id_refuted)."
  },
  {
   "property": "C06",
   "status": "proved",
   "theorems": [
    "C06_never_out_of_bounds",
    "C06_always_room"
   ],
   "note": ""
  },
  {
   "property": "C07",
   "status": "partial",
   "theorems": [
    "C07_immediate_refuted",
    "C07_immediate_partial",
    "C02_eventually_all"
   ],
   "note": "Refuted by the code: a valid packet behind a damaged one waits for the next event. Proved: it holds when no packet fails its checksum, and held-back packets come out with later events."
  },
  {
   "property": "C08",
   "status": "proved",
   "theorems": [
    "C08_targets"
   ],
   "note": ""
  },
  {
   "property": "C09",
   "status": "proved",
   "theorems": [
    "C09_statistics"
   ],
   "note": ""
  },
  {
   "property": "C10",
   "status": "partial",
   "theorems": [
    "C10_losses_refuted",
    "C10_wrap_undercounts",
    "C10_losses_partial"
   ],
   "note": "Refuted by the code: a gap across sequence number 255 is under-counted by one. Proved: exact otherwise."
  },
  {
   "property": "C25",
   "status": "proved",
   "theorems": [
    "C25_router",
    "C25_window",
    "C25_window_by_hash"
   ],
   "note": ""
  },
  {
   "property": "C26",
   "status": "partial",
   "theorems": [
    "C26_restart_refuted",
    "C26_timer_partial"
   ],
   "note": "Refuted by the code: a duplicate does not restart the timer (contrary to README and dedup.h). Proved: the timer runs from the copy let through, so copies let through are more than a period apart, and a copy after a period without any is let through."
  },
  {
   "property": "C27",
   "status": "proved",
   "theorems": [
    "C27_consistent"
   ],
   "note": ""
  },
  {
   "property": "C28",
   "status": "partial",
   "theorems": [
    "C28_early_expiry_refuted",
    "C28_stuck_refuted",
    "C28_long_uptime_partial"
   ],
   "note": "Refuted by the code at the 2^32 ms (49.7 days) wrap; proved below it."
  },
  {
   "property": "C29",
   "status": "proved",
   "theorems": [
    "C29_router",
    "C29_off"
   ],
   "note": ""
  },
  {
   "property": "C11",
   "status": "proved",
   "theorems": [
    "C11_accepts_iff",
    "C11_filtered_iff"
   ],
   "note": "For a sniffer id of at most 255 (see C78)."
  },
  {
   "property": "C37",
   "status": "proved",
   "theorems": [
    "C37_sweep_removes_exactly_marked",
    "C37_timer_list_refines_list"
   ],
   "note": ""
  },
  {
   "property": "C39",
   "status": "proved",
   "theorems": [
    "C39_interval_exact"
   ],
   "note": ""
  },
  {
   "property": "C42",
   "status": "proved",
   "theorems": [
    "C42_new_log_is_new_and_last"
   ],
   "note": "The index claim is for directories whose indices stay below 2^32-1."
  },
  {
   "property": "C43",
   "status": "proved",
   "theorems": [
    "C43_oldest_first_and_minimal",
    "C43_count_limit",
    "C43_closed_logs",
    "C43_own_logs"
   ],
   "note": "For closed logs with pairwise different indices (which the logger itself guarantees, C42) and sizes below 2^62 bytes."
  },
  {
   "property": "C44",
   "status": "proved",
   "theorems": [
    "C44_only_closed_logs_deleted"
   ],
   "note": ""
  },
  {
   "property": "C45",
   "status": "partial",
   "theorems": [
    "C45_query_failure_refuted",
    "C45_query_failure_partial"
   ],
   "note": "Refuted by the code: with MaxLogFiles set, a failing statvfs counts as 2^64-1 free bytes and the signed difference makes the logger delete MinFreeSpace+1 bytes worth of logs. Proved: no deletion when MaxLogFiles is 0."
  },
  {
   "property": "C46",
   "status": "proved",
   "theorems": [
    "C46_startup",
    "C46_nothing_else_changes",
    "C46_all_closed"
   ],
   "note": ""
  },
  {
   "property": "C47",
   "status": "partial",
   "theorems": [
    "C47_while_armed_partial",
    "C47_closed_when_disarmed_partial",
    "C47_run_partial",
    "C47_data_block_refuted",
    "C47_short_heartbeat_refuted"
   ],
   "note": "Refuted by the code: a log data packet received while the file is closed restarts the logger and opens a file even when disarmed, and a heartbeat whose base_mode byte was trimmed is read beyond its payload. Proved for all histories without data packets while disarmed and with complete heartbeats, for the logger (C47_while_armed, C47_closed_when_disarmed) and in every run of the program, in terms of the messages the router forwards (C47_run)."
  },
  {
   "property": "C48",
   "status": "partial",
   "theorems": [
    "C48_failure_disables",
    "C48_disabled_stays_closed_partial",
    "C48_reopens_refuted"
   ],
   "note": "Refuted by the code: a log data packet makes a disabled logger open a file. Proved for all histories without log data packets."
  },
  {
   "property": "C49",
   "status": "partial",
   "theorems": [
    "C49_target",
    "C49_never_changes",
    "C49_auto_refuted"
   ],
   "note": "Holds for the binary, ULog and telemetry loggers. Refuted for the automatic selection: the logger it creates detects the autopilot again and can follow another system."
  },
  {
   "property": "C60",
   "status": "proved",
   "theorems": [
    "C60_auto_selection"
   ],
   "note": "For heartbeats whose payload includes the autopilot field."
  },
  {
   "property": "C50",
   "status": "proved",
   "theorems": [
    "C50_file_content"
   ],
   "note": "For an open log in always-on mode with complete writes and MAVLink 1 data blocks of full length; blocks arriving before block 0 of a new log are refused by the code."
  },
  {
   "property": "C51",
   "status": "partial",
   "theorems": [
    "C51_acknowledged_partial",
    "C51_only_stored_partial",
    "C51_reports_partial",
    "C51_nack_refuted"
   ],
   "note": "Refuted by the code: the NACKs for skipped blocks all carry the number of the block just received. Proved: exactly the accepted blocks are acknowledged, and for all outcomes of the system calls only completely stored blocks are; the whole sequence of reports sent for a log is determined by the accepted blocks, starting from 0 in each log."
  },
  {
   "property": "C52",
   "status": "partial",
   "theorems": [
    "C52_by_gap_partial",
    "C52_constant_refuted"
   ],
   "note": "Refuted by the code: one block with a large number causes one NACK per skipped number, up to 2^32-2. Proved: bounded by the gap."
  },
  {
   "property": "C59",
   "status": "proved",
   "theorems": [
    "C59_records",
    "C59_readable"
   ],
   "note": "For a logger in always-on mode with complete writes."
  },
  {
   "property": "C53",
   "status": "partial",
   "theorems": [
    "C53_stream_partial",
    "C53_new_log_partial",
    "C53_conserved_partial",
    "C53_large_refuted"
   ],
   "note": "Refuted by the code for messages that do not fit the 2048 byte staging buffer: they are lost. Proved: fidelity of whole sessions with messages of at most 1799 bytes and complete writes; for one packet that fits the buffer, conservation of the byte stream under every write outcome whose remainder fits the partial-write buffer."
  },
  {
   "property": "C54",
   "status": "partial",
   "theorems": [
    "C54_new_partial",
    "C54_old_partial",
    "C54_half_refuted"
   ],
   "note": "Refuted by the code at the border: a packet 32767 or 32768 behind the expected one is processed when the number space does not wrap between them. Proved: everything except these two distances, once the header was received."
  },
  {
   "property": "C55",
   "status": "proved",
   "theorems": [
    "C55_indices",
    "C55_in_bounds"
   ],
   "note": ""
  },
  {
   "property": "C56",
   "status": "partial",
   "theorems": [
    "C56_terminates_partial",
    "C56_refuted"
   ],
   "note": "Refuted by the code: a message header announcing 65533 bytes makes the flush loop spin for ever. Proved: packets with consistent fields terminate otherwise."
  },
  {
   "property": "C57",
   "status": "partial",
   "theorems": [
    "C57_reads_partial",
    "C57_header_refuted",
    "C57_offset_refuted"
   ],
   "note": "Refuted by the code: a first packet with more than 233 data bytes and trimmed zeros, or a first message offset behind the data, reads past the payload copy. Proved for packets with consistent fields."
  },
  {
   "property": "C58",
   "status": "proved",
   "theorems": [
    "C58_runs"
   ],
   "note": "For always-on logging, complete writes and messages of at most 1799 bytes, once the packet with the ULog header was received; packets exactly half the number space ahead (or one more) excluded, see C54."
  },
  {
   "property": "C12",
   "status": "proved",
   "theorems": [
    "C12_no_echo"
   ],
   "note": ""
  },
  {
   "property": "C13",
   "status": "proved",
   "theorems": [
    "C13_same_systems"
   ],
   "note": ""
  },
  {
   "property": "C14",
   "status": "proved",
   "theorems": [
    "C14_not_to_group"
   ],
   "note": ""
  },
  {
   "property": "C15",
   "status": "proved",
   "theorems": [
    "C15_exactly",
    "C15_no_duplicates",
    "C15_grows"
   ],
   "note": ""
  },
  {
   "property": "C16",
   "status": "proved",
   "theorems": [
    "C16_incoming"
   ],
   "note": ""
  },
  {
   "property": "C17",
   "status": "proved",
   "theorems": [
    "C17_delivered",
    "C17_control",
    "C17_once"
   ],
   "note": ""
  },
  {
   "property": "C18",
   "status": "partial",
   "theorems": [
    "C18_bytes_partial",
    "C18_received_is_packet",
    "C18_bytes_refuted"
   ],
   "note": "Refuted by the code: the ULog logger cuts the ULog header out of the receive buffer in place, and endpoints behind it in the list are handed the changed bytes. Proved: received bytes are those of a valid packet, and without a ULog logger every endpoint is handed exactly these."
  },
  {
   "property": "C20",
   "status": "proved",
   "theorems": [
    "C20_sniffer"
   ],
   "note": "For sniffer ids 1 to 255."
  },
  {
   "property": "C24",
   "status": "proved",
   "theorems": [
    "C24_not_to_loggers",
    "C24_nesting"
   ],
   "note": ""
  },
  {
   "property": "C19",
   "status": "proved",
   "theorems": [
    "C19_counted"
   ],
   "note": "The counter is cleared by the periodic report and is 32 bits wide; the configured vehicle system id, if any, is assumed to be -1 or a byte."
  },
  {
   "property": "C21",
   "status": "partial",
   "theorems": [
    "C21_nothing_sent_partial",
    "C21_reject_refuted"
   ],
   "note": "Refuted by the code: TcpEndpoint::accept_msg hides the non-virtual Endpoint::accept_msg and is never called, so a message only a disconnected TCP endpoint could take is handed to it, dropped, and not counted as unroutable. Proved: nothing is sent while disconnected."
  },
  {
   "property": "C22",
   "status": "proved",
   "theorems": [
    "C22_requested",
    "C22_dropped",
    "C22_withdrawn",
    "C22_others_served",
    "C17_delivered"
   ],
   "note": ""
  },
  {
   "property": "C23",
   "status": "partial",
   "theorems": [
    "C23_counters_partial",
    "C23_counters_refuted"
   ],
   "note": "Refuted by the code: a UART write that fails (other than would-block) is counted as a transmitted message. Proved exactly for UDP and TCP endpoints and for UARTs without such failures; the incomplete counter since its last report; counters wrap at 2^32 and 2^64."
  },
  {
   "property": "C34",
   "status": "proved",
   "theorems": [
    "C34_destination",
    "C34_server",
    "C34_client"
   ],
   "note": "Addresses with port 0 are never sent to."
  },
  {
   "property": "C32",
   "status": "proved",
   "theorems": [
    "C32_one_retry",
    "C32_never_two"
   ],
   "note": "That a retry is pending assumes that the timer could be created; that there is never a second one, nor one for a connected or non-reconnecting endpoint, does not. Intervals are computed in 32 bits, exact below 4294968 s."
  },
  {
   "property": "C35",
   "status": "proved",
   "theorems": [
    "C35_armed",
    "C35_fallback"
   ],
   "note": "The restart of the 5 s timer by a datagram is visible in the model through the interval of the timer; assumes the timer could be created."
  },
  {
   "property": "C36",
   "status": "proved",
   "theorems": [
    "C36_cyclic",
    "C36_cycling",
    "C36_stops"
   ],
   "note": "C36_cycling assumes the timer could be created."
  },
  {
   "property": "C38",
   "status": "proved",
   "theorems": [
    "C38_never_fires",
    "C38_deleted",
    "C38_not_repeated"
   ],
   "note": ""
  },
  {
   "property": "C40",
   "status": "proved",
   "theorems": [
    "C40_critical",
    "C40_timer",
    "C40_tcp",
    "C40_no_error",
    "C40_last_iteration"
   ],
   "note": ""
  },
  {
   "property": "C41",
   "status": "proved",
   "theorems": [
    "C41_dispatch",
    "C41_references"
   ],
   "note": "Closing a descriptor removes it from the poll set: in the model, registration is a field of the endpoint."
  },
  {
   "property": "C30",
   "status": "partial",
   "theorems": [
    "C30_only_copy_refuted",
    "C30_dropped_partial",
    "C30_unfiltered_partial"
   ],
   "note": "Refuted: the detector is asked before the incoming filters, so a copy refused on one link suppresses the copy on another link. Proved over all runs: every dropped packet has the hash of an earlier packet that was not dropped; it was routed unless the incoming filters of its endpoint refused it; without incoming filters and hash collisions an identical copy was routed. The time bound is C25_router."
  },
  {
   "property": "C31",
   "status": "proved",
   "theorems": [
    "C31_removed",
    "C31_only",
    "C31_kept",
    "C31_others_kept"
   ],
   "note": "All configurations and runs. An endpoint that is a member of a group is taken out of routing but stays allocated (the group still points at it); an ungrouped one is freed."
  },
  {
   "property": "C33",
   "status": "partial",
   "theorems": [
    "C33_clean_framing_refuted",
    "C33_continues_partial",
    "C33_clean_partial"
   ],
   "note": "Refuted: the receive buffer is not reset when a TCP endpoint reconnects, so the first packet of the new connection is lost after an unfinished packet. Proved (no ULog logger): reception after the reconnection depends only on the new data and the unfinished rest of the old, and when the old connection ended between two packets the new one is framed by itself."
  },
  {
   "property": "C61",
   "status": "partial",
   "theorems": [
    "C61_telemetry_log_refuted",
    "C61_flight_stack_log_partial",
    "C61_no_telemetry_partial"
   ],
   "note": "Refuted for the telemetry log, which is neither stopped nor made read-only at exit. Proved for the flight stack log over all runs: after the exit code it is closed, and read-only if it was open and the system calls succeed."
  },
  {
   "property": "C62",
   "status": "proved",
   "theorems": [
    "C62_roundtrip"
   ],
   "note": "All configurations over legal characters, names up to 100 characters."
  },
  {
   "property": "C63",
   "status": "proved",
   "theorems": [
    "C63_last_wins",
    "C63_others_unaffected"
   ],
   "note": "All sequences of files without NUL characters. The meaning of a text is the separate specification in SpecConf.v."
  },
  {
   "property": "C64",
   "status": "proved",
   "theorems": [
    "C64_nonempty",
    "C64_no_assertion",
    "C64_tables"
   ],
   "note": "All texts and files; covers every option table of the program."
  },
  {
   "property": "C65",
   "status": "partial",
   "theorems": [
    "C65_last_line_refuted",
    "C65_terminated_partial",
    "C65_empty_file_refuted"
   ],
   "note": "Refuted: a last line without newline is dropped, and a file of length zero makes the program refuse its configuration. Proved: every line that ends with a newline is honoured."
  },
  {
   "property": "C66",
   "status": "partial",
   "theorems": [
    "C66_buffer_refuted",
    "C66_enumeration_partial"
   ],
   "note": "Refuted: a section name of 100 characters is accepted and then written behind the name buffer. Proved for names of fewer than 100 characters."
  },
  {
   "property": "C67",
   "status": "partial",
   "theorems": [
    "C67_too_many_refuted",
    "C67_directory_partial",
    "C67_read_partial"
   ],
   "note": "Refuted: the 129th file is written behind the array. Proved for up to 128 regular files."
  },
  {
   "property": "C68",
   "status": "proved",
   "theorems": [
    "C68_fails",
    "C68_tables",
    "C68_missing_section",
    "C68_udp_fails",
    "C68_fields"
   ],
   "note": "All option tables of the program and all configurations. The parsed value of each option is stated in SpecSection.v."
  },
  {
   "property": "C69",
   "status": "partial",
   "theorems": [
    "C69_negative_refuted",
    "C69_signed",
    "C69_unsigned_partial",
    "C69_decimal"
   ],
   "note": "Refuted: an unsigned option accepts a negative number and wraps it. Proved for signed options, and for unsigned options without a minus sign."
  },
  {
   "property": "C70",
   "status": "proved",
   "theorems": [
    "C70_words",
    "C70_bytes"
   ],
   "note": "All lists of decimal identifiers in range."
  },
  {
   "property": "C71",
   "status": "partial",
   "theorems": [
    "C71_bool_refuted",
    "C71_bool_partial",
    "C71_udp_mode",
    "C71_dialect",
    "C71_log_mode",
    "C71_log_level"
   ],
   "note": "Refuted for booleans: further spellings are accepted. Proved exactly for the enumerations (the UDP mode also has the deprecated spelling eavesdropping), and one direction for booleans."
  },
  {
   "property": "C79",
   "status": "partial",
   "theorems": [
    "C79_bad_entry_refuted",
    "C79_others_partial"
   ],
   "note": "Refuted: an entry that is not a number is read as 0 and one out of range wraps. Proved: a bad entry does not change how the other entries are read."
  },
  {
   "property": "C72",
   "status": "partial",
   "theorems": [
    "C72_third_refuted",
    "C72_cli_refuted",
    "C72_partial"
   ],
   "note": "Refuted: the third client endpoint on one address gets the port of the second, and on the command line already the second collides. Proved while port 14551 is free on the address."
  },
  {
   "property": "C73",
   "status": "partial",
   "theorems": [
    "C73_ipv6_refuted",
    "C73_split_partial",
    "C73_accepted_partial"
   ],
   "note": "Refuted: an IPv6 address without port is refused although the port is optional. Proved for every address followed by colon and number, and for addresses without colon."
  },
  {
   "property": "C74",
   "status": "partial",
   "theorems": [
    "C74_65536_refuted",
    "C74_missing_partial",
    "C74_udp_port_partial"
   ],
   "note": "Refuted: ports above 65535 are accepted and truncated. Proved: zero and missing ports are refused and ports from 1 to 65535 are used as given."
  },
  {
   "property": "C75",
   "status": "proved",
   "theorems": [
    "C75_shapes",
    "C75_brackets"
   ],
   "note": "All strings; the regular expressions are matched by a matcher proved equal to the language of the expression."
  },
  {
   "property": "C77",
   "status": "proved",
   "theorems": [
    "C77_files",
    "C77_cli",
    "C77_started"
   ],
   "note": "From the text of the files and the command line to the started endpoints. Section names are shorter than 100 characters (longer ones are undefined behaviour, C66)."
  },
  {
   "property": "C78",
   "status": "partial",
   "theorems": [
    "C78_refuted",
    "C78_cli_refuted",
    "C78_settings_partial",
    "C78_sniffer_partial",
    "C78_period_partial",
    "C78_interval_partial"
   ],
   "note": "Refuted: values are truncated to 16 or 32 bits. Proved for values that fit."
  },
  {
   "property": "C82",
   "status": "partial",
   "theorems": [
    "C82_telemetry_refuted",
    "C82_telemetry_partial",
    "C82_binary_partial",
    "C53_conserved_partial",
    "C83_whole_partial"
   ],
   "note": "Refuted by the telemetry log: after one short write a reader finds none of the later records. Proved: its file still consists of beginnings of times and packets in order, nothing is overwritten; a binary log changes only inside the place of the block; the ULog logger keeps the remainder and writes it later (if it fits its buffer)."
  },
  {
   "property": "C81",
   "status": "partial",
   "theorems": [
    "C81_received_partial",
    "C81_never_early_partial",
    "C81_valid_traffic_partial",
    "C81_ulog_refuted"
   ],
   "note": "Refuted with the ULog logger: a LOGGING_DATA packet with a length of 255 makes it overwrite the beginning of the next packet in the receive buffer. Proved for every run without it; packets can remain unread on TCP connections and behind a packet with a wrong checksum."
  },
  {
   "property": "C83",
   "status": "partial",
   "theorems": [
    "C83_long_refuted",
    "C83_whole_partial",
    "C83_small_partial",
    "C83_closed_partial",
    "C83_new_log_partial"
   ],
   "note": "Refuted: a message of which one write leaves more than 1024 bytes behind is written again from its beginning, behind what was written of it. Proved for every other outcome of the writes, and for every outcome if messages have at most 1025 bytes; for always-on logging, once the packet with the ULog header was received, packets no further from the newest one than half the number space (see C54)."
  },
  {
   "property": "C84",
   "status": "partial",
   "theorems": [
    "C84_ulog_refuted",
    "C84_iteration_partial",
    "C84_exit_partial",
    "C84_goes_on_partial",
    "C84_exit_refuted",
    "C84_exit_streaming_partial"
   ],
   "note": "Refuted with the ULog logger: one valid LOGGING_DATA packet, after a lost one, whose first message offset lies behind its data. Proved for every run without it, for the undefined behaviour the model knows; REMOTE_LOG_DATA_BLOCK has 206 bytes in the table of messages. A streaming logger that still has to write the end of a message keeps the program from ending as long as the write would block or writes nothing (C84_exit_refuted), which is unusual for a file on a local disk; if writes write something or fail it ends (C84_exit_streaming_partial)."
  },
  {
   "property": "C85",
   "status": "partial",
   "theorems": [
    "C85_refuted",
    "C85_defined_partial",
    "C85_words_partial"
   ],
   "note": "Refuted: a section name of exactly 100 characters, and more than 128 files in the configuration directory. Proved for everything else, and for all words of the command line."
  },
  {
   "property": "C86",
   "status": "partial",
   "theorems": [
    "C86_leak_refuted",
    "C86_exactly_partial",
    "C86_bounded_partial",
    "C86_closed_partial",
    "C86_server"
   ],
   "note": "Refuted: every attempt of a TCP endpoint to connect to an address whose text begins with ff0 (IPv6 multicast) leaks a socket. Proved for everything else, one endpoint at a time with arbitrary activity of the rest of the process. Descriptors of log files and the epoll descriptor are not included."
  },
  {
   "property": "C80",
   "status": "partial",
   "theorems": [
    "C80_refuted",
    "C80_ipv4_partial",
    "C80_ipv6_partial"
   ],
   "note": "Refuted: 300.0.0.1 is accepted, and upper case or mixed IPv6 addresses are refused. Proved: every dotted decimal IPv4 address and every IPv6 address in lower-case groups, with or without ::, is accepted."
  },
  {
   "property": "C76",
   "status": "proved",
   "theorems": [
    "C76_mkdir",
    "C76_created"
   ],
   "note": "All paths and trees of directories and files without symbolic links; stat reports the truth, creation may fail."
  },
  {
   "property": "C87",
   "status": "partial",
   "theorems": [
    "C87_octal_refuted",
    "C87_broadcast_refuted",
    "C87_garbage_refuted",
    "C87_ipv4_partial",
    "C87_ipv4_exact_partial",
    "C87_ipv6_partial"
   ],
   "note": "Refuted: 10.0.0.010 is 10.0.0.8; a number above 255, or 08, gives the broadcast address; a text in brackets that is no IPv6 address makes TCP connect to :: and UDP use uninitialised memory. Proved: dotted decimal without leading zeros and every proper IPv6 text are used as written, and exactly what every accepted IPv4 text means. inet_addr, inet_pton and inet_ntop are modelled after glibc."
  },
  {
   "property": "C88",
   "status": "partial",
   "theorems": [
    "C88_transient_refuted",
    "C88_unicast_refuted",
    "C88_interface_refuted",
    "C88_joins_partial"
   ],
   "note": "Refuted: multicast addresses outside ff00::/12 (such as ff15::1) are not recognised, ff0::1, which is unicast, is taken for multicast, and the interface of the membership request is never set. Proved for all texts of addresses in ff00::/12, apart from the interface."
  },
  {
   "property": "C89",
   "status": "partial",
   "theorems": [
    "C89_peer_refuted",
    "C89_text_refuted",
    "C89_own_partial"
   ],
   "note": "Refuted: the address of any other host gets scope 0; fe90::1 and, for TCP, addresses not in the system's own notation get none either. Proved: the host's own address in fe80::/16, in the system's notation, gets the first interface that has it."
  },
  {
   "property": "C90",
   "status": "partial",
   "theorems": [
    "C90_T_refuted",
    "C90_V_refuted",
    "C90_missing_refuted",
    "C90_written_partial",
    "C90_scans_partial"
   ],
   "note": "Refuted: -T takes the next word as a value, -V alone and --help are errors, and an option at the end without its value takes the first endpoint as its value. Proved for all other command lines written as documented. getopt_long is modelled after glibc, without POSIXLY_CORRECT."
  },
  {
   "property": "C91",
   "status": "partial",
   "theorems": [
    "C91_stop_refuted",
    "C91_ticks_partial",
    "C91_stop_partial"
   ],
   "note": "Refuted: stopping the log, or destroying its endpoint, while an asynchronous request is in progress changes or frees its control block, which POSIX leaves undefined. Proved: while a file is open nothing undefined happens and what was written before a tick that makes a request is on the disk when that request ends; a stop with no request in progress brings the whole file to the disk. A request brings to the disk what was written before it."
  },
  {
   "property": "C92",
   "status": "partial",
   "theorems": [
    "C92_overflow_refuted",
    "C92_says_partial"
   ],
   "note": "Refuted: from 42949673 wrong or lost messages on the percentage overflows (0% instead of 100%). Proved below that, as long as the total has not wrapped around."
  },
  {
   "property": "C93",
   "status": "partial",
   "theorems": [
    "C93_level_refuted",
    "C93_long_refuted",
    "C93_messages_partial"
   ],
   "note": "Refuted: until the configuration was read the level is INFO, and on standard error messages are cut after 2047 bytes. Proved otherwise. Messages are taken as formatted texts; writes to standard error as complete."
  },
  {
   "property": "C94",
   "status": "partial",
   "theorems": [
    "C94_spins_refuted",
    "C94_let_go_partial"
   ],
   "note": "Refuted for groups: the other members keep a removed endpoint alive; its connection stays open and registered with epoll, so that the main loop spins reading the end of file. Proved for every endpoint outside groups (accepted clients are never in one)."
  },
  {
   "property": "C95",
   "status": "proved",
   "theorems": [
    "C95_configured",
    "C95_to_stations",
    "C95_to_vehicle",
    "C95_udp_configured",
    "C95_udp_to_stations",
    "C95_udp_to_vehicle"
   ],
   "note": "For IPv4 addresses in the usual notation, ports from 1 to 65535, traffic that arrives in valid packets and reads of at most 840 bytes. A station's endpoint follows the latest sender of datagrams (C34); the theorem gives the destination when only the station itself sent any. Composes C90, C73, C87, C77, C81, C16, C29, C17, C18, C31 and C34."
  },
  {
   "property": "C96",
   "status": "partial",
   "theorems": [
    "C96_short_refuted",
    "C96_whole_partial",
    "C96_until_partial"
   ],
   "note": "Refuted: when the system takes only part of a packet, the rest is discarded, and the peer takes the beginning of the next packet for its end. Proved for every connection as long as the system takes each packet completely or not at all, and, otherwise, for everything before the first packet taken in part. With a ULog logger only for configured endpoints (C18)."
  },
  {
   "property": "C97",
   "status": "proved",
   "theorems": [
    "C97_own_messages",
    "C97_target"
   ],
   "note": "The system a logger listens to is the configured one or, without one, one whose autopilot was heard before the message was sent; as long as there is none, target 255 is written."
  },
  {
   "property": "C98",
   "status": "proved",
   "theorems": [
    "C98_asks_until_answered",
    "C98_quiet_once_answered",
    "C98_silent_restart",
    "C98_busy_undisturbed",
    "C98_periods",
    "C98_asked_or_checked"
   ],
   "note": "For dialects that know the messages of the protocol and MAVLink 1 messages that are not cut short. A data block with number 2147483646 is excluded in C98_quiet_once_answered: its acknowledgement has the same content as a start request. C98_busy_undisturbed: fewer than 2^32 messages between two checks (the counter is 32 bits wide)."
  },
  {
   "property": "C99",
   "status": "partial",
   "theorems": [
    "C99_sender_refuted",
    "C99_unrelated_partial"
   ],
   "note": "Refuted: the messages of the logging protocol are taken from any system; the log of system 1 is filled, answered and acknowledged by system 7. Proved for every message that is not of the protocol; in mode always with no log open, any message can be the one that opens the next log (C45)."
  },
  {
   "property": "C100",
   "status": "proved",
   "theorems": [
    "C100_asks_by_timer",
    "C100_timer_asks",
    "C100_quiet_once_answered",
    "C100_keeps_asking",
    "C100_keeps_checking",
    "C100_silence",
    "C100_undisturbed"
   ],
   "note": "For the protocol the logger ends up with (a logger that chooses automatically sends nothing before it chose). Same restrictions on the traffic as in C98: the dialect knows the messages, MAVLink 1 messages of the protocol are not cut short, no data block is numbered 2147483646; C100_undisturbed with fewer than 2^32 items between the checks. Who sent the answer is C99."
  },
  {
   "property": "C101",
   "status": "partial",
   "theorems": [
    "C101_all_traffic_refuted",
    "C101_telemetry_partial",
    "C101_read_back_partial"
   ],
   "note": "Refuted: to the router a log is an endpoint with address 2/0, so messages for a particular system, such as the commands of a ground station, are forwarded but not recorded. Proved: the log holds exactly the broadcasts and the messages to 2/0, and everything that does not come from 2/0 if the sniffer is system 2. For mode always, and without a ULog logger in front of the telemetry log, which changes messages before they are recorded (C18). Whatever system calls return, the file consists of beginnings of times and messages in this order; with complete writes a reader gets all messages back."
  },
  {
   "property": "C102",
   "status": "proved",
   "theorems": [
    "C102_acknowledged_is_stored",
    "C102_acknowledged_data",
    "C102_closed_takes_back"
   ],
   "note": "Holds in every run, whatever system calls return, for block numbers below 2^32/200 (the offset is computed in 32 bits) and messages long enough for their fields. In the file means in the content of the file as the system sees it; the model has no power loss."
  },
  {
   "property": "C103",
   "status": "partial",
   "theorems": [
    "C103_acknowledgements_partial",
    "C103_traffic_partial",
    "C103_immediately_partial",
    "C103_stored_refuted",
    "C103_sequence_refuted"
   ],
   "note": "True along every run for messages with both bytes of the sequence number on the wire: one acknowledgement each, in order (dialect Common), and nothing acknowledged but a message just received (any dialect). False of the code otherwise: a MAVLink 2 message trimmed to one payload byte is acknowledged with a byte of the checksum as the high byte of its number; and an acknowledgement is sent before the data are looked at, so data that arrive before the log started are acknowledged and dropped."
  },
  {
   "property": "C104",
   "status": "partial",
   "theorems": [
    "C104_transparent",
    "C104_cycling",
    "C104_next_speed",
    "C104_speed_partial",
    "C104_first_speed_partial",
    "C104_speed_refuted"
   ],
   "note": "Refuted for lists of baud rates: if the device refuses the first one, the set-up succeeds and the port runs at 1200 baud. Everything else is proved for every previous setting; the meaning of the settings is that of termios(3), written down in SpecTty; a device is assumed to take settings as they are or not at all."
  },
  {
   "property": "C105",
   "status": "partial",
   "theorems": [
    "C105_refuted",
    "C105_file_partial",
    "C105_small_partial",
    "C105_closed_partial",
    "C105_new_file_partial"
   ],
   "note": "Refuted: in a run in which one write takes 100 of the 1500 bytes of a message, these bytes are in the file twice. Otherwise proved along every run of the whole program, in every logging mode and for dialect Auto too. Two conditions remain: writes leave at most 1024 bytes of a message behind or fail (nothing is asked of the writes if messages have at most 1025 bytes), and the packet with the header carries at most 233 bytes (see C53). Packets are no further from the newest one than half the number space (see C54). C105_closed: the end of the program, when it comes to an end (see C84 for writes that would block for ever); logs closed by a disarmed or silent vehicle are only covered by C83."
  },
  {
   "property": "C106",
   "status": "partial",
   "theorems": [
    "C106_stray_refuted",
    "C106_long_refuted",
    "C106_apart_partial",
    "C106_valid_partial"
   ],
   "note": "Refuted twice: a datagram that ends inside a packet (one stray start byte is enough) swallows the packets of the datagrams behind it, up to 280 bytes, and what results may be forwarded; and a datagram longer than 1120 bytes is cut and does the same. Proved for every run without the ULog logger (see C81) if each datagram that arrived holds whole packets, valid or not, and at most 1120 bytes; behind a packet with a wrong checksum the rest of its datagram may be delayed (C07)."
  },
  {
   "property": "C107",
   "status": "proved",
   "theorems": [
    "C107_directory",
    "C107_contents",
    "C107_acknowledged",
    "C107_binary",
    "C107_telemetry"
   ],
   "note": "With the binary logger the end is always reached (C107_binary). Otherwise for every run that comes to an end: the streaming logger can try for ever to write what is left (see C84). What it adds to its file is the subject of C105_closed_partial, and C61 says when the file is read-only."
  },
  {
   "property": "C108",
   "status": "proved",
   "theorems": [
    "C108_appended",
    "C108_completed"
   ],
   "note": "Both for loggers set to the ULog dialect and for those that found it out. C108_completed is about runs whose end is reached (see C84_exit_refuted). What the bytes are is the subject of C83 and C105."
  },
  {
   "property": "C109",
   "status": "proved",
   "theorems": [
    "C109_untouched",
    "C109_end"
   ],
   "note": "From the end of the start-up to any later moment of the run and to the end of the program. During the start-up a regular file whose name begins with a number and a dash is made read-only even if it is no log (C46_startup). That other processes leave the directory alone is part of the model of the file system."
  },
  {
   "property": "C110",
   "status": "proved",
   "theorems": [
    "C110_no_files",
    "C110_end"
   ],
   "note": "The file system of the model is one directory and is only reached by the code of the loggers; the configuration files and /dev are modelled elsewhere (C67, C104)."
  }
 ]
}