# Formal model of mavlink-router in Rocq (Coq 8.16.1)

## 1. What is here

* `properties.jsonl` - the properties a user relies on, one per line.
* `rocq/theories/*.v` - four kinds of files:
  * the model (functions of `/repo`; each definition cites the file and lines it models and says where it simplifies),
  * `Spec*.v`: small specifications that do not use the model's functions,
  * lemmas (all other files),
  * `Prop_*.v`: the property theorems, named after the property (`C07_...`), each with `Example`s that show
    concrete non-trivial cases meeting its hypotheses, and with `Print Assumptions`.
* `MANIFEST.json` - property -> status, theorem names, what is assumed or missing.
* `seeded/LOG.jsonl` - wrong variants of the model that were tried against the theorems. `seeded/README.md` says how to read it and what it does not show.

A theorem whose name ends in `_refuted` states that the program violates the property (it exhibits a
concrete run of the model).  A theorem whose name ends in `_partial` is the strongest part of such a property
that is true of the program.  Properties with either are "partial" in the manifest.

## 2. Modelling conventions

* Bytes and C integers are `Z`; every place where the C++ type truncates is an explicit wrap
  (`u8 u16 u32 u64 s64 i32`).  Lengths and indices of buffers are `nat` (they are bounded by the buffer sizes).
* Text (configuration, file names, arguments) is a list of character codes, `list Z`; `lit "..."` is a literal.
* Undefined behaviour (out-of-bounds access, erasing `end()`, dangling pointer, assertion failure) is a
  separate outcome `UB`, never a default value: `res A := Ok a | UB | Fuel`.
* Loops without a structural measure take fuel and return `Fuel` when it runs out; theorems show that `Fuel` does
  not occur (or, where the real program can loop for ever, that it occurs for every fuel).
* System calls are nondeterministic: their results are taken from an arbitrary tape `v_orc : nat -> Z`, whether a timer can be
  created from a second tape `v_tmr : nat -> bool`, or they are arguments of the event (what `read` returned).
  All theorems quantify over tapes and events.  Several system calls of one function that only differ in the
  message printed on failure share one result; the definition says so.
* The receive buffer is the concrete 1120 byte array with arbitrary stale contents; messages are routed from
  inside that buffer, so that a logger changing it in place is visible.
* An endpoint is a cell of a list, `None` when destroyed; following a pointer to a destroyed endpoint is `UB`.  Timers
  have identities that are never reused.  The linked list of timers is modelled as a heap of nodes in `Timers.v`
  and shown to refine the list used elsewhere (C37).
* A *run* of the router (`RouterSetup.runs f v c its w`): the program was started with configuration `c` in some
  state of the log directory, and handled batches of events that epoll may report (only registered pointers), until
  state `w`; `its` is everything observed, in order: what each read returned, each packet received with the verdict and the writes it
  caused (destination, bytes handed over, result of the system call), control messages of loggers, timer
  callbacks, TCP clients that came and went.  Router properties are theorems about all runs.

## 3. Trusted base

* Coq 8.16.1's kernel (including `vm_compute`), no plugins, no axioms of our own.
  `Print Assumptions` at the end of every `Prop_*.v` file lists what each theorem uses: all are
  "Closed under the global context" (no axioms, not even of the standard library).
* The hand-written model: that each Gallina definition says what the cited C++ lines do.
* The C++ semantics assumed: LP64, two's complement, `unsigned` arithmetic modulo 2^n, little-endian.
* Library and kernel behaviour used by the model:
  * `read/recv/recvfrom` return at most the requested number of bytes; `write/send/sendto` accept a prefix or fail;
  * `epoll` reports only registered descriptors and closing a descriptor unregisters it; `timerfd`s are readable only
    when programmed (a timer event may or may not carry a count);
  * `open(O_CREAT|O_EXCL)` fails exactly when the name exists or with another error; `mkdir` creates exactly the named directory or
    fails; `stat` is truthful; no other process changes the log directory while the router runs;
  * `mmap` of a private file mapping shows the file's contents; reading behind its end is undefined (the zero
    padding of the last page is not relied on);
  * the MAVLink C library (a git submodule, empty in `/repo`): `mavlink_get_msg_entry` is an arbitrary function
    `v_tbl : Z -> option entry`; the X.25 checksum and the MAVLink 2 packing of the four messages the loggers send are
    defined from the public MAVLink specification (`Mav.v`, `Sys.pack2`); the checksum routine is proved equal to the bit-serial CRC of
    `SpecCrc.v`;
  * `std::hash<std::string>` is an arbitrary function `v_hash`; `std::unordered_set`, `std::map`, `std::deque`,
    `std::vector` behave as sets, sorted maps, queues and lists;
  * `std::regex_match` accepts the language of the expression (`Regex.v`: a matcher proved equal to the language);
  * `getopt_long` behaves as glibc's, without `POSIXLY_CORRECT` (`Getopt.v`); `Main.v` starts from the options and
    positional arguments it delivers; `fnmatch` with a literal prefix and `*`; `qsort` sorts; `strtol/strtoul/atoi/atol/sscanf/printf` as in glibc in
    the C locale (without the C23 `0b` prefix).

## 4. What is modelled

| source | model | lemmas |
|---|---|---|
| `src/endpoint.cpp` read_msg, handle_read, _check_crc; `comm.h` | `Frame` | `FrameProofs FrameRefine FrameLink FrameProps CrcProofs` |
| `src/endpoint.cpp` accept_msg, filters, has_sys_id... | `Accept` | `AcceptProofs` |
| `src/dedup.cpp` | `Dedup` | `DedupProofs` |
| `src/mainloop.cpp` timers, `src/timeout.cpp` | `Timers Sys` | `TimersProofs` |
| `src/logendpoint.cpp` | `Names Sys LogFile Loggers` | `NamesProofs LogFileProofs LogInv LogStep LogMono LogModes LogModes2 LogRun LogSafe` |
| `src/binlog.cpp` | `Loggers` | `BinProofs` |
| `src/ulog.cpp` | `ULog Loggers` | `ULogProofs ULogStream ULogRun ULogMore ULogVehicle` |
| `src/tlog.cpp`, `src/autolog.cpp` | `Loggers` | in `Prop_TLog`, `LogModes` |
| `src/mainloop.cpp` loop, route_msg, hang-ups, TCP server; `src/endpoint.cpp` Uart/Udp/Tcp | `Router` | `Router*` |
| `src/mainloop.cpp` add_endpoints; setup and open of the endpoints | `RouterSetup` | `RouterStart` |
| `src/common/conf_file.cpp` | `Conf Opts` | `ConfProofs ConfRun ConfLook ConfFiles Extract` |
| `src/endpoint.cpp` open, close and reconnect call by call; `src/pollable.cpp`, `src/common/xtermios.cpp` | `Descr` | in `Prop_Descr` |
| `src/endpoint.cpp` address texts: `inet_addr`, `inet_pton`, `inet_ntop` (after glibc), multicast and link-local tests, `ipv6_get_scope_id` | `Inet` | `InetProofs` (meaning of texts: `SpecInet`) |
| `src/common/util.cpp` safe_atoi..., mkdir_p | `Num Mkdir` | `NumProofs MkdirProofs` |
| `src/endpoint.cpp` option tables, validate_ip | `Opts Regex` | `SectionProofs` |
| `src/main.cpp` | `Main` | in `Prop_Main`, `Prop_Section` |
| `src/main.cpp` short and long options; `getopt_long` (after glibc) | `Getopt` | in `Prop_Args` (help text: `SpecArgs`) |
| `src/logendpoint.cpp` _fsync, and its control block in start and stop | `Fsync` | in `Prop_Fsync` |
| `src/endpoint.cpp` print_statistics | `Report` | in `Prop_Report` (what a report says: `SpecReport`) |
| `src/common/xtermios.cpp`, `src/endpoint.cpp` settings of serial ports | `Tty` | in `Prop_Tty` (meaning of the settings: `SpecTty`) |
| `src/common/log.cpp`, the order of logging in `main` | `LogOut` | in `Prop_LogOut` (`SpecLogOut`) |

Not modelled: the texts of log messages and which of them are logged when, the usage text, socket option details
(one success/failure result; in the router's model this is also true of the settings of serial ports, which `Tty` models; the addresses given to them are modelled in `Inet`, while the router's model takes the
conversion of addresses as an arbitrary function), signals except their effect of requesting exit,
`examples/` and `tests/`, the Python tools, memory exhaustion, symbolic links and `.`/`..` in
log directory paths.  The messages a logger sends are routed right after its `write_msg` returned, not
in the middle of it (the definition says so; the loggers do not look at anything routing changes).

## 5. Properties: what is modelled and how it is proved

* **C01** Forwarded packets are exact slices of the received stream. Approach: Frame: concrete buffer refines an abstract scanner over the unread stream; the scanner's output is a segmentation of the stream. **proved**, Prop_Frame.v: `C01_exact_slices`, `C01_segmentation_unique`, `C01_bytes_taken`.
* **C02** Framing does not depend on read boundaries. Approach: Frame: simulation invariant `unconsumed ++ fed = stream`; the scanner is a function of the stream only (prefix-monotone). **proved**, Prop_Frame.v: `C02_chunking_independent`, `C02_eventually_all`. Read boundaries can delay packets behind a damaged packet (see C07), never change the sequence.
* **C03** Well-formed traffic is forwarded completely. Approach: Frame: encoder/decoder round trip by induction over the packet list, all chunkings. **proved**, Prop_Frame.v: `C03_roundtrip`. For read results of at most 840 bytes (the space always free, C06); longer reads are taken in several events.
* **C04** Checksum gate. Approach: Frame: case analysis of read_msg, against a checksum specification by bits. **proved**, Prop_Frame.v: `C04_gate_only_if`, `C04_gate_if`, `C04_checksum_is_crc16`.
* **C05** Every short corruption of a known packet is caught. Approach: Mav: linearity of the CRC over xor and injectivity of the 16-bit window. **proved**, Prop_Frame.v: `C05_short_bursts_caught`, `C05_checksum_field_damage_caught`, `C05_damaged_id_refuted`. The id must stay the same: damage that turns the id into one outside the dialect is let through (C05_damaged_id_refuted).
* **C06** The receive buffer never overflows and never wedges. Approach: Frame: invariant of the buffer (UB outcome for any out-of-range access, shown unreachable). **proved**, Prop_Frame.v: `C06_never_out_of_bounds`, `C06_always_room`.
* **C07** A fully received valid packet is routed before the read handler returns. Approach: Frame: refutation by a concrete buffer; positive part: delivered by the next event. **partial**, Prop_Frame.v: `C07_immediate_refuted`, `C07_immediate_partial`, `C02_eventually_all`. Refuted by the code: a valid packet behind a damaged one waits for the next event. Proved: it holds when no packet fails its checksum, and held-back packets come out with later events.
* **C08** Target address extraction, including trimmed zeros. Approach: Frame: against a specification by offsets. **proved**, Prop_Frame.v: `C08_targets`.
* **C09** Receive statistics add up. Approach: Frame: invariant by induction over events. **proved**, Prop_Frame.v: `C09_statistics`.
* **C10** Sequence-loss statistic counts lost packets. Approach: Frame: refuted at wrap-around, proved elsewhere. **partial**, Prop_Frame.v: `C10_losses_refuted`, `C10_wrap_undercounts`, `C10_losses_partial`. Refuted by the code: a gap across sequence number 255 is under-counted by one. Proved: exact otherwise.
* **C11** Forwarding decision is the documented one. Approach: Accept: equivalence with a declarative relation. **proved**, Prop_Accept.v: `C11_accepts_iff`, `C11_filtered_iff`. For a sniffer id of at most 255 (see C78).
* **C12** No echo. Approach: Router: invariant over all event sequences. **proved**, Prop_Router.v: `C12_no_echo`.
* **C13** Group members always know the same systems. Approach: Router: invariant over all event sequences. **proved**, Prop_Router.v: `C13_same_systems`.
* **C14** No forwarding between members of a group. Approach: Router: from C13. **proved**, Prop_Router.v: `C14_not_to_group`.
* **C15** Learned addresses are exactly the accepted senders. Approach: Router: induction over histories with a ghost log of accepted senders. **proved**, Prop_Router.v: `C15_exactly`, `C15_no_duplicates`, `C15_grows`.
* **C16** Incoming filters drop a message completely. Approach: Router. **proved**, Prop_Router.v: `C16_incoming`.
* **C17** A routed message is written exactly once to each accepting endpoint. Approach: Router. **proved**, Prop_Router.v: `C17_delivered`, `C17_control`, `C17_once`.
* **C18** Forwarded bytes equal received bytes. Approach: Router: proved when no ULog backend, refuted otherwise. **partial**, Prop_Router.v: `C18_bytes_partial`, `C18_received_is_packet`, `C18_bytes_refuted`. Refuted by the code: the ULog logger cuts the ULog header out of the receive buffer in place, and endpoints behind it in the list are handed the changed bytes. Proved: received bytes are those of a valid packet, and without a ULog logger every endpoint is handed exactly these.
* **C19** Unroutable messages are counted. Approach: Router. **proved**, Prop_Router2.v: `C19_counted`. The counter is cleared by the periodic report and is 32 bits wide; the configured vehicle system id, if any, is assumed to be -1 or a byte.
* **C20** A sniffer sees everything. Approach: Accept/Router. **proved**, Prop_Router.v: `C20_sniffer`. For sniffer ids 1 to 255.
* **C21** A disconnected TCP endpoint rejects messages. Approach: Router: refuted. **partial**, Prop_Router2.v: `C21_nothing_sent_partial`, `C21_reject_refuted`. Refuted by the code: TcpEndpoint::accept_msg hides the non-virtual Endpoint::accept_msg and is never called, so a message only a disconnected TCP endpoint could take is handed to it, dropped, and not counted as unroutable. Proved: nothing is sent while disconnected.
* **C22** Back-pressure never blocks, duplicates or corrupts. Approach: Router. **proved**, Prop_Router.v, Prop_Router2.v: `C22_requested`, `C22_dropped`, `C22_withdrawn`, `C22_others_served`, `C17_delivered`.
* **C23** Transmit statistics. Approach: Router. **partial**, Prop_Router2.v: `C23_counters_partial`, `C23_counters_refuted`. Refuted by the code: a UART write that fails (other than would-block) is counted as a transmitted message. Proved exactly for UDP and TCP endpoints and for UARTs without such failures; the incomplete counter since its last report; counters wrap at 2^32 and 2^64.
* **C24** Loggers cannot cause message loops. Approach: Router: recursion fuel 2 always suffices. **proved**, Prop_Router.v: `C24_not_to_loggers`, `C24_nesting`.
* **C25** De-duplication window. Approach: Dedup: refinement to a history specification. **proved**, Prop_Dedup.v, Prop_Router4.v: `C25_router`, `C25_window`, `C25_window_by_hash`.
* **C26** A duplicate restarts the de-duplication timer. Approach: Dedup: refuted. **partial**, Prop_Dedup.v: `C26_restart_refuted`, `C26_timer_partial`. Refuted by the code: a duplicate does not restart the timer (contrary to README and dedup.h). Proved: the timer runs from the copy let through, so copies let through are more than a period apart, and a copy after a period without any is let through.
* **C27** De-duplication bookkeeping is always consistent. Approach: Dedup: invariant. **proved**, Prop_Dedup.v: `C27_consistent`.
* **C28** De-duplication survives long uptimes. Approach: Dedup: refuted (uint32 wrap). **partial**, Prop_Dedup.v: `C28_early_expiry_refuted`, `C28_stuck_refuted`, `C28_long_uptime_partial`. Refuted by the code at the 2^32 ms (49.7 days) wrap; proved below it.
* **C29** De-duplication is off by default. Approach: Dedup. **proved**, Prop_Dedup.v, Prop_Router4.v: `C29_router`, `C29_off`.
* **C30** De-duplication never suppresses the only routed copy. Approach: Router: refuted with incoming filters, proved without. **partial**, Prop_Router4.v: `C30_only_copy_refuted`, `C30_dropped_partial`, `C30_unfiltered_partial`. Refuted: the detector is asked before the incoming filters, so a copy refused on one link suppresses the copy on another link. Proved over all runs: every dropped packet has the hash of an earlier packet that was not dropped; it was routed unless the incoming filters of its endpoint refused it; without incoming filters and hash collisions an identical copy was routed. The time bound is C25_router.
* **C31** A disconnected TCP client is removed, nothing else is. Approach: Router. **proved**, Prop_Router4.v: `C31_removed`, `C31_only`, `C31_kept`, `C31_others_kept`. All configurations and runs. An endpoint that is a member of a group is taken out of routing but stays allocated (the group still points at it); an ungrouped one is freed.
* **C32** Exactly one reconnect attempt timer. Approach: Router: invariant. **proved**, Prop_Router3.v: `C32_one_retry`, `C32_never_two`. That a retry is pending assumes that the timer could be created; that there is never a second one, nor one for a connected or non-reconnecting endpoint, does not. Intervals are computed in 32 bits, exact below 4294968 s.
* **C33** Reconnect starts with clean framing. Approach: Router/Frame: refuted; proved when nothing is left over. **partial**, Prop_Link.v, Prop_Router5.v: `C33_clean_framing_refuted`, `C33_continues_partial`, `C33_clean_partial`. Refuted: the receive buffer is not reset when a TCP endpoint reconnects, so the first packet of the new connection is lost after an unfinished packet. Proved (no ULog logger): reception after the reconnection depends only on the new data and the unfinished rest of the old, and when the old connection ended between two packets the new one is framed by itself.
* **C34** UDP destination address. Approach: Router: invariant with ghost history. **proved**, Prop_Router2.v: `C34_destination`, `C34_server`, `C34_client`. Addresses with port 0 are never sent to.
* **C35** UDP client falls back after silence. Approach: Router. **proved**, Prop_Router3.v: `C35_armed`, `C35_fallback`. The restart of the 5 s timer by a datagram is visible in the model through the interval of the timer; assumes the timer could be created.
* **C36** UART baud cycling. Approach: Router. **proved**, Prop_Router3.v: `C36_cyclic`, `C36_cycling`, `C36_stops`. C36_cycling assumes the timer could be created.
* **C37** Timer removal is exact. Approach: Timers: linked heap list against filter. **proved**, Prop_Timers.v: `C37_sweep_removes_exactly_marked`, `C37_timer_list_refines_list`.
* **C38** A removed timer never fires. Approach: Timers/Router. **proved**, Prop_Router3.v: `C38_never_fires`, `C38_deleted`, `C38_not_repeated`.
* **C39** Timer interval encoding. Approach: Timers: arithmetic. **proved**, Prop_Timers.v: `C39_interval_exact`.
* **C40** Poll errors. Approach: Router. **proved**, Prop_Router3.v: `C40_critical`, `C40_timer`, `C40_tcp`, `C40_no_error`, `C40_last_iteration`.
* **C41** No dangling event pointers. Approach: Router: invariant. **proved**, Prop_Router3.v: `C41_dispatch`, `C41_references`. Closing a descriptor removes it from the poll set: in the model, registration is a field of the endpoint.
* **C42** A new log never replaces an existing file and sorts after all of them. Approach: Log. **proved**, Prop_LogFile.v: `C42_new_log_is_new_and_last`. The index claim is for directories whose indices stay below 2^32-1.
* **C43** Log retention deletes the oldest logs first and no more than needed. Approach: Log. **proved**, Prop_LogFile.v: `C43_oldest_first_and_minimal`, `C43_count_limit`, `C43_closed_logs`, `C43_own_logs`. For closed logs with pairwise different indices (which the logger itself guarantees, C42) and sizes below 2^62 bytes.
* **C44** Log retention only ever deletes closed logs. Approach: Log. **proved**, Prop_LogFile.v: `C44_only_closed_logs_deleted`.
* **C45** A failing free-space query does not delete logs. Approach: Log: refuted. **partial**, Prop_LogFile.v: `C45_query_failure_refuted`, `C45_query_failure_partial`. Refuted by the code: with MaxLogFiles set, a failing statvfs counts as 2^64-1 free bytes and the signed difference makes the logger delete MinFreeSpace+1 bytes worth of logs. Proved: no deletion when MaxLogFiles is 0.
* **C46** Unfinished logs are closed at startup. Approach: Log. **proved**, Prop_LogFile.v, Prop_Start.v: `C46_startup`, `C46_nothing_else_changes`, `C46_all_closed`.
* **C47** LogMode while-armed. Approach: Log. **partial**, Prop_LogModes.v, Prop_ModeRun.v: `C47_while_armed_partial`, `C47_closed_when_disarmed_partial`, `C47_run_partial`, `C47_data_block_refuted`, `C47_short_heartbeat_refuted`. Refuted by the code: a log data packet received while the file is closed restarts the logger and opens a file even when disarmed, and a heartbeat whose base_mode byte was trimmed is read beyond its payload. Proved for all histories without data packets while disarmed and with complete heartbeats, for the logger (C47_while_armed, C47_closed_when_disarmed) and in every run of the program, in terms of the messages the router forwards (C47_run).
* **C48** A log that cannot be opened disables logging. Approach: Log. **partial**, Prop_LogModes.v: `C48_failure_disables`, `C48_disabled_stays_closed_partial`, `C48_reopens_refuted`. Refuted by the code: a log data packet makes a disabled logger open a file. Proved for all histories without log data packets.
* **C49** Log target system. Approach: Log. **partial**, Prop_LogModes.v: `C49_target`, `C49_never_changes`, `C49_auto_refuted`. Holds for the binary, ULog and telemetry loggers. Refuted for the automatic selection: the logger it creates detects the autopilot again and can follow another system.
* **C50** Binary log content. Approach: BinLog. **proved**, Prop_BinLog.v: `C50_file_content`. For an open log in always-on mode with complete writes and MAVLink 1 data blocks of full length; blocks arriving before block 0 of a new log are refused by the code.
* **C51** Binary log acknowledgements. Approach: BinLog: acks proved; NACK numbers refuted. **partial**, Prop_BinLog.v: `C51_acknowledged_partial`, `C51_only_stored_partial`, `C51_reports_partial`, `C51_nack_refuted`. Refuted by the code: the NACKs for skipped blocks all carry the number of the block just received. Proved: exactly the accepted blocks are acknowledged, and for all outcomes of the system calls only completely stored blocks are; the whole sequence of reports sent for a log is determined by the accepted blocks, starting from 0 in each log.
* **C52** One data block causes a bounded amount of traffic. Approach: BinLog: refuted. **partial**, Prop_BinLog.v: `C52_by_gap_partial`, `C52_constant_refuted`. Refuted by the code: one block with a large number causes one NACK per skipped number, up to 2^32-2. Proved: bounded by the gap.
* **C53** ULog stream fidelity. Approach: ULog. **partial**, Prop_ULog.v, Prop_ULogEx.v, Prop_ULogNew.v: `C53_stream_partial`, `C53_new_log_partial`, `C53_conserved_partial`, `C53_large_refuted`. Refuted by the code for messages that do not fit the 2048 byte staging buffer: they are lost. Proved: fidelity of whole sessions with messages of at most 1799 bytes and complete writes; for one packet that fits the buffer, conservation of the byte stream under every write outcome whose remainder fits the partial-write buffer.
* **C54** ULog sequence handling. Approach: ULog. **partial**, Prop_ULog.v, Prop_ULogEx.v: `C54_new_partial`, `C54_old_partial`, `C54_half_refuted`. Refuted by the code at the border: a packet 32767 or 32768 behind the expected one is processed when the number space does not wrap between them. Proved: everything except these two distances, once the header was received.
* **C55** ULog never writes outside its buffers. Approach: ULog. **proved**, Prop_ULog.v: `C55_indices`, `C55_in_bounds`.
* **C56** ULog processing terminates. Approach: ULog: refuted; proved for sane sizes. **partial**, Prop_ULog.v, Prop_ULogEx.v: `C56_terminates_partial`, `C56_refuted`. Refuted by the code: a message header announcing 65533 bytes makes the flush loop spin for ever. Proved: packets with consistent fields terminate otherwise.
* **C57** ULog never reads outside the received packet. Approach: ULog: refuted; proved for well-formed packets. **partial**, Prop_ULog.v, Prop_ULogEx.v: `C57_reads_partial`, `C57_header_refuted`, `C57_offset_refuted`. Refuted by the code: a first packet with more than 233 data bytes and trimmed zeros, or a first message offset behind the data, reads past the payload copy. Proved for packets with consistent fields.
* **C58** ULog resynchronises after loss. Approach: ULog. **proved**, Prop_ULog.v: `C58_runs`. For always-on logging, complete writes and messages of at most 1799 bytes, once the packet with the ULog header was received; packets exactly half the number space ahead (or one more) excluded, see C54.
* **C59** Telemetry log records. Approach: TLog round trip. **proved**, Prop_TLog.v: `C59_records`, `C59_readable`. For a logger in always-on mode with complete writes.
* **C60** Automatic dialect selection. Approach: AutoLog. **proved**, Prop_LogModes.v: `C60_auto_selection`. For heartbeats whose payload includes the autopilot field.
* **C61** All logs are finalised at exit. Approach: Router/Log: refuted for the telemetry log. **partial**, Prop_Router5.v: `C61_telemetry_log_refuted`, `C61_flight_stack_log_partial`, `C61_no_telemetry_partial`. Refuted for the telemetry log, which is neither stopped nor made read-only at exit. Proved for the flight stack log over all runs: after the exit code it is closed, and read-only if it was open and the system calls succeed.
* **C62** Configuration text round-trip. Approach: Conf: round trip. **proved**, Prop_Conf.v: `C62_roundtrip`. All configurations over legal characters, names up to 100 characters.
* **C63** Later configuration overrides earlier. Approach: Conf: last-writer-wins specification. **proved**, Prop_Conf.v: `C63_last_wins`, `C63_others_unaffected`. All sequences of files without NUL characters. The meaning of a text is the separate specification in SpecConf.v.
* **C64** Option parsers never see an empty value. Approach: Conf: invariant. **proved**, Prop_Conf.v: `C64_nonempty`, `C64_no_assertion`, `C64_tables`. All texts and files; covers every option table of the program.
* **C65** Every configuration line is honoured. Approach: Conf: refuted for the unterminated last line. **partial**, Prop_Conf.v: `C65_last_line_refuted`, `C65_terminated_partial`, `C65_empty_file_refuted`. Refuted: a last line without newline is dropped, and a file of length zero makes the program refuse its configuration. Proved: every line that ends with a newline is honoured.
* **C66** Section enumeration. Approach: Conf: enumeration proved, buffer bound refuted at length 100. **partial**, Prop_Conf.v: `C66_buffer_refuted`, `C66_enumeration_partial`. Refuted: a section name of 100 characters is accepted and then written behind the name buffer. Proved for names of fewer than 100 characters.
* **C67** Configuration directory. Approach: Cli: refuted at 129 files. **partial**, Prop_Conf.v: `C67_too_many_refuted`, `C67_directory_partial`, `C67_read_partial`. Refuted: the 129th file is written behind the array. Proved for up to 128 regular files.
* **C68** Required options. Approach: Conf. **proved**, Prop_Section.v: `C68_fails`, `C68_tables`, `C68_missing_section`, `C68_udp_fails`, `C68_fields`. All option tables of the program and all configurations. The parsed value of each option is stated in SpecSection.v.
* **C69** Number parsing. Approach: Num. **partial**, Prop_Opts.v: `C69_negative_refuted`, `C69_signed`, `C69_unsigned_partial`, `C69_decimal`. Refuted: an unsigned option accepts a negative number and wraps it. Proved for signed options, and for unsigned options without a minus sign.
* **C70** Filter lists. Approach: Num: uint32 proved, uint8 out-of-range wraps (refuted as validation). **proved**, Prop_Opts.v: `C70_words`, `C70_bytes`. All lists of decimal identifiers in range.
* **C71** Booleans and enumerations. Approach: Conf. **partial**, Prop_Opts.v: `C71_bool_refuted`, `C71_bool_partial`, `C71_udp_mode`, `C71_dialect`, `C71_log_mode`, `C71_log_level`. Refuted for booleans: further spellings are accepted. Proved exactly for the enumerations (the UDP mode also has the deprecated spelling eavesdropping), and one direction for booleans.
* **C72** Automatic UDP ports do not collide. Approach: Cli: refuted. **partial**, Prop_Main.v: `C72_third_refuted`, `C72_cli_refuted`, `C72_partial`. Refuted: the third client endpoint on one address gets the port of the second, and on the command line already the second collides. Proved while port 14551 is free on the address.
* **C73** Address argument syntax. Approach: Cli. **partial**, Prop_Main.v: `C73_ipv6_refuted`, `C73_split_partial`, `C73_accepted_partial`. Refuted: an IPv6 address without port is refused although the port is optional. Proved for every address followed by colon and number, and for addresses without colon.
* **C74** Only usable ports are accepted. Approach: Cli: refuted. **partial**, Prop_Main.v: `C74_65536_refuted`, `C74_missing_partial`, `C74_udp_port_partial`. Refuted: ports above 65535 are accepted and truncated. Proved: zero and missing ports are refused and ports from 1 to 65535 are used as given.
* **C75** Address validation. Approach: Cli: regular expressions as predicates. **proved**, Prop_Main.v: `C75_shapes`, `C75_brackets`. All strings; the regular expressions are matched by a matcher proved equal to the language of the expression.
* **C76** Log directory creation. Approach: Cli: mkdir_p over a directory-tree model. **proved**, Prop_Mkdir.v: `C76_mkdir`, `C76_created`. All paths and trees of directories and files without symbolic links; stat reports the truth, creation may fail.
* **C77** Endpoint set from configuration. Approach: Cli/Router. **proved**, Prop_Main.v, Prop_Section.v: `C77_files`, `C77_cli`, `C77_started`. From the text of the files and the command line to the started endpoints. Section names are shorter than 100 characters (longer ones are undefined behaviour, C66).
* **C78** Settings take effect. Approach: Router/Cli: refuted by truncation, proved in range. **partial**, Prop_Main.v, Prop_Start.v: `C78_refuted`, `C78_cli_refuted`, `C78_settings_partial`, `C78_sniffer_partial`, `C78_period_partial`, `C78_interval_partial`. Refuted: values are truncated to 16 or 32 bits. Proved for values that fit.
* **C79** Bad list entries are rejected. **partial**, Prop_Opts.v: `C79_bad_entry_refuted`, `C79_others_partial`. Refuted: an entry that is not a number is read as 0 and one out of range wraps. Proved: a bad entry does not change how the other entries are read.
* **C80** Numeric addresses are recognised. **partial**, Prop_Main.v: `C80_refuted`, `C80_ipv4_partial`, `C80_ipv6_partial`. Refuted: 300.0.0.1 is accepted, and upper case or mixed IPv6 addresses are refused. Proved: every dotted decimal IPv4 address and every IPv6 address in lower-case groups, with or without ::, is accepted.
* **C81** Received packets are the packets that arrived. **partial**, Prop_Link.v: `C81_received_partial`, `C81_never_early_partial`, `C81_valid_traffic_partial`, `C81_ulog_refuted`. Refuted with the ULog logger: a LOGGING_DATA packet with a length of 255 makes it overwrite the beginning of the next packet in the receive buffer. Proved for every run without it; packets can remain unread on TCP connections and behind a packet with a wrong checksum.
* **C82** Short or failed writes do not damage logs. **partial**, Prop_TLog.v, Prop_ULog.v, Prop_ULogFile.v, Prop_Writes.v: `C82_telemetry_refuted`, `C82_telemetry_partial`, `C82_binary_partial`, `C53_conserved_partial`, `C83_whole_partial`. Refuted by the telemetry log: after one short write a reader finds none of the later records. Proved: its file still consists of beginnings of times and packets in order, nothing is overwritten; a binary log changes only inside the place of the block; the ULog logger keeps the remainder and writes it later (if it fits its buffer).
* **C83** A ULog log consists of whole messages. **partial**, Prop_ULogFile.v, Prop_ULogFile2.v: `C83_long_refuted`, `C83_whole_partial`, `C83_small_partial`, `C83_closed_partial`, `C83_new_log_partial`. Refuted: a message of which one write leaves more than 1024 bytes behind is written again from its beginning, behind what was written of it. Proved for every other outcome of the writes, and for every outcome if messages have at most 1025 bytes; for always-on logging, once the packet with the ULog header was received, packets no further from the newest one than half the number space (see C54).
* **C84** No traffic crashes or hangs the router. Approach: Router: progress, every reachable state can handle every batch; from the invariants on timers, endpoints and buffers. **partial**, Prop_Safe.v, Prop_ULRun.v: `C84_ulog_refuted`, `C84_iteration_partial`, `C84_exit_partial`, `C84_goes_on_partial`, `C84_exit_refuted`, `C84_exit_streaming_partial`. Refuted with the ULog logger: one valid LOGGING_DATA packet, after a lost one, whose first message offset lies behind its data. Proved for every run without it, for the undefined behaviour the model knows; REMOTE_LOG_DATA_BLOCK has 206 bytes in the table of messages. A streaming logger that still has to write the end of a message keeps the program from ending as long as the write would block or writes nothing (C84_exit_refuted), which is unusual for a file on a local disk; if writes write something or fail it ends (C84_exit_streaming_partial).
* **C85** No configuration crashes or hangs the start-up. Approach: Conf, Opts, Main: totality of every step from the item semantics of files (C62, C64); the two overflows of C66 and C67 end to end. **partial**, Prop_Args.v, Prop_ConfSafe.v: `C85_refuted`, `C85_defined_partial`, `C85_words_partial`. Refuted: a section name of exactly 100 characters, and more than 128 files in the configuration directory. Proved for everything else, and for all words of the command line.
* **C86** No descriptor is leaked or closed twice. Approach: Descr: one endpoint, call by call, with an arbitrary kernel and arbitrary other activity; invariant: the open descriptors are exactly those of the endpoint and of the others; refuted for TCP and IPv6 multicast addresses. **partial**, Prop_Descr.v: `C86_leak_refuted`, `C86_exactly_partial`, `C86_bounded_partial`, `C86_closed_partial`, `C86_server`. Refuted: every attempt of a TCP endpoint to connect to an address whose text begins with ff0 (IPv6 multicast) leaks a socket. Proved for everything else, one endpoint at a time with arbitrary activity of the rest of the process. Descriptors of log files and the epoll descriptor are not included.
* **C87** The address used is the address written. Approach: Inet: inet_addr, inet_pton and inet_ntop as in glibc; SpecInet says what a text means; reading is proved right for every text, and reading what was written is the identity. **partial**, Prop_Inet.v: `C87_octal_refuted`, `C87_broadcast_refuted`, `C87_garbage_refuted`, `C87_ipv4_partial`, `C87_ipv4_exact_partial`, `C87_ipv6_partial`. Refuted: 10.0.0.010 is 10.0.0.8; a number above 255, or 08, gives the broadcast address; a text in brackets that is no IPv6 address makes TCP connect to :: and UDP use uninitialised memory. Proved: dotted decimal without leading zeros and every proper IPv6 text are used as written, and exactly what every accepted IPv4 text means. inet_addr, inet_pton and inet_ntop are modelled after glibc.
* **C88** Multicast addresses are joined. Approach: Inet: the test on the text, for every text of an address in ff00::/12; counterexamples outside. **partial**, Prop_Inet.v: `C88_transient_refuted`, `C88_unicast_refuted`, `C88_interface_refuted`, `C88_joins_partial`. Refuted: multicast addresses outside ff00::/12 (such as ff15::1) are not recognised, ff0::1, which is unicast, is taken for multicast, and the interface of the membership request is never set. Proved for all texts of addresses in ff00::/12, apart from the interface.
* **C89** Link-local addresses are used on their interface. Approach: Inet: the search through the interface addresses; inet_ntop is injective. **partial**, Prop_Inet.v: `C89_peer_refuted`, `C89_text_refuted`, `C89_own_partial`. Refuted: the address of any other host gets scope 0; fe90::1 and, for TCP, addresses not in the system's own notation get none either. Proved: the host's own address in fe80::/16, in the system's notation, gets the first interface that has it.
* **C90** The command line means what the help text says. Approach: Getopt: getopt_long with permutation, two scans; SpecArgs: command lines as in the help text; both scans see the same options by induction over the words. **partial**, Prop_Args.v: `C90_T_refuted`, `C90_V_refuted`, `C90_missing_refuted`, `C90_written_partial`, `C90_scans_partial`. Refuted: -T takes the next word as a value, -V alone and --help are errors, and an option at the end without its value takes the first endpoint as its value. Proved for all other command lines written as documented. getopt_long is modelled after glibc, without POSIXLY_CORRECT.
* **C91** The log reaches the disk. Approach: Fsync: the control block as a state machine with the end of requests as events; invariant while a file is open. **partial**, Prop_Fsync.v: `C91_stop_refuted`, `C91_ticks_partial`, `C91_stop_partial`. Refuted: stopping the log, or destroying its endpoint, while an asynchronous request is in progress changes or frees its control block, which POSIX leaves undefined. Proved: while a file is open nothing undefined happens and what was written before a tick that makes a request is on the disk when that request ends; a stop with no request in progress brings the whole file to the disk. A request brings to the disk what was written before it.
* **C92** The statistics report is right. Approach: Report: the text character by character; SpecReport: the lines and what they say. **partial**, Prop_Report.v: `C92_overflow_refuted`, `C92_says_partial`. Refuted: from 42949673 wrong or lost messages on the percentage overflows (0% instead of 100%). Proved below that, as long as the total has not wrapped around.
* **C93** The configured log level decides which messages appear. Approach: LogOut: levels, backends and line assembly; SpecLogOut: what a message looks like; induction over the messages. **partial**, Prop_LogOut.v: `C93_level_refuted`, `C93_long_refuted`, `C93_messages_partial`. Refuted: until the configuration was read the level is INFO, and on standard error messages are cut after 2047 bytes. Proved otherwise. Messages are taken as formatted texts; writes to standard error as complete.
* **C94** A connection that ended is let go of. Approach: Router: invariant over the acts of a run (removed and without group: destroyed); a fixed point of the main loop for a group. **partial**, Prop_Hangup.v: `C94_spins_refuted`, `C94_let_go_partial`. Refuted for groups: the other members keep a removed endpoint alive; its connection stays open and registered with epoll, so that the main loop spins reading the end of file. Proved for every endpoint outside groups (accepted clients are never in one).
* **C95** The invocations of the README bridge vehicle and ground stations. Approach: Getopt, Main, Inet and Router together: the configuration of the command line by computation, then the theorems of framing, routing and destinations over its runs; UartTold: invariant that a serial endpoint is always written to. **proved**, Prop_Whole.v: `C95_configured`, `C95_to_stations`, `C95_to_vehicle`, `C95_udp_configured`, `C95_udp_to_stations`, `C95_udp_to_vehicle`. For IPv4 addresses in the usual notation, ports from 1 to 65535, traffic that arrives in valid packets and reads of at most 840 bytes. A station's endpoint follows the latest sender of datagrams (C34); the theorem gives the destination when only the station itself sent any. Composes C90, C73, C87, C77, C81, C16, C29, C17, C18, C31 and C34.
* **C96** A peer reads whole packets. Approach: Router: SpecStream, the bytes the write calls put into the stream; the unique cutting of C02 for streams of packets; a torn packet as counterexample. **partial**, Prop_Stream.v: `C96_short_refuted`, `C96_whole_partial`, `C96_until_partial`. Refuted: when the system takes only part of a packet, the rest is discarded, and the peer takes the beginning of the next packet for its end. Proved for every connection as long as the system takes each packet completely or not at all, and, otherwise, for everything before the first packet taken in part. With a ULog logger only for configured endpoints (C18).
* **C97** The program's own messages are valid. Approach: Sys.pack2 and the loggers: the packing proved against the packet specification for every payload; invariant over the acts of a run for the targets. **proved**, Prop_Stream.v: `C97_own_messages`, `C97_target`. The system a logger listens to is the configured one or, without one, one whose autopilot was heard before the message was sent; as long as there is none, target 255 is written.
* **C98** Logging dialogue: ask until answered, watch for silence. Approach: Loggers: SpecAsk, what requests and answers look like on the wire; every event either keeps the log's timers, starts a log anew (telling the vehicle to stop if one was open) or is the answer; invariants over runs for the timers and the message counter. **proved**, Prop_Ask.v: `C98_asks_until_answered`, `C98_quiet_once_answered`, `C98_silent_restart`, `C98_busy_undisturbed`, `C98_periods`, `C98_asked_or_checked`. For dialects that know the messages of the protocol and MAVLink 1 messages that are not cut short. A data block with number 2147483646 is excluded in C98_quiet_once_answered: its acknowledgement has the same content as a start request. C98_busy_undisturbed: fewer than 2^32 messages between two checks (the counter is 32 bits wide).
* **C99** A flight-stack log belongs to the monitored vehicle. Approach: Loggers: a history in which another system fills and answers the log as counterexample; for messages outside the protocol, no change of the state and no output. **partial**, Prop_Sender.v: `C99_sender_refuted`, `C99_unrelated_partial`. Refuted: the messages of the logging protocol are taken from any system; the log of system 1 is filled, answered and acknowledged by system 7. Proved for every message that is not of the protocol; in mode always with no log open, any message can be the one that opens the next log (C45).
* **C100** Logging dialogue in the running program. **proved**, Prop_Dialogue.v: `C100_asks_by_timer`, `C100_timer_asks`, `C100_quiet_once_answered`, `C100_keeps_asking`, `C100_keeps_checking`, `C100_silence`, `C100_undisturbed`. For the protocol the logger ends up with (a logger that chooses automatically sends nothing before it chose). Same restrictions on the traffic as in C98: the dialect knows the messages, MAVLink 1 messages of the protocol are not cut short, no data block is numbered 2147483646; C100_undisturbed with fewer than 2^32 items between the checks. Who sent the answer is C99.
* **C101** The telemetry log is a record of the router's traffic. **partial**, Prop_TeleRun.v: `C101_all_traffic_refuted`, `C101_telemetry_partial`, `C101_read_back_partial`. Refuted: to the router a log is an endpoint with address 2/0, so messages for a particular system, such as the commands of a ground station, are forwarded but not recorded. Proved: the log holds exactly the broadcasts and the messages to 2/0, and everything that does not come from 2/0 if the sniffer is system 2. For mode always, and without a ULog logger in front of the telemetry log, which changes messages before they are recorded (C18). Whatever system calls return, the file consists of beginnings of times and messages in this order; with complete writes a reader gets all messages back.
* **C102** What the binary logger acknowledges is in its log file. **proved**, Prop_BinRun.v: `C102_acknowledged_is_stored`, `C102_acknowledged_data`, `C102_closed_takes_back`. Holds in every run, whatever system calls return, for block numbers below 2^32/200 (the offset is computed in 32 bits) and messages long enough for their fields. In the file means in the content of the file as the system sees it; the model has no power loss.
* **C103** What the streaming logger acknowledges. **partial**, Prop_ULAck.v: `C103_acknowledgements_partial`, `C103_traffic_partial`, `C103_immediately_partial`, `C103_stored_refuted`, `C103_sequence_refuted`. True along every run for messages with both bytes of the sequence number on the wire: one acknowledgement each, in order (dialect Common), and nothing acknowledged but a message just received (any dialect). False of the code otherwise: a MAVLink 2 message trimmed to one payload byte is acknowledged with a byte of the checksum as the high byte of its number; and an acknowledgement is sent before the data are looked at, so data that arrive before the log started are acknowledged and dropped.
* **C104** Serial ports pass bytes unchanged, in the configured way. **partial**, Prop_Tty.v: `C104_transparent`, `C104_cycling`, `C104_next_speed`, `C104_speed_partial`, `C104_first_speed_partial`, `C104_speed_refuted`. Refuted for lists of baud rates: if the device refuses the first one, the set-up succeeds and the port runs at 1200 baud. Everything else is proved for every previous setting; the meaning of the settings is that of termios(3), written down in SpecTty; a device is assumed to take settings as they are or not at all.
* **C105** The ULog file in a running program. **partial**, Prop_ULRun.v: `C105_refuted`, `C105_file_partial`, `C105_small_partial`, `C105_closed_partial`, `C105_new_file_partial`. Refuted: in a run in which one write takes 100 of the 1500 bytes of a message, these bytes are in the file twice. Otherwise proved along every run of the whole program, in every logging mode and for dialect Auto too. Two conditions remain: writes leave at most 1024 bytes of a message behind or fail (nothing is asked of the writes if messages have at most 1025 bytes), and the packet with the header carries at most 233 bytes (see C53). Packets are no further from the newest one than half the number space (see C54). C105_closed: the end of the program, when it comes to an end (see C84 for writes that would block for ever); logs closed by a disarmed or silent vehicle are only covered by C83.
* **C106** Datagrams do not disturb each other. **partial**, Prop_Datagram.v: `C106_stray_refuted`, `C106_long_refuted`, `C106_apart_partial`, `C106_valid_partial`. Refuted twice: a datagram that ends inside a packet (one stray start byte is enough) swallows the packets of the datagrams behind it, up to 280 bytes, and what results may be forwarded; and a datagram longer than 1120 bytes is cut and does the same. Proved for every run without the ULog logger (see C81) if each datagram that arrived holds whole packets, valid or not, and at most 1120 bytes; behind a packet with a wrong checksum the rest of its datagram may be delayed (C07).
* **C107** The end of the program keeps the logs. **proved**, Prop_End.v: `C107_directory`, `C107_contents`, `C107_acknowledged`, `C107_binary`, `C107_telemetry`. With the binary logger the end is always reached (C107_binary). Otherwise for every run that comes to an end: the streaming logger can try for ever to write what is left (see C84). What it adds to its file is the subject of C105_closed_partial, and C61 says when the file is read-only.
* **C108** An open ULog file only grows. **proved**, Prop_Append.v: `C108_appended`, `C108_completed`. Both for loggers set to the ULog dialect and for those that found it out. C108_completed is about runs whose end is reached (see C84_exit_refuted). What the bytes are is the subject of C83 and C105.
* **C109** Other files in the log directory are left alone. **proved**, Prop_Others.v: `C109_untouched`, `C109_end`. From the end of the start-up to any later moment of the run and to the end of the program. During the start-up a regular file whose name begins with a number and a dash is made read-only even if it is no log (C46_startup). That other processes leave the directory alone is part of the model of the file system.
* **C110** Without a log directory no file is touched. **proved**, Prop_NoLog.v: `C110_no_files`, `C110_end`. The file system of the model is one directory and is only reached by the code of the loggers; the configuration files and /dev are modelled elsewhere (C67, C104).
