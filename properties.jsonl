{"id": "C01", "title": "Uplink frame layout", "statement": "Whenever uwan_send_frame returns UWAN_ERR_NO it hands the radio exactly one frame, and that frame is byte for byte MHDR | DevAddr (LE) | FCtrl | low 16 bits of FCntUp (LE) | FOpts | [FPort | encrypted FRMPayload] | MIC, where MHDR reflects `confirm`, FCtrl carries ADR/ADRACKReq/ACK/FOptsLen, FOpts is the queued MAC answers, the payload is encrypted with AppSKey and the MIC is the first 4 bytes of CMAC(NwkSKey, B0 | frame).", "quantifier": "all payloads, ports, confirm flags, sessions, MAC queues, ADR settings, AES/CMAC functions and all reachable stack states", "why_tests_cant": "a test fixes a handful of frames and stubs the crypto; the layout must hold for every length, key, counter and queue content", "anchors": ["src/stack.c:uwan_send_frame", "src/stack.c:encrypt_payload", "src/stack.c:calc_mic", "src/mac.c:mac_get_payload"]}
{"id": "C02", "title": "Uplink payload can be decrypted by the server", "statement": "The FRMPayload inside every accepted uplink, decrypted with the LoRaWAN CTR-style keystream for (AppSKey, uplink, DevAddr, 32-bit FCntUp), is exactly the buffer passed to uwan_send_frame, and its length is unchanged.", "quantifier": "all payloads of all accepted lengths, all keys and AES functions, all counters", "why_tests_cant": "round-trip over every length (block boundaries) and every key cannot be enumerated", "anchors": ["src/stack.c:encrypt_payload", "src/stack.c:uwan_send_frame"]}
{"id": "C03", "title": "Uplink counter advances exactly once per transmission", "statement": "FCntUp grows by one (mod 2^32) on every accepted uwan_send_frame and by nothing else while a session lasts; hence the frames of one session use consecutive counters and no two of the first 2^32 share a (keystream, MIC) counter.", "quantifier": "all interleavings of API calls, timer callbacks and radio events that do not replace the session", "why_tests_cant": "nonce reuse is a property of whole histories, not of one call", "anchors": ["src/stack.c:uwan_send_frame", "src/stack.c:uwan_set_session"]}
{"id": "C04", "title": "Uplink size and result code", "statement": "In the idle state uwan_send_frame answers UWAN_ERR_CHANNEL iff no channel is enabled, else UWAN_ERR_MSG_LEN iff the payload is longer than uwan_get_max_payload_size() or both payload and MAC queue are empty, else UWAN_ERR_NO; uwan_get_max_payload_size() is the regional limit of the current data rate minus the queued FOpts; an accepted frame is at most 235 bytes and never overruns the 255-byte frame buffer.", "quantifier": "all payload lengths 0..255, all queue lengths, all data rates, all reachable states", "why_tests_cant": "boundary arithmetic over every combination of data rate, queue length and payload length", "anchors": ["src/stack.c:uwan_get_max_payload_size", "src/stack.c:uwan_send_frame"]}
{"id": "C05", "title": "Refused calls have no effect", "statement": "When uwan_send_frame or uwan_join returns an error nothing observable happens: no radio, timer or crypto call is made, the session, counters, MAC queue, pending ACK and configuration are unchanged (at most one random number is drawn), and while a transaction is in progress both return UWAN_ERR_STATE with no effect at all.", "quantifier": "all states (uninitialised, idle, TX, RX1, RX2), all arguments", "why_tests_cant": "a test can check a few observables of a few states; the claim is about the whole state", "anchors": ["src/stack.c:uwan_send_frame", "src/stack.c:uwan_join"]}
{"id": "C06", "title": "Uplinks use only enabled, legal channels", "statement": "After any history, the frequency programmed for a join-request or data uplink is the frequency last assigned to a currently enabled channel, and lies in 860..870 MHz.", "quantifier": "all histories of API calls, CFLists, MAC commands and events, all random draws", "why_tests_cant": "depends on the whole history of channel edits coming from the application and the network", "anchors": ["src/channels.c:channels_get_next", "src/stack.c:uwan_join", "src/stack.c:uwan_send_frame"]}
{"id": "C07", "title": "Channel selection is complete and fair", "statement": "Channel selection fails only if no channel is enabled, terminates for every draw, and for each enabled channel some random draw selects it.", "quantifier": "all enabled sets and all random values", "why_tests_cant": "2^16 masks times all draws; termination of the search loop is a universal claim", "anchors": ["src/channels.c:channels_get_next"]}
{"id": "C08", "title": "Channel table behaves as a finite map", "statement": "uwan_set_channel / uwan_enable_channel behave like updates of a finite map index -> (frequency, enabled): set stores and enables, enable/disable touch only the given index, every error (index >= 16, bad frequency, enabling an undefined channel) leaves the map unchanged.", "quantifier": "all call sequences, all indices and frequencies", "why_tests_cant": "refinement over all operation sequences", "anchors": ["src/channels.c:uwan_set_channel", "src/channels.c:uwan_enable_channel", "src/channels.c:channels_enable_all"]}
{"id": "C09", "title": "MAC answers are transported once, in order, whole", "statement": "The MAC queue is a FIFO of at most 15 bytes: an answer is appended whole or (if it does not fit) not at all, a successful uplink carries exactly the queue in FOpts and empties it, and nothing else removes from it except uwan_init.", "quantifier": "all sequences of MAC commands, requests and uplinks", "why_tests_cant": "queue content after arbitrary interleavings and at the 15-byte boundary", "anchors": ["src/mac.c:mac_enqueue", "src/mac.c:mac_get_payload", "src/mac.c:mac_get_payload_size"]}
{"id": "C10", "title": "Downlink authenticity", "statement": "The downlink callback reports UWAN_ERR_NO for a data frame only if the frame is a well-formed R1 data downlink for this DevAddr whose MIC verifies under NwkSKey for the 32-bit counter the session now holds; for a join only if the decrypted join-accept MIC verifies under AppKey.", "quantifier": "all received byte strings, all sessions, all AES/CMAC functions", "why_tests_cant": "the set of received frames is every byte string up to 255 bytes", "anchors": ["src/stack.c:handle_data_msg", "src/stack.c:handle_join_msg", "src/stack.c:handle_downlink"]}
{"id": "C11", "title": "Genuine downlinks are delivered intact", "statement": "A data downlink built by a conforming server for this session (counter 1..16384 ahead of the last one, or any 16-bit value when none was received) is delivered with UWAN_ERR_NO and the callback sees exactly the server's FPort and plaintext (AppSKey for ports > 0, NwkSKey for port 0).", "quantifier": "all payloads, ports, FOpts, counters and keys", "why_tests_cant": "end-to-end round trip over every frame", "anchors": ["src/stack.c:handle_data_msg", "src/stack.c:encrypt_payload"]}
{"id": "C12", "title": "Rejected downlinks change nothing", "statement": "A received frame reported with an error (bad length, header, address, counter or MIC) leaves session, configuration, channels and MAC queue unchanged, so that an attacker without keys cannot influence the device.", "quantifier": "all received byte strings and all states", "why_tests_cant": "quantifies over every forged frame", "anchors": ["src/stack.c:handle_data_msg"]}
{"id": "C13", "title": "No downlink replay", "statement": "Within a session the 32-bit counters of delivered data downlinks strictly increase; in particular delivering a frame twice is impossible.", "quantifier": "all sequences of received frames", "why_tests_cant": "an attacker chooses the history", "anchors": ["src/stack.c:handle_data_msg"]}
{"id": "C14", "title": "Downlink counter reconstruction", "statement": "If the server's 32-bit counter is 1..16384 ahead of the device's, the device reconstructs it exactly from the 16 bits on air (across 16-bit rollovers); counters further ahead (gap > MAX_FCNT_GAP) are rejected.", "quantifier": "all pairs of 32-bit counters", "why_tests_cant": "2^64 pairs including rollovers", "anchors": ["src/stack.c:handle_data_msg", "src/stack.c:MAX_FCNT_GAP"]}
{"id": "C15", "title": "ACK bit is faithful", "statement": "An uplink carries the ACK bit exactly when a confirmed downlink addressed to this device has been accepted since the previous uplink, and each confirmed downlink is acknowledged by at most one uplink.", "quantifier": "all interleavings of downlinks and uplinks", "why_tests_cant": "relates an uplink to an unbounded past", "anchors": ["src/stack.c:handle_data_msg", "src/stack.c:uwan_send_frame"]}
{"id": "C16", "title": "MAC command parser is safe and matches a reference parser", "statement": "For every FOpts byte string the command loop terminates, never reads outside the string, executes exactly the commands a reference parser finds in order, and stops at the first unknown or truncated command or when an answer no longer fits.", "quantifier": "all byte strings of length 0..15 (and beyond)", "why_tests_cant": "every byte string, including truncated ones", "anchors": ["src/mac.c:mac_handle_commands", "src/mac.c:mac_commands"]}
{"id": "C17", "title": "LinkADRReq is all-or-nothing", "statement": "Data rate, TX power, NbTrans and channel mask of a LinkADRReq are applied together iff all three status bits are set; otherwise nothing changes; the status bits report separately whether the data rate, power and mask were acceptable.", "quantifier": "all 2^32 payloads and all channel tables", "why_tests_cant": "payload space times channel tables", "anchors": ["src/adr.c:adr_handle_link_req", "src/region/common.c:region_86x_handle_adr_ch_mask"]}
{"id": "C18", "title": "LinkADRReq channel mask control follows EU868/RU864", "statement": "ChMaskCntl = 0 applies the 16-bit mask, ChMaskCntl = 6 enables all defined channels, and every other ChMaskCntl is refused with the channel-mask bit cleared; a request that would disable all channels is refused.", "quantifier": "all ChMaskCntl values 0..7, all masks, all channel tables", "why_tests_cant": "every control value and mask", "anchors": ["src/adr.c:adr_handle_link_req", "src/region/common.c:region_86x_handle_adr_ch_mask"]}
{"id": "C19", "title": "RXParamSetupReq is all-or-nothing", "statement": "RX1 data-rate offset, RX2 data rate and RX2 frequency are applied together iff each is valid; the answer reports exactly which of the three were valid; otherwise nothing changes.", "quantifier": "all 2^32 payloads", "why_tests_cant": "exhaustive payload space", "anchors": ["src/mac.c:rx_param_setup", "src/stack.c:uwan_set_rx2", "src/stack.c:uwan_set_rx1_dr_offset"]}
{"id": "C20", "title": "NewChannelReq", "statement": "The channel is created and enabled with frequency 100 Hz x Freq iff Freq is in range, the DR range byte is 0x50 and the index is below 16; the answer is 3 in that case and otherwise reports which checks passed (0 for a bad index), leaving the channel table unchanged.", "quantifier": "all 2^40 payloads and channel tables", "why_tests_cant": "exhaustive payload space", "anchors": ["src/mac.c:new_channel", "src/channels.c:uwan_set_channel"]}
{"id": "C21", "title": "RX1 delay from the network is honoured", "statement": "After RXTimingSetupReq(d) or a join-accept with RxDelay d, every following data uplink opens RX1 max(1,d) seconds and RX2 max(1,d)+1 seconds after the end of transmission until the delay is changed again; join-requests always use 5 and 6 seconds.", "quantifier": "all delays and all later histories", "why_tests_cant": "relates a setting to all later transmissions", "anchors": ["src/mac.c:rx_timing_setup", "src/stack.c:handle_join_msg", "src/stack.c:uwan_set_rx1_delay", "src/stack.c:evt_handler"]}
{"id": "C22", "title": "DevStatusAns", "statement": "The answer to DevStatusReq carries the battery level returned by the application (255 if no handler) and the SNR of the frame that carried the request as a 6-bit two's complement number.", "quantifier": "all SNRs, all battery levels", "why_tests_cant": "all values and all frames in between", "anchors": ["src/mac.c:dev_status", "src/stack.c:get_snr"]}
{"id": "C23", "title": "LinkCheckAns and DeviceTimeAns are reported faithfully", "statement": "LinkCheckAns reports margin and gateway count verbatim; DeviceTimeAns reports the local time sampled at the end of the uplink that carried the DeviceTimeReq and the network time converted from GPS to Unix time.", "quantifier": "all payloads and all interleavings of requests and uplinks", "why_tests_cant": "the sampled time depends on the interleaving", "anchors": ["src/mac.c:link_check", "src/mac.c:device_time", "src/mac.c:mac_on_tx_complete", "src/mac.c:uwan_mac_device_time_req"]}
{"id": "C24", "title": "Optional MAC handlers are really optional", "statement": "No sequence of API calls and events dereferences a missing handler: without uwan_mac_set_handlers every MAC request and command is still handled safely.", "quantifier": "all histories with any subset of handlers installed", "why_tests_cant": "requires considering every history and handler subset", "anchors": ["src/mac.c:mac_on_tx_complete", "src/mac.c:uwan_mac_set_handlers"]}
{"id": "C25", "title": "Join-request layout", "statement": "uwan_join transmits exactly MHDR 0x00 | AppEUI as given | DevEUI reversed | DevNonce (LE, below 65536) | first 4 bytes of CMAC(AppKey, preceding bytes).", "quantifier": "all EUIs, keys, nonces and states", "why_tests_cant": "all identities and random nonces", "anchors": ["src/stack.c:uwan_join"]}
{"id": "C26", "title": "Join-accept establishes the server's session", "statement": "A join-accept produced by a conforming server (with or without CFList) makes uwan_is_joined() true and installs exactly the server's DevAddr, the NwkSKey/AppSKey derived from AppKey, AppNonce, NetID and the DevNonce just sent, zero counters, RX1 offset, RX2 data rate, RX1 delay and CFList channels.", "quantifier": "all AppNonce/NetID/DevAddr/DLSettings/RxDelay/CFList values, all keys and AES functions with an inverse", "why_tests_cant": "end-to-end agreement over all field values", "anchors": ["src/stack.c:handle_join_msg", "src/stack.c:derive_session_key", "src/stack.c:uwan_set_session"]}
{"id": "C27", "title": "Invalid join-accept is inert", "statement": "A frame received while joining that has the wrong length, header or MIC changes no session data, key, counter, channel or window setting; the callback gets the error and uwan_is_joined() stays false.", "quantifier": "all received byte strings", "why_tests_cant": "every forged join-accept", "anchors": ["src/stack.c:handle_join_msg", "src/stack.c:handle_downlink"]}
{"id": "C28", "title": "uwan_is_joined reflects the activation history", "statement": "uwan_is_joined() is true iff since the last uwan_init / accepted uwan_join either uwan_set_session was called or a join-accept was accepted.", "quantifier": "all histories", "why_tests_cant": "a statement about every history", "anchors": ["src/stack.c:uwan_is_joined", "src/stack.c:uwan_join", "src/stack.c:uwan_set_session", "src/stack.c:uwan_init"]}
{"id": "C29", "title": "CFList handling", "statement": "A type-0 CFList sets the five channels after the region's default channels to 100 Hz x value, disables those given as 0, ignores out-of-range frequencies and touches no other channel; any other CFList type is ignored.", "quantifier": "all 16-byte CFLists and channel tables, both regions", "why_tests_cant": "2^128 CFLists", "anchors": ["src/region/common.c:region_86x_handle_cflist", "src/region/eu868.c", "src/region/ru864.c"]}
{"id": "C30", "title": "One transaction at a time, exactly one completion", "statement": "Since initialisation the number of transmissions minus the number of downlink callbacks is always 0 (idle) or 1 (busy): every accepted uplink or join leads to at most one callback, callbacks never occur without a transmission, and the radio is put to sleep before the callback.", "quantifier": "all interleavings of API calls, timer callbacks and radio events (including spurious ones)", "why_tests_cant": "all event interleavings", "anchors": ["src/stack.c:evt_handler", "src/stack.c:handle_downlink", "src/stack.c:uwan_timer_callback"]}
{"id": "C31", "title": "Receive windows: timers and radio settings", "statement": "On end of transmission RX1 and RX2 timers are started at d and d+1000 ms; RX1 listens on the uplink frequency and RX2 on the configured RX2 frequency and data rate, both with inverted IQ; the receiver is started only by the matching timer in the matching window; a reception in RX1 stops the RX2 timer.", "quantifier": "all configurations, all event orders", "why_tests_cant": "all configurations times event orders", "anchors": ["src/stack.c:evt_handler", "src/stack.c:uwan_timer_callback"]}
{"id": "C32", "title": "RX1 data rate", "statement": "RX1 uses the data rate of the uplink just sent lowered by the RX1 data-rate offset (not below DR0).", "quantifier": "all uplinks, offsets and ADR states", "why_tests_cant": "depends on ADR back-off state at the moment of transmission", "anchors": ["src/stack.c:evt_handler", "src/adr.c:adr_handle_uplink"]}
{"id": "C33", "title": "Every transaction completes", "statement": "If the radio finishes every transmission and reception it is asked for and every started timer fires, each accepted uplink is eventually followed by its downlink callback, whatever the order of events.", "quantifier": "all fair event orders", "why_tests_cant": "liveness over all schedules", "anchors": ["src/stack.c:evt_handler", "src/stack.c:uwan_timer_callback"]}
{"id": "C34", "title": "Configuration always stays in range", "statement": "After any history of calls with in-range enum arguments and any received frames: data rates are 0..5, RX1 offset 0..5, TX power index 0..7, NbTrans 1..15, RX1 delay 1..15 s, channel and RX2 frequencies 860..870 MHz, so every table lookup is in bounds.", "quantifier": "all histories", "why_tests_cant": "an invariant over every reachable state", "anchors": ["src/stack.c", "src/adr.c", "src/channels.c", "src/mac.c"]}
{"id": "C35", "title": "Setters validate their argument", "statement": "Each setter (data rate, NbTrans, TX power, RX1 offset, RX1 delay, RX2) applies a valid argument and reports success, or rejects an invalid one, reports it and changes nothing.", "quantifier": "all argument values including enum values outside the declared range", "why_tests_cant": "full argument range", "anchors": ["src/stack.c:uwan_set_dr", "src/stack.c:uwan_set_rx2", "src/stack.c:uwan_set_nb_trans", "src/stack.c:uwan_set_tx_power", "src/stack.c:uwan_set_rx1_dr_offset", "src/stack.c:uwan_set_rx1_delay"]}
{"id": "C36", "title": "No undefined behaviour", "statement": "No sequence of API calls (within the documented preconditions), timer callbacks, radio events and received frames makes the stack index an array out of bounds, dereference NULL or loop forever.", "quantifier": "all histories and received frames", "why_tests_cant": "memory safety over every history", "anchors": ["src/stack.c", "src/mac.c", "src/adr.c", "src/channels.c", "src/region/common.c"]}
{"id": "C37", "title": "ADR back-off", "statement": "With no downlink in between, n uplinks lower the session data rate by floor(n / (limit+delay+1)) steps (never below DR0); every delivered data downlink restarts the count.", "quantifier": "all n, limits, delays and starting data rates", "why_tests_cant": "unbounded number of uplinks", "anchors": ["src/adr.c:adr_handle_uplink", "src/adr.c:adr_handle_downlink"]}
{"id": "C38", "title": "ADRACKReq bit", "statement": "An uplink carries ADRACKReq iff ADR is enabled, the session data rate is above DR0 and at least `limit` uplinks were sent since the last delivered downlink, back-off step or ADR (re)enable; the ADR bit equals uwan_adr_is_enabled().", "quantifier": "all histories", "why_tests_cant": "depends on an unbounded count", "anchors": ["src/adr.c:adr_get_req_bit", "src/stack.c:uwan_send_frame"]}
{"id": "C39", "title": "Transmit power", "statement": "Every transmission is preceded by a power request of max EIRP minus 2 dB x power index.", "quantifier": "all int8 EIRP values and indices", "why_tests_cant": "int8 conversion at the extremes", "anchors": ["src/stack.c:apply_tx_power", "src/stack.c:uwan_set_max_eirp", "src/stack.c:uwan_set_tx_power"]}
{"id": "C40", "title": "Crypto contexts are balanced", "statement": "Every AES/CMAC context the stack creates is deleted before the call returns, used only between creation and deletion, and at most one of each kind is open at a time.", "quantifier": "all histories, all received frames (including every error path)", "why_tests_cant": "every error path of every frame", "anchors": ["src/stack.c:encrypt_payload", "src/stack.c:calc_mic", "src/stack.c:derive_session_key", "src/stack.c:handle_join_msg"]}
{"id": "C41", "title": "GPS/Unix conversion", "statement": "Conversion between Unix and GPS time is a bijection on 32-bit values, mutually inverse, and equals subtraction of 315964800 and addition of 18 leap seconds.", "quantifier": "all 2^32 timestamps", "why_tests_cant": "wrap-around values", "anchors": ["src/utils.c:utils_unix_to_gps", "src/utils.c:utils_gps_to_unix"]}
{"id": "C42", "title": "Clock sync: time request", "statement": "uwan_clock_sync_send_time_req sends on port 202 the pending answer (if any) followed by AppTimeReq with the current GPS time (LE) and the current 4-bit token and AnsRequired flag; it never overruns its 32-byte buffer.", "quantifier": "all pending answers, times, tokens", "why_tests_cant": "all buffer fill levels", "anchors": ["src/ext/clock_sync.c:uwan_clock_sync_send_time_req"]}
{"id": "C43", "title": "Clock sync: corrections applied once per token", "statement": "A clock correction is applied exactly when an AppTimeAns carries the current token; the value applied is the signed 32-bit little-endian field; the token then advances modulo 16, so a repeated answer is ignored.", "quantifier": "all answers and histories of answers", "why_tests_cant": "replay over histories", "anchors": ["src/ext/clock_sync.c:handle_answ"]}
{"id": "C44", "title": "Clock sync: answer buffer is bounded and well-formed", "statement": "For every received clock-sync message the prepared answer is the concatenation of the answers of the executed commands (each command at most once) and never exceeds 9 bytes.", "quantifier": "all received byte strings", "why_tests_cant": "every byte string", "anchors": ["src/ext/clock_sync.c:handle_answ"]}
{"id": "C45", "title": "Clock sync: malformed messages are safe", "statement": "No received clock-sync message makes the parser read beyond the message, shift by an out-of-range amount or overflow.", "quantifier": "all received byte strings", "why_tests_cant": "every byte string", "anchors": ["src/ext/clock_sync.c:handle_answ", "src/ext/clock_sync.c:periodicity_from_period_id"]}
{"id": "C46", "title": "Clock sync: periodicity", "statement": "DeviceAppTimePeriodicityReq with period id p (0..15) reports 128 * 2^p seconds to the application.", "quantifier": "all period ids", "why_tests_cant": "the tests only try p = 1", "anchors": ["src/ext/clock_sync.c:periodicity_from_period_id"]}
{"id": "C47", "title": "SPI framing", "statement": "Every driver operation of both radios talks SPI only inside chip-select windows that are opened and closed around each transaction, and leaves the chip deselected.", "quantifier": "all operations, arguments and device answers", "why_tests_cant": "all device behaviours", "anchors": ["src/device/sx126x.c", "src/device/sx127x.c"]}
{"id": "C48", "title": "SX126x wake-up discipline", "statement": "The SX126x driver never issues a command to a sleeping device without the wake-up sequence, waits for not-busy before every command, and sleep() leaves the device asleep.", "quantifier": "all sequences of driver operations", "why_tests_cant": "every operation order", "anchors": ["src/device/sx126x.c:check_device", "src/device/sx126x.c:sx126x_sleep"]}
{"id": "C49", "title": "Carrier frequency programming", "statement": "Both drivers program floor(f * 2^k / 32 MHz) (k = 25 for SX126x, 19 for SX127x) without truncation for every legal frequency, i.e. the carrier is at or below the request by less than one synthesiser step.", "quantifier": "all frequencies", "why_tests_cant": "10^7 legal frequencies and the 64-bit intermediate", "anchors": ["src/device/sx126x.c:sx126x_set_freq", "src/device/sx127x.c:sx127x_set_freq"]}
{"id": "C50", "title": "Output power programming", "statement": "Each driver accepts exactly its supported power range and programs the power-amplifier registers so that the data-sheet output power equals the request; out-of-range requests touch no register.", "quantifier": "all int8 powers and variants", "why_tests_cant": "full int8 range and both PA variants", "anchors": ["src/device/sx126x.c:sx126x_set_power", "src/device/sx127x.c:sx127x_set_power"]}
{"id": "C51", "title": "Modulation setup", "statement": "setup() (for the SX126x together with the tx() or rx() that follows) programs spreading factor, bandwidth, coding rate, header mode, CRC, IQ inversion and low-data-rate optimisation as requested, whatever the registers held; the SX127x driver puts the chip in standby first.", "quantifier": "all parameter combinations and all previous register contents", "why_tests_cant": "parameter space times chip states", "anchors": ["src/device/sx126x.c:sx126x_setup", "src/device/sx127x.c:sx127x_setup"]}
{"id": "C52", "title": "Transmit path", "statement": "After setup(), tx() puts exactly the given bytes on the air, once.", "quantifier": "all payloads and lengths", "why_tests_cant": "all payloads", "anchors": ["src/device/sx126x.c:sx126x_tx", "src/device/sx127x.c:sx127x_tx"]}
{"id": "C53", "title": "Receive path", "statement": "read_packet() never stores more bytes than the caller's buffer or the radio holds, returns the radio's bytes unmodified, and reports RSSI and SNR converted per data sheet.", "quantifier": "all device answers", "why_tests_cant": "all device behaviours", "anchors": ["src/device/sx126x.c:sx126x_read_packet", "src/device/sx127x.c:sx127x_read_packet"]}
{"id": "C54", "title": "Interrupt decoding", "statement": "irq_handler() returns exactly the TX-done / RX-done / timeout / CRC-error events set in the radio, clears every flag it reports, and calls the registered handler exactly once with that mask (not at all if none is registered).", "quantifier": "all flag register values", "why_tests_cant": "all flag combinations", "anchors": ["src/device/sx126x.c:sx126x_irq_handler", "src/device/sx127x.c:sx127x_irq_handler"]}
{"id": "C55", "title": "uwan_init starts afresh", "statement": "uwan_init() leaves the stack idle, not joined, with an empty MAC answer queue, the region's default channels only, and no join in progress: a later data uplink is answered by data downlinks, whatever was going on before.", "quantifier": "all states before, both regions", "why_tests_cant": "all previous histories", "anchors": ["src/stack.c:uwan_init", "src/mac.c:mac_init", "src/channels.c:channels_init"]}
{"id": "C56", "title": "MAC commands on port 0", "statement": "MAC commands received as FRMPayload on port 0 are decrypted with NwkSKey and executed and answered like those in FOpts.", "quantifier": "all payloads", "why_tests_cant": "all command sequences", "anchors": ["src/stack.c:handle_data_msg", "src/mac.c:mac_handle_commands"]}
{"id": "C57", "title": "Default second window", "statement": "After uwan_init() the second receive window uses the default frequency and data rate of the LoRaWAN regional parameters: 869.525 MHz DR0 for EU868, 869.1 MHz DR0 for RU864.", "quantifier": "all states before, both regions", "why_tests_cant": "all previous histories", "anchors": ["src/region/eu868.c:eu868_init", "src/region/ru864.c:ru864_init"]}
{"id": "C58", "title": "ADR off means no back-off", "statement": "Uplinks sent while ADR is disabled do not lower the data rate the device uses once ADR is enabled.", "quantifier": "all histories", "why_tests_cant": "needs limit+delay uplinks and any settings", "anchors": ["src/adr.c:adr_handle_uplink", "src/adr.c:uwan_adr_enable"]}
{"id": "C59", "title": "New session, new ADR count", "statement": "After uwan_set_session() or an accepted join no uplink carries ADRACKReq until `limit` uplinks were sent in the new session.", "quantifier": "all histories", "why_tests_cant": "depends on an unbounded count", "anchors": ["src/adr.c:adr_get_req_bit", "src/stack.c:uwan_set_session", "src/stack.c:handle_join_msg"]}
{"id": "C60", "title": "Clock sync: forced resynchronisation", "statement": "A ForceDeviceResyncReq with a non-zero transmission count asks the application to resynchronise exactly once per message, one with count zero does not, and nothing else does.", "quantifier": "all received byte strings, all histories", "why_tests_cant": "ranges over all messages and states of the extension", "anchors": ["src/ext/clock_sync.c:handle_answ"]}
{"id": "C61", "title": "Reset pulse", "statement": "init() of both radios resets the chip with the data-sheet pulse (line asserted at least 100 us, then released, then the prescribed settling time) before the first SPI transaction, and no other call touches the reset line.", "quantifier": "all sequences of driver operations", "why_tests_cant": "every operation order", "anchors": ["src/device/sx126x.c:sx126x_init", "src/device/sx127x.c:sx127x_init"]}
{"id": "C62", "title": "On-air settings", "statement": "After any sequence of driver calls, the packet tx() puts on the air uses LoRa modulation with the frequency, power, parameters, preamble length and sync word last requested, however the chip was used or slept in between; no other call transmits anything.", "quantifier": "all call sequences, payloads and initial register contents", "why_tests_cant": "every interleaving of set_freq, set_power, setup, sleep, rx, tx", "anchors": ["src/device/sx126x.c", "src/device/sx127x.c"]}
{"id": "C63", "title": "Receive settings", "statement": "rx() starts reception with the settings last requested, the given symbol timeout, maximal length and time limit (0: until the symbol timeout, 0xffffff: continuously, otherwise milliseconds).", "quantifier": "all call sequences and arguments", "why_tests_cant": "argument space times call order", "anchors": ["src/device/sx126x.c:sx126x_rx", "src/device/sx127x.c:sx127x_rx"]}
{"id": "C64", "title": "Sync word", "statement": "set_public_network(true/false) selects the LoRaWAN sync word 0x34 for public and 0x12 for private networks on both radios.", "quantifier": "all states", "why_tests_cant": "every previous register content", "anchors": ["src/device/sx126x.c:sx126x_set_public_network", "src/device/sx127x.c:sx127x_set_public_network"]}
{"id": "C65", "title": "Driver memory safety", "statement": "init(), and every driver call made after it, returns without undefined behaviour, whatever the chip answers on the bus.", "quantifier": "all call sequences and chip answers", "why_tests_cant": "all device behaviours", "anchors": ["src/device/sx126x.c", "src/device/sx127x.c"]}
{"id": "C66", "title": "Board hooks", "statement": "The drivers drive the board through its HAL hooks only as asked: the reset line is pulsed by init and by nothing else, io_init is called by setup only and io_deinit by sleep only, optional hooks are called only when the board provides them, and the antenna switch is in its transmit position before a transmission starts and in its receive position before a reception starts.", "quantifier": "all call sequences, chip answers and sets of provided hooks", "why_tests_cant": "ordering of hook calls against bus traffic over all call histories", "anchors": ["src/device/sx126x.c:sx126x_init", "src/device/sx126x.c:sx126x_tx", "src/device/sx127x.c:sx127x_init", "src/device/sx127x.c:sx127x_tx"]}
{"id": "C67", "title": "Stack, driver and chip together put the right things on the air", "statement": "When the application uses the stack through its API and the stack works an SX127x or SX126x driver (initialised once, interrupts handled at any moments), the chip performs exactly the transmissions and receptions that the calls and radio events call for, in that order and no others. Each accepted uplink or join is one transmission, byte for byte the stack's frame, on the channel chosen (860-870 MHz, to the synthesiser's step), with the LoRaWAN modulation of the uplink data rate (SF, 125 kHz, CR 4/5, explicit header, preamble 8, sync word 0x34, normal IQ, low-data-rate optimisation at SF11/SF12) and at max EIRP minus 2 dB per power step. Each window timer of the matching window starts one single reception of 8 symbols with inverted IQ: RX1 on the uplink's frequency and the RX1 data rate, RX2 on the configured frequency and data rate. uwan_init listens to noise once.", "quantifier": "all API call sequences, environments, chip answers, boards and interrupt times", "why_tests_cant": "the unit tests mock the radio; the claim is about the composition of stack, driver and chip over unbounded histories, with settings that survive sleep, reset and random number generation", "anchors": ["src/stack.c:uwan_send_frame", "src/stack.c:uwan_join", "src/stack.c:evt_handler", "src/device/sx127x.c:sx127x_tx", "src/device/sx127x.c:sx127x_rx", "src/device/sx126x.c:sx126x_tx", "src/device/sx126x.c:sx126x_rx"]}
{"id": "C68", "title": "Application settings belong to the application", "statement": "Each application-owned setting (region, MAC and clock-sync handlers, ADR enable flag and ADR acknowledgement limit/delay, default data rate, number of transmissions, power index, maximum EIRP, device EUI, application EUI and application key) is at any moment exactly what the last call that sets it gave it, or its power-on value; no network command, reception, timer or other call changes it, and a rejected value leaves it alone.", "quantifier": "all reachable states, calls and histories", "why_tests_cant": "a frame condition over every call and every downlink", "anchors": ["src/stack.c:uwan_init", "src/stack.c:uwan_set_dr", "src/stack.c:uwan_set_nb_trans", "src/stack.c:uwan_set_tx_power", "src/stack.c:uwan_set_otaa_keys", "src/adr.c"]}
{"id": "C69", "title": "Calls change only what they say", "statement": "A call during which no packet is read changes the channel table, the MAC settings and the session only as that call documents; getters and timer events change nothing; a data downlink never changes the session keys, and a failed join leaves session, settings and channel table as they were.", "quantifier": "all reachable states and calls", "why_tests_cant": "a frame condition over every call in every state", "anchors": ["src/stack.c", "src/channels.c", "src/mac.c"]}
{"id": "C70", "title": "Random numbers are seeded by the radio", "statement": "uwan_init installs the radio interrupt handler, asks the radio for a random number and seeds the C generator with exactly that number; nothing else seeds it, and every number drawn (channel choice, DevNonce) is drawn after such a seeding with no later re-seeding by anything but uwan_init.", "quantifier": "all executions from power-on", "why_tests_cant": "ordering over all call histories", "anchors": ["src/stack.c:uwan_init", "src/utils.c:utils_random_init", "src/utils.c:utils_get_random"]}
{"id": "C71", "title": "The interrupt pins signal what the caller waits for", "statement": "SX127x: from a tx() on, TxDone and only TxDone is unmasked and mapped to its pin, from an rx() on RxDone, RxTimeout and the CRC error, from a rand() on nothing; the setting is made before the chip starts and holds until the next of these calls or init. SX126x: after a successful init TxDone, RxDone, CRC error and timeout (and no other event) are enabled and routed to DIO1, and stay so through sleep and every other call.", "quantifier": "all call sequences, all chip answers", "why_tests_cant": "an invariant over all call histories of a chip's registers", "anchors": ["src/device/sx127x.c:sx127x_tx", "src/device/sx127x.c:sx127x_rx", "src/device/sx127x.c:sx127x_rand", "src/device/sx126x.c:sx126x_init"]}
{"id": "C72", "title": "Radio start-up", "statement": "init succeeds exactly if the chip is the right one and its calibration ends without error: SX127x version 0x12 and image calibration, started once at 868.8 MHz in FSK standby, over within 254 polls; SX126x both device error bytes zero after the calibration of all blocks, with oscillator (voltage, start-up time) set up before it as the board options say and the regulator as they say. It always returns, puts nothing on the air, and on success leaves the chip in LoRa mode with the public sync word.", "quantifier": "all states (first call or later), board options, chip answers", "why_tests_cant": "depends on every possible answer of the chip, including a calibration that never ends", "anchors": ["src/device/sx127x.c:sx127x_init", "src/device/sx127x.c:rx_calibartion", "src/device/sx126x.c:sx126x_init", "src/device/sx126x.c:setup_tcxo"]}
{"id": "C73", "title": "Radio sleep and random numbers", "statement": "sleep() leaves the chip asleep and its settings as they were. rand() returns exactly the noise the chip supplied while receiving (SX127x: the low bits of 32 wide-band RSSI readings; SX126x: the four bytes of the random number register), starts one reception, and leaves the chip asleep.", "quantifier": "all call sequences, all chip answers", "why_tests_cant": "the result is a function of unbounded hardware answers and earlier calls", "anchors": ["src/device/sx127x.c:sx127x_rand", "src/device/sx127x.c:sx127x_sleep", "src/device/sx126x.c:sx126x_rand", "src/device/sx126x.c:sx126x_sleep"]}
{"id": "C74", "title": "Analog settings of the radios follow the data sheets", "statement": "Whenever the radio is used after setup(), set_power() and set_frequency(): SX127x - automatic gain control is on, the sensitivity registers are set as the errata note prescribes for the bandwidth and carrier in use, and the noise readings of rand() are a millisecond apart; SX126x - the image calibration covers the carrier, the over-current limit is that of the amplifier in use, the ramp time is 40 us, and the crystal trim is 0 on boards with a TCXO.", "quantifier": "all call sequences, frequencies, powers and parameters, all chip answers", "why_tests_cant": "the effect depends on the order of all earlier calls, sleeps and resets and on the analog chip, which a unit test replaces by a stub", "anchors": ["src/device/sx127x.c:sx127x_setup", "src/device/sx127x.c:sx127x_rx", "src/device/sx127x.c:sx127x_rand", "src/device/sx126x.c:sx126x_set_freq", "src/device/sx126x.c:sx126x_set_power", "src/device/sx126x.c:setup_tcxo"]}
{"id": "C75", "title": "Received frames travel unchanged from the radio chip to the application", "statement": "In a program where the stack calls a driver and the driver's interrupt handler calls the stack: every radio event the stack handles was read from the chip's flags, which are then cleared; the packet the stack reads is the one in the chip (start, length, bytes, signal strength), read once; the application is told of an accepted frame only for such a packet, reported as received without error, that is an authentic downlink of the session or a valid join-accept; and a genuine downlink found in the chip is handed to the application with its data, port and signal strength.", "quantifier": "all interleavings of application calls, timers and interrupts, all chip answers, both drivers", "why_tests_cant": "it composes two stateful modules and a chip over unbounded histories; unit tests replace at least one of them by a stub", "anchors": ["src/stack.c:evt_handler", "src/stack.c:handle_downlink", "src/stack.c:uwan_init", "src/device/sx126x.c:sx126x_irq_handler", "src/device/sx126x.c:sx126x_read_packet", "src/device/sx127x.c:sx127x_irq_handler", "src/device/sx127x.c:sx127x_read_packet"]}
{"id": "C76", "title": "Calls to the crypto functions", "statement": "The AES and CMAC functions supplied by the application are asked for exactly what LoRaWAN prescribes: per uplink the blocks A_1..A_k of its counter with the AppSKey and one CMAC of B0|frame with the NwkSKey; per join-request one CMAC with the AppKey; per received data frame for the session one CMAC, and blocks with the key of its port only if the frame is authentic; per join-accept its ciphertext blocks, one CMAC and, if valid, the two key blocks; otherwise nothing. What a call does depends on these functions only through their answers to these calls, and no keystream block of an uplink is used twice in a session.", "quantifier": "all states, frames, payload lengths, crypto functions and runs of any length", "why_tests_cant": "a test sees the output for one key and one crypto library, not that nothing else was asked or that no other answer could change the outcome", "anchors": ["src/stack.c:encrypt_payload", "src/stack.c:calc_mic", "src/stack.c:derive_session_key", "src/stack.c:handle_join_msg", "src/stack.c:handle_data_msg"]}
{"id": "C77", "title": "Repeated transmission", "statement": "An unconfirmed uplink that is not answered is transmitted as many times as set with uwan_set_nb_trans() or by LinkADRReq; a confirmed uplink or join-request is transmitted once per call; nothing else is ever transmitted.", "quantifier": "all runs", "why_tests_cant": "it counts transmissions over all interleavings of calls, radio events and timers", "anchors": ["include/uwan/stack.h:uwan_set_nb_trans", "src/stack.c:uwan_send_frame", "src/stack.c:set_nb_trans", "src/adr.c:adr_handle_link_req"]}
{"id": "C78", "title": "Uplinks on port 0", "statement": "The payload of an accepted uplink is encrypted with the key of its port (NwkSKey for port 0, AppSKey for 1 to 255), and port 0 is not combined with MAC answers in FOpts, so that a server following LoRaWAN 4.3.3 reads every accepted uplink.", "quantifier": "all ports, payloads, states, keys", "why_tests_cant": "one port and one key pair per test, and the queue content depends on the history", "anchors": ["src/stack.c:uwan_send_frame", "src/stack.c:encrypt_payload"]}
{"id": "C79", "title": "Uplinks over a network that loses, repeats and reorders frames", "statement": "A network server that follows the counter rule of LoRaWAN 4.3.1.5 (next counter ending in the 16 bits on air, not more than 16384 ahead) takes from the device's data frames exactly those that arrive later in sending order than everything before, with the right 32-bit counter, and hands on what the application said in the corresponding call: confirmed or not, port, payload; if nothing is lost, everything the application said arrives once and in order. Uplinks with a payload on port 0 are excluded (C78).", "quantifier": "all sessions, all sequences of calls and interrupts, all patterns of loss, repetition and delay with at most 16383 frames lost in a row, all keys", "why_tests_cant": "quantifies over all executions together with all behaviours of the network; counters cross 65536 only after that many frames", "anchors": ["src/stack.c:uwan_send_frame", "src/stack.c:encrypt_payload", "src/stack.c:calc_mic", "src/ext/clock_sync.c"]}
{"id": "C80", "title": "Downlinks over a network that loses, repeats and reorders frames", "statement": "When the frames a device receives are frames of its network server in the session, some of them missing (at most 16383 in a row), repeated or late, then the application is handed every message that is newer than all before exactly once, in order, with its port and payload, and nothing else.", "quantifier": "all sessions, messages, sequences of calls and interrupts, all patterns of loss, repetition and delay", "why_tests_cant": "quantifies over all executions together with all behaviours of the network", "anchors": ["src/stack.c:handle_downlink", "src/stack.c:handle_data_msg"]}
{"id": "C81", "title": "Answers about the receive windows are repeated", "statement": "After an accepted RXParamSetupReq or RXTimingSetupReq every uplink carries its answer until a downlink is received (LoRaWAN 1.0.2, 5.4 and 5.7).", "quantifier": "all requests, states and sequences of calls and events after the request", "why_tests_cant": "needs all continuations after a command, with other answers and requests queued before and after", "anchors": ["src/mac.c:rx_param_setup", "src/mac.c:rx_timing_setup"]}
{"id": "C82", "title": "The answers tell the server what is in force", "statement": "Every command in the FOpts of an accepted downlink is answered, in order, and the configuration of the device after the downlink is the one a server concludes from its commands and the answers: a request is in force if and only if its answer acknowledges all its parts.", "quantifier": "all FOpts, all combinations of commands, all device states", "why_tests_cant": "all byte strings as FOpts, all fill levels of the answer queue", "anchors": ["src/mac.c:mac_handle_commands", "src/mac.c:mac_enqueue"]}
{"id": "C83", "title": "Blocks of LinkADRReq", "statement": "Two adjacent LinkADRReq commands are taken as one (LoRaWAN 1.0.2, 5.2): the answers agree about the channel mask, nothing changes when the block is refused, and data rate, power and NbTrans are those of the last.", "quantifier": "all pairs of requests, all states", "why_tests_cant": "all pairs of 4-byte commands in all channel configurations", "anchors": ["src/adr.c:adr_handle_link_req", "src/mac.c:mac_handle_commands"]}
{"id": "C84", "title": "DlChannelReq", "statement": "A DlChannelReq for a defined channel and a usable frequency is acknowledged (LoRaWAN 1.0.2, 5.8).", "quantifier": "all channels, frequencies, states", "why_tests_cant": "all states and frequencies", "anchors": ["src/mac.c:di_channel"]}
{"id": "C85", "title": "NewChannelReq: default channels, removal, data-rate ranges", "statement": "NewChannelReq leaves the default channels of the region alone, removes a channel when the frequency is 0, and accepts every range of data rates of the region (LoRaWAN 1.0.2, 5.6).", "quantifier": "all channels, frequencies, ranges, states", "why_tests_cant": "all states, indices and frequencies", "anchors": ["src/mac.c:new_channel", "src/channels.c:uwan_set_channel"]}
{"id": "C86", "title": "Acknowledgement of confirmed uplinks", "statement": "The application can tell from what the library gives it whether a downlink acknowledges its confirmed uplink.", "quantifier": "all downlinks, all states, all functions of what the application sees", "why_tests_cant": "about all ways to use what the callback gets", "anchors": ["src/stack.c:handle_data_msg", "src/stack.c:handle_downlink"]}
{"id": "C87", "title": "DutyCycleReq limits the time spent sending", "statement": "After an accepted DutyCycleReq with MaxDutyCycle n, a frame sent from time a to b is followed by no other frame before time c with (b - a)(2^n - 1) <= c - b (LoRaWAN 1.0.2, 5.3).", "quantifier": "all n, all timed executions", "why_tests_cant": "about real time over whole executions", "anchors": ["src/mac.c:duty_cycle"]}
{"id": "C88", "title": "Activation agrees with the join server", "statement": "A join server that knows the device reads the DevNonce from every join-request. When the device reports a join, it and the server that granted it hold the same address and session keys with counters at zero, so that afterwards, over an unreliable network, each side hands over exactly what the other sent.", "quantifier": "all identities, grants (with and without CFList), ciphers, executions before and after, loss and duplication patterns", "why_tests_cant": "about all executions of device, network and server together, for every cipher; the failing case needs a delayed answer", "anchors": ["src/stack.c:uwan_join", "src/stack.c:handle_join_msg", "src/stack.c:derive_session_key"]}
{"id": "C89", "title": "Fresh DevNonces", "statement": "No two join-requests of a device carry the same DevNonce as long as the random number generator does not repeat itself (LoRaWAN 1.0.x, 6.2.4: the server drops a repeated one).", "quantifier": "all executions, all random numbers", "why_tests_cant": "about all pairs of requests in executions of any length", "anchors": ["src/stack.c:uwan_join", "src/utils.c:utils_get_random"]}
{"id": "C90", "title": "Calling the API from handlers", "statement": "The application may call the API from inside its callbacks. Calls made in downlink_callback behave as if made right after the interrupt returned. Calls made in the MAC handlers (link_check_result, get_battery_level, get_device_time, device_time_result) do not disturb the downlink being processed: it is reported as it would have been, and what the calls start goes on afterwards.", "quantifier": "all reachable states, interrupts, frames, and all calling behaviours of the application (any calls, depending on the whole history)", "why_tests_cant": "the behaviour of the application is arbitrary; the failing cases need a particular command in a particular downlink and a handler that transmits", "anchors": ["src/stack.c:handle_downlink", "src/stack.c:evt_handler", "src/mac.c:mac_handle_commands", "src/mac.c:link_check", "src/mac.c:dev_status", "src/mac.c:device_time", "src/mac.c:mac_on_tx_complete"]}
{"id": "C91", "title": "A driver call changes only its own settings", "statement": "A call of a radio driver changes the registers and settings of the chip it is about and no others: a frequency, power, network or modulation set before stays as it is until it is set again or init is called, and in registers shared by several settings the other bits keep their values. init leaves everything it does not set at its reset value.", "quantifier": "all call sequences of both drivers, all arguments, all answers of the chip (those to a read before a write correct)", "why_tests_cant": "about every register and bit after call sequences of any length; a clobbered reserved bit has no effect on a simulated bus", "anchors": ["src/device/sx127x.c", "src/device/sx126x.c"]}
{"id": "C92", "title": "Data frames belong to an activated session", "statement": "The address and keys in use are those of the last activation: the arguments of the last uwan_set_session, or what the last accepted join-accept gives together with the AppKey and the last join request; uwan_init forgets them. Every data uplink carries that address and is encrypted and authenticated with those keys, and every data downlink handed to the application is genuine for them. A device that is not activated (uwan_is_joined() is false) neither sends data frames nor accepts any.", "quantifier": "all call histories, all received frames, all crypto functions", "why_tests_cant": "about the identity in force after any order of init, personalisation, join attempts with and without answer, and lost or forged frames; tests set up one session and use it", "anchors": ["src/stack.c:uwan_init", "src/stack.c:uwan_set_session", "src/stack.c:uwan_send_frame", "src/stack.c:handle_data_msg", "src/stack.c:handle_join_msg"]}
{"id": "C93", "title": "Interrupts during a call", "statement": "It makes no difference whether a radio interrupt or timer that arrives while uwan_send_frame, uwan_join or uwan_mac_link_check_req is executing is served in the middle of the call or right after (for requests: right before) it: return value, external calls, their order, and all later behaviour are the same, and nothing is written out of bounds.", "quantifier": "all reachable states, all arguments, any interrupts and timers at any boundary between the functions' statements", "why_tests_cant": "about every placement of interrupts inside a call; tests call the handlers one after the other, and on hardware the window between two statements is hit once in many thousand runs", "anchors": ["src/stack.c:uwan_send_frame", "src/stack.c:uwan_join", "src/mac.c:mac_enqueue", "src/stack.c:evt_handler"]}
{"id": "C94", "title": "From the application to the server and back", "statement": "With stack, driver and chip put together: every message the application sends in a session is aired by the chip as one frame that a gateway can hear (LoRaWAN settings, a frequency of the band), and whichever of these frames reach a network server, in any passable order, lost, late or repeated, the server hands on exactly the messages of the fresh ones, with consecutive counters. In the other direction, if the packets the driver fetches from the chip over the bus are frames of that server, the application is handed each message once, in order, and nothing else.", "quantifier": "all programs that initialise the driver and use the stack, both chips, all answers of the chip, all sessions without a re-join, all loss and repetition patterns of the network", "why_tests_cant": "composes the whole path over unbounded traces and every loss pattern; tests mock the radio on one side and the stack on the other", "anchors": ["src/stack.c:uwan_send_frame", "src/stack.c:handle_downlink", "src/device/sx126x.c:sx126x_tx", "src/device/sx127x.c:sx127x_tx", "src/device/sx126x.c:sx126x_read_packet", "src/device/sx127x.c:sx127x_read_packet"]}
{"id": "C95", "title": "The second receive window", "statement": "When the first receive window ends without a packet, the second one is opened by the RX2 timer; when the first window catches a packet, the RX2 timer is stopped and no window opens until the next uplink; any other interrupt leaves things as they are. Only a downlink meant for the device costs it the second window.", "quantifier": "all reachable states in the first window, all interrupt flags, all packets, all later calls", "why_tests_cant": "about every packet that can be on the air in the first window and every later sequence of calls; tests use a well-formed downlink for the device under test", "anchors": ["src/stack.c:evt_handler", "src/stack.c:uwan_timer_callback"]}
{"id": "C96", "title": "A new session starts afresh", "statement": "A successful activation (uwan_set_session, or a join-accept) starts the session with the device's own settings: counters 0 or as given, no pending acknowledgement, default data rate, default power, number of transmissions, RX2 frequency and channels, no queued MAC answers from an earlier session.", "quantifier": "all reachable states before the activation, both ways of activation", "why_tests_cant": "about everything an earlier session may have left behind; tests activate a fresh stack", "anchors": ["src/stack.c:uwan_set_session", "src/stack.c:handle_join_accept", "src/mac.c:mac_init", "src/channels.c:channels_init"]}
{"id": "C97", "title": "Join requests on the default channels", "statement": "Every join request goes out on one of the region's default channels.", "quantifier": "all programs, both regions, all random numbers", "why_tests_cant": "about every channel table a network or application can bring about before a join", "anchors": ["src/stack.c:uwan_join", "src/channels.c:channels_get_next"]}
{"id": "C98", "title": "An idle device sleeps", "statement": "Whenever the stack is idle (after uwan_init, between the end of one uplink's windows and the next uplink), the radio chip is in sleep mode.", "quantifier": "all programs that initialise the driver and use the stack, both chips, all answers of the chip, any interrupts and sync-word settings in between", "why_tests_cant": "about the chip's power state at the end of every interleaving of stack, driver and interrupts; a current that is too high shows only as a flat battery weeks later", "anchors": ["src/stack.c:evt_handler", "src/device/sx126x.c:sx126x_sleep", "src/device/sx126x.c:sx126x_irq_handler", "src/device/sx127x.c:sx127x_sleep"]}
{"id": "C99", "title": "Interrupts during settings", "statement": "A radio interrupt or timer that strikes in the middle of uwan_init, uwan_set_otaa_keys, uwan_set_session, uwan_set_rx2, uwan_enable_channel, uwan_set_channel, uwan_set_nb_trans, uwan_set_tx_power or uwan_adr_setup_ack has the effect it has when it is served just before or just after the call.", "quantifier": "all states, arguments, environments and sequences of interrupts and timers at each point between two statements of the call", "why_tests_cant": "about what happens between two assignments; a test would have to hit a window of a few instructions with the right interrupt", "anchors": ["src/stack.c:uwan_init", "src/stack.c:uwan_set_otaa_keys", "src/stack.c:uwan_set_session", "src/stack.c:uwan_set_rx2", "src/channels.c:uwan_enable_channel", "src/channels.c:uwan_set_channel", "src/stack.c:uwan_set_nb_trans", "src/stack.c:uwan_set_tx_power", "src/adr.c:uwan_adr_setup_ack"]}
{"id": "C100", "title": "The radio does not interrupt those who talk to it", "statement": "While the stack or the driver talks to the radio chip, the chip is not sending or receiving with its interrupt lines armed, so its interrupt, whose handler talks to the chip as well, does not cut into a transfer: the stack calls the radio only when nothing is on the air, tx() or rx() is the last radio call of a call or event, and the driver starts the chip with the last transfer of a call.", "quantifier": "all programs, all interleavings of calls, interrupts and timers where timers fire only while they run, both chips, all answers of the chip", "why_tests_cant": "about the absence of an overlap between two activities at every point of every run; a test sees it only if a packet arrives within the microseconds of one SPI transfer", "anchors": ["src/stack.c:uwan_init", "src/stack.c:evt_handler", "src/device/sx126x.c:sx126x_rand", "src/device/sx127x.c:sx127x_rand", "src/device/sx126x.c:sx126x_tx", "src/device/sx126x.c:sx126x_rx"]}
{"id": "C101", "title": "The drivers speak the chips' language", "statement": "Every SPI transfer of a driver is a command (SX1261/2) or register access (SX1276) that the data sheet describes, with the number and range of parameters it allows: no reserved opcodes, registers or bits, no powers, spreading factors or preamble lengths the chip does not have, nothing written past the end of the buffer.", "quantifier": "all driver calls with in-range arguments, all states, all answers of the chip", "why_tests_cant": "a chip ignores or misunderstands a malformed command without saying so; whether one can be sent depends on all arguments and on what the chip answers to the reads before", "anchors": ["src/device/sx126x.c:write_command", "src/device/sx126x.c:sx126x_set_power", "src/device/sx126x.c:set_packet_params", "src/device/sx126x.c:sx126x_rand", "src/device/sx127x.c:write_regs", "src/device/sx127x.c:sx127x_setup"]}
{"id": "C102", "title": "Keys matter only through the crypto functions", "statement": "Two executions that differ only in the AppKeys and session keys the application hands over, with crypto functions that treat the different keys alike, look the same: same results, same frames, frequencies, timers, callbacks and other external calls in the same order, same remembered state besides the keys. So no key reaches a frame, a random number, a decision or a callback except as the answer of AES or CMAC.", "quantifier": "all call sequences, all keys, all environments that do not look at the keys, all crypto functions", "why_tests_cant": "a leak of key bytes into a nonce, a seed, padding or a branch shows only when runs with different keys are compared, for every pair of keys and every history", "anchors": ["src/stack.c:encrypt_payload", "src/stack.c:calc_mic", "src/stack.c:uwan_join", "src/stack.c:handle_join_msg", "src/stack.c:uwan_send_frame", "src/stack.c:uwan_set_session", "src/stack.c:uwan_set_otaa_keys"]}
{"id": "C103", "title": "Nothing left in the frame buffer gets out", "statement": "The bytes that earlier frames left in the frame buffer (own uplinks, decrypted downlinks, frames for others) influence nothing: whatever they are, the device returns the same results, sends the same frames, asks the crypto functions the same, hands the same data to the application's handlers and ends in the same state besides the buffer.", "quantifier": "all reachable states, all contents of the 255 bytes, all call sequences from there", "why_tests_cant": "a byte read beyond what was received or written shows only for particular old contents; tests start from a zeroed buffer", "anchors": ["src/stack.c:handle_downlink", "src/stack.c:handle_data_msg", "src/stack.c:handle_join_msg", "src/stack.c:uwan_send_frame", "src/stack.c:uwan_join", "src/stack.c:encrypt_payload", "src/stack.c:calc_mic"]}
