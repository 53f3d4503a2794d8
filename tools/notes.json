{
 "C39": "Refuted as stated: an EIRP near the int8_t minimum makes the subtraction wrap. The partial theorem covers every EIRP for which max_eirp - 2*index fits int8_t.",
 "C12": "Refuted: handle_data_msg stores the counter, the pending ACK and the effects of FOpts commands before the MIC check (C12_refuted, C12_desync_refuted: a forged frame makes the next genuine one be lost). C12_rejected_partial states exactly what a rejected frame can and cannot change.",
 "C13": "Refuted: a held counter of 0 means 'nothing received', so a counter-0 frame is delivered repeatedly, and the counter wraps at 2^32. Partial: strict increase for a non-zero counter away from the wrap; a second delivery of the same bytes requires a MIC collision between two counters.",
 "C14": "Reconstruction within 1..16384 holds exactly, and the counter after every frame for this device is stated for all pairs (C14_exact_partial). Refuted: a gap above 16384 is accepted when the 16-bit field rolled over. Partial: 131072 or more ahead is rejected unless the MIC collides.",
 "C15": "Refuted: a confirmed-downlink header for another address (or with a bad MIC) also sets ACK. Partial: ACK is set exactly when a frame with a confirmed-downlink header was received since the previous uplink.",
 "C18": "Refuted: ChMaskCntl 6 (enable all defined channels) is refused, a reserved value 1-3 is treated like 0, and a mask selecting no channel is accepted. Partial: the claim for ChMaskCntl 0 with a non-zero mask and for 4, 5 and 7.",
 "C23": "LinkCheckAns is reported verbatim; a DeviceTimeAns reports the converted network time and the last local time sampled. Refuted: a request made during a transmission, or before a join-request, is sampled at the end of the wrong uplink, and a refused request cancels an accepted one. Partial: exactly one sample at the end of the carrying uplink otherwise.",
 "C24": "Refuted: uwan_mac_device_time_req without uwan_mac_set_handlers dereferences NULL when the next transmission ends. Partial: that is exactly the only case.",
 "C36": "Refuted by the missing handler of C24 and by a truncated clock-sync message. Partial: these (and the strict reading of byte << 24) are the only ways any call can go wrong; all other calls return.",
 "C32": "Refuted: RX1 uses the data rate configured for the NEXT uplink when an offset is set, so an ADR back-off made by the uplink itself, uwan_set_dr while it is on air, or a join-request with ADR enabled all tune RX1 wrongly. Partial: exact when no offset is set or when the data rate did not change.",
 "C33": "Refuted: when the RX2 timer fires before the radio reports the end of the RX1 window it is ignored and the stack stays busy for ever. Partial: if RX2 timers fire after the RX1 window ended, something is always owed while busy, five events suffice, and in every endless fair run each transmission is followed by its callback.",
 "C35": "Proved for all uint8_t/uint32_t arguments and enum values below 256. Refuted for enum values 256 and above (the check truncates to uint8_t). uwan_set_dr is void and cannot report a rejection.",
 "C38": "ADR bit: full. ADRACKReq: exact for every history (C38_ack_req_exact): the count is kept modulo 2^32. So the statement holds for fewer than 2^32 uplinks since the last restart of the count (partial) and is refuted beyond, by a run of 2^32 unanswered uplinks at DR0 built by induction.",
 "C55": "Refuted: uwan_init does not clear uw_is_join_state, so the first downlink after a given-up join is parsed as a join-accept (C55_refuted); it clears the channel mask but not the frequencies, so a channel the region does not have can be enabled afterwards (C55_channels_refuted). Partial: everything else in the statement.",
 "C56": "Refuted: commands on port 0 are only handed to the application. Partial: they are decrypted with NwkSKey and delivered; C56_frmpayload_ignored shows that no payload is ever executed.",
 "C57": "Refuted for EU868: the default is 868.1 MHz (a join channel) instead of 869.525 MHz. Partial: RU864.",
 "C58": "Refuted: adr_handle_uplink lowers uw_session.dr also with ADR disabled. Partial: while ADR stays disabled the data rate in use is unaffected.",
 "C59": "Refuted: neither uwan_set_session nor an accepted join resets ack_cnt. Partial: after uwan_adr_enable() in the new session no uplink asks before `limit` uplinks were sent.",
 "C45": "Refuted three ways: command bytes >= 32 shift by an out-of-range amount, period ids >= 6 overflow int, a truncated ForceDeviceResyncReq is read past the message. Partial: the exact set of messages with undefined behaviour (C45_exact_partial), a simple sufficient condition for being safe (C45_partial), and harmlessness of everything that is not a clock-sync message (C45_others).",
 "C46": "Refuted: 2048 s instead of 1024 s for id 3; undefined for ids >= 6. Partial: ids 0..2 are right; the exact value reported for every message that is handled.",
 "C47": "Both drivers, the first init of a program and any sequence of calls after it. The chip-select convention of the HAL (select(true) starts a window) is part of the model.",
 "C48": "pw_run rejects any byte sent to a sleeping or possibly busy chip.",
 "C49": "Proved for frequencies below 1.024 GHz (SX127x, 24 bit register with a 61 Hz step) and 4.096 GHz (SX126x, 32 bit register), beyond any LoRaWAN band and the chips' own range.",
 "C50": "SX126x: full. SX127x: the range and the power are exact for 0 dBm and up (C50_sx127x); refuted below 0 dBm, where the data-sheet formula gives 0.2 dB less than requested (C50_sx127x_low_refuted, C50_sx127x_low_partial: the exact value).",
 "C51": "Everything except low-data-rate optimisation: full. Refuted for the latter: both drivers decide by spreading factor (>= 11) only, not by symbol time above 16 ms. Partial: right for 125 kHz, for 250 kHz except SF11, and for SF10 and below. Also refuted for SF6 on the SX127x: the driver never sets the detector registers, which keep the values for SF7 to SF12 (those are proved right).",
 "C52": "SX127x: after setup() with no sleep() in between (the FIFO cannot be written in sleep mode). SX126x: always.",
 "C53": "SX126x: full. SX127x refuted for RSSI: the offset (-164/-157) is taken from the requested power, not from the band, and there is no SNR correction. Partial: bytes, length and SNR exact, and the exact RSSI formula used.",
 "C54": "SX126x clears all flags read, SX127x writes back exactly the four it reports.",
 "C61": "Delay durations are the arguments given to the HAL.",
 "C62": "SX126x: full (low-data-rate optimisation is C51). SX127x refuted: preamble_len is never programmed (the chip's 8 symbols stay). Partial: all other settings, for frequencies below 1.024 GHz, and for a chip that answers register reads consistently. C62_*_silent: only tx() transmits.",
 "C63": "SX127x refuted: a finite time limit starts continuous reception. SX126x refuted: symbol timeouts are taken modulo 256. Partial: SX127x for 0 and 0xffffff; SX126x for limits below 2^18 ms and symbol timeouts below 256.",
 "C64": "SX126x: full. SX127x: private networks get 0x14 instead of 0x12 (refuted); public is right (partial).",
 "C65": "SX126x: full. SX127x: full under the permissive reading of byte << 24; under the strict C99 reading sx127x_rand shifts into the sign bit (refuted).",
 "C66": "Both drivers: the hook calls of every driver call are exactly those the specification lists (SpecBoard.hal_of), and the antenna switch position precedes the command that starts the transmission or reception.",
 "C68": "C68_app_settings: one call; C68_history: the settings are the fold of the documented effect over the whole call history.",
 "C69": "C69_settings/C69_session: exact post-state for calls that read no packet; C69_receive: receptions; C69_inert: getters and timers.",
 "C70": "C70_init, C70_only_init: the seeding call; C70_draws_seeded: trace level.",
 "C71": "Chip side written from the data sheets (SpecIrq.pins127, dio126). SX127x also: the pins are set before the chip starts (C71_sx127x_first).",
 "C72": "Covers the first init of a program and later ones. The SX127x theorem also gives every register after a successful init.",
 "C73": "Reads of RegOpMode are assumed to return the written upper bits (answers127) for the SX127x; no assumption on the SX126x. rand() on the SX127x shifts into the sign bit: under a strict reading of C99 this is undefined (C65), the theorem is about calls that return.",
 "C74": "SX126x: image calibration is always for 860-876 MHz, so it covers the carrier in that range only (refuted at 915 MHz). SX127x: rx() always writes the 500 kHz / 862-1020 MHz values of errata note 2.1, so the rule holds for 500 kHz in that band and is refuted for the usual 125 kHz channels. The rest is proved for every call sequence.",
 "C67": "Composition theorem for both drivers. SX127x: for a chip that answers register reads consistently (answers127), power exact for 0..17 dBm. SX126x: no assumption about the chip's answers, power for every value the amplifier can do. Refuted for powers outside the chip's range: the stack ignores the result of set_power(), so after lowering the maximum EIRP to -10 dBm the frame still goes out at the earlier, higher power.",
 "C75": "Composition theorem per driver (SpecLink.linked: which driver entries a stack call comes with). The packet's RSSI on the SX127x uses the offset of C53, which the driver chooses by the power set last and not by the frequency (C53_sx127x_rssi_refuted).",
 "C76": "Closed theorems for every call; C76_answers needs no assumption on the environment. The keystream part covers uplinks and holds for up to 2^32 of them in a session; refuted beyond, by a run of 2^32 + 1 uplinks built by induction. Downlink blocks repeat where the server repeats a counter (C13).",
 "C77": "Refuted: the number of transmissions is stored and never used. Proved: exactly one transmission per accepted call, none otherwise.",
 "C78": "Refuted for port 0: AppSKey is used and FOpts may be present. Proved for ports 1 to 255.",
 "C79": "Ports 1 to 255 and empty payloads; port 0 is C78.",
 "C80": "Proved for loss and repetition. Refuted for late frames: an old frame moves the counter ahead before its MIC is checked, and the next message is lost.",
 "C81": "The first uplink carries the answer (proved); the following ones do not (refuted), so one lost uplink leaves the server with the wrong windows.",
 "C82": "Proved when the answers fit into the 15 bytes of the queue. Refuted otherwise: the command is carried out and not answered.",
 "C83": "Refuted: each request is taken or refused by itself. Proved: two answers, and an accepted last request alone decides.",
 "C84": "Refuted: the command is skipped. Proved: nothing changes.",
 "C85": "Three parts refuted. Proved for new channels behind the default ones with the range DR0 to DR5.",
 "C86": "Refuted: the ACK bit reaches neither the callback nor the state.",
 "C87": "Refuted: the request is acknowledged and ignored. Proved: the acknowledgement, and that nothing else changes.",
 "C88": "Refuted in general: the device takes an answer to an earlier request with the keys of its last one. Proved: every request is read, the answer to the last request gives both sides the same session, and data then passes both ways as in C79 and C80.",
 "C89": "Refuted: two different draws can have the same 16 low bits and nothing remembers the DevNonces used. Proved: the DevNonces of a run are its draws modulo 65536.",
 "C90": "Refuted for the MAC handlers: an uplink or join request made there overwrites the frame being processed, and the join flag is cleared. Proved: calls in downlink_callback equal calls afterwards; calls that do not transmit or start a session leave the interrupt as it was.",
 "C91": "Full. For the SX127x what is said about bits of RegOpMode and RegModemConfig2, and for the SX126x everything, supposes that the chip answers the read before a write with what the register holds.",
 "C92": "Refuted where it says that a device that is not activated is silent: uwan_send_frame and the receive path do not look at is_joined. Proved: address and keys of all data frames are those of the last activation, or zeros if there was none since uwan_init (C92_uplink_partial, C92_downlink_partial), in which case everybody can read the payload (C92_open_partial).",
 "C93": "uwan_join: in full (C93_join). uwan_send_frame: if no packet arrives before it returns and RX1 offset is 0 or the data rate is not lowered by the call (C93_send_partial); otherwise refuted (C93_send_refuted, C93_send_packet_refuted). Requests: proved if there is room before and after the interrupts (C93_queue_partial) or none before (C93_queue_full); an interrupt that fills the queue between check and store makes the request overflow mac_buf (C93_queue_overflow, C93_queue_refuted). Strikes inside a statement or inside called functions are not modelled.",
 "C94": "Uplinks: in full for both chips, for a session of at most 2^32 frames without data on port 0 (C76, C78); the SX1276 answers reads of RegOpMode and RegModemConfig2 (answers127). Downlinks: if no frame arrives late (C80_late_refuted). The stack's calls are those of one session: no uwan_init, uwan_set_session or join in it.",
 "C95": "Proved: what each kind of interrupt in the first window does (C95_second_window_partial). Refuted: a packet for another device, with a CRC error, or that is no valid join-accept costs the second window as well.",
 "C96": "Proved: exactly what an activation sets and what it leaves (C96_activation_partial). Refuted: power, number of transmissions, RX2 frequency, channel mask and queued answers survive the activation.",
 "C97": "Proved for programs that receive nothing and touch no channel beyond the defaults after uwan_init (C97_join_channel_partial). Refuted: a channel the network or the application added is used for join requests (C97_join_channel_refuted).",
 "C98": "SX1276: in full (the chip answers reads of RegOpMode, answers127). SX1262: unless the driver's last call is irq_handler or set_public_network (C98_sx126x_partial); an interrupt in the idle phase leaves the chip awake (C98_sx126x_interrupt_refuted).",
 "C99": "uwan_init, uwan_set_otaa_keys, uwan_set_tx_power and uwan_adr_setup_ack: in full. uwan_set_session, uwan_enable_channel, uwan_set_channel, uwan_set_nb_trans: if no packet is reported in them (the session also needs RX1 offset 0); uwan_set_rx2: if no window ends either. Without these conditions each is refuted by a run whose outcome is that of neither order (C99_*_refuted). Strikes inside the functions they call and inside the loop of uwan_enable_channel are not modelled.",
 "C100": "Stack: every call and event except uwan_init (refuted by a second uwan_init during a transmission), for programs whose timers fire only while they run. SX127x: in full; rand() goes on reading after it has started the receiver, with no event on a pin. SX126x: every call except rand(), which reads from a receiving chip with all events on DIO1 each time it is called (C100_sx126x_refuted holds for every call).",
 "C101": "SX1276: partial. Registers, widths and, where SpecLang.v gives a range or reserved bits, values; all bytes are accepted for the others (among them RegOpMode and PaConfig). rx() writes back the spreading factor it read, so the claim needs either that the chip answered with one that exists, or (set_partial) a chip that answers truthfully and a setup() since init; C101_sx127x_echo_case shows it false otherwise. SX1261/2: if the oscillator voltage given to init exists and a setup() with a preamble of at least one symbol precedes tx(), rx() and rand(); rand() before the first setup() sends a preamble length of 0 (refuted). With the stack on top of the SX1261/2 driver every call but rand() is clean (system_partial), and every device whose first call is uwan_init sends that preamble length of 0 (system_refuted). The first init of a program has theorems of its own (init). Bytes sent while the chip answers are not looked at. The tables are from memory of the data sheets, not checked against a copy.",
 "C102": "Executions of complete calls (keys_hidden), and with interrupts inside the calls of Preempt.v and Preempt2.v and handlers that call back as in Reent.v (interrupted). Keys left on the C stack, and the time a call takes, are not modelled. The crypto functions are asked the same blocks and messages in the same order; C76 says which.",
 "C103": "Partial: if an empty packet is read, the first byte left in the buffer decides the message type reported with ERR_MSG_LEN (empty_packet_refuted); no other byte matters (first_byte), and without empty packets none does (leftovers). Complete calls only (no interrupt inside a call)."
}
