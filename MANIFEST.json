{
 "claims": [
  {
   "property": "C01",
   "status": "proved",
   "theorems": [
    "C01_uplink_layout",
    "C01_every_uplink"
   ],
   "note": ""
  },
  {
   "property": "C02",
   "status": "proved",
   "theorems": [
    "C02_server_decodes"
   ],
   "note": ""
  },
  {
   "property": "C03",
   "status": "proved",
   "theorems": [
    "C03_counter_step",
    "C03_trace_counters"
   ],
   "note": ""
  },
  {
   "property": "C04",
   "status": "proved",
   "theorems": [
    "C04_max_payload",
    "C04_result_code",
    "C04_frame_size"
   ],
   "note": ""
  },
  {
   "property": "C05",
   "status": "proved",
   "theorems": [
    "C05_refused_inert",
    "C05_busy"
   ],
   "note": ""
  },
  {
   "property": "C06",
   "status": "proved",
   "theorems": [
    "C06_frequency_assigned",
    "C06_history",
    "C06_enabled_legal_channel"
   ],
   "note": ""
  },
  {
   "property": "C07",
   "status": "proved",
   "theorems": [
    "C07_every_channel_selectable",
    "C07_selection_total"
   ],
   "note": ""
  },
  {
   "property": "C08",
   "status": "proved",
   "theorems": [
    "C08_set_channel",
    "C08_enable_channel",
    "C08_table_entries",
    "C08_init_table",
    "C08_other_calls"
   ],
   "note": ""
  },
  {
   "property": "C09",
   "status": "proved",
   "theorems": [
    "C09_requests",
    "C09_queue_step",
    "C09_fifo"
   ],
   "note": ""
  },
  {
   "property": "C10",
   "status": "proved",
   "theorems": [
    "C10_downlink_authentic",
    "C10_success_iff"
   ],
   "note": ""
  },
  {
   "property": "C11",
   "status": "proved",
   "theorems": [
    "C11_genuine_delivered"
   ],
   "note": ""
  },
  {
   "property": "C12",
   "status": "partial",
   "theorems": [
    "C12_refuted",
    "C12_desync_refuted",
    "C12_rejected_partial"
   ],
   "note": "Refuted: handle_data_msg stores the counter, the pending ACK and the effects of FOpts commands before the MIC check (C12_refuted, C12_desync_refuted: a forged frame makes the next genuine one be lost). C12_rejected_partial states exactly what a rejected frame can and cannot change."
  },
  {
   "property": "C13",
   "status": "partial",
   "theorems": [
    "C13_refuted",
    "C13_counters_increase_partial",
    "C13_step_partial"
   ],
   "note": "Refuted: a held counter of 0 means 'nothing received', so a counter-0 frame is delivered repeatedly, and the counter wraps at 2^32. Partial: strict increase for a non-zero counter away from the wrap; a second delivery of the same bytes requires a MIC collision between two counters."
  },
  {
   "property": "C14",
   "status": "partial",
   "theorems": [
    "C14_reconstruct_partial",
    "C14_exact_partial",
    "C14_refuted",
    "C14_far_rejected_partial"
   ],
   "note": "Reconstruction within 1..16384 holds exactly, and the counter after every frame for this device is stated for all pairs (C14_exact_partial). Refuted: a gap above 16384 is accepted when the 16-bit field rolled over. Partial: 131072 or more ahead is rejected unless the MIC collides."
  },
  {
   "property": "C15",
   "status": "partial",
   "theorems": [
    "C15_ack_bit_partial",
    "C15_refuted"
   ],
   "note": "Refuted: a confirmed-downlink header for another address (or with a bad MIC) also sets ACK. Partial: ACK is set exactly when a frame with a confirmed-downlink header was received since the previous uplink."
  },
  {
   "property": "C16",
   "status": "proved",
   "theorems": [
    "C16_parser",
    "C16_commands"
   ],
   "note": ""
  },
  {
   "property": "C17",
   "status": "proved",
   "theorems": [
    "C17_link_adr"
   ],
   "note": ""
  },
  {
   "property": "C18",
   "status": "partial",
   "theorems": [
    "C18_refuted",
    "C18_reserved_refuted",
    "C18_empty_refuted",
    "C18_mask_partial"
   ],
   "note": "Refuted: ChMaskCntl 6 (enable all defined channels) is refused, a reserved value 1-3 is treated like 0, and a mask selecting no channel is accepted. Partial: the claim for ChMaskCntl 0 with a non-zero mask and for 4, 5 and 7."
  },
  {
   "property": "C19",
   "status": "proved",
   "theorems": [
    "C19_rx_param"
   ],
   "note": ""
  },
  {
   "property": "C20",
   "status": "proved",
   "theorems": [
    "C20_new_channel"
   ],
   "note": ""
  },
  {
   "property": "C21",
   "status": "proved",
   "theorems": [
    "C21_set",
    "C21_honoured"
   ],
   "note": ""
  },
  {
   "property": "C22",
   "status": "proved",
   "theorems": [
    "C22_dev_status"
   ],
   "note": ""
  },
  {
   "property": "C23",
   "status": "partial",
   "theorems": [
    "C23_link_check",
    "C23_device_time_partial",
    "C23_sample_partial",
    "C23_refuted",
    "C23_join_refuted",
    "C23_stale_refuted"
   ],
   "note": "LinkCheckAns is reported verbatim; a DeviceTimeAns reports the converted network time and the last local time sampled. Refuted: a request made during a transmission, or before a join-request, is sampled at the end of the wrong uplink, and a refused request cancels an accepted one. Partial: exactly one sample at the end of the carrying uplink otherwise."
  },
  {
   "property": "C24",
   "status": "partial",
   "theorems": [
    "C24_refuted",
    "C24_null_partial",
    "C24_safe_partial"
   ],
   "note": "Refuted: uwan_mac_device_time_req without uwan_mac_set_handlers dereferences NULL when the next transmission ends. Partial: that is exactly the only case."
  },
  {
   "property": "C25",
   "status": "proved",
   "theorems": [
    "C25_join_request",
    "C25_otaa_keys"
   ],
   "note": ""
  },
  {
   "property": "C26",
   "status": "proved",
   "theorems": [
    "C26_join_accept",
    "C26_accepted_fields",
    "C26_nonce_sent"
   ],
   "note": ""
  },
  {
   "property": "C27",
   "status": "proved",
   "theorems": [
    "C27_invalid_inert",
    "C27_no_frame_inert"
   ],
   "note": ""
  },
  {
   "property": "C28",
   "status": "proved",
   "theorems": [
    "C28_is_joined"
   ],
   "note": ""
  },
  {
   "property": "C29",
   "status": "proved",
   "theorems": [
    "C29_cflist",
    "C29_no_cflist"
   ],
   "note": ""
  },
  {
   "property": "C30",
   "status": "proved",
   "theorems": [
    "C30_transactions",
    "C30_accepted",
    "C30_callback"
   ],
   "note": ""
  },
  {
   "property": "C31",
   "status": "proved",
   "theorems": [
    "C31_timers",
    "C31_receiver",
    "C31_rx2",
    "C31_rx1_done"
   ],
   "note": ""
  },
  {
   "property": "C32",
   "status": "partial",
   "theorems": [
    "C32_partial",
    "C32_refuted",
    "C32_set_dr_refuted",
    "C32_join_refuted"
   ],
   "note": "Refuted: RX1 uses the data rate configured for the NEXT uplink when an offset is set, so an ADR back-off made by the uplink itself, uwan_set_dr while it is on air, or a join-request with ADR enabled all tune RX1 wrongly. Partial: exact when no offset is set or when the data rate did not change."
  },
  {
   "property": "C33",
   "status": "partial",
   "theorems": [
    "C33_waiting_partial",
    "C33_five_partial",
    "C33_partial",
    "C33_refuted"
   ],
   "note": "Refuted: when the RX2 timer fires before the radio reports the end of the RX1 window it is ignored and the stack stays busy for ever. Partial: if RX2 timers fire after the RX1 window ended, something is always owed while busy, five events suffice, and in every endless fair run each transmission is followed by its callback."
  },
  {
   "property": "C34",
   "status": "proved",
   "theorems": [
    "C34_settings",
    "C34_requests"
   ],
   "note": ""
  },
  {
   "property": "C35",
   "status": "partial",
   "theorems": [
    "C35_setters_partial",
    "C35_refuted",
    "C35_rx2_refuted"
   ],
   "note": "Proved for all uint8_t/uint32_t arguments and enum values below 256. Refuted for enum values 256 and above (the check truncates to uint8_t). uwan_set_dr is void and cannot report a rejection."
  },
  {
   "property": "C36",
   "status": "partial",
   "theorems": [
    "C36_refuted",
    "C36_clock_refuted",
    "C36_partial",
    "C36_returns_partial"
   ],
   "note": "Refuted by the missing handler of C24 and by a truncated clock-sync message. Partial: these (and the strict reading of byte << 24) are the only ways any call can go wrong; all other calls return."
  },
  {
   "property": "C37",
   "status": "proved",
   "theorems": [
    "C37_backoff",
    "C37_counted",
    "C37_restart"
   ],
   "note": ""
  },
  {
   "property": "C38",
   "status": "partial",
   "theorems": [
    "C38_adr_bit",
    "C38_ack_req_exact",
    "C38_ack_req_partial",
    "C38_refuted"
   ],
   "note": "ADR bit: full. ADRACKReq: exact for every history (C38_ack_req_exact): the count is kept modulo 2^32. So the statement holds for fewer than 2^32 uplinks since the last restart of the count (partial) and is refuted beyond, by a run of 2^32 unanswered uplinks at DR0 built by induction."
  },
  {
   "property": "C39",
   "status": "partial",
   "theorems": [
    "C39_tx_power_partial",
    "C39_tx_power_refuted"
   ],
   "note": "Refuted as stated: an EIRP near the int8_t minimum makes the subtraction wrap. The partial theorem covers every EIRP for which max_eirp - 2*index fits int8_t."
  },
  {
   "property": "C40",
   "status": "proved",
   "theorems": [
    "C40_balanced"
   ],
   "note": ""
  },
  {
   "property": "C41",
   "status": "proved",
   "theorems": [
    "C41_conversion"
   ],
   "note": ""
  },
  {
   "property": "C42",
   "status": "proved",
   "theorems": [
    "C42_time_request"
   ],
   "note": ""
  },
  {
   "property": "C43",
   "status": "proved",
   "theorems": [
    "C43_correction",
    "C43_only",
    "C43_replay"
   ],
   "note": ""
  },
  {
   "property": "C44",
   "status": "proved",
   "theorems": [
    "C44_answer",
    "C44_pending",
    "C44_wellformed"
   ],
   "note": ""
  },
  {
   "property": "C45",
   "status": "partial",
   "theorems": [
    "C45_shift_refuted",
    "C45_overflow_refuted",
    "C45_oob_refuted",
    "C45_beyond_refuted",
    "C45_exact_partial",
    "C45_partial",
    "C45_others"
   ],
   "note": "Refuted three ways: command bytes >= 32 shift by an out-of-range amount, period ids >= 6 overflow int, a truncated ForceDeviceResyncReq is read past the message. Partial: the exact set of messages with undefined behaviour (C45_exact_partial), a simple sufficient condition for being safe (C45_partial), and harmlessness of everything that is not a clock-sync message (C45_others)."
  },
  {
   "property": "C46",
   "status": "partial",
   "theorems": [
    "C46_refuted",
    "C46_overflow_refuted",
    "C46_partial",
    "C46_reported_partial"
   ],
   "note": "Refuted: 2048 s instead of 1024 s for id 3; undefined for ids >= 6. Partial: ids 0..2 are right; the exact value reported for every message that is handled."
  },
  {
   "property": "C47",
   "status": "proved",
   "theorems": [
    "C47_sx126x",
    "C47_sx127x"
   ],
   "note": "Both drivers, the first init of a program and any sequence of calls after it. The chip-select convention of the HAL (select(true) starts a window) is part of the model."
  },
  {
   "property": "C48",
   "status": "proved",
   "theorems": [
    "C48_sx126x",
    "C48_sx126x_sleep"
   ],
   "note": "pw_run rejects any byte sent to a sleeping or possibly busy chip."
  },
  {
   "property": "C49",
   "status": "proved",
   "theorems": [
    "C49_sx126x",
    "C49_sx127x"
   ],
   "note": "Proved for frequencies below 1.024 GHz (SX127x, 24 bit register with a 61 Hz step) and 4.096 GHz (SX126x, 32 bit register), beyond any LoRaWAN band and the chips' own range."
  },
  {
   "property": "C50",
   "status": "partial",
   "theorems": [
    "C50_sx126x",
    "C50_sx127x",
    "C50_sx127x_low_refuted",
    "C50_sx127x_low_partial"
   ],
   "note": "SX126x: full. SX127x: the range and the power are exact for 0 dBm and up (C50_sx127x); refuted below 0 dBm, where the data-sheet formula gives 0.2 dB less than requested (C50_sx127x_low_refuted, C50_sx127x_low_partial: the exact value)."
  },
  {
   "property": "C51",
   "status": "partial",
   "theorems": [
    "C51_sx127x_detect_partial",
    "C51_sx127x_sf6_refuted",
    "C51_sx126x",
    "C51_sx126x_ldro_refuted",
    "C51_sx126x_ldro_partial",
    "C51_sx127x",
    "C51_sx127x_ldro_refuted",
    "C51_sx127x_ldro_partial"
   ],
   "note": "Everything except low-data-rate optimisation: full. Refuted for the latter: both drivers decide by spreading factor (>= 11) only, not by symbol time above 16 ms. Partial: right for 125 kHz, for 250 kHz except SF11, and for SF10 and below. Also refuted for SF6 on the SX127x: the driver never sets the detector registers, which keep the values for SF7 to SF12 (those are proved right)."
  },
  {
   "property": "C52",
   "status": "proved",
   "theorems": [
    "C52_sx126x",
    "C52_sx127x"
   ],
   "note": "SX127x: after setup() with no sleep() in between (the FIFO cannot be written in sleep mode). SX126x: always."
  },
  {
   "property": "C53",
   "status": "partial",
   "theorems": [
    "C53_sx126x",
    "C53_sx127x_partial",
    "C53_sx127x_rssi_refuted"
   ],
   "note": "SX126x: full. SX127x refuted for RSSI: the offset (-164/-157) is taken from the requested power, not from the band, and there is no SNR correction. Partial: bytes, length and SNR exact, and the exact RSSI formula used."
  },
  {
   "property": "C54",
   "status": "proved",
   "theorems": [
    "C54_sx126x",
    "C54_sx127x"
   ],
   "note": "SX126x clears all flags read, SX127x writes back exactly the four it reports."
  },
  {
   "property": "C55",
   "status": "partial",
   "theorems": [
    "C55_partial",
    "C55_refuted",
    "C55_channels_refuted"
   ],
   "note": "Refuted: uwan_init does not clear uw_is_join_state, so the first downlink after a given-up join is parsed as a join-accept (C55_refuted); it clears the channel mask but not the frequencies, so a channel the region does not have can be enabled afterwards (C55_channels_refuted). Partial: everything else in the statement."
  },
  {
   "property": "C56",
   "status": "partial",
   "theorems": [
    "C56_frmpayload_ignored",
    "C56_refuted",
    "C56_partial"
   ],
   "note": "Refuted: commands on port 0 are only handed to the application. Partial: they are decrypted with NwkSKey and delivered; C56_frmpayload_ignored shows that no payload is ever executed."
  },
  {
   "property": "C57",
   "status": "partial",
   "theorems": [
    "C57_ru864_partial",
    "C57_refuted"
   ],
   "note": "Refuted for EU868: the default is 868.1 MHz (a join channel) instead of 869.525 MHz. Partial: RU864."
  },
  {
   "property": "C58",
   "status": "partial",
   "theorems": [
    "C58_refuted",
    "C58_partial"
   ],
   "note": "Refuted: adr_handle_uplink lowers uw_session.dr also with ADR disabled. Partial: while ADR stays disabled the data rate in use is unaffected."
  },
  {
   "property": "C59",
   "status": "partial",
   "theorems": [
    "C59_refuted",
    "C59_join_refuted",
    "C59_partial"
   ],
   "note": "Refuted: neither uwan_set_session nor an accepted join resets ack_cnt. Partial: after uwan_adr_enable() in the new session no uplink asks before `limit` uplinks were sent."
  },
  {
   "property": "C60",
   "status": "proved",
   "theorems": [
    "C60_resync",
    "C60_only"
   ],
   "note": ""
  },
  {
   "property": "C61",
   "status": "proved",
   "theorems": [
    "C61_sx126x",
    "C61_sx127x"
   ],
   "note": "Delay durations are the arguments given to the HAL."
  },
  {
   "property": "C62",
   "status": "partial",
   "theorems": [
    "C62_sx126x",
    "C62_sx126x_silent",
    "C62_sx127x_partial",
    "C62_sx127x_preamble_refuted",
    "C62_sx127x_silent"
   ],
   "note": "SX126x: full (low-data-rate optimisation is C51). SX127x refuted: preamble_len is never programmed (the chip's 8 symbols stay). Partial: all other settings, for frequencies below 1.024 GHz, and for a chip that answers register reads consistently. C62_*_silent: only tx() transmits."
  },
  {
   "property": "C63",
   "status": "partial",
   "theorems": [
    "C63_sx126x_partial",
    "C63_sx126x_symb_refuted",
    "C63_sx127x_partial",
    "C63_sx127x_timed_refuted"
   ],
   "note": "SX127x refuted: a finite time limit starts continuous reception. SX126x refuted: symbol timeouts are taken modulo 256. Partial: SX127x for 0 and 0xffffff; SX126x for limits below 2^18 ms and symbol timeouts below 256."
  },
  {
   "property": "C64",
   "status": "partial",
   "theorems": [
    "C64_sx126x",
    "C64_sx127x_partial",
    "C64_sx127x_private_refuted"
   ],
   "note": "SX126x: full. SX127x: private networks get 0x14 instead of 0x12 (refuted); public is right (partial)."
  },
  {
   "property": "C65",
   "status": "partial",
   "theorems": [
    "C65_sx126x",
    "C65_sx127x",
    "C65_sx127x_rand_refuted"
   ],
   "note": "SX126x: full. SX127x: full under the permissive reading of byte << 24; under the strict C99 reading sx127x_rand shifts into the sign bit (refuted)."
  },
  {
   "property": "C66",
   "status": "proved",
   "theorems": [
    "C66_sx126x",
    "C66_sx126x_antenna",
    "C66_sx126x_init",
    "C66_sx127x",
    "C66_sx127x_antenna",
    "C66_sx127x_init"
   ],
   "note": "Both drivers: the hook calls of every driver call are exactly those the specification lists (SpecBoard.hal_of), and the antenna switch position precedes the command that starts the transmission or reception."
  },
  {
   "property": "C67",
   "status": "partial",
   "theorems": [
    "C67_sx126x_partial",
    "C67_sx126x_power_refuted",
    "C67_sx127x_partial",
    "C67_sx127x_power_refuted"
   ],
   "note": "Composition theorem for both drivers. SX127x: for a chip that answers register reads consistently (answers127), power exact for 0..17 dBm. SX126x: no assumption about the chip's answers, power for every value the amplifier can do. Refuted for powers outside the chip's range: the stack ignores the result of set_power(), so after lowering the maximum EIRP to -10 dBm the frame still goes out at the earlier, higher power."
  },
  {
   "property": "C68",
   "status": "proved",
   "theorems": [
    "C68_app_settings",
    "C68_history"
   ],
   "note": "C68_app_settings: one call; C68_history: the settings are the fold of the documented effect over the whole call history."
  },
  {
   "property": "C69",
   "status": "proved",
   "theorems": [
    "C69_settings",
    "C69_session",
    "C69_receive",
    "C69_inert"
   ],
   "note": "C69_settings/C69_session: exact post-state for calls that read no packet; C69_receive: receptions; C69_inert: getters and timers."
  },
  {
   "property": "C70",
   "status": "proved",
   "theorems": [
    "C70_init",
    "C70_only_init",
    "C70_draws_seeded"
   ],
   "note": "C70_init, C70_only_init: the seeding call; C70_draws_seeded: trace level."
  },
  {
   "property": "C71",
   "status": "proved",
   "theorems": [
    "C71_sx126x",
    "C71_sx127x",
    "C71_sx127x_first"
   ],
   "note": "Chip side written from the data sheets (SpecIrq.pins127, dio126). SX127x also: the pins are set before the chip starts (C71_sx127x_first)."
  },
  {
   "property": "C72",
   "status": "proved",
   "theorems": [
    "C72_sx126x",
    "C72_sx127x",
    "C72_sx127x_calibration"
   ],
   "note": "Covers the first init of a program and later ones. The SX127x theorem also gives every register after a successful init."
  },
  {
   "property": "C73",
   "status": "proved",
   "theorems": [
    "C73_sx126x_sleep",
    "C73_sx126x_rand",
    "C73_sx127x_sleep",
    "C73_sx127x_rand"
   ],
   "note": "Reads of RegOpMode are assumed to return the written upper bits (answers127) for the SX127x; no assumption on the SX126x. rand() on the SX127x shifts into the sign bit: under a strict reading of C99 this is undefined (C65), the theorem is about calls that return."
  },
  {
   "property": "C74",
   "status": "partial",
   "theorems": [
    "C74_sx126x",
    "C74_sx126x_image_partial",
    "C74_sx126x_image_refuted",
    "C74_sx127x_agc",
    "C74_sx127x_sensitivity_partial",
    "C74_sx127x_sensitivity_refuted",
    "C74_sx127x_rand_paced"
   ],
   "note": "SX126x: image calibration is always for 860-876 MHz, so it covers the carrier in that range only (refuted at 915 MHz). SX127x: rx() always writes the 500 kHz / 862-1020 MHz values of errata note 2.1, so the rule holds for 500 kHz in that band and is refuted for the usual 125 kHz channels. The rest is proved for every call sequence."
  },
  {
   "property": "C75",
   "status": "proved",
   "theorems": [
    "C75_sx126x",
    "C75_sx127x"
   ],
   "note": "Composition theorem per driver (SpecLink.linked: which driver entries a stack call comes with). The packet's RSSI on the SX127x uses the offset of C53, which the driver chooses by the power set last and not by the frequency (C53_sx127x_rssi_refuted)."
  },
  {
   "property": "C76",
   "status": "partial",
   "theorems": [
    "C76_keystream_refuted",
    "C76_answers",
    "C76_uplink",
    "C76_join_request",
    "C76_downlink",
    "C76_join_accept",
    "C76_others",
    "C76_keystream_partial"
   ],
   "note": "Closed theorems for every call; C76_answers needs no assumption on the environment. The keystream part covers uplinks and holds for up to 2^32 of them in a session; refuted beyond, by a run of 2^32 + 1 uplinks built by induction. Downlink blocks repeat where the server repeats a counter (C13)."
  },
  {
   "property": "C77",
   "status": "partial",
   "theorems": [
    "C77_refuted",
    "C77_once_partial"
   ],
   "note": "Refuted: the number of transmissions is stored and never used. Proved: exactly one transmission per accepted call, none otherwise."
  },
  {
   "property": "C78",
   "status": "partial",
   "theorems": [
    "C78_refuted",
    "C78_fopts_refuted",
    "C78_ports_partial"
   ],
   "note": "Refuted for port 0: AppSKey is used and FOpts may be present. Proved for ports 1 to 255."
  },
  {
   "property": "C79",
   "status": "proved",
   "theorems": [
    "C79_uplinks",
    "C79_lossless"
   ],
   "note": "Ports 1 to 255 and empty payloads; port 0 is C78."
  },
  {
   "property": "C80",
   "status": "partial",
   "theorems": [
    "C80_downlinks_partial",
    "C80_late_refuted"
   ],
   "note": "Proved for loss and repetition. Refuted for late frames: an old frame moves the counter ahead before its MIC is checked, and the next message is lost."
  },
  {
   "property": "C81",
   "status": "partial",
   "theorems": [
    "C81_first_partial",
    "C81_repeat_refuted"
   ],
   "note": "The first uplink carries the answer (proved); the following ones do not (refuted), so one lost uplink leaves the server with the wrong windows."
  },
  {
   "property": "C82",
   "status": "partial",
   "theorems": [
    "C82_answered_partial",
    "C82_unanswered_refuted"
   ],
   "note": "Proved when the answers fit into the 15 bytes of the queue. Refuted otherwise: the command is carried out and not answered."
  },
  {
   "property": "C83",
   "status": "partial",
   "theorems": [
    "C83_block_refuted",
    "C83_last_partial"
   ],
   "note": "Refuted: each request is taken or refused by itself. Proved: two answers, and an accepted last request alone decides."
  },
  {
   "property": "C84",
   "status": "partial",
   "theorems": [
    "C84_answer_refuted",
    "C84_skipped_partial"
   ],
   "note": "Refuted: the command is skipped. Proved: nothing changes."
  },
  {
   "property": "C85",
   "status": "partial",
   "theorems": [
    "C85_default_refuted",
    "C85_remove_refuted",
    "C85_range_refuted",
    "C85_new_partial"
   ],
   "note": "Three parts refuted. Proved for new channels behind the default ones with the range DR0 to DR5."
  },
  {
   "property": "C86",
   "status": "partial",
   "theorems": [
    "C86_ack_refuted"
   ],
   "note": "Refuted: the ACK bit reaches neither the callback nor the state."
  },
  {
   "property": "C87",
   "status": "partial",
   "theorems": [
    "C87_answer_partial",
    "C87_duty_refuted"
   ],
   "note": "Refuted: the request is acknowledged and ignored. Proved: the acknowledgement, and that nothing else changes."
  },
  {
   "property": "C88",
   "status": "partial",
   "theorems": [
    "C88_request_read",
    "C88_session_partial",
    "C88_uplinks_partial",
    "C88_downlinks_partial",
    "C88_replay_refuted"
   ],
   "note": "Refuted in general: the device takes an answer to an earlier request with the keys of its last one. Proved: every request is read, the answer to the last request gives both sides the same session, and data then passes both ways as in C79 and C80."
  },
  {
   "property": "C89",
   "status": "partial",
   "theorems": [
    "C89_draws_partial",
    "C89_fresh_refuted"
   ],
   "note": "Refuted: two different draws can have the same 16 low bits and nothing remembers the DevNonces used. Proved: the DevNonces of a run are its draws modulo 65536."
  },
  {
   "property": "C90",
   "status": "partial",
   "theorems": [
    "C90_callback",
    "C90_settings_partial",
    "C90_settings_callback_partial",
    "C90_send_refuted",
    "C90_join_refuted"
   ],
   "note": "Refuted for the MAC handlers: an uplink or join request made there overwrites the frame being processed, and the join flag is cleared. Proved: calls in downlink_callback equal calls afterwards; calls that do not transmit or start a session leave the interrupt as it was."
  },
  {
   "property": "C91",
   "status": "proved",
   "theorems": [
    "C91_sx126x",
    "C91_sx126x_init",
    "C91_sx127x",
    "C91_sx127x_setup",
    "C91_sx127x_init"
   ],
   "note": "Full. For the SX127x what is said about bits of RegOpMode and RegModemConfig2, and for the SX126x everything, supposes that the chip answers the read before a write with what the register holds."
  },
  {
   "property": "C92",
   "status": "partial",
   "theorems": [
    "C92_uplink_partial",
    "C92_downlink_partial",
    "C92_open_partial",
    "C92_uplink_refuted",
    "C92_downlink_refuted"
   ],
   "note": "Refuted where it says that a device that is not activated is silent: uwan_send_frame and the receive path do not look at is_joined. Proved: address and keys of all data frames are those of the last activation, or zeros if there was none since uwan_init (C92_uplink_partial, C92_downlink_partial), in which case everybody can read the payload (C92_open_partial)."
  },
  {
   "property": "C93",
   "status": "partial",
   "theorems": [
    "C93_join",
    "C93_send_partial",
    "C93_queue_partial",
    "C93_queue_full",
    "C93_queue_overflow",
    "C93_send_refuted",
    "C93_send_packet_refuted",
    "C93_queue_refuted"
   ],
   "note": "uwan_join: in full (C93_join). uwan_send_frame: if no packet arrives before it returns and RX1 offset is 0 or the data rate is not lowered by the call (C93_send_partial); otherwise refuted (C93_send_refuted, C93_send_packet_refuted). Requests: proved if there is room before and after the interrupts (C93_queue_partial) or none before (C93_queue_full); an interrupt that fills the queue between check and store makes the request overflow mac_buf (C93_queue_overflow, C93_queue_refuted). Strikes inside a statement or inside called functions are not modelled."
  },
  {
   "property": "C94",
   "status": "partial",
   "theorems": [
    "C94_uplinks_sx126x",
    "C94_downlinks_sx126x_partial",
    "C94_uplinks_sx127x",
    "C94_downlinks_sx127x_partial"
   ],
   "note": "Uplinks: in full for both chips, for a session of at most 2^32 frames without data on port 0 (C76, C78); the SX1276 answers reads of RegOpMode and RegModemConfig2 (answers127). Downlinks: if no frame arrives late (C80_late_refuted). The stack's calls are those of one session: no uwan_init, uwan_set_session or join in it."
  },
  {
   "property": "C95",
   "status": "partial",
   "theorems": [
    "C95_second_window_partial",
    "C95_foreign_refuted",
    "C95_crc_refuted",
    "C95_join_refuted"
   ],
   "note": "Proved: what each kind of interrupt in the first window does (C95_second_window_partial). Refuted: a packet for another device, with a CRC error, or that is no valid join-accept costs the second window as well."
  },
  {
   "property": "C96",
   "status": "partial",
   "theorems": [
    "C96_activation_partial",
    "C96_power_refuted",
    "C96_repetitions_refuted",
    "C96_rx2_refuted",
    "C96_channels_refuted",
    "C96_answers_refuted"
   ],
   "note": "Proved: exactly what an activation sets and what it leaves (C96_activation_partial). Refuted: power, number of transmissions, RX2 frequency, channel mask and queued answers survive the activation."
  },
  {
   "property": "C97",
   "status": "partial",
   "theorems": [
    "C97_join_channel_partial",
    "C97_join_channel_refuted"
   ],
   "note": "Proved for programs that receive nothing and touch no channel beyond the defaults after uwan_init (C97_join_channel_partial). Refuted: a channel the network or the application added is used for join requests (C97_join_channel_refuted)."
  },
  {
   "property": "C98",
   "status": "partial",
   "theorems": [
    "C98_idle",
    "C98_sx126x_partial",
    "C98_sx126x_interrupt_refuted",
    "C98_sx127x"
   ],
   "note": "SX1276: in full (the chip answers reads of RegOpMode, answers127). SX1262: unless the driver's last call is irq_handler or set_public_network (C98_sx126x_partial); an interrupt in the idle phase leaves the chip awake (C98_sx126x_interrupt_refuted)."
  },
  {
   "property": "C99",
   "status": "partial",
   "theorems": [
    "C99_init",
    "C99_otaa_keys",
    "C99_tx_power",
    "C99_adr_setup",
    "C99_session_partial",
    "C99_enable_channel_partial",
    "C99_set_channel_partial",
    "C99_nb_trans_partial",
    "C99_rx2_partial",
    "C99_session_refuted",
    "C99_rx2_refuted",
    "C99_enable_channel_refuted",
    "C99_set_channel_refuted",
    "C99_nb_trans_refuted"
   ],
   "note": "uwan_init, uwan_set_otaa_keys, uwan_set_tx_power and uwan_adr_setup_ack: in full. uwan_set_session, uwan_enable_channel, uwan_set_channel, uwan_set_nb_trans: if no packet is reported in them (the session also needs RX1 offset 0); uwan_set_rx2: if no window ends either. Without these conditions each is refuted by a run whose outcome is that of neither order (C99_*_refuted). Strikes inside the functions they call and inside the loop of uwan_enable_channel are not modelled."
  },
  {
   "property": "C100",
   "status": "partial",
   "theorems": [
    "C100_stack_partial",
    "C100_init_refuted",
    "C100_sx126x_partial",
    "C100_sx126x_refuted",
    "C100_sx126x_init",
    "C100_sx127x",
    "C100_sx127x_init"
   ],
   "note": "Stack: every call and event except uwan_init (refuted by a second uwan_init during a transmission), for programs whose timers fire only while they run. SX127x: in full; rand() goes on reading after it has started the receiver, with no event on a pin. SX126x: every call except rand(), which reads from a receiving chip with all events on DIO1 each time it is called (C100_sx126x_refuted holds for every call)."
  },
  {
   "property": "C101",
   "status": "partial",
   "theorems": [
    "C101_system_partial",
    "C101_system_refuted",
    "C101_sx126x_partial",
    "C101_sx126x_init_partial",
    "C101_sx126x_refuted",
    "C101_sx127x_partial",
    "C101_sx127x_set_partial",
    "C101_sx127x_init"
   ],
   "note": "SX1276: partial. Registers, widths and, where SpecLang.v gives a range or reserved bits, values; all bytes are accepted for the others (among them RegOpMode and PaConfig). rx() writes back the spreading factor it read, so the claim needs either that the chip answered with one that exists, or (set_partial) a chip that answers truthfully and a setup() since init; C101_sx127x_echo_case shows it false otherwise. SX1261/2: if the oscillator voltage given to init exists and a setup() with a preamble of at least one symbol precedes tx(), rx() and rand(); rand() before the first setup() sends a preamble length of 0 (refuted). With the stack on top of the SX1261/2 driver every call but rand() is clean (system_partial), and every device whose first call is uwan_init sends that preamble length of 0 (system_refuted). The first init of a program has theorems of its own (init). Bytes sent while the chip answers are not looked at. The tables are from memory of the data sheets, not checked against a copy."
  },
  {
   "property": "C102",
   "status": "proved",
   "theorems": [
    "C102_keys_hidden",
    "C102_interrupted"
   ],
   "note": "Executions of complete calls (keys_hidden), and with interrupts inside the calls of Preempt.v and Preempt2.v and handlers that call back as in Reent.v (interrupted). Keys left on the C stack, and the time a call takes, are not modelled. The crypto functions are asked the same blocks and messages in the same order; C76 says which."
  },
  {
   "property": "C103",
   "status": "partial",
   "theorems": [
    "C103_leftovers_partial",
    "C103_first_byte_partial",
    "C103_empty_packet_refuted"
   ],
   "note": "Partial: if an empty packet is read, the first byte left in the buffer decides the message type reported with ERR_MSG_LEN (empty_packet_refuted); no other byte matters (first_byte), and without empty packets none does (leftovers). Complete calls only (no interrupt inside a call)."
  }
 ]
}