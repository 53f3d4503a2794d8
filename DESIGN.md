# Formal model of the uwan LoRaWAN stack

Source: `/repo` (b00bl1k/uwan at the pinned commit), C. The model and the proofs
are in `rocq/theories` (Coq 8.16.1, standard library only).

## 1. What is modelled

| Model file | C source | contents |
|---|---|---|
| `Base.v` | (C semantics) | fixed-width conversions, outcome type with undefined behaviour, effect monad, bounds-checked arrays |
| `Types.v` | `include/uwan/stack.h`, file-scope variables of `src/*.c` | enums, constants, state records, external calls, environment |
| `Channels.v` | `src/utils.c`, `src/channels.c`, `src/region/*.c`, validators of `src/stack.c` | channel table, CFList, channel mask, regions |
| `Mac.v` | `src/mac.c`, `src/adr.c` | MAC answer queue, MAC command handlers and parser, ADR |
| `Stack.v` | `src/stack.c` | crypto blocks, uplink, join, downlink handling, RX windows, setters |
| `ClockSync.v` | `src/ext/clock_sync.c` | clock synchronisation package |
| `Api.v` | public headers | every API call / timer callback / radio event as one transition; executions |
| `Hal.v`, `Sx127x.v`, `Sx126x.v` | `include/uwan/stack.h:124-133`, `src/device/*.c` | SPI-level drivers |

Every definition cites the file and lines it transcribes. Statement order,
integer truncations, early returns and in-place buffer updates are kept.

**Values.** All C integers are `Z`; every conversion the C code performs
(`uint8_t` store, `int8_t` argument, ...) is an explicit `u8`/`s8`/... in the model.
Byte buffers are `list Z`; every access goes through a bounds check.

**Undefined behaviour** is a separate outcome `Undef kind` (out of bounds, NULL,
shift, signed overflow, division by zero, non-termination), never a value.

**Environment.** `env` contains: arbitrary functions for AES and CMAC (of key and
message), and oracles for `rand()`, radio random numbers, received packets,
battery, device time and Unix time. Oracles are functions of the whole history of
external calls, so two calls may be answered differently. `env_ok` states that
they respect the C types (and that AES blocks / CMAC digests have 16 bytes).
No cryptographic assumption is made: properties such as C10 say *which* equation
over CMAC was checked.

**Events.** A run emits the list of external calls with their arguments and
answers (radio calls, timers, callbacks, crypto, libc random). Properties are
stated over this list and over API return values.

### Simplifications and assumptions (trusted, not proved)

* API calls, timer callbacks and the radio interrupt are serialised (the C code
  has no locking either). In `Api.v` callbacks do not
  re-enter the library. `Reent.v` models an application that does (C90): after
  each of its callbacks in an interrupt it makes any calls it likes, depending
  on the whole history. The callbacks these calls cause do not nest further,
  and timer, radio and clock-package functions do not call back. `Preempt.v`
  lets interrupts strike between the statements of uwan_send_frame, uwan_join and
  uwan_mac_link_check_req (C93), `Preempt2.v` between those of nine settings (C99).
* Only the two shipped regions (EU868, RU864) are passed to `uwan_init`;
  `radio`, `stack`, `region`, key pointers are non-NULL, `radio_dev` and
  `stack_hal` members are set. `uw_radio`/`uw_stack_hal` are set together with
  `uw_region`, so their NULL-ness is represented by the latter.
* `int` has 32 bits; hosts are little-endian for the two driver functions that
  reinterpret an integer as bytes.
* `byte << 24` for byte >= 0x80 is undefined in C99 (not in C23/gcc/clang). The
  environment flag `e_strict_shl` selects the reading; theorems that need the
  permissive reading say `e_strict_shl E = false`.
* The SX126x busy-wait loop is one event (the chip is assumed to release BUSY).
* `default_join_delay` is never written and is a constant. `adr_enabled_prev`,
  `nb_trans_prev` (`src/ext/clock_sync.c:48-49`) are never used and left out.
* What `read_packet` does to `uw_frame` is: the received bytes (at most 255)
  overwrite the beginning, the rest keeps its old content.
* Not modelled: tests, examples, build files, the test mocks, and the AES/CMAC
  implementations (they belong to the application's HAL).

## 2. Trusted base

* Coq's kernel (8.16.1), including its virtual machine (`vm_compute` is used in the
  concrete cases), and the reading of C described above.
* Axioms: none. Every property theorem is followed by `Print Assumptions`, and the
  answer is `Closed under the global context` for each theorem listed in
  `MANIFEST.json`. No standard-library axiom is used, no plugin is loaded besides
  those of the standard library's tactics (`lia`, `ring`), whose proof terms the
  kernel checks.
* `vcheck` counts seven axioms of the standard library in the loaded context, all of
  `Coq.ssr.ssrunder.Under_rel` (`Under_rel`, `Under_rel_from_rel`, `Under_relE`, `Over_rel`,
  `over_rel`, `over_rel_done`, `under_rel_done`). No theorem depends on them.
* The specification: `Spec*.v` (what LoRaWAN, the clock synchronisation package and
  the data sheets want) and the definition of executions in `Api.v` and `Drv.v`.
* What the `Spec*.v` files say about LoRaWAN, the clock synchronisation package and the
  SX1261/2 and SX1276 was written from memory: no copy of these documents was at hand, and
  none is in `/repo`. Opcodes, register tables, reset values, ranges and the table or
  section numbers in comments are unchecked against them. "From the data sheets" below
  means this. A wrong entry there would make a theorem about the wrong requirement.
* The fidelity of the model: it is transcribed by hand from `/repo`. Each definition
  names its lines. Nothing was compiled or run from `/repo`.

## 3. Proof method

* `Wp.v`: weakest precondition `wp m h s Q` (no UB, and `Q` holds of result, final
  state and events) with compositional rules.
* An inductive invariant `Inv` of all file-scope variables (buffer sizes, byte
  ranges, queue position <= 15, data rates < 6, channel table well-formed, ...)
  preserved by every transition (`step`), from `power_on`; trace properties by
  induction over executions with ghost summaries of the trace.
* `Spec*.v`: an independent specification: little-endian encodings by `/` and
  `mod`, FCtrl as weighted sum, LoRaWAN keystream and B0/A blocks, reference MAC
  parser, finite-map channel table, abstract radio chips (register file, FIFO)
  that interpret the SPI traffic. It does not use the model's helper functions.
* `P*.v`, `L*.v`: symbolic execution of the model and the lemmas behind the theorems.
* The radio drivers: every call's SPI traffic has a `shape` (`LDrv6.v`, `LDrv7.v`);
  the chip (`SpecDrv.v`, written from the data sheets) interprets the traffic; an
  invariant `K` relates the calls made so far (`wants`) to the chip's registers.
* Stack and driver together (`SpecSys.v`, `LSys.v`): every call the stack makes to
  the radio is served by the driver; the stack side shows that each transmission and
  reception is preceded by the settings it needs (`run_safe`). In the other direction
  (`SpecLink.v`, `LLink.v`) each radio event of the stack comes from an interrupt of
  the driver. Both handlers call the stack's handler last, so the calls the stack makes
  from within it follow the driver's own bus traffic.
* Property theorems are in `Prop_*.v` files, with `Example`s beside them showing that
  the hypotheses are met by concrete non-trivial values (`Demo*.v`: a bytewise toy
  cipher and simulated chips, evaluated by `vm_compute`).
* A false property is kept with its full statement; the file proves
  `Cxx_..._refuted` (a concrete run of the faithful model that violates it,
  checked by `vm_compute`) and `Cxx_..._partial` (the strongest true part found).

## 4. Plan per property

| id | how it is modelled and proved |
|---|---|
| C01 | `Spec.uplink_frame` built from the session; theorem on the `RTx` event of every `OSend` returning NO from any reachable world |
| C02 | decrypting the payload part with `Spec.keystream` gives the argument back; any AES function |
| C03 | step lemma + induction over executions without session replacement |
| C04 | complete case analysis of `OSend` from any reachable idle world |
| C05 | state and events equality for all error returns |
| C06 | invariant + trace: `RSetFreq` before `RTx` equals the frequency of an enabled channel in the abstract map; who assigned it: `assigns`/`enables` (SpecAssign.v) say which call, region table, accepted join-accept or NewChannelReq gives a channel its frequency and what enables it, proved for each step (`C06_frequency_assigned`) and over histories (`C06_history`: it has held since such an entry). A frame counts by its address and commands whether or not its MIC is right, since the code executes the commands either way (`C12_refuted`) |
| C07 | loop analysis for all masks/draws |
| C08 | refinement of the abstract finite map |
| C09 | abstract FIFO, refinement for every transition |
| C10 | inversion of the downlink handler, for all frames |
| C11 | frame built by `Spec.downlink_frame`, all payloads |
| C12 | expected false (commands and counter are processed before the MIC check): refuted + partial |
| C13 | expected false for counter 0: refuted + partial |
| C14 | first half true, second half expected false: partial + refuted |
| C15 | expected false (flag set before address/MIC check): refuted + partial |
| C16 | reference parser in `Spec.v`, equality of executed commands |
| C17 | all payloads / all channel tables |
| C18 | expected false (mask constant typo): refuted + partial |
| C19 | all payloads |
| C20 | all payloads |
| C21 | setter lemma + invariance of the delay under all other transitions |
| C22 | all SNRs; end to end through the FOpts parser |
| C23 | verbatim reporting; local time of the uplink |
| C24 | expected false (`mac_on_tx_complete`): refuted + partial |
| C25 | `Spec.join_request` |
| C26 | `Spec.join_accept` encrypted with any AES inverse |
| C27 | all frames |
| C28 | ghost of history, induction |
| C29 | refinement on the abstract map |
| C30 | ghost counters, induction |
| C31 | per-event theorems plus trace invariant for the RX1 frequency |
| C32 | expected false after back-off or setter calls: refuted + partial |
| C33 | expected false (RX2 timer during RX1 is lost): refuted + partial |
| C34 | invariant |
| C35 | all arguments; enum values >= 256 refuted |
| C36 | `wp` of every call under the invariant |
| C37 | induction on number of uplinks |
| C38 | ghost count of uplinks, induction; beyond 2^32 refuted by a run of 2^32 unanswered uplinks, shown to exist by induction (Prop_Long.v) |
| C39 | arithmetic; wrap-around at extreme EIRP refuted |
| C40 | context automaton over the trace, all calls |
| C41 | arithmetic modulo 2^32 |
| C42 | `Spec.time_req` |
| C43 | all messages |
| C44 | all messages |
| C45 | expected false (resync reads past the end; shift by cmd): refuted + partial |
| C46 | expected false for ids >= 3: refuted + partial |
| C47 | the SPI trace parses into chip-select windows; first call and any later one |
| C48 | automaton of the chip's power states over the SPI trace |
| C49-C53 | abstract chips interpreting the SPI trace |
| C54 | all flag values |
| C55 | expected false (join state kept): refuted + partial |
| C56 | expected false (port 0 is not parsed): refuted + partial |
| C57 | expected false for EU868: refuted; partial for RU864 |
| C58 | expected false: refuted + partial |
| C59 | expected false: refuted for both ways to start a session; partial |
| C60 | all messages, clock-sync package |
| C61 | the calls made to the HAL |
| C62, C63 | invariant between the calls made and the registers, all call sequences |
| C64 | both values; private networks refuted on the SX127x |
| C65 | `wp` of every driver call under the driver invariant |
| C66 | the hook calls of every driver call, and their place in the SPI trace |
| C67 | composition of stack, driver and chip, induction over both traces |
| C68, C69 | frame theorems: settings and session as folds over the call history |
| C70 | trace level: seeding precedes every draw |
| C71 | interrupt masks and pin mapping of the chip at every start |
| C72-C73 | start-up, sleep and random numbers, all chip answers |
| C74 | registers of the analog front end, all call sequences |
| C75 | reception through chip, driver and stack, composition of both traces |
| C76 | the crypto calls read off the events; every model function is local: it uses the crypto functions only at the points where it logs a call (`LLocal.v`); beyond 2^32 uplinks the keystream part is refuted as C38 (Prop_Cred.v) |
| C77 | trace level: frames counted against accepted calls; refuted for NbTrans > 1 |
| C78 | server side of C02 with the key of the port; refuted for port 0 |
| C79 | trace level: the list of data frames of a run (C02, C27), any list of arrivals, a server run by its own counter rule (SpecNet.v); induction over arrivals |
| C80 | trace level: frames received = frames of the server in any pattern of loss and repetition; induction over the run with C11, C12; late frames refuted |
| C81 | trace level from C09: the answer is whole in the next uplink (server's parser of FOpts in SpecConf.v); repetition refuted |
| C82 | the server's view (`mirror`, SpecConf.v) folded over commands and answers, induction over the reference semantics of C16; full queue refuted |
| C83 | two commands of C82; joint refusal refuted |
| C84 | one step, C16; answer refuted |
| C85 | one step, C20; default channels, removal and ranges refuted |
| C86 | two runs that differ in the ACK bit and end in the same callback and state |
| C87 | time stamps on runs (`on_time`, SpecConf.v): refuted by a timed run; what the command does is proved |
| C88 | a join server of its own (`server_reads`, `grant_frame`, `server_session`, SpecJoin.v) put together with C25, C26, C79 and C80; an answer to an earlier request refutes the rest |
| C89 | the requests and draws of a whole run (`join_requests`, `nonce_draws`), induction over the run; refuted by two draws equal modulo 65536 |
| C90 | `Reent.v`: the interrupt with the calls of the application spliced in; simulation against the plain handler, equal outside the handlers' own effects; refuted by a link check handler that sends or joins |
| C91 | `SpecOwn.v`: registers, settings and bits per call from the data sheets; frame proof over the exact list of bus operations of each call |
| C92 | address and keys computed from the trace (`creds_after`, SpecCred.v), induction over the run; silence before activation refuted by short runs |
| C93 | `Preempt.v`: the three functions with interrupts between their statements; interrupts in IDLE are no-ops, the later ones commute with adr_handle_uplink; refuted by short runs |
| C94 | C79 and C80 over C67: the chip's actions in a session are the tail of those of the whole run, its data frames are those of the stack; each packet the stack reads is what read_packet() fetched over the bus (C53) |
| C95 | the four interrupts in RX1 through the window automaton (LWin.v), later calls by induction; losing the window to a foreign packet refuted by short runs |
| C96 | `config_of` and the channel table before and after each of the two activations; each stale setting refuted by a run with two sessions |
| C97 | C08 (channel table as a fold of the calls) from uwan_init on; refuted by a NewChannelReq and a later join |
| C98 | the stack's last radio call in the idle phase is sleep or rand (`ends_asleep`), C73 for that call, C91 for the calls beside the stack; refuted for the SX1262 by an interrupt after the sleep |
| C99 | `Preempt2.v`: the settings with interrupts between their statements; a handler that neither reads nor writes what the rest of the call works on can be exchanged with it; refuted by short runs |
| C100 | `SpecBus.v`: what is on the air after a run, from tx()/rx() to the interrupt that ends it; invariant over runs that ties it to the stack's phase (`Prop_Bus.v`). Driver: acts of the chip only grow, so it suffices to look at the last transfer of each call (`Prop_Bus6.v`, `Prop_Bus7.v`) |
| C101 | `SpecLang.v`: opcodes, registers and parameter ranges of the chips (from memory, section 2); checked on the exact transfers of each call (`shape` of LDrv6/LDrv7). SX1276 partial: rx() writes back the spreading factor it read |
| C102 | `SpecHide.v`: executions with other keys (`same_call`) and crypto functions under which they act like the first (`pairing`); compared with the key arguments left out (`hidden`). Keys the device derives stand for themselves: they are answers of AES. The environment may not look at keys (`keyblind`). `SpecHide2.v`: the same with interrupted calls and handlers that call back. A relational proof through every function (LHide) |
| C103 | `SpecLeft.v`: the same execution from the same state with other bytes in uw_frame. A relational proof that follows how many bytes of the buffer are known to agree (LLeft). Partial: an empty packet is reported with the message type of the byte left in uw_frame[0] (`C103_empty_packet_refuted`) |

## 5. Results

`MANIFEST.json` has the status and the theorem names per property. A property is
"proved" if its whole statement is; "partial" if it has a `_refuted` or `_partial`
theorem, in which case the note says what holds and what does not. All partial
statements but one are partial because the code violates the full statement, and the
violation is proved. The exception is the register read-back assumption for the
SX127x (`answers127`: a read of RegOpMode returns the upper five bits written last and
a read of RegModemConfig2 returns the value written last), which is needed because the
driver reads, modifies and writes these registers.

`seeded/` holds the wrong models the theorems were tested against: `mutants.py` and
`mutants_radio.py` (edit, claim broken, a concrete run that violates the theorem),
`run.py` (evaluates the violations), `rebuild.py` (rebuilds the development on each
wrong model) and `LOG.jsonl` (the outcome per wrong model).

## 6. Findings

Behaviour of the code that differs from what the properties state, each with a
theorem that proves it (`_refuted`):

| property | finding |
|---|---|
| C12, C15 | counter, pending ACK and MAC commands of a downlink take effect before its MIC is checked; a forged frame can desynchronise the session |
| C13 | a downlink with counter 0 is delivered again and again |
| C14 | a counter gap above 16384 is accepted across the 16-bit roll-over |
| C18 | ChMaskCntl is masked with its own shift: 6 is refused, 1-3 act like 0; an empty mask is accepted |
| C23 | device-time requests are sampled at the end of the wrong uplink in some orders |
| C24, C36 | a device-time request without handlers dereferences NULL |
| C32 | RX1 uses the data rate of the next uplink when an offset is set |
| C33 | the RX2 timer is lost while RX1 is open; the stack then stays busy for ever |
| C35 | enum arguments are truncated before they are checked |
| C38 | the count behind ADRACKReq wraps at 2^32 |
| C39 | the power wraps for extreme EIRP values |
| C45, C46 | clock-sync: shift by the command byte, read past a truncated message, wrong period formula |
| C50 | SX127x: negative powers are 0.2 dB low |
| C51 | both drivers decide low-data-rate optimisation by spreading factor only |
| C51 | SF6 is accepted by the SX127x driver, but RegDetectOptimize and RegDetectionThreshold keep the values for SF7 to SF12 |
| C53 | SX127x: RSSI offset from the power instead of the band, no SNR correction |
| C55 | `uwan_init` keeps the join state. channels_init clears mask and count but not the frequencies: after EU868, uwan_init for RU864 and uwan_enable_channel(2, true) the device sends on 868.5 MHz |
| C56 | MAC commands on port 0 are not executed |
| C57 | EU868: default RX2 frequency is 868.1 MHz |
| C58, C59 | ADR back-off while ADR is off; the count survives a new session |
| C62, C63 | SX127x ignores the preamble length and turns timed into continuous reception; SX126x truncates the symbol timeout to 8 bits |
| C64 | SX127x: private sync word 0x14 |
| C65 | SX127x: `rand` shifts into the sign bit |
| C67 | the stack ignores the result of `set_power`: a power the chip refuses leaves the previous, higher one in force |
| C76 | the uplink counter wraps after 2^32 uplinks and the keystream is used again |
| C77 | the number of transmissions is stored but never used |
| C78 | uplinks on port 0 are encrypted with the AppSKey and may carry FOpts |
| C80 | a genuine frame that arrives late (counters 6, 5, 7) makes the device lose the message after it: handle_data_msg (src/stack.c:376-380) moves the counter ahead by 65536 before the MIC is checked |
| C81 | RXParamSetupAns and RXTimingSetupAns are sent once instead of until a downlink arrives (TODOs at src/mac.c:133 and 180) |
| C82 | with a full answer queue a command is carried out but not answered, and the commands behind it are dropped (src/mac.c:111-136, 172-183) |
| C83 | in a block of LinkADRReq each request is taken or refused by itself |
| C84 | DlChannelReq is skipped without an answer (src/mac.c:203-206); the server may already send on another frequency |
| C85 | NewChannelReq changes default channels, cannot remove a channel and refuses all ranges but DR0 to DR5 (src/mac.c:151-170) |
| C86 | the application cannot learn whether a confirmed uplink was acknowledged |
| C87 | DutyCycleReq is acknowledged and not applied (TODO at src/mac.c:107) |
| C88 | a join-accept says nothing of the request it answers, and a late one to an earlier request is taken with the DevNonce of the last: the device reports a join with keys the server does not have (src/stack.c:222-241, 243-318) |
| C89 | DevNonces are draws modulo 65536 that nothing remembers; a repeated one makes the server drop the request (src/stack.c:607) |
| C90 | an uplink or join request made in a MAC handler is built over the downlink being processed, which is then reported as a MIC error; src/stack.c:438 clears the join flag, so the answer to the request is not recognised |
| C92 | uwan_send_frame (src/stack.c:638-745) does not check is_joined: after uwan_init uplinks go out with DevAddr 0 and keys of zeros, readable by everybody, and downlinks made with keys of zeros are accepted; after an unanswered join request the old session stays in use while uwan_is_joined() is false |
| C93 | mac_enqueue (src/mac.c:256-270) checks the free space and stores without locking: a downlink handled in between whose answer takes the last byte lets uwan_mac_link_check_req write mac_buf[15]. adr_handle_uplink runs after radio->tx (src/stack.c:710-712): if the end of the transmission is served before it, the first window uses another data rate (RX1 offset > 0, uplink that lowers the data rate), and an answer served before it does not reset the ADR counter |
| C95 | src/stack.c:484-491: any packet in RX1, also one with a CRC error, for another device, or not authentic, stops the RX2 timer: the real downlink in RX2 is lost |
| C96 | uwan_set_session and handle_join_accept leave power index, NbTrans, RX2 frequency, channel mask and the queue of MAC answers as the previous session had them |
| C97 | uwan_join takes any enabled channel, also those an earlier session's network added |
| C98 | sx126x_irq_handler (src/device/sx126x.c:491) reads the flags, which wakes the chip; if the stack is idle nothing puts it back to sleep |
| C99 | The settings are not atomic. uwan_set_session (src/stack.c:544-557) resets the downlink counter before it copies the keys: a recorded frame of the old session with the same address is accepted in between, whatever its counter. uwan_set_rx2 (564-576): an RX1 timeout in between opens the second window on the new frequency with the old data rate. uwan_enable_channel (src/channels.c:92-93): a LinkADRReq in between leaves the channel switched on beyond uw_channels_max_count, so it is never used. uwan_set_channel: two LinkADRReq in between are both accepted and the channel the second one excludes is on. uwan_set_nb_trans (734-742): a LinkADRReq with NbTrans 0 in between puts the old default back. |
| C100 | sx126x_rand (src/device/sx126x.c) starts the receiver with all events on DIO1 and then goes on with register reads and sleep: a packet that arrives meanwhile raises the interrupt, whose handler sends commands in the middle of that conversation. sx127x_rand masks all flags first. uwan_init called while a frame is on the air does the same to a sending chip. |
| C101 | sx126x_rand before the first setup() sends SetPacketParams with a preamble of 0 symbols (allowed, as far as known: 1 to 65535). Every device whose first call is uwan_init does so (`C101_system_refuted`; src/stack.c:528); what a chip does with 0 was not tried |
| C103 | for an empty packet the message type handed to the application is that of the byte left in uw_frame[0] (src/stack.c:431), as a rule of the device's own last uplink; the error is ERR_MSG_LEN (`C103_empty_packet_refuted`) |
| C74 | image calibration for one band only; errata values written for the wrong bandwidth |
