# Formal model of opentrv/OTRadioLink in Rocq (Coq 8.16.1)

## Method

Every C++ function in scope is transcribed into a total, computable Gallina
function over `Z` (bytes are `0 <= b < 256`, all C integer narrowing is written
out with `mod 256` / explicit casts).  Theorems quantify over all inputs /
states / histories and are proved by case analysis, induction, invariants or
(for genuinely finite domains only, e.g. one CRC step on a byte) an exhaustive
sweep whose completeness is itself proved and which is then lifted to the
unbounded statement by induction or linearity.

* Memory accesses to buffers go through checked primitives (`rd`, `wr`, `sub`,
  `blit` in `Base.v`); an access outside the buffer gives the distinguished
  outcome `None` = undefined behaviour, so "never reads/writes outside the
  buffer" is the provable statement "the outcome is not `None`".
* Non-volatile memory (EEPROM) is a total map address -> byte; power failure is
  modelled by turning an update into the list of its byte-level writes and
  executing only a prefix.
* Concurrency (ISR vs. main line) is modelled as interleaving of atomic steps.
* Crypto primitives (AES-GCM) are *parameters* quantified over in each theorem;
  the only thing assumed (as an explicit hypothesis) is "decryption inverts
  encryption" where a round trip is claimed.
* Where the code does not have the documented property, a theorem with suffix
  `_refuted` exhibits a concrete, machine-checked counterexample and a theorem
  with suffix `_partial` proves what does hold.

## Files and exactly what is modelled

All paths below are under /repo/content/OTRadioLink/utility/. Line references are
in the comments of each definition.

| Rocq files | Code modelled |
|---|---|
| Base | fixed-width arithmetic (u8/u16/i8/i16), checked buffers (`rd`/`wr`, out of bounds = `None`), byte sweeps |
| CrcModel, CrcSpec, CrcProofs, CrcLin | OTV0P2BASE_CRC.cpp |
| FrameModel, FrameSpec, FrameProofs, FrameProps | OTRadioLink_SecureableFrameType.{h,cpp}: header, small-frame and non-secure codec |
| SecureModel, SecureSpec, SecureProofs, SecureProps, SecureRawProps | same files: padding, IV, message counter arithmetic, encodeRaw/decodeRaw, TX/RX base classes; AES-GCM is a parameter |
| EepromModel, EepromProofs, EepromProps, AssocProps | OTV0P2BASE_EEPROM.{h,cpp} smart updates, unary codecs, OTV0P2BASE_Security.cpp key and association table, with power failures |
| TxCtrModel, TxCtrProofs, TxCtrProps, TxCtrWindow, TxCtrSix, SecureTxModel, SecureTxProps | ..._V0p2Impl.cpp 62-328: transmit counter and transmitter |
| RxCtrModel, RxCtrProofs, RxCtrNormal, RxCtrCrash, RxCtrProps, SecureRxModel, SecureRxProps | ..._V0p2Impl.cpp 330-534: receive counters and receiver |
| RxQueueModel, RxQueueProps, RxQueueCap, RxQueueRobust, RxFilter | OTRadioLink_ISRRXQueue.{h,cpp} (AVR), frame filters |
| ValveModel, ValveProps, ValveSettle, ValveFrost, ValveHover, WholeValve | OTRadValve_ModelledRadValveState.h, ModelledRadValve |
| TempModel, TempProps, DialProps | OTRadValve_TempControl.h, SensorTemperaturePot, target temperature |
| BoilerModel, BoilerProps | OTRadValve_BoilerDriver.h |
| ScheduleModel, ScheduleProps, ScheduleApply | OTRadValve_ValveMode.h, OTRadValve_SimpleValveSchedule.{h,cpp} |
| OccModel, OccProps | OTV0P2BASE_SensorOccupancy.{h,cpp}, OTV0P2BASE_Concurrency.h (interrupt schedules) |
| RtcModel, RtcProps | OTV0P2BASE_RTC.cpp |
| MotorModel, MotorCal, MotorStep, MotorMoves, MotorMore, MotorProps, MotorTop | OTRadValve_CurrentSenseValveMotorDirect.{h,cpp} |
| FhtModel, FhtEnc, FhtDec, FhtTop | OTRadValve_FHT8VRadValve.{h,cpp}: bit-stream codec |
| WearModel, WearProps | secure counters and key of OTRadioLink_SecureableFrameType_V0p2Impl.cpp and OTV0P2BASE_Security.cpp over EEPROM cells that may take any value when programmed; no power failures here |
| JitterModel, JitterProps | OTV0P2BASE_Sleep.cpp 240-315, OTV0P2BASE_Entropy.cpp 52-60, 130-152 over arbitrary histories of polls of the watchdog flag and timer, and avr-libc's `_crc_ccitt_update` |
| PinModel, PinProps | OTV0P2BASE_FastDigitalIO.h 38-85 on three port registers; Arduino's bitWrite; generic fallbacks not modelled |
| ParamProps | derived parameters (OTRadValve_Parameters.h 62-143, modelled in TempModel) for all template arguments |
| NoiseModel, NoiseProps | OTV0P2BASE_ADC.cpp 239-316 as a function of the conversions' results and times |
| EndStopProps | OTV0P2BASE_SensorTemperaturePot.h 155-184, 203-217 (the declared range and its direction), over TempModel's read() |
| FhtStats | OTRadValve_FHT8VRadValve.h 224-245, 512-566 with SimpleBinaryStats.cpp 180-369 (composition) |
| MotorCurrent | OTRadValve_ValveMotorDirectV1.h 60-116, OTRadValve_ValveMotorDRV8850.h 53-104 over AdcModel |
| LeafProps | SensorSHT21.h 38-78, SecureableFrameType.cpp 774-780, Entropy.cpp 112-119, SensorOccupancy.h 147 over I2cModel, FrameModel, PrngModel, OccModel |
| FrameKinds | OTRadioLink_FrameType.h over FhtModel, BinStatsModel, JsonFrame, FrameModel |
| DialPath | SensorTemperaturePot.h read, TempControl.h 276-307 over TempModel |
| ClockPath | RTC.cpp 98-176, 331-353 composed over histories with power cuts (RtcModel) |
| FhtFrameModel, FhtFrameProps | OTRadValve_FHT8VRadValve.{h,cpp}: bytes of the transmit buffer (preamble, stream, trailer, what is sent); the trailer function is an input |
| FhtSyncModel, FhtSyncProps, FhtSyncTop | OTRadValve_FHT8VRadValve.{h,cpp}: driver (sync state machine, periodic TX, house codes); sleeping and serial output not modelled, bytes of the buffer in FhtFrameModel |
| LightModel, LightProps, LightTop | OTV0P2BASE_SensorAmbientLight.h (base and adaptive sensor), OTV0P2BASE_SensorAmbientLightOccupancy.{h,cpp} with default tunables; the ADC read is an input |
| MsgModel, MsgProps, MsgTop | OTRadioLink_Messaging.h: operators, authAndDecode, secure-O handler, raw message dispatch, queue handler; serial formatting and prints not modelled; the uninitialised stack buffer is an arbitrary input |
| UiModel, UiProps, UiPress, UiFlash, UiClicks | OTRadValve_ActuatorPhysicalUI.{h,cpp}: both UI classes (AVR build), over the dial, mode and occupancy models; button interrupts at 18 points of a read; LEARN buttons and CLI wake-up not modelled |
| CliModel, CliProps, CliCmds, CliMore, CliFrame | OTV0P2BASE_CLI.{h,cpp} (reader, activity timer, commands A D G I K T X Z), OTRadValve_FHT8VRadValve.cpp 783-812 (H), hex parsing of Util, ensureIDCreated; prompt, echo and flushing not modelled; strtok_r/atoi from their specification |
| Sim900Model, Sim900Props, Sim900Hist, Sim900Bounds, Sim900Timing, Sim900Live, Sim900Flaws, Sim900Gate | OTSIM900Link_OTSIM900Link.h: state machine, response parsing, queue, retries, blocking send, against arbitrary module answers and (Live) a well-behaved module; configuration strings, unused commands and the subcycle-timeout variant not modelled |
| OwModel, OwProps, OwSearch, DsModel, DsProps, DsTop | OTV0P2BASE_MinOW.{h,cpp} (search, select, bytes) over any bus; OTV0P2BASE_SensorDS18B20.{h,cpp}; a bus of slaves behaving as the data sheet says (search, match, skip ROM; convert, read, write scratchpad); slot timing not modelled |
| JeeModel, JeeCrc, JeeProps | OTRadioLink_JeelabsOemPacket.{h,cpp} |
| RfmModel, RfmProps, RfmLink, RfmRx, RfmPoll, RfmHist, RfmEx | OTRFM23BLink_OTRFM23BLink.{h,cpp} (driver with allowRX, on a model of the chip), the channel part of OTRadioLink_OTRadioLink.h |
| ErrModel, ErrProps | OTV0P2BASE_ErrorReport.{h,cpp}; OTV0P2BASE_PowerManagement.cpp 277-344 (supply voltage; the ADC reading is an input) |
| PrngModel, PrngProps, EntropyProps | OTV0P2BASE_QuickPRNG.cpp; OTV0P2BASE_Entropy.cpp getSecureRandomByte (the sources are inputs) |
| I2cModel, I2cProps | OTV0P2BASE_SensorTMP112.cpp, OTV0P2BASE_SensorSHT21.{h,cpp}, with the answers on the bus as inputs; `Wire.read() << 8` is taken as unsigned 16-bit |
| SoftModel, SoftProps | OTV0P2BASE_SoftSerial2.h: read and write on a line that is a function of time; the cycle costs of the loops are parameters |
| SoftAsync | OTV0P2BASE_SoftSerialAsync.h: interrupt handler with any samples, read, peek, available, write |
| SoftOld, SoftPrint | OTV0P2BASE_SoftSerial.{h,cpp} (sendBreak not modelled; itoa from its specification) |
| RnModel, RnProps | OTRN2483Link_OTRN2483Link.{h,cpp}: sendRaw, getHex, begin; the serial port is a list of bytes out and the answer an input |
| StatsLine | OTV0P2BASE_SystemStatsLine.h on top of the JSON model; port power-up and flush not modelled |
| SleepModel, SleepProps, OscProps | OTV0P2BASE_Sleep.h/.cpp: delays, naps, sleepUntilSubCycleTime, sleepUntilNewCycle; OTV0P2BASE_HardwareTests.cpp. Time in half microseconds, cycle counts as documented; sleeps last as an oracle says |
| AdcModel, AdcProps, BridgeProps, SpinProps | OTV0P2BASE_ADC.cpp (AVR reads, internal temperature), the ADC part of its users; OTRadValve_ValveMotorDirectV1.h and OTRadValve_ValveMotorDRV8850.h hardware drivers (port accesses and naps as actions); spinSCTTicks of OTRadValve_ValveMotorBase.cpp (counter and current readings as oracles) |
| UtilModel, UtilProps, ScratchProps | printRXMsg (OTRadioLink_OTRadioLink.cpp); ScratchSpaceL, ScratchSpace and MemoryChecks of OTV0P2BASE_Util.h (interrupts nested inside recordIfMinSP) |
| PowerModel, PowerProps | powering devices up and down: OTV0P2BASE_PowerManagement.h/.cpp as used by the drivers (power reduction and enable bits only; users as nested programs with interrupts) |
| SmallModel, SmallProps, ConcProps | OTV0P2BASE_SensorQM1; BinaryRelayDirect of OTRadValve_AbstractRadValve.h; OTRadValve_TestValve; safeDec/safeInc of OTV0P2BASE_Concurrency.h (load and compare-and-exchange as atomic steps); Print of OTV0P2BASE_ArduinoCompat.h (64-bit long); EEPROM part of seedPRNGs |
| HubLine | serial line of OTRadioLink_Messaging.h 110-118 on top of MsgModel, JsonModel and Print |
| SerialModel, SerialProps | OTV0P2BASE_Serial_IO.cpp (three builds), the serial part of OTV0P2BASE_PowerManagement.{h,cpp}, on a model of the ATmega328P transmitter and of Arduino's HardwareSerial (interrupts enabled; flags polled as the hardware moves on; both outside /repo); number digits as in SmallModel (64-bit long) |
| BaseLinkModel, BaseLinkProps | OTRadioLink base class (configure, listen, getChannelConfig); RTC watchdog of OTV0P2BASE_RTC.cpp; resetRaw3BytePersistentTXRestartCounterCond; I2CSPM of silabs_drivers/cppDrivers/i2c_driver.cpp (peripheral as an oracle) |
| JsonModel, JsonSpec, JsonBuf, JsonWrite, JsonMain, JsonFrame, JsonThm, JsonMap, JsonFair, JsonEx | OTV0P2BASE_JSONStats.{h,cpp} |
| BinStatsModel, BinStatsSpec, BinStatsProofs, BinStatsEnc, BinStatsErr | OTV0P2BASE_SimpleBinaryStats.{h,cpp} |
| StatsModel, StatsSmooth, StatsQuart, StatsUpdate, StatsEeprom | OTV0P2BASE_Stats.{h,cpp}, EEPROMByHourByteStats |

## Plan per property

properties.jsonl has the English statements, MANIFEST.json the status, the exact
theorem names, and for partial ones what is missing.

| Property | Modelled | Proof technique |
|---|---|---|
| C01-C04 framing | encodeHeader, decodeHeader, encodeNonsecure, decodeNonsecure, computeNonSecureCRC | checked-buffer semantics; header layout lemma; round trip by list extensionality; CRC linearity |
| C05 CRC-7 | crc7_5B_update, nz_final | GF(2) linearity by sweep of one step, induction over messages |
| C06, C07 padding | pad32BBuffer, unpad32BBuffer | direct; C07 refuted by witness |
| C08, C09 counters | msgcountercmp (memcmp), msgcounteradd | big-endian value function; induction; C09 refuted at carry into byte 0 |
| C10, C11 secure frame | encodeRaw, decodeRaw with abstract enc/dec | checked buffers, quantification over primitives |
| C12, C13 anti-replay | decode, _decodeFromID, validateRXMsgCtr on the EEPROM counters | invariant over histories of receptions and power failures |
| C14-C16 TX counter | getNextTXMsgCtr, persistent prefix load/save/increment with byte-atomic crash | invariant over event histories |
| C17-C19 RX counter | per-node EEPROM rows, update by writes list | crash prefix invariant; two-crash counterexample |
| C20, C21 EEPROM | unary codecs, smart update | exhaustive sweep, map lemmas |
| C22, C23 tables | association table and key functions | invariant over histories |
| C24, C25, C62 RX queue | ISRRXQueueVarLenMsg, 1Deep, filters | refinement to a list FIFO; interleavings |
| C26-C30, C57-C61 valve model | ModelledRadValveState::tick, computeRequiredTRVPercentOpen, whole valve | invariants over traces, ranking functions |
| C31, C32, C38, C55, C56 target | computeTargetTemp, temperature controls | case analysis |
| C33, C34 boiler | OnOffBoilerDriverLogic | trace invariants with ghost clocks |
| C35-C37 schedule, bake | SimpleValveSchedule, ValveMode | modular arithmetic, trace induction |
| C39, C40 occupancy | PseudoSensorOccupancyTracker, CAS | trace induction, interleavings |
| C41, C42 RTC | persist/restore/tick | sweeps + arithmetic, power failures |
| C43, C44, C64-C68 motor | CalibrationParameters, CurrentSenseValveMotorDirect | invariants over polls and callbacks |
| C45, C46, C63 FHT8V | bit stream codec | induction over bits |
| C79-C84 FHT8V driver | slots (half seconds) of the main loop; arbitrary call histories | countdown invariant, closed-form timeline; history induction |
| C85 RX queue lengths | queues with any length byte | invariant, counterexample |
| C86-C88 Ambient light | sensor state over event histories | invariant relating state to a specification over the history (existential split, counting function) |
| C89-C91 Light occupancy | detector and sensor over histories | the state is shown equal to functions of the history; exact iff for each report; corollaries |
| C92-C95 hub messages | message handler on top of the receiver | receiver step lemma extended with the plaintext; induction over messages; composition with the TX encoder |
| C96-C103 physical UI | a read as five composed stages with interrupt points, traces of LED/click/wait actions | preorders respected by every stage (touch, dial, mode); served-press invariant through the composition; induction over runs of reads |
| C104-C115 CLI | reader over a list of polls, commands over token lists and the EEPROM monad | loop invariant for the reader; word grammar for strtok; compositional footprint and two-run (noninterference) predicates over the EEPROM monad |
| C116-C121 GSM link | link as a step function of the module's answers | invariants over histories with ghost clocks; ranking function for delivery against a module automaton |
| C122-C124 OneWire, DS18B20 | search and driver over a bus record; list of slave automata | loop invariant on the set of slaves still listening; successor in lexicographic order; per-slave map lemmas |
| C128-C131 RFM23B link | _poll, _RXFIFO, _dolisten, sendRaw, _TXFIFO, _setChannel, listen, begin, end, on a chip with registers, flags and FIFOs; interrupts and outside events as input lists consumed at every point where interrupts are on | invariant relating queue, registers and observations, preserved by every call and interrupt; concrete runs refute the rest |
| C125-C127 JeeLabs packets | encode, decode, filter, calcCrc | checked buffers; CRC-16 as a linear map over GF(2), order of x by sweep |
| C132 error reports | set, read, isAvailable | invariant over histories; refutation of the last sentence |
| C133 supply voltage | read and flags, with the error reporter | division bounds for all readings; histories |
| C134 random generator | randRNG8, seedRNG8 | the step is a bijection (inverse exhibited), pigeonhole for recurrence |
| C135 secure bytes | getSecureRandomByte | XOR-linearity reduces to one sweep per source |
| C136 TMP112, C137 and C138 SHT21 | the drivers with any bus answers | case analysis; exact rational bounds |
| C139 blocking soft serial | read, write over real-time lines | sampling instants fall inside bits; induction over bytes |
| C140 asynchronous soft serial | interrupt handler, read, ... | refinement of a queue |
| C141 RN2483 | sendRaw, getHex, begin | loop invariant over two checked buffers |
| C142 older soft serial | read, begin | as C139 |
| C143 status line | serialStatusReport | explicit reader proved to invert the printing; JSON part from C47, fairness from C69 |
| C144-C147 sleeping | sleeps as an oracle with stated tolerances; induction on the time left; interrupts as rounds (served awake, or ending the sleep) |
| C148, C149 oscillators | counter readings and loop counts as oracles; induction on the tries |
| C150, C154 ADC | conversions and counter readings as oracles; induction on the samples |
| C151, C153 bridges | every port access is an action; an inductive watch over the action trace with reset points anywhere |
| C152 spin | counter as an oracle that ticks; induction on the ticks left |
| C155 frame dump | reader of the line as specification; sweep over bytes, induction on the frame |
| C156 scratch | list of kept intervals, induction on the nesting |
| C157 stack watch | calls as trees with interrupts inside; nested induction |
| C158 power | programs as trees with interrupts at every access; nested induction; bits restored and in use |
| C159-C161 voice, relay, tester | specification as a recursive function of the history; induction on it |
| C162 counters | transition system of threads with load and compare-and-exchange steps; invariant |
| C163 printing | reader as specification; induction on the digits |
| C164 seed wear | events of the EEPROM model over restarts with power failures; induction on the history |
| C165 statistics to serial line | composition of json_write_partial and valve_to_hub; digits by a sweep over bytes lifted by below_spec |
| C166-C169 link base, watchdog, conditional reset, I2C | invariants over call histories; watchdog state equals a predicate of the history; [does] lemmas of the transmit counter; induction on the poll count |
| C171 serial output | print routines over an automaton of ring buffer, data and shift registers and flags | invariant, lexicographic measure for the waiting loops, induction over uses; refutations by fixpoints of the automaton |
| C172 valve frames | transmit buffer over checked lists; trailer function any that meets its contract | layout lemma on text up to the first 0xff, encoder and decoder theorems of C45, induction over histories |
| C173 worn cells | the same programs in a monad whose erase/write leaves what an arbitrary oracle says | frame and read-back lemmas, induction over histories; witnesses where nothing is read back |
| C174 clock jitter | loops over lists of polls; hash step as shifts and exclusive-ors | loop equals a fold of the changed counts (induction over polls); injectivity by splitting the hash into bytes, two 65536-pair sweeps; witnesses for stable clocks and the lossy last count |
| C175 fast pins | three registers, macros as functions | bit-level frame reasoning |
| C176 any product | template arguments as a record | linear arithmetic over the derivations; witnesses for arguments that break documented ranges |
| C177 analogue noise | fold over the conversions | the hash step is linear and injective (sweep of 256), so differences survive; witnesses where they cancel |
| C178 dial end stops | end stops of a declared range, read() of the turned-round reading | arithmetic on the range; a witness family for reversed ranges |
| C179 command and statistics | hub decoding of a whole frame: command, then statistics from where it ends | composition of C45, C49 and C172; the trailer found is unique |
| C180 current limits | isCurrentHigh and isOnShaftEncoderMark over adc_read | from C150: the read is one of its samples |
| C181 humidity flags | SHT21 read histories, both flags | induction; last reading outside the dead band |
| C182 beacon | generateNonsecureBeacon | instance of C03 |
| C183 pool | addEntropyToPool, iterated | each step injective (C134), induction |
| C184 new occupancy | reportedNewOccupancyRecently over OccModel histories | induction from the right against the marks in the history |
| C185 kinds of message | the four decoders on the same bytes | first byte from each decoder's exact acceptance theorem |
| C186 text and numbers | print(const char*), printNum over SoftOld | induction on the text; composed with C142 |
| C187 dial to target | sensor, cache and target computation composed over histories | invariant: cache holds what its position selects; C38, C55, C31 |
| C188 clock over cuts | ticks, persists, cuts at any EEPROM operation, restores | invariant: stored quarter (and day) hold the time at most 450 ticks ago |
| C170 GSM gates | invariant relating the state to answers since the last power pulse, by induction on the history |
| C47, C48, C69, C70 JSON | writeJSON, rotation, CRC framing | buffer model, grammar, rotation measure |
| C49, C71-C74 binary stats | payload codecs | wire grammar, CRC distance |
| C50-C52, C75, C76 stats | smoothing, compression, quartiles, updater | arithmetic, invariants over histories |
| C77, C78 stats store | EEPROM store, zap | write lists with crash prefixes |
| C53, C54 TX IVs | encode, encodeValveFrame, generateSecureBeacon on top of C14 | composition |

## Trusted base

* Coq 8.16.1 kernel, including `vm_compute` (coqchk rechecks everything).
* `Print Assumptions` says "Closed under the global context" for every theorem
  named in MANIFEST.json: no axioms, no standard-library axioms either.
* The correctness of the transcription, reviewable line by line against the cited
  source; integer types are those of the AVR build unless stated.
* avr-libc's `_crc8_ccitt_update` is modelled from its documentation.

## Not modelled

Of the RFM23B driver the SPI transfers, delays and prints, the
AES-GCM implementation itself, the distribution of clock jitter, pin states during power management, and timing of real
hardware.  Within modelled files: serial output and error reports;
the non-AVR (non-atomic) build of
removeRXMsg; JSON NULL buffer and sensitivity (ignored by the code);
outputCoreStats printing.
