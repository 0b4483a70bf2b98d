import json
P=[]
def p(title, statement, quant, why, *anchors):
    P.append(dict(id="C%02d"%(len(P)+1), title=title, statement=statement, quantifier=quant, why_tests_cant=why, anchors=list(anchors)))
U="content/OTRadioLink/utility/"
SF=U+"OTRadioLink_SecureableFrameType.cpp"; SFH=U+"OTRadioLink_SecureableFrameType.h"
V2=U+"OTRadioLink_SecureableFrameType_V0p2Impl.cpp"
p("Frame header encode/decode round trip",
  "Whenever encodeHeader() reports success, the bytes it wrote, followed by any body and trailer of the announced lengths whose last byte is neither 0x00 nor 0xff, are accepted by decodeHeader(), which returns the same header length and recovers exactly the secure flag, frame type, 4-bit sequence number, ID bytes, body length and trailer length that were given to encodeHeader().",
  "all secure flags, frame types, sequence numbers, IDs of 0..8 bytes (and illegal lengths), body lengths, trailer lengths, output buffer sizes",
  "The argument space (type x seq x 8 ID bytes x bl x tl x buffer size) cannot be enumerated by tests.",
  SF+":SecurableFrameHeader::encodeHeader", SF+":SecurableFrameHeader::decodeHeader")
p("Header decoder accepts exactly the well-formed headers, and never reads outside the buffer",
  "decodeHeader() on any byte buffer reads only bytes inside the buffer and succeeds if and only if all eight quick integrity checks of the frame specification hold; when it succeeds, header + body + trailer exactly fill the announced frame (fl+1 bytes), the trailer is at least 1 byte (exactly 1 for non-secure), and when it fails the header object reads as invalid.",
  "all byte buffers of every length 0..255 (attacker-controlled radio input)",
  "256^63 possible frames; memory safety must hold for every one.",
  SF+":SecurableFrameHeader::decodeHeader")
p("Non-secure frame round trip",
  "If encodeNonsecure() succeeds then decodeHeader()+decodeNonsecure() on its output succeed with the same length, and the type, ID, sequence number and body recovered are exactly those sent; encodeNonsecure() never writes outside the output buffer.",
  "all types, IDs, sequence numbers, bodies and buffer sizes",
  "Unbounded message contents.",
  SF+":encodeNonsecure", SF+":decodeNonsecure", SF+":SecurableFrameHeader::computeNonSecureCRC")
p("Corrupted non-secure frames are rejected",
  "If a frame is accepted by decodeNonsecure(), then any frame obtained from it by a burst error of up to 7 consecutive bits after the length byte, or (outside the CRC byte) by inverting any odd number of bits, is rejected.",
  "all accepted frames and all error patterns of the stated classes",
  "The number of (frame, error) pairs is astronomically large.",
  SF+":decodeNonsecure", U+"OTV0P2BASE_CRC.cpp:crc7_5B_update")
p("CRC-7 detection strength",
  "The 7-bit CRC of a message always fits in 7 bits, is a linear function of message and initial value, detects every error of 1, 2 or 3 bits in messages of up to 7 bytes, every odd-weight error and every burst of at most 7 bits in messages of any length, and the nz_final variant never yields 0x00 or 0xff while remaining injective in the CRC value.",
  "all messages (any length where stated), all initial values, all error patterns in the class",
  "Header comment claims (HD=4 up to 7 bytes) quantify over all messages and all error patterns.",
  U+"OTV0P2BASE_CRC.cpp:crc7_5B_update", U+"OTV0P2BASE_CRC.cpp:crc7_5B_update_nz_final")
p("Body padding round trip",
  "Padding a body of 0..31 bytes to 32 bytes and unpadding returns exactly the original length, with the body bytes unchanged, and the padding never exposes stale buffer contents (all bytes between body and last byte are zero); bodies longer than 31 bytes are refused and left untouched.",
  "all buffers of at least 32 bytes, all data lengths",
  "All body contents and lengths.",
  SF+":addPaddingTo32BTrailing0sAndPadCount / pad32BBuffer", SF+":unpad32BBuffer")
p("Malformed padding is reported as an error",
  "A decrypted 32-byte body whose final pad-count byte is impossible (> 31) is reported as a decode error, not as a valid (empty) message.",
  "all 32-byte decrypted blocks",
  "All plaintext blocks, including those of a buggy or newer peer.",
  SF+":unpad32BBuffer", SF+":SimpleSecureFrame32or0BodyRXBase::decodeRaw")
p("Message counter comparison is numeric order",
  "msgcountercmp() orders 6-byte counters exactly as the 48-bit big-endian unsigned integers they encode.",
  "all pairs of 6-byte counters", "2^96 pairs.",
  SFH+":SimpleSecureFrame32or0BodyRXBase::msgcountercmp")
p("Message counter addition",
  "msgcounteradd(counter, delta) either adds delta to the 48-bit big-endian counter and returns true, or, if that would overflow 48 bits, returns false and leaves the counter unchanged.",
  "all 2^48 counters, all deltas 0..255", "2^56 cases; the failing case is a single carry chain.",
  SF+":SimpleSecureFrame32or0BodyRXBase::msgcounteradd")
p("Secure frame round trip",
  "For any AES-GCM style primitive whose decryption inverts its encryption, a frame produced by encodeRaw() is decoded by decodeRaw() with the same key and IV to exactly the original body (0..31 bytes) and the original header, and the frame is at most 64 bytes.",
  "all keys, IVs, IDs, sequence numbers, types, bodies, and all correct encryption primitives",
  "Quantifies over keys, messages and primitives.",
  SF+":SimpleSecureFrame32or0BodyTXBase::encodeRaw", SF+":SimpleSecureFrame32or0BodyRXBase::decodeRaw")
p("Nothing unauthenticated is accepted",
  "decodeRaw() returns success only if the authenticated-decryption primitive accepted the received tag over exactly the received header bytes as associated data and exactly the received ciphertext, and the plaintext handed to the caller is exactly the primitive's output with padding removed; a secure frame with a bad trailer, wrong lengths or unknown encryption type is refused.",
  "all frames, keys, IVs and primitives", "Adversarial input space.",
  SF+":SimpleSecureFrame32or0BodyRXBase::decodeRaw")
p("Anti-replay over all histories",
  "Over any sequence of received frames, a receiver accepts (via decode()) a frame from a given node only if its message counter is strictly larger than that of every frame previously accepted from that node; in particular no frame is ever accepted twice.",
  "all histories of received frames (genuine, replayed, corrupted, forged), all node tables",
  "Property of unbounded histories.",
  SF+":SimpleSecureFrame32or0BodyRXBase::decode", SF+":_decodeFromID", V2+":authAndUpdateRXMsgCtr")
p("Rejected frames change no receiver state",
  "If decode() returns 0 because the frame is malformed, unauthenticated, from an unknown node or stale, the stored receive counters of all nodes are unchanged.",
  "all frames, all receiver states", "All inputs and states.",
  SF+":SimpleSecureFrame32or0BodyRXBase::decode", SF+":validateRXMsgCtr")
p("Transmit counter never repeats or decreases",
  "The sequence of message counters (IVs) handed out for transmission by a node is strictly increasing over its whole life, across any number of restarts and power failures that interrupt non-volatile writes at any byte boundary, regardless of random values used at start-up.",
  "all histories of counter requests, restarts, crash points inside persistent updates, random values",
  "Crash points x histories are unbounded; nonce reuse is catastrophic for AES-GCM.",
  V2+":SimpleSecureFrame32or0BodyTXV0p2::getNextTXMsgCtr", V2+":incrementPersistentTXMsgCtrPrefix / getTXPersistentCtr")
p("Transmit counter exhaustion is fail-safe",
  "When the persistent part of the transmit counter has reached its maximum, no further increments are performed: requests that would need one fail rather than wrap to small values.",
  "all counter states", "2^48 counter values; boundary reachable only after years.",
  V2+":getNextTXMsgCtr", V2+":incrementTXRawMsgCounterPersistent")
p("A single power failure never destroys the transmit counter",
  "From a state in which both stored copies are valid, a power failure at any byte of one persistent counter increment leaves at least one valid copy, so the node can still transmit and the value read back is either the old or the new one (multiple power failures: two can destroy both copies, refuting the unconditional claim).",
  "all prefix values, all crash points", "All crash points in the write sequence for all 2^24 values.",
  V2+":incrementTXRawMsgCounterPersistent", V2+":saveTXRawMsgCtrPrefix / loadRaw3BytePersistentTXRestartCtr")
p("Receive counter survives one power failure without enabling replay",
  "Starting from a consistent stored receive counter for a node, an update to a newer counter interrupted by a power failure at any byte boundary leaves a stored counter that reads back as at least the old value (so no previously accepted message is accepted again), or as unreadable, in which case all messages from that node are refused.",
  "all old/new counters, all crash points", "All crash points for all counter pairs.",
  V2+":updateRXMessageCountAfterAuthentication", V2+":getLastRXMessageCounter")
p("Receive counter survives repeated power failures",
  "As the previous property but for any number of power failures over the node's life: the counter read back never goes below a value previously accepted, and never becomes permanently unreadable.",
  "all histories with any number of crash points", "Unbounded histories with crash points.",
  V2+":updateRXMessageCountAfterAuthentication")
p("Receive counter round trip in normal operation",
  "After a successful authenticated update to counter c (no crash), reading the last counter for that node returns exactly c, other nodes' counters are unchanged, and updates not strictly greater than the stored counter are refused without any change; this persists over any sequence of updates (both the cheap unary path and the full rewrite path).",
  "all update sequences, all nodes in the table", "Unbounded update sequences over 2^48 values.",
  V2+":authAndUpdateRXMsgCtr", V2+":getLastRXMsgCtr", U+"OTV0P2BASE_EEPROM.cpp:eeprom_unary_2byte_encode")
p("Unary non-volatile counters",
  "The one- and two-byte unary codes decode to the value encoded, for every legal value; moving to any larger value only ever clears bits (no erase cycle needed); and invalid bit patterns are reported as errors.",
  "all values and all 2^16 bit patterns", "Exhaustive over patterns plus the order relation between all pairs.",
  U+"OTV0P2BASE_EEPROM.cpp:eeprom_unary_1byte_encode/decode", U+"OTV0P2BASE_EEPROM.cpp:eeprom_unary_2byte_encode/decode")
p("Smart EEPROM byte updates",
  "eeprom_smart_update_byte / eeprom_smart_erase_byte / eeprom_smart_clear_bits leave the target byte with exactly the requested value (or old AND mask) and no other byte changed, and perform an erase only when some bit must change from 0 to 1 and a write only when the content changes.",
  "all memory contents, addresses and values", "All contents; wear properties are about the absence of operations.",
  U+"OTV0P2BASE_EEPROM.cpp:eeprom_smart_update_byte", U+"OTV0P2BASE_EEPROM.cpp:eeprom_smart_clear_bits")
p("Node association table",
  "After clearing the table and adding up to 8 node IDs (none starting 0xff), the table lists exactly those IDs in order; adding to a full table fails and changes nothing; prefix lookup from an index returns the first association at or after that index whose ID starts with the given prefix, or -1 if there is none; a lookup never reads outside the table.",
  "all sequences of adds and clears, all IDs and prefixes", "Unbounded operation histories.",
  U+"OTV0P2BASE_Security.cpp:addNodeAssociation / clearAllNodeAssociations / getNextMatchingNodeIDGeneric", V2+":_getNextMatchingNodeID")
p("Secret key storage",
  "A 16-byte key set in EEPROM is returned unchanged by get, and get reports failure when no key (all 0xff) has been set; setting the key to NULL erases it.",
  "all keys and prior memory contents", "2^128 keys.",
  U+"OTV0P2BASE_Security.cpp:setPrimaryBuilding16ByteSecretKey / getPrimaryBuilding16ByteSecretKey")
p("RX queue is a faithful FIFO",
  "Frames removed from the radio receive queue are exactly the frames successfully queued by the ISR, in order, each exactly once and unaltered, with arbitrary interleaving of ISR queueing and application removal; a frame that does not fit is dropped whole without damaging queued frames.",
  "all interleavings of queue/dequeue operations and all frames", "Unbounded interleavings.",
  U+"OTRadioLink_ISRRXQueue.h:ISRRXQueueVarLenMsg", U+"OTRadioLink_ISRRXQueue.h:ISRRXQueue1Deep")
p("RX queue has at least the advertised capacity",
  "A queue declared for a target number of maximum-size frames never drops a frame while it holds fewer than that target number of frames.",
  "all histories, all template parameters (frame size 1..255, target 1..)", "All ring positions reached by arbitrary histories.",
  U+"OTRadioLink_ISRRXQueue.h:ISRRXQueueVarLenMsg::_getRXBufForInbound / isFull")
p("Valve position always in range",
  "Over any sequence of valve model ticks with any sensor inputs, targets and settings, the computed valve opening stays within 0..100% and never rises above the larger of its current value and the configured maximum opening.",
  "all input histories, all temperatures, targets and flags", "Unbounded feedback histories.",
  U+"OTRadValve_ModelledRadValveState.h:ModelledRadValveState::tick", U+"OTRadValve_ModelledRadValveState.h:computeRequiredTRVPercentOpen")
p("Anti-hunting: no quick re-opening or re-closing",
  "After the valve has been closed a little, it is not re-opened for the documented 11 minutes (outside BAKE mode), and after it has been opened it is not closed again for the documented 10 minutes unless the permitted maximum opening has been lowered; with any sensor inputs.",
  "all input histories", "Properties of all traces, depends on countdown interplay.",
  U+"OTRadValve_ModelledRadValveState.h:valveTurndown / valveTurnup / dontTurnup / dontTurndown")
p("Frost protection always wins",
  "If the (adjusted) room temperature stays below the minimum temperature 5C, the valve opens to its maximum permitted opening within a bounded number of ticks from any state, whatever the target is and whatever happened before, and stays there.",
  "all prior states and all subsequent inputs with temperature under the minimum", "Liveness from every state.",
  U+"OTRadValve_ModelledRadValveState.h:computeRequiredTRVPercentOpen")
p("Over-temperature always closes the valve",
  "If the room stays well above target (outside the wide deadband), the valve closes fully within a bounded number of ticks from any state and stays closed; if it stays well below target it opens to maximum within a bounded number of ticks.",
  "all prior states, targets and temperatures outside the proportional band", "Liveness from every state over unbounded histories.",
  U+"OTRadValve_ModelledRadValveState.h:computeRequiredTRVPercentOpen")
p("Temperature filter sanity",
  "The smoothed temperature used by the valve model is always within the range of the last 16 raw readings, the filter fills instantly on first use, and smallIntMean rounds to within one unit of the true mean.",
  "all 16-element arrays and all tick sequences", "All raw temperature sequences.",
  U+"OTRadValve_ModelledRadValveState.h:smallIntMean / getSmoothedRecent / tick")
p("Target temperature stays within safe limits",
  "The computed target temperature is always between the minimum (frost) and maximum supported temperatures; in WARM mode it is at most the user's warm target and no lower than the warm target less the full setback; in BAKE mode it is the warm target plus the bake uplift (capped); in FROST mode it never exceeds max(frost, warm-1).",
  "all user settings, modes, occupancy, light and schedule inputs, for each shipped parameter set", "Cross product of all control inputs.",
  U+"OTRadValve_ModelledRadValve.h:ModelledRadValveComputeTargetTempBasic::computeTargetTemp")
p("No setback while needed",
  "When the room is recently occupied, or a WARM schedule is on (and the room not long vacant), or a setback lockout is active, the WARM target equals the user's target with no setback; with a comfort temperature selected the setback never exceeds the ECO setback; a schedule due soon limits it to 1C; a room vacant for over a day is set back by at least the ECO amount.",
  "all control inputs", "Cross product of all control inputs.",
  U+"OTRadValve_ModelledRadValve.h:ModelledRadValveComputeTargetTempBasic::computeTargetTemp")
p("Boiler minimum on and off times",
  "Whatever calls for heat arrive, once the boiler output turns on it stays on for at least the configured minimum on-time, and once it turns off it stays off for more than the configured number of minutes; the output pin always equals the logical boiler state while in hub mode.",
  "all histories of remote calls and 2s ticks", "Unbounded event interleavings.",
  U+"OTRadValve_BoilerDriver.h:OnOffBoilerDriverLogic::processCallsForHeat / remoteCallForHeatRX")
p("Boiler never runs without a recent call for heat",
  "If no valve has called for heat with at least 50% open during the configured minimum on-time, the boiler is off; a call of at least 66% is always counted as a call for heat, and a call below 50% never is; when not a hub the boiler pin is held low.",
  "all histories", "Unbounded histories.",
  U+"OTRadValve_BoilerDriver.h:OnOffBoilerDriverLogic")
p("Schedule on/off windows",
  "A schedule set to start at time t (rounded down to 6 minutes) reports WARM exactly in the circular window starting 36 minutes (pre-warm) before t and lasting pre-warm plus on-time, wrapping correctly at midnight; on/off times read back are within one granule of what was set; invalid times are refused.",
  "all start times, all minutes of the day, both schedules", "1440 x 240 x 240 combinations with wrap-around (and any learned on-time).",
  U+"OTRadValve_SimpleValveSchedule.cpp:getSimpleScheduleOn/Off / isAnyScheduleOnWARMNow", U+"OTRadValve_SimpleValveSchedule.h")
p("Schedule application follows the programme",
  "While the on-time in force is constant, if the schedule is applied every minute and the user does not intervene, then from any starting mode, from the first scheduled boundary on, the valve mode is WARM exactly when some schedule is on; a manual override persists only until the next boundary.",
  "all programmes (one or two schedules), all starting times and modes, unbounded time", "Unbounded time and all pairs of programmes.",
  U+"OTRadValve_SimpleValveSchedule.cpp:applyUserSchedule")
p("Bake mode always times out",
  "After BAKE is started it ends by itself after exactly the configured number of minutes unless restarted, selecting FROST or cancelling ends it at once, and the mode never leaves {FROST, WARM, BAKE}.",
  "all sequences of mode operations", "Unbounded sequences.",
  U+"OTRadValve_ValveMode.h:ValveMode")
p("Temperature dial mapping",
  "The warm target derived from the dial is within the parameter set's scale, is monotone in dial position, hits the scale minimum and maximum at the ends, and the frost target never exceeds the warm target.",
  "all dial positions 0..255, all calibration endpoints, each shipped parameter set", "All calibrations x positions.",
  U+"OTRadValve_TempControl.h:TempControlTempPot::computeWARMTargetC")
p("Occupancy timers",
  "Marking occupied keeps the room reported occupied for exactly the documented number of minutes, weaker hints never shorten an already longer occupancy, vacancy hours count up correctly and saturate, and holiday mode gives immediate long vacancy.",
  "all sequences of marks and minute reads", "Unbounded sequences.",
  U+"OTV0P2BASE_SensorOccupancy.cpp:PseudoSensorOccupancyTracker")
p("Occupancy tracking is ISR-safe",
  "When marks from an interrupt are interleaved at any point of the minute read or of another mark, an occupied mark is never lost: afterwards the room is reported occupied with at least (timeout-1) minutes remaining.",
  "all interleavings of the ISR with the main-line code", "Races show up only in specific interleavings.",
  U+"OTV0P2BASE_SensorOccupancy.cpp", U+"OTV0P2BASE_Concurrency.h:safeDecIfNZWeak")
p("Clock persistence",
  "After a restart the restored time of day is within a quarter hour of the time last persisted, persisting within the same hour only clears bits, and an unset or corrupt stored time is reported as an error leaving the time of day unchanged; a power failure while persisting leaves either the old or the new stored time.",
  "all times, all prior store contents", "All store contents (crash/wear-damaged).",
  U+"OTV0P2BASE_RTC.cpp:persistRTC / restoreRTC")
p("Real-time clock ticks correctly",
  "Each 2-second tick advances the clock by exactly 2 seconds; the time of day always lies in 00:00..23:59, and after 43200 ticks it is unchanged with the day count one higher.",
  "all clock states, any number of ticks", "Unbounded ticks and carries.",
  U+"OTV0P2BASE_RTC.cpp:tickRTC ISR / setHoursMinutesLT")
p("Motorised valve position estimate in range",
  "The position computed from dead-reckoning is always within 0..100%, monotone in the tick counts, terminates for all counts, and intermediate estimates are never reported as fully open or closed.",
  "all tick counts and calibrations", "All 2^64 calibration/tick states.",
  U+"OTRadValve_CurrentSenseValveMotorDirect.cpp:CalibrationParameters::computePosition / recomputeIntermediatePosition")
p("Motorised valve state machine safety",
  "Over any sequence of polls, pin-withdraw waits, end-stop callbacks, battery states and targets, the reported position is 0..100%, states only advance along documented edges, and in non-proportional operation the valve never reports fully open/closed without the required consecutive end-stop confirmations.",
  "all event histories", "Unbounded event histories with nondeterministic hardware.",
  U+"OTRadValve_CurrentSenseValveMotorDirect.cpp:CurrentSenseValveMotorDirect::poll / do_valveNormal_prop / do_valveCalibrating_prop")
p("FHT8V bit-stream round trip",
  "The FHT8V transmit encoding of any command decodes back to exactly the same house codes, command and extension; the stream is 0xff-terminated with no earlier 0xff and fits the documented buffer size.",
  "all hc1, hc2, command and extension bytes", "2^32 commands; bit-packing across byte boundaries.",
  U+"OTRadValve_FHT8VRadValve.cpp:FHT8VCreate200usBitStreamBptr / FHT8VDecodeBitStream")
p("FHT8V decoder is safe on arbitrary input",
  "The FHT8V decoder, on any received buffer, terminates, never reads beyond the last byte given, and accepts only messages with correct parity on every byte and correct checksum.",
  "all received buffers", "Arbitrary noise input.",
  U+"OTRadValve_FHT8VRadValve.cpp:readOneBit / readOneByteWithParity / FHT8VDecodeBitStream")
p("JSON statistics output is well-formed and bounded",
  "Any JSON line produced by the stats rotation is within the supplied buffer, '\\0'-terminated, starts with '{' and ends with '}', every emitted key/value is a value put in the rotation, and on failure to fit produces an empty result rather than a truncated one.",
  "all sets of stats, values, sensitivities, buffer sizes and rotation states", "All histories of rotation state.",
  U+"OTV0P2BASE_JSONStats.cpp:SimpleStatsRotationBase::writeJSON")
p("JSON frame CRC protection",
  "A JSON message adjusted for transmission and then received is accepted by the receive check with the same content, for all valid JSON bodies; the receive check never reads outside the given buffer; corrupted (odd number of bits flipped / short burst) messages are rejected.",
  "all messages and buffers", "All messages; all buffers of attacker-supplied bytes.",
  U+"OTV0P2BASE_JSONStats.cpp:adjustJSONMsgForTXAndComputeCRC / checkJSONMsgRXCRC")
p("Binary stats codec round trip",
  "Minimal and full binary stats payloads decode to the values encoded for every in-range value, never contain 0xff, and corrupted payloads (single-bit) are rejected by the CRC.",
  "all stats values, IDs and flags", "Cross product of all fields.",
  U+"OTV0P2BASE_SimpleBinaryStats.cpp:writeTrailingMinimalStatsPayload / encodeFullStatsMessageCore / decodeFullStatsMessageCore")
p("Hourly statistics smoothing",
  "Smoothing a new sample into an hourly statistic always gives a result between the old and new values, converges to a constant input, and never produces the 'unset' value from set values.",
  "all old/new values and unbounded update sequences", "Convergence is a property of unbounded iteration.",
  U+"OTV0P2BASE_Stats.h:smoothStatsValue", U+"OTV0P2BASE_Stats.cpp:updateStatsCore")
p("Temperature compression is monotone and accurate",
  "Compressing and re-expanding a temperature reproduces it within the documented quantisation over the supported range, saturates outside it, is monotone, and never yields the 'unset' byte 0xff.",
  "all 16-bit temperatures", "65536 inputs plus monotonicity over all pairs.",
  U+"OTV0P2BASE_Stats.cpp:compressTempC16 / expandTempC16")
p("Hour-of-day quartile statistics",
  "inOutlierQuartile/getMin/Max by-hour queries agree with the mathematical definition (number of set samples strictly below/above) for any stored day of statistics.",
  "all 24-element stat sets with unset entries", "256^24 arrays.",
  U+"OTV0P2BASE_Stats.cpp:inOutlierQuartile / getMinByHourStat / getMaxByHourStat")
p("Unique transmit IVs across all secure frames",
  "Every secure frame successfully produced by encode() (beacons, valve frames) over a node's life carries a distinct IV, so no key/IV pair is reused, including across restarts and failed sends.",
  "all histories of sends, restarts and crash points", "Unbounded histories with crash points.",
  SF+":SimpleSecureFrame32or0BodyTXBase::encode / encodeValveFrame / generateSecureBeacon", SFH+":computeIVForTX12B")
p("Secure sends succeed when their preconditions hold",
  "Each secure-send API (generic body, valve frame, beacon) produces a non-empty valid frame whenever the ID, counter, key and buffers are valid, and returns 0 without a partial frame otherwise.",
  "all valid arguments", "All argument combinations.",
  SF+":encode / encodeValveFrame", SFH+":generateSecureBeacon")
p("Temperature dial sensor",
  "Any dial movement of at least one step of the reduced scale is reported exactly; mode callbacks are made only when the reported position changes, never on the first reading, always with an occupancy report, and are the ones the new position calls for (bottom: FROST, top: BAKE, down: cancel BAKE, up: WARM); the reported position follows the dial however it is turned.",
  "all sequences of raw readings, all end stops", "Unbounded sequences of readings and 16-bit wrap-around in the hysteresis test.",
  U+"OTV0P2BASE_SensorTemperaturePot.h:SensorTemperaturePot::read")
p("Setback lockout countdown",
  "The setback lockout counts down by exactly one per call to zero and stays there, an unset store means no lockout, nothing else in the store changes, and a power failure during the count leaves the old or the new count.",
  "all store contents and crash points", "All store contents with crash points.",
  U+"OTRadValve_ModelledRadValve.h:getSetbackLockout / countDownSetbackLockout")
p("Filter engagement and hold time",
  "The temperature filter is on after any minute in which the reading differs by more than 0.5C from the one five minutes earlier, is started by nothing else, then stays on for at least a further 63 minutes, and is released only when the raw reading is within 3/16C of the smoothed one.",
  "all temperature histories", "Unbounded histories of readings.",
  U+"OTRadValve_ModelledRadValveState.h:ModelledRadValveState::tick")
p("Cumulative movement statistic",
  "Without an attached device the reported cumulative movement is the total travel of the computed valve position since start, modulo 1024.",
  "all histories", "Unbounded histories and wrap-around.",
  U+"OTRadValve_ModelledRadValveState.h:ModelledRadValveState::tick")
p("No endless part-open call for heat",
  "If all inputs (room temperature included) stay constant then within a bounded number of minutes, from any state, the valve is either below the boiler's call-for-heat threshold or as far open as permitted, and stays so: it does not hover part-open calling for heat.",
  "all states and constant inputs", "Liveness over all states, unbounded time.",
  U+"OTRadValve_ModelledRadValveState.h:ModelledRadValveState::computeRequiredTRVPercentOpen")
p("Reported valve status is truthful",
  "The complete valve reports calling-for-heat exactly when the room is below target, its opening was at the call-for-heat level and at least the really-open threshold and any attached device agrees it is open; reports under-target exactly when the room is below target; reports as setback exactly how far the target is below the user's warm setting (at most 6C, 0 in frost mode); and BAKE ends as soon as the target is reached. The stored really-open threshold reads back as set, and is 1..100 whatever is stored.",
  "all states and inputs", "All combinations of state and inputs.",
  U+"OTRadValve_ModelledRadValve.h:ModelledRadValvePlugglableState::computeTargetTemperature / getMinValvePcReallyOpen / setMinValvePcReallyOpen")
p("Frost protection and overheat cut-off of the complete valve",
  "The complete valve (mode, schedule, target, setbacks and position computation together) opens to its permitted maximum within a bounded time when the room stays below the minimum temperature, and closes within a bounded time when the room stays well above the highest target the controls can ask for, whatever the user, schedule, occupancy and light do meanwhile.",
  "all histories of user operations and inputs", "Composition of several stateful components over unbounded histories.",
  U+"OTRadValve_ModelledRadValve.h:ModelledRadValvePlugglableState::read / setupInputState", U+"OTRadValve_ModelledRadValveState.h:tick")
p("Received-frame trimming keeps the message",
  "The optional receive filter only ever drops zero bytes from the end of a frame, leaves one of them, keeps at least one byte, and looks at nothing outside the frame; the length helper for 0xff-terminated frames returns exactly the position of the first 0xff, or 0 when there is none in 256 bytes, reading no further than it.",
  "all frames and lengths up to 255", "All buffers and positions of zeros.",
  U+"OTRadioLink_OTRadioLink.cpp:frameFilterTrailingZeros / frameLenFFTerminated")
p("FHT8V valve scale conversion",
  "Percent open converts to the FHT8V 0..255 scale and back monotonically, exactly at both ends (never turning a part-open valve into a closed or fully open one) and to within one percent in the round trip.",
  "all percentages and scale values", "Arithmetic shortcuts with rounding at every value.",
  U+"OTRadValve_FHT8VRadValve.h:convertPercentTo255Scale / convert255ScaleToPercent")
M1=U+"OTRadValve_CurrentSenseValveMotorDirect.cpp:"
M2=U+"OTRadValve_CurrentSenseValveMotorDirect.h:"
p("Valve calibration is sound and complete",
  "Calibration from any measured travel counts terminates and succeeds exactly when proportional running is then possible; on success one minimum pulse moves the valve by less than the claimed precision (at most 15%) plus one percent and the exchange rate between opening and closing counts is right to within one count; any balanced valve with a travel of more than eight minimum pulses is accepted.",
  "all measured travel counts and minimum pulse lengths", "2^40 measurements.",
  M1+"CalibrationParameters::updateAndCompute")
p("Motor is left off and only started in time",
  "Whatever the hardware reports, when a poll returns the motor is off, every pulse was started only after reading a sub-cycle time early enough for the pulse to end within the allowed limit, and a poll made too late in the cycle does nothing.",
  "all histories of polls, callbacks and times", "All schedules of callbacks and clock readings.",
  M1+"CurrentSenseValveMotorDirectBinaryOnly::poll / runTowardsEndStop / wiggle")
p("Low supply never closes the valve",
  "In normal operation with the supply reported low the valve is never driven towards closed (fail-safe open).",
  "all histories and supply readings", "All states of the driver at the moment the supply drops.",
  M1+"CurrentSenseValveMotorDirectBinaryOnly::poll / do_valveNormal_prop")
p("Really-open threshold of the motorised valve",
  "The driver's really-open threshold is always 1..99%, and the valve is reported really open exactly in normal operation at or above that threshold, in particular always at the fully-open end stop.",
  "all reachable driver states", "All calibrations and histories.",
  M1+"getMinPercentOpen", M2+"isControlledValveReallyOpen")
p("Motor moves only towards the target and stops there",
  "In normal operation a poll gives the motor at most one pulse, opening only if the target is above the reported position or at least 50% and closing only if it is below or under 50%; once the reported position equals the target, is the end the target calls for, or is within the calibrated precision of an intermediate target, the motor is not run at all; and the end-stop-only driver reaches the end called for within four polls that hit it.",
  "all reachable states, targets and hardware responses", "Unbounded histories of targets and hardware responses.",
  M1+"CurrentSenseValveMotorDirectBinaryOnly::poll / do_valveNormal_prop")
J="content/OTRadioLink/utility/OTV0P2BASE_JSONStats.cpp:"
p("Statistics rotate without starvation",
  "As long as the buffer has room for the leading members and any one statistic, every statistic of normal priority is included in at least one of any 4N successive messages (N the number of statistics), whatever values are put meanwhile; on three of four messages a changed value, if pending, is included first; with maximise no changed value that would still fit is left out.",
  "all rotation states and histories of puts and writes", "Unbounded histories of interleaved updates and messages.",
  J+"SimpleStatsRotationBase::writeJSON / changedValue")
p("The statistics set is a finite map",
  "Putting, describing and removing statistics behaves as a map from names to values of bounded size: put sets exactly that name (marking it changed iff new or different), remove deletes exactly that name, a full set refuses new names only, names and ID that would need JSON escaping are refused, and every history of calls keeps names distinct.",
  "all histories of calls", "All histories and key sets.",
  J+"SimpleStatsRotationBase::put / putDescriptor / remove / findByKey / isValidSimpleStatsKey")
BS=U+"OTV0P2BASE_SimpleBinaryStats.cpp:"
ST=U+"OTV0P2BASE_Stats.h:"
p("Binary stats privacy",
  "What a full binary stats message contains depends only on the fields the privacy level allows: whenever the level is above 'always all', two states differing only in occupancy encode to the same bytes, and the ID, temperature/power and ambient-light fields appear exactly when present and requested.",
  "all stats structures and privacy levels", "All pairs of states (a hyperproperty).",
  BS+"encodeFullStatsMessageCore")
p("Binary stats codec memory safety",
  "Decoding never reads outside the bytes given, and encoding never writes outside the buffer given, whatever the content, and encoding fails with 0 exactly when there is no room for the whole message.",
  "all buffers, lengths and contents", "All malformed inputs.",
  BS+"encodeFullStatsMessageCore", BS+"decodeFullStatsMessageCore")
p("Binary stats acceptance grammar",
  "A received full stats message is accepted exactly when it is the wire image of some structure: right header, allowed flags, no 0xff, fields in range, right CRC; a minimal one exactly when its three bytes have the right header bits and CRC.",
  "all byte sequences", "2^(8n) inputs.",
  BS+"decodeFullStatsMessageCore", BS+"verifyHeaderAndCRCForTrailingMinimalStatsPayload")
p("Binary stats error detection of the minimal payload",
  "The minimal 3-byte payload detects every single-bit error, and the errors of up to three bits that go undetected are exactly the characterised two-bit pattern.",
  "all payloads and error patterns", "All payloads times all patterns.",
  BS+"writeTrailingMinimalStatsPayload", BS+"verifyHeaderAndCRCForTrailingMinimalStatsPayload")
p("Hourly statistics hold the rounded mean of the hour",
  "After an hour of sub-samples and a final full sample, the hour's raw slot for each sensor that was available throughout holds the mean of the accepted samples (the first M-1 and the final one), rounded to nearest, temperature then compressed, and the smoothed slot holds that value if it was unset, else the old one smoothed towards it; nothing is ever written by a sub-sample, to another hour, to other sets, or for an unavailable sensor.",
  "all numbers of sub-samples, readings and stored values", "All sample sequences.",
  ST+"StatsUpdaterLogic::update_stats_store", ST+"update_stats_pair", ST+"divide_to_u8")
p("Hourly statistics stay in range",
  "Over any history of calls, every stored hourly statistic is the unset mark or in the range of its kind (temperature 0..248, light 0..254, occupancy and humidity 0..100).",
  "all histories of sub-samples and full samples", "Unbounded histories.",
  ST+"StatsUpdaterLogic::update_stats_store")
p("EEPROM statistics store",
  "The slots of all sets and hours are disjoint; writing one leaves every other EEPROM cell alone whenever power fails, and leaves the slot old or new; reading gives what was written; invalid sets or hours read as unset and write nothing.",
  "all sets, hours, values, EEPROM contents and power-failure points", "All crash points.",
  U+"OTV0P2BASE_EEPROM.h:EEPROMByHourByteStats::_getByHourStatSimple / _setByHourStatSimple")
p("Erasing statistics is bounded and terminates",
  "Erasing statistics touches only the statistics area even if power fails, erases at most the given number of bytes per call, answers 'done' only when the whole area is erased, and repeated calls always finish.",
  "all EEPROM contents, limits and power-failure points", "All crash points and contents.",
  U+"OTV0P2BASE_EEPROM.cpp:EEPROMByHourByteStats::_zapStats")
FV=U+"OTRadValve_FHT8VRadValve.cpp:FHT8VRadValveBase::"
FH=U+"OTRadValve_FHT8VRadValve.h:FHT8VRadValveBase::"
p("FHT8V synchronisation timeline",
  "An available FHT8V driver that starts (or is told to restart) synchronising sends nothing while it randomly puts the start off by whole two-second cycles, then 120 sync commands exactly one second apart counting 241, 239 .. 3, each sent twice, then the sync-final command exactly (HC2 mod 8)/2 + 4 s after the sync commands end, then valve commands every 115 + (HC2 mod 8)/2 s, and nothing else.",
  "all EEPROM contents, set-up operations, house codes, random numbers, target changes at any slot, and run lengths", "Runs are unbounded and the random start and the house code multiply the cases.",
  FV+"doSync", FV+"FHT8VPollSyncAndTX_First", FV+"FHT8VPollSyncAndTX_Next")
p("FHT8V valve commands are regular and current",
  "In any state the main loop can reach in which the driver is in sync, and while radio and house codes are left alone, a single valve command with the current house codes and the latest accepted target is sent exactly every 230 + (HC2 mod 8) half-second slots, and nothing is sent in between.",
  "all reachable states, all later target changes, all run lengths", "All histories.",
  FV+"FHT8VPollSyncAndTX_First", FV+"FHT8VPollSyncAndTX_Next", FH+"FHT8VTXGapHalfSeconds")
p("FHT8V driver sends only what it should",
  "After any history of calls in any order, only a poll sends, at most one command, only with a radio set; sync commands only while out of sync, doubled, with the current house codes; valve commands only while in sync, single, with the current house codes and the latest accepted target.",
  "all call histories, in any order", "All histories.",
  FV+"valveSettingTX", FV+"FHT8VTXFHTQueueAndSendCmd", U+"OTRadValve_FHT8VRadValve.h:FHT8VRadValve::set")
p("FHT8V valve reported open only if told to open",
  "Whenever the driver reports the controlled valve really open, it is in sync, the target is at least the minimum open percentage and the last command sent to the valve was a valve command of at least that percentage.",
  "all call histories", "All histories.",
  FH+"isControlledValveReallyOpen", FV+"setFHT8V_isValveOpen")
p("FHT8V driver available iff configured",
  "The driver is available, and drives its valve, exactly when a radio and valid house codes are set.",
  "all call histories", "All histories.",
  FH+"isAvailable", FV+"doSync")
p("FHT8V house codes survive restarts",
  "After a restart, loading the stored house codes gives the codes last stored, whatever happened before, and unset codes if those are not valid; nothing else changes the stored codes.",
  "all call histories and EEPROM contents", "All histories.",
  FV+"nvSetHC1 / nvSetHC2 / nvClearHC", FV+"nvLoadHC")
p("Receive queues stay safe with an over-long frame length",
  "If the interrupt routine reports a frame longer than the maximum, no access leaves the queue's buffer and no longer length is passed on.",
  "all histories and all length bytes", "All histories.",
  U+"OTRadioLink_ISRRXQueue.h:ISRRXQueue1Deep::_loadedBuf", U+"OTRadioLink_ISRRXQueue.h:ISRRXQueueVarLenMsgBase::_loadedBuf")
AL=U+"OTV0P2BASE_SensorAmbientLight.h:SensorAmbientLightAdaptiveTBase::"; AB=U+"OTV0P2BASE_SensorAmbientLight.h:SensorAmbientLightBase::"
AO=U+"OTV0P2BASE_SensorAmbientLightOccupancy.cpp:SensorAmbientLightOccupancyDetectorSimple::"
p("Ambient light thresholds stay ordered and usable",
  "At all times the light threshold is in [1,254], the dark threshold in [0,253] and strictly below it; the range is flagged too narrow exactly when both long-term limits are known and within 4 of each other (or inverted, or the minimum is at the top of the scale), and then the room is reported neither lit nor dark and the dark time is zero; when the limits are known and usable a reading at the long-term maximum is reported lit and one at the long-term minimum dark.",
  "all histories of readings and statistics updates, all byte values", "All histories, 2^25 parameter combinations.",
  AL+"recomputeThresholds", AL+"setTypMinMax", AB+"isRoomLit", AB+"isRoomDark")
p("Room lit/dark hysteresis",
  "With a usable range the room is reported lit exactly when some reading was above the light threshold in force at the time and no reading since was at or below the dark threshold in force at its time; otherwise it is reported dark; it is never reported both. It is reported very dark exactly when, with a usable range, the last reading was at most 4.",
  "all histories of readings, statistics updates, callback changes and resets", "All histories.",
  AL+"read", AB+"isRoomLit", AB+"isRoomDark")
p("Dark minutes",
  "The dark time reported is the number of readings at or below the dark threshold while the range was usable since the last reading above the light threshold (or reset or too-narrow range), saturating at 65535; it is non-zero only if the room is reported dark.",
  "all histories", "All histories; saturation takes 45 days.",
  AL+"read", AB+"getDarkMinutes")
p("Light-based occupancy reported exactly on the documented evidence",
  "An update reports probable occupancy exactly when there is a rise of at least 4 and at least the required fraction of the usual mean after three steady ticks (and the room was not very dark for 255 ticks), or when such a rise from long dark is confirmed; weak exactly for the unconfirmed rise from long dark or for 30 ticks of steady light near the usual mean and away from the extremes; never strong; never on a falling level or on the first level after power-up.",
  "all histories of levels and settings", "All histories; the state depends on up to 255 previous levels.",
  AO+"update", AO+"setTypMinMax")
p("A flash of light in a dark room does not wake the heating",
  "After at least 255 steady ticks at or below the dark floor a sudden rise is not reported as probable occupancy, nor are the next two levels, whatever they are; if the level falls back by 4 or more the rise is forgotten; if the light stays on and steady the third following update reports probable occupancy.",
  "all histories and later levels", "All histories.",
  AO+"update")
p("Occupancy callbacks of the light sensor",
  "A reading makes the callback with 'probable' exactly when the detector, shown the readings made while a callback was set, reports probable occupancy; with 'weak' exactly when it reports weak and the reading is above the light threshold; no callback is made otherwise, or when none is set.",
  "all histories", "All histories.",
  AL+"read", AL+"setOccCallbackOpt")
MS=U+"OTRadioLink_Messaging.h:"
p("The hub never acts twice on a message, nor on an old one",
  "Over any sequence of received messages, two messages that make the hub act (call the boiler, relay, print) on behalf of one node carry strictly increasing message counters, and the same message bytes never make it act twice; handling never runs into undefined behaviour whatever the bytes.",
  "all message sequences, EEPROM contents, keys, primitives, operators and stack contents", "All histories of arbitrary bytes.",
  MS+"decodeAndHandleRawRXedMessage", MS+"decodeAndHandleOTSecureOFrame", MS+"authAndDecodeOTSecurableFrame")
p("The hub acts only on authentic messages, and only on what they say",
  "The hub calls for heat, relays or prints only for a well-formed secure O frame that authenticates under the key and an associated node's ID and is newer than that node's last; the boiler percentage is then the first byte of the decrypted body and at most 100, the relayed bytes are exactly the received frame, and the printed text is exactly the stats after the brace; any other message changes nothing and is offered to the next handler.",
  "all messages, EEPROM contents, keys, primitives, operators and stack contents", "All inputs, including all forgeries.",
  MS+"boilerFrameOperation", MS+"relayFrameOperation", MS+"serialFrameOperation", MS+"decodeAndHandleOTSecureOFrame")
p("A valve's report reaches the boiler",
  "A valve frame encoded by any transmitter whose ID is associated with the hub and received intact with a counter newer than the last makes the hub call for heat with exactly the valve percentage when it is 0 to 100 and not at all otherwise, relay it exactly and print its stats exactly when it carries non-empty stats, and advances the stored counter to the frame's.",
  "all transmitter and hub states, valve positions, stats, IDs, counters, trailing buffer bytes, inverse encryption/decryption pairs", "All inputs of two devices at once.",
  MS+"decodeAndHandleOTSecureOFrame", U+"OTRadioLink_SecureableFrameType.cpp:SimpleSecureFrame32or0BodyTXBase::encodeValveFrame")
p("Queued messages are handled one per call, oldest first, never late in the cycle",
  "Each handler call made before 3/4 of the sub-cycle handles and removes exactly the oldest queued message, or none if the queue is empty; a later call does nothing; so after any calls the messages handled are exactly the first k queued, in order, with k the number of in-time calls capped by the queue length; a call reports work done exactly when in time and there was a message or serial activity.",
  "all call sequences, queue contents and handlers", "All histories.",
  MS+"OTMessageQueueHandler::handle")
UI_=U+"OTRadValve_ActuatorPhysicalUI.h:"
UC_=U+"OTRadValve_ActuatorPhysicalUI.cpp:"
p("Recent use of the controls lapses on time",
  "After a read() that reports activity, recentUIControlUse() stays true for at least the next 928 reads (2 s each) with nobody touching the unit and is false after 992, veryRecentUIControlUse() for at least 32 and not after 96; whatever the history, the remaining minutes are those there were less one per 32 reads, never below zero.",
  "all configurations, histories of reads, presses, dial and mode changes, and interrupt timings", "All histories and interrupt points.",
  UI_+"recentUIControlUse", UI_+"veryRecentUIControlUse", UC_+"ModeButtonAndPotActuatorPhysicalUI::read")
p("A press of the boost button is never lost",
  "With the dial neither at its bottom end nor being turned down, a press of the MODE button at any moment of a read() leaves the valve in BAKE for the full period, the room occupied and the controls very recently used at its end, whatever else the read does; and the read reports activity unless the press fell in the instant between the flag being copied and cleared (then the report, though nothing else, is lost).",
  "all configurations, states, inputs, and numbers of presses at every interrupt point", "All interrupt timings.",
  UI_+"startBakeFromInt", UC_+"ModeButtonAndPotActuatorPhysicalUI::read")
p("Turning the dial to the bottom means FROST",
  "Every read that finds the dial newly at its bottom end, and every fourth read with it there, leaves the valve in FROST with no BAKE pending, whatever presses occur at whatever moment and whatever the dial's callbacks do; and it stays in FROST through any reads, presses and minutes while the dial is left there.",
  "all configurations, states, histories and interrupt timings", "All histories and interrupt points.",
  UC_+"ModeButtonAndPotActuatorPhysicalUI::read", UI_+"startBakeFromInt")
p("A UI read is short",
  "A read() takes at most 350 ms (waits and naps).",
  "all configurations, states, inputs and interrupt timings", "All paths.",
  UC_+"ModeButtonAndPotActuatorPhysicalUI::read", UI_+"pollMODEButton")
p("The LED tells the mode, and does not disturb",
  "Every read ends with the LED off; with no press or feedback in it, it flashes exactly: when just or very recently touched once, twice if calling for heat (or under target while very recent) and three times in BAKE; otherwise, only if the room is not dark, in WARM the same on every fourth read or when calling for heat or in BAKE, and in FROST twice on every fourth read when calling for heat; so in the dark with nobody at the controls there is no light at all.",
  "all configurations, states and inputs", "All states and inputs.",
  UC_+"ModeButtonAndPotActuatorPhysicalUI::read")
p("Clicks count degrees",
  "After the dial is turned so that the target differs by x from that last shown, each of the next x reads gives exactly one click and later ones none (x up to 10; exactly one click in all if x is more), with FROST and BAKE ends counting as one beyond the scale.",
  "all configurations, states, dial positions and numbers of reads", "All histories of unbounded length.",
  UC_+"ModeButtonAndPotActuatorPhysicalUI::read", UI_+"userOpFeedback")
p("Power-up",
  "From power-up with the dial steady above its bottom end, the unit is in FROST until the fourth read and in WARM, never BAKE, from then on, and no read ever clicks, reports activity or counts as use of the controls, for however many reads.",
  "all configurations and unbounded numbers of reads", "Unbounded histories.",
  UC_+"ModeButtonAndPotActuatorPhysicalUI::read")
p("Holding the MODE button cycles through the modes",
  "On units with the cycling button, holding it for n reads and letting go leaves the mode n steps on in the cycle FROST, WARM, BAKE from that at the first (BAKE with the full period), changes no mode while held, and is reported as activity, whatever interrupts and minutes pass meanwhile.",
  "all states, numbers of reads and interrupt timings", "Unbounded histories.",
  UI_+"pollMODEButton")
CL=U+"OTV0P2BASE_CLI.cpp:"
p("Reading a command line is safe and exact",
  "The line reader never writes or reads outside the caller's buffer; a line it delivers is exactly the printable characters typed up to the end of line (leading ones that cannot start a command dropped, the first upper-cased), NUL-terminated, or the first size-1 of them; a line that fits and is completed in time is delivered; it gives up without a line at the first idle look after its time limit, and at once if too little time is left or the buffer is too small.",
  "all buffers, time limits, character sequences and timings", "All schedules of arriving characters.",
  CL+"promptAndReadCommandLine")
p("Numbers on the command line",
  "One or two hex digits (either case) are parsed to their value, anything not starting so is rejected, and every byte survives printing and parsing in hex; a decimal number up to 32767 is parsed to its value.",
  "all strings", "All strings.",
  U+"OTV0P2BASE_Util.cpp:parseHexByte", U+"OTV0P2BASE_Util.h:parseHexDigit", CL+"GenericParam::doCommand")
p("A CLI command changes only what it is about",
  "Whatever is typed, whatever the EEPROM contains and whenever the power fails, each command changes no EEPROM byte outside its own area: associations (A), nothing (D), generic parameters (G), node ID (I), the key and what the key-cleared callback changes (K), saved time (T), privacy level (X), statistics (Z); and so for any session of commands.",
  "all commands, lines, EEPROM contents, sessions and power-failure points", "All inputs and crash points.",
  CL+"SetNodeAssoc::doCommand", CL+"SetSecretKey::doCommand", CL+"GenericParam::doCommand", CL+"ZapStats::doCommand")
p("CLI node associations",
  "A with eight ID bytes appends exactly that ID after those present and reports its index, or is refused if the table is full; A ? lists all of them in order and finds the first with a given first byte; A * clears them; every other line is refused and changes nothing.",
  "all lines and EEPROM contents", "All strings and tables.",
  CL+"SetNodeAssoc::doCommand", U+"OTV0P2BASE_Security.cpp:addNodeAssociation")
p("CLI generic parameters",
  "G N shows parameter N and G N V sets it to V (0-255) for each N from 0 to 31, changing nothing else; any other N or V is refused and changes nothing.",
  "all lines and EEPROM contents", "All strings.", CL+"GenericParam::doCommand")
p("CLI secret key",
  "K B with sixteen hex bytes sets exactly that key; K B * clears it and then runs the callback; every other line is refused and leaves the key alone.",
  "all lines, EEPROM contents and callbacks", "All strings.",
  CL+"SetSecretKey::doCommand", U+"OTV0P2BASE_Security.cpp:setPrimaryBuilding16ByteSecretKey")
p("The node ID",
  "Creating the node ID, whatever the EEPROM and the random bytes and whenever the power fails, never changes a byte that was set (unless forced), writes only usable ID bytes and reports success exactly if all are usable; it finishes given eight usable random bytes; I shows the stored ID, I * renews it, I with eight usable bytes sets exactly those, and any other line sets nothing.",
  "all lines, EEPROM contents, random sequences and power-failure points", "All inputs and crash points.",
  U+"OTV0P2BASE_Security.cpp:ensureIDCreated", CL+"NodeID::doCommand", CL+"NodeIDWithSet::doCommand")
p("CLI time and privacy",
  "T HH MM sets exactly that time of day, keeping seconds and date, and anything else is refused and changes nothing; X NN sets exactly privacy level NN.",
  "all lines, clocks and EEPROM contents", "All strings.",
  CL+"SetTime::doCommand", CL+"SetTXPrivacy::doCommand")
p("CLI statistics",
  "D N shows for each hour in order the value of set N ('-' if unset, degrees for temperatures) with a mark at the current hour, and changes nothing; Z erases statistics and says so exactly when none are left; if it reports not being finished there are fewer left than before.",
  "all lines, EEPROM contents and times left", "All contents.",
  CL+"DumpStats::doCommand", CL+"ZapStats::doCommand")
p("CLI house code",
  "H with two numbers from 0 to 99 sets the live and the stored house code and makes the valve resynchronise exactly if the code changed; H alone forgets both; numbers out of range and incomplete lines change nothing.",
  "all lines and valve states", "All strings and states.",
  U+"OTRadValve_FHT8VRadValve.cpp:SetHouseCode::doCommand")
p("The CLI stays active for its time-out",
  "The CLI is active exactly if it was started and neither stopped nor left for two count-downs since, for any history, including starts and stops from interrupts in the middle of a count-down (a start in the very minute of an earlier start counts from that one).",
  "all histories and interrupt points", "All histories.",
  CL+"resetCLIActiveTimer", CL+"countDownCLI", U+"OTV0P2BASE_Concurrency.h:safeDecIfNZWeak")
p("The CLI does not reveal the secret key",
  "Two devices differing only in their secret key answer every command, and any session of commands, with identical output, and afterwards still differ only in the key (assuming that the key-cleared callback does not itself read the key).",
  "all commands, lines, sessions and EEPROM contents", "Relates all pairs of executions.",
  CL+"SetNodeAssoc::doCommand", CL+"SetSecretKey::doCommand", CL+"GenericParam::doCommand", CL+"DumpStats::doCommand")
GS=U+"OTSIM900Link_OTSIM900Link.h:"
p("The GSM link sends what was queued",
  "queueToSend() accepts exactly the messages of up to 64 bytes; every frame the link writes to the module is the last message accepted and not yet written, so each is written at most once and a replaced one never; each frame directly follows an announcement of its exact length.",
  "all histories of polls, queueing and module answers", "All schedules and module behaviours.",
  GS+"queueToSend", GS+"poll", GS+"initUDPSend")
p("The GSM link delivers",
  "After any history, with a message waiting, from the moment the module behaves (whether on or off and whatever its connection state) and polled every 1 s to 46 s, the link writes the message within 2700 polls and nothing before it; unless it was in the middle of sending, the module transmits it.",
  "all histories, module states, module registration delays and poll times", "Liveness over all histories.",
  GS+"poll", GS+"retryLockOut", GS+"onStateChange")
p("The GSM link's attempts are bounded and spaced",
  "Whatever the module answers, between two power pulses the link asks for the PIN at most 10 times, for registration at most 30, sets the access point, starts GPRS and opens the socket at most 10 times each and announces at most 255 messages; and never repeats one of these attempts within 3 s.",
  "all histories with clocks that do not go backwards", "All module behaviours and schedules.",
  GS+"poll", GS+"setRetryLock", GS+"retryLockOut")
p("The GSM module's power pin",
  "The pin is raised only when low, lowered only when high and at least 3 s after it was raised, and nothing is said to the module until 13 s after it was raised.",
  "all histories with clocks that do not go backwards", "All schedules, including around the minute.",
  GS+"poll", GS+"powerToggle")
p("The GSM link's blocking send",
  "sendRaw() announces the exact length, writes the frame exactly if the module's prompt arrives in time, says so, and returns within about two seconds.",
  "all messages, starting times and characters read", "All timings.",
  GS+"sendRaw", GS+"flushUntil")
p("The GSM module's answers",
  "No answer of the module makes the link read outside its buffers, and answers that report failure (or no answer) are not taken for success.",
  "all character sequences the module may send", "All strings.",
  GS+"getResponse", GS+"setAPN", GS+"openUDPSocket", GS+"isRegistered", GS+"checkUDPStatus")
OW=U+"OTV0P2BASE_MinOW.cpp:MinimalOneWireBase::"; DSC=U+"OTV0P2BASE_SensorDS18B20.cpp:TemperatureC16_DS18B20::"
p("OneWire search finds every device",
  "On any bus, search() returns without touching anything outside the 8-byte address. On a bus of any number of devices with distinct codes, reset_search() followed by search() until it returns false yields every device's code exactly once, in increasing order (bits as sent), and leaves the devices' memories unchanged.",
  "all bus behaviours; all sets of devices", "All sets of 64-bit codes.",
  OW+"search", OW+"reset_search")
p("DS18B20 readMultiple reads the right devices",
  "readMultiple() gives the values of the DS18B20s on the bus from number index on, in order of their codes, as many as asked for or as there are, returns how many, leaves the rest of the array alone, ignores other devices, and gives the present temperatures; read() gives that of the first, or the error value if there is none.",
  "all sets of devices, temperatures, counts, indexes and arrays", "All bus populations and temperatures.",
  DSC+"readMultiple", DSC+"read", DSC+"init")
p("DS18B20 initialisation",
  "getSensorCount() on a new driver returns the number of DS18B20s; afterwards each has exactly the requested precision (9 to 12 bits, else the nearest) in its configuration register and alarm limits 0, everything else in it is unchanged, and no other device has been written.",
  "all sets of devices, scratchpad contents and precisions", "All bus populations.",
  DSC+"init", DSC+"getSensorCount")
JE=U+"OTRadioLink_JeelabsOemPacket.cpp:JeelabsOemPacket::"
p("JeeLabs packets",
  "encode() turns a payload of up to 250 bytes into group, header (node or destination, flags), length, payload and CRC-16, at the start of the buffer, and touches nothing beyond; the radio's filter passes it (up to 59 bytes); decode() by a node of the group gives back exactly the payload, its length and the flags if it is broadcast or for that node, else reports that it is not for it.",
  "all payloads, nodes, groups, flags and buffer contents after it", "All payloads.",
  JE+"encode", JE+"decode", JE+"filter")
p("JeeLabs packets: damage",
  "A packet damaged in a burst of at most 16 bits, in any two bits, or in an odd number of bits (length byte intact) is not passed by the filter and not decoded.",
  "all packets up to 255 bytes, all such damage", "All pairs of packets.",
  JE+"decode", JE+"filter", JE+"calcCrc")
p("JeeLabs packets: bounds",
  "Whatever was received, the filter and decode() of what it passed read only the radio's 64-byte buffer, and only complete packets pass.",
  "all buffer contents", "All buffers.",
  JE+"filter", JE+"decode")
RF=U+"OTRFM23BLink_OTRFM23BLink.h:OTRFM23BLink::"
RFB=U+"OTRFM23BLink_OTRFM23BLink.cpp:OTRFM23BLinkBase::"
p("RFM23B link: receiving, over any history",
  "Whatever frames, flags and interrupts come, interleaved with polling, sending, changing channel, setting filters and reading the queue: a frame received while listening is queued exactly, or counted as filtered or dropped, and the application gets the queued frames in order, each once; no buffer is overrun; afterwards the radio is receiving again on the channel listened to; only what was given to sendRaw() is on the air. A frame is never lost without a counter telling.",
  "all configurations, filters, frames, flags and histories, interrupts at all points they can come", "Interleavings of interrupts with driver code.",
  RF+"_poll", RF+"_RXFIFO", RF+"_dolistenNonVirtual", RF+"_handleInterruptNonVirtual", RFB+"sendRaw")
p("RFM23B link: sending",
  "sendRaw() of up to 64 bytes on an existing channel puts exactly those bytes on the air, once (twice at maximum power), with every register as that channel's configuration says, and returns whether the chip confirmed each transmission; the queue and counters are unchanged and if the link was listening it is receiving again.",
  "all states, frames, channels, powers, and interrupts during the call", "All chip states and interrupt timings.",
  RFB+"sendRaw", RFB+"_queueFrameInTXFIFO", RFB+"_TXFIFO", RFB+"_setChannel")
p("RFM23B link: channels",
  "listen(true, c) makes the radio receive on channel c (or the last, if there are fewer), listen(false) stops it, whatever state it was in, including after end() and begin(); switching to a standard configuration leaves no register of the configuration before.",
  "all states, channel numbers, previous configurations and chip states", "All histories of channel use.",
  U+"OTRadioLink_OTRadioLink.h:OTRadioLink::listen", RF+"_dolistenNonVirtual", RFB+"_setChannel", RFB+"begin", RFB+"end", U+"OTRFM23BLink_OTRFM23BLink.cpp:StandardRegSettingsGFSK57600")
p("RFM23B link: true means sent",
  "If sendRaw() returns true the whole frame was sent on the channel asked for.",
  "all frames and channel numbers", "All inputs.",
  RFB+"sendRaw", RFB+"_setChannel", RFB+"_queueFrameInTXFIFO")
p("Error reports persist",
  "A report given to the error reporter while it is free, or any positive (error) report at any time, is taken; it is then reported unchanged until at least ten polls later whatever warnings or clears come meanwhile, only another error may replace it, and after those polls it is available no longer. The reporter is available exactly when there is an error.",
  "all histories of set() and read()", "All histories.",
  U+"OTV0P2BASE_ErrorReport.h:ErrorReport::set", U+"OTV0P2BASE_ErrorReport.h:ErrorReport::read", U+"OTV0P2BASE_ErrorReport.h:ErrorReport::isAvailable")
p("Supply voltage",
  "The supply voltage reported never exceeds the true one and is at most 3 cV (plus ADC error) below it; 'very low' implies 'low', neither is reported for a supply good enough for mains, and a supply at or below the thresholds is always flagged and, as long as it is very low, stays reported as an error.",
  "all ADC readings, all earlier histories", "All readings and histories.",
  U+"OTV0P2BASE_PowerManagement.cpp:SupplyVoltageCentiVolts::read", U+"OTV0P2BASE_PowerManagement.h:SupplyVoltageCentiVolts::isSupplyVoltageVeryLow")
p("Pseudo-random generator never sticks",
  "From any state each call of randRNG8() changes the state, different states stay different, every state recurs, and no cycle is shorter than 256 calls; seeding keeps apart any two states and any two seeds.",
  "all 2^32 states, all seeds", "All states and unbounded call sequences.",
  U+"OTV0P2BASE_QuickPRNG.cpp:randRNG8", U+"OTV0P2BASE_QuickPRNG.cpp:seedRNG8")
p("Secure random bytes keep their entropy",
  "With the other sources fixed, each source of entropy of getSecureRandomByte() with all its 256 values gives 256 different results.",
  "all values of all sources, both whitening choices", "All combinations.",
  U+"OTV0P2BASE_Entropy.cpp:getSecureRandomByte")
p("TMP112 temperature",
  "If the sensor answers, read() returns the temperature in its register in C/16, leaving TWI power as it was; any bus fault or a conversion that does not finish gives an error value, and the sensor shuts down and power is restored in every case.",
  "all temperatures, all bus faults at each point, all conversion times", "Every fault position.",
  U+"OTV0P2BASE_SensorTMP112.cpp:RoomTemperatureC16_TMP112::read")
p("SHT21 temperature",
  "read() returns the data sheet temperature of the measurement, rounded down by less than 1.5/16 C, monotonic in it, without arithmetic overflow; a measurement that never arrives is an error value; initialisation sets reduced precision and no reserved bit; TWI power is left as found.",
  "all measurements, all user register values", "All readings.",
  U+"OTV0P2BASE_SensorSHT21.cpp:RoomTemperatureC16_SHT21::read", U+"OTV0P2BASE_SensorSHT21.cpp:SHT21_init")
p("SHT21 humidity",
  "read() returns the data sheet humidity of the measurement rounded down, valid exactly if at most 100%, and the high-humidity flag is set above, cleared below and otherwise kept within the hysteresis band; a measurement that never arrives is invalid.",
  "all measurements and previous states", "All readings.",
  U+"OTV0P2BASE_SensorSHT21.cpp:HumiditySensorSHT21::read", U+"OTV0P2BASE_SensorSHT21.h:HumiditySensorBase::isAvailable")
p("Blocking software serial",
  "Bytes sent by an 8N1 sender at a rate within tolerance, back to back or with pauses shorter than the timeout, are returned by successive read() calls, in order, each once, and write() produces an 8N1 frame; an idle or stuck line times out. The delays computed fit every supported baud rate.",
  "all byte sequences, pauses, phases and tolerated clock errors", "All real-time schedules.",
  U+"OTV0P2BASE_SoftSerial2.h:OTSoftSerial2::read", U+"OTV0P2BASE_SoftSerial2.h:OTSoftSerial2::write", U+"OTV0P2BASE_SoftSerial2.h:OTSoftSerial2::begin")
p("Interrupt-driven software serial",
  "Bytes received are returned by read() in order, each once; when the buffer is full new bytes are dropped and nothing else is disturbed; available() and peek() tell the truth; the bytes are those sent.",
  "all byte sequences, interleaved with read() calls", "All interleavings.",
  U+"OTV0P2BASE_SoftSerialAsync.h:OTSoftSerialAsync::handle_interrupt", U+"OTV0P2BASE_SoftSerialAsync.h:OTSoftSerialAsync::read", U+"OTV0P2BASE_SoftSerialAsync.h:OTSoftSerialAsync::begin")
p("RN2483 link: what is sent",
  "sendRaw() gives the module exactly its transmit command with the frame in hexadecimal, whatever the frame (two frames never give the same command) and reads nothing but the frame; it returns true only if the module accepted it; no answer of the module makes it leave its buffers.",
  "all frames up to 255 bytes, all answers", "All frames and answers.",
  U+"OTRN2483Link_OTRN2483Link.cpp:OTRN2483Link::sendRaw", U+"OTRN2483Link_OTRN2483Link.cpp:OTRN2483Link::getHex", U+"OTRN2483Link_OTRN2483Link.cpp:OTRN2483Link::timedBlockingRead")
p("Older software serial",
  "read(buf, len) stores the bytes of an 8N1 message arriving at a rate within tolerance in order and returns their number, at most len; whatever is on the line it stays within the buffer; read() tells a time-out from a byte; the delays fit every baud rate begin() accepts.",
  "all messages, pauses, phases and tolerated clock errors; all line behaviours", "All real-time schedules.",
  U+"OTV0P2BASE_SoftSerial.cpp:OTSoftSerial::read", U+"OTV0P2BASE_SoftSerial.cpp:OTSoftSerial::begin")
p("Serial status line",
  "Every status line, over any sequence of reports, reads back to exactly the mode, valve opening and temperature reported, followed by a well-formed JSON object with the node's ID and sensors' current values; of any 12 lines in a row every sensor is in at least one; each sensor is optional.",
  "all values, all sequences of reports", "All values and histories.",
  U+"OTV0P2BASE_SystemStatsLine.h:SystemStatsLine::serialStatusReport")
p("Sleeping to a sub-cycle time",
  "sleepUntilSubCycleTime(t), called at any phase of any earlier tick of the cycle, returns true within tick t of that same cycle, provided naps overrun by at most half and low-power milliseconds by at most a fifth; if t has passed it returns false at once; true is only ever returned in tick t.",
  "all targets, start times and sleep lengths within tolerance", "All real-time schedules.",
  U+"OTV0P2BASE_Sleep.cpp:sleepUntilSubCycleTime")
p("Naps end with the watchdog",
  "nap() and _idleCPU() return when the watchdog fires, whatever other interrupts wake the CPU before; with premature wake-up allowed they return at the first wake-up and say truly whether the watchdog fired; sleepUntilNewCycle returns at the next roll of the seconds, never with the old ones.",
  "all sequences of interrupts at all program points", "Interrupts may fall between any two instructions.",
  U+"OTV0P2BASE_Sleep.cpp:nap", U+"OTV0P2BASE_Sleep.cpp:_idleCPU", U+"OTV0P2BASE_Sleep.cpp:sleepPwrSaveWithBODDisabled", U+"OTV0P2BASE_Sleep.h:sleepUntilNewCycle")
p("Busy-wait delays",
  "The microsecond and millisecond delays take the time asked for over their documented ranges on each supported CPU (AVR at 1 and 16 MHz, ARM).",
  "all delay arguments", "All arguments, cycle by cycle.",
  U+"OTV0P2BASE_Sleep.h:OTV0P2BASE_busy_spin_delay", U+"OTV0P2BASE_Sleep.h:_delay_x4cycles", U+"OTV0P2BASE_Sleep.h:delay_ms", U+"OTV0P2BASE_Sleep.h:_sleepLowPowerMs")
p("Sub-cycle arithmetic",
  "msRemainingThisBasicCycle() never exceeds the real time left in the cycle and is not far below it; the emulated sub-cycle of the EFR32 counts 256 ticks in 2 s.",
  "all times in the cycle, all core clocks", "All times.",
  U+"OTV0P2BASE_Sleep.h:msRemainingThisBasicCycle", U+"OTV0P2BASE_Sleep.h:setupEmulated2sSubCycle")
p("Crystal oscillator tests",
  "check32768HzOsc() fails for a stopped counter and passes for one that runs (at any rate that counts twice during the test and does not wrap round during a nap); the extended test passes exactly if also one of at most 32 ticks measures 119 to 125 CPU counts.",
  "all counter behaviours, nap lengths, start phases and frequencies", "All hardware behaviours over time.",
  U+"OTV0P2BASE_HardwareTests.cpp:check32768HzOsc", U+"OTV0P2BASE_HardwareTests.cpp:check32768HzOscExtended")
p("Internal oscillator calibration",
  "calibrateInternalOscWithExtOsc() makes at most 128 measurements, keeps OSCCAL in its range, reports success only with a setting that has just measured the target count, finds the right setting from anywhere if the frequency increases with OSCCAL, and touches nothing if the crystal does not run.",
  "all frequency responses and start settings", "All hardware responses.",
  U+"OTV0P2BASE_HardwareTests.cpp:calibrateInternalOscWithExtOsc")
p("Noise-reduced analogue reads",
  "A noise-reduced read is in the documented range 0..1023: it is one of at most the given number of conversions, the first that repeats its predecessor or the last that samples or time allow; and what depends on it (light, dial, supply voltage, motor current) follows that reading.",
  "all conversion values and times in the cycle", "All schedules against the cycle clock.",
  U+"OTV0P2BASE_ADC.cpp:_analogueNoiseReducedReadM", U+"OTV0P2BASE_ADC.cpp:analogueNoiseReducedRead", U+"OTV0P2BASE_SensorAmbientLight.h:SensorAmbientLightAdaptive::read", U+"OTV0P2BASE_SensorTemperaturePot.h:SensorTemperaturePot::read", U+"OTRadValve_ValveMotorDirectV1.h:ValveMotorDirectV1HardwareDriver::isCurrentHigh")
p("The motor bridge is never shorted",
  "Whatever calls of motorRun are made, and with the CPU reset at any instruction, the two halves of the V1 H-bridge are never on together, and between one half being on and the other the driver waits at least 120 ms with both off; after a call the lines are those of the direction asked for.",
  "all call sequences, starting line states and reset points", "All histories and crash points.",
  U+"OTRadValve_ValveMotorDirectV1.h:ValveMotorDirectV1HardwareDriver::motorRun")
p("Running the motor by ticks",
  "A run asked for between minT and maxT ticks does nothing, returning true, if the minimum does not fit in the cycle; otherwise stops at maxT or at the limit of the cycle having reported each tick run, or before at the first high current after the minimum, reporting an end stop once and returning true.",
  "all start ticks, limits, poll times and current readings", "All schedules of the counter and the current.",
  U+"OTRadValve_ValveMotorBase.cpp:ValveMotorDirectV1HardwareDriverBase::spinSCTTicks")
p("DRV8850 motor driver",
  "motorRun drives the motor only in the direction asked for, from any state; off leaves the driver asleep with both lines low; the driver uses the pins it is given for the purposes named.",
  "all states and call sequences", "All histories.",
  U+"OTRadValve_ValveMotorDRV8850.h:DRV8850HardwareDriver::motorRun", U+"OTRadValve_ValveMotorDRV8850.h:DRV8850Driver")
p("Internal thermometer",
  "readInternalTemperatureC16() is the data sheet's line for every ADC reading, with no overflow.",
  "all ADC readings", "All readings, with the integer widths of the target.",
  U+"OTV0P2BASE_ADC.cpp:readInternalTemperatureC16")
p("Frame dump line",
  "The line that prints a received frame is all printable characters, can be read back to exactly the frame whatever its bytes (two frames never give the same line), and reads nothing outside the frame; each byte is shown as documented: printable characters after a space, others as two hexadecimal digits.",
  "all frames up to 255 bytes", "All frames.",
  U+"OTRadioLink_OTRadioLink.cpp:printRXMsg")
p("Scratch space is never shared",
  "However routines nest, each keeping the front of the scratch space it is given and passing the tail on, the parts kept are disjoint and within the original buffer, and a routine is given an unusable (NULL) space exactly if nothing was kept or nothing is left; small (8-bit) spaces and those wrapped round large ones alike.",
  "all buffer sizes, nestings and amounts kept", "All nestings.",
  U+"OTV0P2BASE_Util.h:ScratchSpaceL", U+"OTV0P2BASE_Util.h:ScratchSpace")
p("Stack watch",
  "The minimum stack pointer recorded is the least of all recording points, whatever interrupts record in the middle of recording; the stack check forces a reset exactly if the stack has reached the variables; the low-stack error is raised when fewer than 64 bytes are left.",
  "all call nestings, interrupt points and stack depths", "Interrupts may fall between any two instructions.",
  U+"OTV0P2BASE_Util.h:MemoryChecks", U+"OTV0P2BASE_Util.h:MemoryChecks::recordIfMinSP")
p("Device power is restored",
  "However code powers devices up, uses them and powers them down, nested and with interrupts doing the same at any point, all power and enable bits are left as they were found, and every user has its device powered and enabled throughout its use.",
  "all nestings of users, all interrupt points, all initial states", "All nestings and interleavings.",
  U+"OTV0P2BASE_PowerManagement.h:powerUpADCIfDisabled", U+"OTV0P2BASE_PowerManagement.h:powerUpTWIIfDisabled", U+"OTV0P2BASE_PowerManagement.h:powerUpSPIIfDisabled", U+"OTV0P2BASE_PowerManagement.h:powerUpSerialIfDisabled", U+"OTV0P2BASE_SensorTMP112.cpp:RoomTemperatureC16_TMP112::read")
p("Voice sensor counts",
  "A poll of the voice sensor returns the activations (at most 255) since the last poll, with voice detected if there were 4 or more in this or the previous period; every activation from the fourth on calls the occupancy callback if there is one.",
  "all interleavings of activations and polls at all times of day", "All histories.",
  U+"OTV0P2BASE_SensorQM1.cpp:VoiceDetectionQM1::read", U+"OTV0P2BASE_SensorQM1.cpp:VoiceDetectionQM1::handleInterruptSimple")
p("Relay follows the valve",
  "After setup(), over any sequence of set() calls, values above 100 are refused without effect, the relay is driven on (whatever its polarity) exactly while the last accepted value is 50 or more, and exactly then the valve says it is open and calls for heat.",
  "all sequences of set() calls, both polarities", "All histories.",
  U+"OTRadValve_AbstractRadValve.h:BinaryRelayDirect", U+"OTRadValve_AbstractRadValve.h:AbstractRadValve::isCallingForHeat")
p("Motor tester alternates",
  "The motor tester runs the motor in one direction poll by poll until a poll hits an end stop, then in the other; the motor is off after every poll, and the counter is the number of polls that hit an end stop (modulo 2^32).",
  "all sequences of polls and end stops", "All histories.",
  U+"OTRadValve_TestValve.cpp:TestValveMotor::poll", U+"OTRadValve_TestValve.cpp:TestValveMotor::runFastTowardsEndStop")
p("Lock-free counters never wrap",
  "With any number of threads or interrupts decrementing, incrementing and setting a counter, each call changes it by at most one, never below 0 or above 255; a call not at the limit takes effect exactly if the value at its end is the value at its beginning; with decrementers only, a completed call means the value has gone down.",
  "all interleavings of all threads", "All interleavings.",
  U+"OTV0P2BASE_Concurrency.h:safeDecIfNZWeak", U+"OTV0P2BASE_Concurrency.h:safeIncIfNotMaxWeak")
p("Printed numbers read back",
  "Every number printed in any base reads back as itself, without leading zeros and without leaving the conversion buffer; signed numbers in base 10 with a minus sign.",
  "all 64-bit numbers and bases", "All numbers.",
  U+"OTV0P2BASE_ArduinoCompat.h:Print::printUnsigned", U+"OTV0P2BASE_ArduinoCompat.h:Print::printSigned")
p("Restart entropy wears EEPROM slowly",
  "Seeding at restart makes at most one EEPROM operation, on one of the four seed bytes only, never a combined erase and write, and at most every second operation on a byte is an erase; so over any number of restarts, with power failing anywhere.",
  "all restart histories, random choices and power failures", "All histories and crash points.",
  U+"OTV0P2BASE_Entropy.cpp:seedPRNGs")
p("A valve's statistics reach the hub's serial line",
  "Statistics written by a valve into its report, sent in a secure frame and received intact and in order by a hub that knows the valve, appear on the hub's serial line as one JSON object ended by CR LF: the sender's ID in hexadecimal under \"@\", the frame's sequence number under \"+\", then exactly the members the valve wrote.",
  "all sets of statistics, IDs, counters and buffer contents", "All inputs through five components.",
  U+"OTRadioLink_Messaging.h:serialFrameOperation", U+"OTV0P2BASE_JSONStats.cpp:SimpleStatsRotationBase::writeJSON", U+"OTRadioLink_SecureableFrameType.cpp:SimpleSecureFrame32or0BodyTXBase::encodeValveFrame")
p("Radio links listen where they say",
  "Over any sequence of configure() and listen() calls, the driver has always been told the channel that getListenChannel() reports; listening is never on a channel without a configuration, out-of-range requests are clamped, switching off is always passed on; getChannelConfig() returns the caller's configuration for that channel, NULL if there is none.",
  "all call histories, all configurations and channel numbers", "All histories.",
  U+"OTRadioLink_OTRadioLink.h:OTRadioLink::listen", U+"OTRadioLink_OTRadioLink.h:OTRadioLink::configure", U+"OTRadioLink_OTRadioLink.h:OTRadioLink::getChannelConfig")
p("RTC watchdog",
  "With the RTC watchdog enabled, the system is reset if and only if resetRTCWatchDog() is not called between one tick and the next: a program that calls it between any two ticks is never reset, and one that hangs is reset at the second tick at the latest.",
  "all interleavings of ticks, calls and enabling", "All interleavings.",
  U+"OTV0P2BASE_RTC.cpp:enableRTCWatchdog", U+"OTV0P2BASE_RTC.cpp:resetRTCWatchDog", U+"OTV0P2BASE_RTC.cpp:ISR(TIMER2_OVF_vect)")
p("Conditional renewal of the transmit counter",
  "resetRaw3BytePersistentTXRestartCounterCond() increments the restart counter if little of its range is used and otherwise replaces it by a random low value, so that afterwards at least 7/8 of the range is unused; it says false and changes nothing if there is no readable counter; nothing else in EEPROM changes.",
  "all EEPROM contents, random values and power failures", "All states and crash points.",
  U+"OTRadioLink_SecureableFrameType_V0p2Impl.h:resetRaw3BytePersistentTXRestartCounterCond")
p("I2C transfers end",
  "A polled I2C transfer returns, after at most 300000 polls, the peripheral's first answer other than in-progress; requests without data never reach the bus, and the seven-bit address is sent shifted left.",
  "all answers of the peripheral", "All schedules of the peripheral.",
  "silabs_drivers/cppDrivers/i2c_driver.cpp:I2CSPM::transfer", "silabs_drivers/cppDrivers/i2c_driver.cpp:I2CSPM::read", "silabs_drivers/cppDrivers/i2c_driver.cpp:I2CSPM::write")
p("The GSM link takes each step only on the module's word",
"In every history of a started SIM900 link, whatever the module answers and whenever the link is polled: the PIN state is asked for only of a module that has echoed since it was last power-cycled; registration is asked for only after a PIN answer of READY; the access point is set, GPRS started, the address asked for, the socket opened and a message announced only after the module has answered 'registered' (home or roaming) since the last power-cycle; GPRS is never started while the module reports a connected socket; the socket is opened only after the module has reported GPRS active; and a message is announced by the state machine only after it has reported the socket connected since the last power-cycle.",
"every history of polls (any times, any answers to any command, cut or garbled), queued messages and end() calls after start-up",
"the answers and their order are the module's choice; tests script a few",
"content/OTRadioLink/utility/OTSIM900Link_OTSIM900Link.h: poll, isRegistered, isPINRequired, checkUDPStatus, getResponse, readMany")
p("Serial output is complete when the print routine returns",
  "serialPrintAndFlush(), serialPrintlnAndFlush() and serialWriteAndFlush() return, with every byte of their text on the line behind all earlier output, in order and once; they power the port up if it was down and leave it as it was; code holding the port itself loses nothing when powering down. The same text, with the requested number base and one line end, is printed by every build, and print calls return the number of characters sent.",
  "all histories of uses of the port, texts, byte times and states of the transmit-complete flag", "All histories and timings of the transmitter.",
  U+"OTV0P2BASE_Serial_IO.cpp:serialPrintAndFlush", U+"OTV0P2BASE_PowerManagement.cpp:flushSerialProductive", U+"OTV0P2BASE_PowerManagement.cpp:powerDownSerial", U+"OTV0P2BASE_Serial_IO.cpp:PrintEFR32::write")
p("Frames to a radio valve are whole and readable",
  "Every set() of a target up to 100% and every completed synchronisation leave in the driver's transmit buffer, without writing outside it, a frame that is sent as: a receiver preamble when one is needed, the bit stream of the command for the current house codes and last accepted target, and the application's trailer if it has one that fits. A receiver that misses the first bytes of the stream still decodes codes, command and percentage and finds the trailer; the frame takes no longer on the air than the advertised maximum. Frames of a valve that is to be open carry the preamble the hub needs.",
  "all house codes, targets, preamble and trailer sizes, trailer functions keeping to their contract, and histories of calls", "All histories, trailer functions and buffer contents.",
  U+"OTRadValve_FHT8VRadValve.h:FHT8VRadValve::FHT8VCreateValveSetCmdFrame", U+"OTRadValve_FHT8VRadValve.h:FHT8VRadValve::set", U+"OTRadValve_FHT8VRadValve.cpp:FHT8VTXFHTQueueAndSendCmd")
p("Worn EEPROM cells can't make security state go backwards unnoticed",
  "With EEPROM cells that may end up holding anything when erased or written: transmit counters keep strictly increasing over any sequence of requests and restarts for as long as none is refused; a stored restart counter reported as incremented reads back as the next value and no other memory has changed; an accepted message counter is on record, so it can't be accepted again; a key reported as set reads back as that key, and one reported as cleared is gone.",
  "all behaviours of the cells, memory contents, random bytes, and sequences of requests and restarts", "Faulty cells can't be exercised by unit tests on good ones, and every behaviour of every cell matters.",
  U+"OTRadioLink_SecureableFrameType_V0p2Impl.cpp:saveRaw3BytePersistentTXRestartCounterToEEPROM", U+"OTRadioLink_SecureableFrameType_V0p2Impl.cpp:updateRXMessageCount", U+"OTRadioLink_SecureableFrameType_V0p2Impl.cpp:authAndUpdateRXMsgCtr", U+"OTRadioLink_SecureableFrameType_V0p2Impl.cpp:getNextTXMsgCtr", U+"OTV0P2BASE_Security.cpp:setPrimaryBuilding16ByteSecretKey")
p("Entropy gathered from clock jitter is what was counted",
  "clockJitterEntropyByte() returns once eight counts (CPU polls per watchdog period or per timer tick) have differed from the previous one of their kind, and its byte is the hash of exactly those eight counts and of the wait before them; clocks with jitter always yield a byte, whose last count contributes all its bits. sramCRC() and eeCRC() differ for any two memories differing in one byte.",
  "all histories of watchdog and timer polls of any length, all memory contents and sizes", "The counts and memories come from physical noise; all of them and any number of polls matter.",
  U+"OTV0P2BASE_Sleep.cpp:clockJitterEntropyByte", U+"OTV0P2BASE_Sleep.cpp:clockJitterWDT", U+"OTV0P2BASE_Entropy.cpp:clockJitterRTC", U+"OTV0P2BASE_Entropy.cpp:sramCRC", U+"OTV0P2BASE_Entropy.cpp:eeCRC")
p("Fast pin access reads and writes the right pin only",
  "For every constant pin number of the board, fastDigitalRead() gives that pin's level, fastDigitalWrite() of a constant sets that pin's output and leaves every other pin and spare register bit alone, distinct pins never share a bit, and the input register and mask given for polling loops pick out the same pin; other arguments always use the generic routines.",
  "all pins, register contents and values", "All combinations of pins and register contents matter, and the macros only exist on the target.",
  U+"OTV0P2BASE_FastDigitalIO.h:fastDigitalRead", U+"OTV0P2BASE_FastDigitalIO.h:fastDigitalWrite", U+"OTV0P2BASE_FastDigitalIO.h:fastDigitalMask", U+"OTV0P2BASE_FastDigitalIO.h:fastDigitalInputRegister")
p("Parameters derived from any product's arguments are safe",
  "For every set of template arguments the derived valve parameters are in their documented ranges and order (frost thresholds supported and below the warm temperatures, setbacks increasing), every temperature control built on them promises no frost target above its warm target, and computed targets stay between frost and maximum; sensible arguments are used as given.",
  "all template arguments, user settings, stored settings and control inputs", "The arguments, settings and inputs have far too many combinations; tests use the shipped sets only.",
  U+"OTRadValve_Parameters.h:ValveControlParameters", U+"OTRadValve_TempControl.h:TempControlSimpleEEPROMBacked", U+"OTRadValve_TempControl.h:TempControlTempPot", U+"OTRadValve_ModelledRadValve.h:ModelledRadValveComputeTargetTempBasic::computeTargetTemp")
p("Noise read from the analogue inputs is not thrown away",
  "Of the ten conversions of noisyADCRead(), a different reading of any one, or a different time taken by it, with everything else alike, gives a different result.",
  "all readings and times of all conversions", "Real noise can't be reproduced in a test, and all combinations of readings matter.",
  U+"OTV0P2BASE_ADC.cpp:noisyADCRead")
p("The dial's end stops are at the ends of its travel",
  "Whatever range a dial is declared with, either way round, turning it to the cold end of that range (when the read sees it move) asks for FROST, to the hot end for a BAKE, and to anywhere well between for neither.",
  "all declared ranges in both directions, previous readings and new positions", "Tests can only use the few shipped ranges; the claim is for all of them at every position.",
  U+"OTV0P2BASE_SensorTemperaturePot.h:SensorTemperaturePot::read", U+"OTV0P2BASE_SensorTemperaturePot.h:SensorTemperaturePot::_computeLoEndStop", U+"OTV0P2BASE_SensorTemperaturePot.h:SensorTemperaturePot::_computeHiEndStop")
p("A valve command and the statistics sent after it both arrive",
  "For every house code, percentage, privacy level and set of statistics that can be sent, with the transmit area of the declared size: a hub that misses up to six bytes of the start of the bit stream and hears anything afterwards decodes the command, and from where that ends exactly the statistics that the privacy level lets out; statistics that can't be sent leave the command on its own.",
  "all commands, statistics, privacy levels, losses of preamble and following noise", "The commands, statistics, buffer contents and noise combine far beyond any test, and the two decoders meet at a position that depends on the bits sent.",
  U+"OTRadValve_FHT8VRadValve.h:FHT8VCreateValveSetCmdFrame", U+"OTRadValve_FHT8VRadValve.cpp:FHT8VDecodeBitStream", U+"OTV0P2BASE_SimpleBinaryStats.cpp:encodeFullStatsMessageCore", U+"OTV0P2BASE_SimpleBinaryStats.cpp:decodeFullStatsMessageCore")
p("Motor current limits by direction",
  "Whatever the samples and timing of a read away from the last tick of the cycle: the V1 driver calls the current high only after some sample above the direction's limit (600 closing, 450 opening) and always if all are, opening is stopped whenever closing would be; the DRV8850 driver uses 300 both ways, and the shaft encoder 120.",
  "all samples, their number and times, both directions", "The settling of the read on one of its samples makes all sequences matter; tests have no ADC.",
  U+"OTRadValve_ValveMotorDirectV1.h:ValveMotorDirectV1HardwareDriver::isCurrentHigh", U+"OTRadValve_ValveMotorDirectV1.h:ValveMotorDirectV1HardwareDriver::isOnShaftEncoderMark", U+"OTRadValve_ValveMotorDRV8850.h:DRV8850HardwareDriver::isCurrentHigh", U+"OTV0P2BASE_ADC.cpp:_analogueNoiseReducedReadM")
p("Humidity flags over any history of reads",
  "After any history of reads, failing or not, the plain high flag says whether the last reading is above 75%, the flag with hysteresis is on exactly when the last reading outside 65..75% was above 75% (or there was none), and plainly high implies high with hysteresis.",
  "all histories of reads, successful or not, and initial bus states", "Hysteresis depends on the whole history of readings.",
  U+"OTV0P2BASE_SensorSHT21.h:HumiditySensorBase::isRHHigh", U+"OTV0P2BASE_SensorSHT21.h:HumiditySensorBase::isRHHighWithHyst", U+"OTV0P2BASE_SensorSHT21.cpp:HumiditySensorSHT21::read")
p("Non-secure beacon",
  "For every buffer, sequence number and ID: a beacon is generated exactly when the ID is at most 8 bytes and 5 bytes and the ID fit; bytes past the frame are untouched; and the frame decodes to a non-secure keep-alive with that ID, the sequence number mod 16 and an empty body.",
  "all buffers, stated sizes, sequence numbers and IDs", "Tests encode one or two beacons.",
  U+"OTRadioLink_SecureableFrameType.cpp:generateNonsecureBeacon", U+"OTRadioLink_SecureableFrameType.cpp:decodeNonsecure")
p("Noise added to the pool is never lost",
  "Adding a noise byte to the random pool, with the clock readings taken, is injective in the byte, in the readings and in the pool before: runs that differ in exactly one contribution end in different pool states, however much is added before or after.",
  "all pool states, all sequences of contributions", "Loss of noise by the mixing would only show for particular states and later contributions.",
  U+"OTV0P2BASE_Entropy.cpp:addEntropyToPool", U+"OTV0P2BASE_QuickPRNG.cpp:seedRNG8")
p("New occupancy is reported for three minutes after an arrival",
  "After any history of marks, reads and vacancy declarations, new occupancy is reported exactly when a confident or probable mark was made while the room was unoccupied, with fewer than three minute reads since and no vacancy declared since; it implies occupied. Weak hints never raise it and marks in an occupied room never renew it.",
  "all histories", "The report depends on what the room was at the time of the mark and on everything since.",
  U+"OTV0P2BASE_SensorOccupancy.h:PseudoSensorOccupancyTracker::reportedNewOccupancyRecently", U+"OTV0P2BASE_SensorOccupancy.cpp:PseudoSensorOccupancyTracker::read", U+"OTV0P2BASE_SensorOccupancy.h:PseudoSensorOccupancyTracker::markAsOccupied")
p("Message kinds are told apart",
  "No sequence of received bytes is accepted by more than one of the decoders for FS20 valve commands, full binary statistics, JSON frames and length-prefixed (secureable) frames; the first byte alone shows the kind.",
  "all byte sequences and lengths", "A clash between formats shows only on particular bytes.",
  U+"OTRadioLink_FrameType.h:FrameType_V0p2_FS20", U+"OTRadValve_FHT8VRadValve.cpp:FHT8VRadValveUtil::FHT8VDecodeBitStream", U+"OTV0P2BASE_SimpleBinaryStats.cpp:decodeFullStatsMessageCore", U+"OTV0P2BASE_JSONStats.cpp:checkJSONMsgRXCRC", U+"OTRadioLink_SecureableFrameType.cpp:SecurableFrameHeader::decodeHeader")
p("Text and numbers over the older software UART",
  "Printing any NUL-terminated text sends exactly its characters, reads nothing past the terminator and returns its length; every int8_t number is printed as its decimal numeral without overrunning the local buffer, and a receiver within the timing tolerance gets that numeral.",
  "all texts, all int8_t numbers, all line timings within the tolerance", "Tests have no line to print to.",
  U+"OTV0P2BASE_SoftSerial.cpp:OTSoftSerial::print", U+"OTV0P2BASE_SoftSerial.cpp:OTSoftSerial::printNum", U+"OTV0P2BASE_SoftSerial.cpp:OTSoftSerial::read")
p("From the dial to the target temperature",
  "With either radiator parameter set and whatever the end stops: after any history of dial readings and queries since power-up, each query gives a warm target within the scale, and any target temperature computed with it, in any mode, is within the supported limits; and after a first reading or a move of at least a step of the reduced scale, the next query gives what the new position selects (bottom and top at the end stops, monotone), whatever was cached.",
  "all histories of readings and queries, all end stops, all modes and circumstances", "The sensor's noise rejection, the cached result and the mapping interact over the whole history.",
  U+"OTV0P2BASE_SensorTemperaturePot.h:SensorTemperaturePot::read", U+"OTRadValve_TempControl.h:TempControlTempPot::getWARMTargetC", U+"OTRadValve_ModelledRadValve.h:ModelledRadValveComputeTargetTempBasic::computeTargetTemp")
p("The clock over any number of power cuts",
  "With the time persisted at least every quarter hour and restored after each power cut, whatever the number of cuts and wherever they fall, including in the middle of persisting: every restore succeeds, and the time of day is the starting time plus the time powered, at most 22 minutes slow and 8 minutes fast for each cut; with no cut it is exact.",
  "all histories of ticks, persists and power cuts, all starting clocks and store contents", "The error accumulates over unboundedly many cuts at arbitrary points, so no finite set of runs bounds it.",
  U+"OTV0P2BASE_RTC.cpp:persistRTC", U+"OTV0P2BASE_RTC.cpp:restoreRTC", U+"OTV0P2BASE_RTC.cpp:ISR(TIMER2_OVF_vect)")
with open("/verif/properties.jsonl","w") as f:
    for x in P: f.write(json.dumps(x)+"\n")
print(len(P))
