{"id": "C01", "title": "Frame header encode/decode round trip", "statement": "Whenever encodeHeader() reports success, the bytes it wrote, followed by any body and trailer of the announced lengths whose last byte is neither 0x00 nor 0xff, are accepted by decodeHeader(), which returns the same header length and recovers exactly the secure flag, frame type, 4-bit sequence number, ID bytes, body length and trailer length that were given to encodeHeader().", "quantifier": "all secure flags, frame types, sequence numbers, IDs of 0..8 bytes (and illegal lengths), body lengths, trailer lengths, output buffer sizes", "why_tests_cant": "The argument space (type x seq x 8 ID bytes x bl x tl x buffer size) cannot be enumerated by tests.", "anchors": ["content/OTRadioLink/utility/OTRadioLink_SecureableFrameType.cpp:SecurableFrameHeader::encodeHeader", "content/OTRadioLink/utility/OTRadioLink_SecureableFrameType.cpp:SecurableFrameHeader::decodeHeader"]}
{"id": "C02", "title": "Header decoder accepts exactly the well-formed headers, and never reads outside the buffer", "statement": "decodeHeader() on any byte buffer reads only bytes inside the buffer and succeeds if and only if all eight quick integrity checks of the frame specification hold; when it succeeds, header + body + trailer exactly fill the announced frame (fl+1 bytes), the trailer is at least 1 byte (exactly 1 for non-secure), and when it fails the header object reads as invalid.", "quantifier": "all byte buffers of every length 0..255 (attacker-controlled radio input)", "why_tests_cant": "256^63 possible frames; memory safety must hold for every one.", "anchors": ["content/OTRadioLink/utility/OTRadioLink_SecureableFrameType.cpp:SecurableFrameHeader::decodeHeader"]}
{"id": "C03", "title": "Non-secure frame round trip", "statement": "If encodeNonsecure() succeeds then decodeHeader()+decodeNonsecure() on its output succeed with the same length, and the type, ID, sequence number and body recovered are exactly those sent; encodeNonsecure() never writes outside the output buffer.", "quantifier": "all types, IDs, sequence numbers, bodies and buffer sizes", "why_tests_cant": "Unbounded message contents.", "anchors": ["content/OTRadioLink/utility/OTRadioLink_SecureableFrameType.cpp:encodeNonsecure", "content/OTRadioLink/utility/OTRadioLink_SecureableFrameType.cpp:decodeNonsecure", "content/OTRadioLink/utility/OTRadioLink_SecureableFrameType.cpp:SecurableFrameHeader::computeNonSecureCRC"]}
{"id": "C04", "title": "Corrupted non-secure frames are rejected", "statement": "If a frame is accepted by decodeNonsecure(), then any frame obtained from it by a burst error of up to 7 consecutive bits after the length byte, or (outside the CRC byte) by inverting any odd number of bits, is rejected.", "quantifier": "all accepted frames and all error patterns of the stated classes", "why_tests_cant": "The number of (frame, error) pairs is astronomically large.", "anchors": ["content/OTRadioLink/utility/OTRadioLink_SecureableFrameType.cpp:decodeNonsecure", "content/OTRadioLink/utility/OTV0P2BASE_CRC.cpp:crc7_5B_update"]}
{"id": "C05", "title": "CRC-7 detection strength", "statement": "The 7-bit CRC of a message always fits in 7 bits, is a linear function of message and initial value, detects every error of 1, 2 or 3 bits in messages of up to 7 bytes, every odd-weight error and every burst of at most 7 bits in messages of any length, and the nz_final variant never yields 0x00 or 0xff while remaining injective in the CRC value.", "quantifier": "all messages (any length where stated), all initial values, all error patterns in the class", "why_tests_cant": "Header comment claims (HD=4 up to 7 bytes) quantify over all messages and all error patterns.", "anchors": ["content/OTRadioLink/utility/OTV0P2BASE_CRC.cpp:crc7_5B_update", "content/OTRadioLink/utility/OTV0P2BASE_CRC.cpp:crc7_5B_update_nz_final"]}
{"id": "C06", "title": "Body padding round trip", "statement": "Padding a body of 0..31 bytes to 32 bytes and unpadding returns exactly the original length, with the body bytes unchanged, and the padding never exposes stale buffer contents (all bytes between body and last byte are zero); bodies longer than 31 bytes are refused and left untouched.", "quantifier": "all buffers of at least 32 bytes, all data lengths", "why_tests_cant": "All body contents and lengths.", "anchors": ["content/OTRadioLink/utility/OTRadioLink_SecureableFrameType.cpp:addPaddingTo32BTrailing0sAndPadCount / pad32BBuffer", "content/OTRadioLink/utility/OTRadioLink_SecureableFrameType.cpp:unpad32BBuffer"]}
{"id": "C07", "title": "Malformed padding is reported as an error", "statement": "A decrypted 32-byte body whose final pad-count byte is impossible (> 31) is reported as a decode error, not as a valid (empty) message.", "quantifier": "all 32-byte decrypted blocks", "why_tests_cant": "All plaintext blocks, including those of a buggy or newer peer.", "anchors": ["content/OTRadioLink/utility/OTRadioLink_SecureableFrameType.cpp:unpad32BBuffer", "content/OTRadioLink/utility/OTRadioLink_SecureableFrameType.cpp:SimpleSecureFrame32or0BodyRXBase::decodeRaw"]}
{"id": "C08", "title": "Message counter comparison is numeric order", "statement": "msgcountercmp() orders 6-byte counters exactly as the 48-bit big-endian unsigned integers they encode.", "quantifier": "all pairs of 6-byte counters", "why_tests_cant": "2^96 pairs.", "anchors": ["content/OTRadioLink/utility/OTRadioLink_SecureableFrameType.h:SimpleSecureFrame32or0BodyRXBase::msgcountercmp"]}
{"id": "C09", "title": "Message counter addition", "statement": "msgcounteradd(counter, delta) either adds delta to the 48-bit big-endian counter and returns true, or, if that would overflow 48 bits, returns false and leaves the counter unchanged.", "quantifier": "all 2^48 counters, all deltas 0..255", "why_tests_cant": "2^56 cases; the failing case is a single carry chain.", "anchors": ["content/OTRadioLink/utility/OTRadioLink_SecureableFrameType.cpp:SimpleSecureFrame32or0BodyRXBase::msgcounteradd"]}
{"id": "C10", "title": "Secure frame round trip", "statement": "For any AES-GCM style primitive whose decryption inverts its encryption, a frame produced by encodeRaw() is decoded by decodeRaw() with the same key and IV to exactly the original body (0..31 bytes) and the original header, and the frame is at most 64 bytes.", "quantifier": "all keys, IVs, IDs, sequence numbers, types, bodies, and all correct encryption primitives", "why_tests_cant": "Quantifies over keys, messages and primitives.", "anchors": ["content/OTRadioLink/utility/OTRadioLink_SecureableFrameType.cpp:SimpleSecureFrame32or0BodyTXBase::encodeRaw", "content/OTRadioLink/utility/OTRadioLink_SecureableFrameType.cpp:SimpleSecureFrame32or0BodyRXBase::decodeRaw"]}
{"id": "C11", "title": "Nothing unauthenticated is accepted", "statement": "decodeRaw() returns success only if the authenticated-decryption primitive accepted the received tag over exactly the received header bytes as associated data and exactly the received ciphertext, and the plaintext handed to the caller is exactly the primitive's output with padding removed; a secure frame with a bad trailer, wrong lengths or unknown encryption type is refused.", "quantifier": "all frames, keys, IVs and primitives", "why_tests_cant": "Adversarial input space.", "anchors": ["content/OTRadioLink/utility/OTRadioLink_SecureableFrameType.cpp:SimpleSecureFrame32or0BodyRXBase::decodeRaw"]}
{"id": "C12", "title": "Anti-replay over all histories", "statement": "Over any sequence of received frames, a receiver accepts (via decode()) a frame from a given node only if its message counter is strictly larger than that of every frame previously accepted from that node; in particular no frame is ever accepted twice.", "quantifier": "all histories of received frames (genuine, replayed, corrupted, forged), all node tables", "why_tests_cant": "Property of unbounded histories.", "anchors": ["content/OTRadioLink/utility/OTRadioLink_SecureableFrameType.cpp:SimpleSecureFrame32or0BodyRXBase::decode", "content/OTRadioLink/utility/OTRadioLink_SecureableFrameType.cpp:_decodeFromID", "content/OTRadioLink/utility/OTRadioLink_SecureableFrameType_V0p2Impl.cpp:authAndUpdateRXMsgCtr"]}
{"id": "C13", "title": "Rejected frames change no receiver state", "statement": "If decode() returns 0 because the frame is malformed, unauthenticated, from an unknown node or stale, the stored receive counters of all nodes are unchanged.", "quantifier": "all frames, all receiver states", "why_tests_cant": "All inputs and states.", "anchors": ["content/OTRadioLink/utility/OTRadioLink_SecureableFrameType.cpp:SimpleSecureFrame32or0BodyRXBase::decode", "content/OTRadioLink/utility/OTRadioLink_SecureableFrameType.cpp:validateRXMsgCtr"]}
{"id": "C14", "title": "Transmit counter never repeats or decreases", "statement": "The sequence of message counters (IVs) handed out for transmission by a node is strictly increasing over its whole life, across any number of restarts and power failures that interrupt non-volatile writes at any byte boundary, regardless of random values used at start-up.", "quantifier": "all histories of counter requests, restarts, crash points inside persistent updates, random values", "why_tests_cant": "Crash points x histories are unbounded; nonce reuse is catastrophic for AES-GCM.", "anchors": ["content/OTRadioLink/utility/OTRadioLink_SecureableFrameType_V0p2Impl.cpp:SimpleSecureFrame32or0BodyTXV0p2::getNextTXMsgCtr", "content/OTRadioLink/utility/OTRadioLink_SecureableFrameType_V0p2Impl.cpp:incrementPersistentTXMsgCtrPrefix / getTXPersistentCtr"]}
{"id": "C15", "title": "Transmit counter exhaustion is fail-safe", "statement": "When the persistent part of the transmit counter has reached its maximum, no further increments are performed: requests that would need one fail rather than wrap to small values.", "quantifier": "all counter states", "why_tests_cant": "2^48 counter values; boundary reachable only after years.", "anchors": ["content/OTRadioLink/utility/OTRadioLink_SecureableFrameType_V0p2Impl.cpp:getNextTXMsgCtr", "content/OTRadioLink/utility/OTRadioLink_SecureableFrameType_V0p2Impl.cpp:incrementTXRawMsgCounterPersistent"]}
{"id": "C16", "title": "A single power failure never destroys the transmit counter", "statement": "From a state in which both stored copies are valid, a power failure at any byte of one persistent counter increment leaves at least one valid copy, so the node can still transmit and the value read back is either the old or the new one (multiple power failures: two can destroy both copies, refuting the unconditional claim).", "quantifier": "all prefix values, all crash points", "why_tests_cant": "All crash points in the write sequence for all 2^24 values.", "anchors": ["content/OTRadioLink/utility/OTRadioLink_SecureableFrameType_V0p2Impl.cpp:incrementTXRawMsgCounterPersistent", "content/OTRadioLink/utility/OTRadioLink_SecureableFrameType_V0p2Impl.cpp:saveTXRawMsgCtrPrefix / loadRaw3BytePersistentTXRestartCtr"]}
{"id": "C17", "title": "Receive counter survives one power failure without enabling replay", "statement": "Starting from a consistent stored receive counter for a node, an update to a newer counter interrupted by a power failure at any byte boundary leaves a stored counter that reads back as at least the old value (so no previously accepted message is accepted again), or as unreadable, in which case all messages from that node are refused.", "quantifier": "all old/new counters, all crash points", "why_tests_cant": "All crash points for all counter pairs.", "anchors": ["content/OTRadioLink/utility/OTRadioLink_SecureableFrameType_V0p2Impl.cpp:updateRXMessageCountAfterAuthentication", "content/OTRadioLink/utility/OTRadioLink_SecureableFrameType_V0p2Impl.cpp:getLastRXMessageCounter"]}
{"id": "C18", "title": "Receive counter survives repeated power failures", "statement": "As the previous property but for any number of power failures over the node's life: the counter read back never goes below a value previously accepted, and never becomes permanently unreadable.", "quantifier": "all histories with any number of crash points", "why_tests_cant": "Unbounded histories with crash points.", "anchors": ["content/OTRadioLink/utility/OTRadioLink_SecureableFrameType_V0p2Impl.cpp:updateRXMessageCountAfterAuthentication"]}
{"id": "C19", "title": "Receive counter round trip in normal operation", "statement": "After a successful authenticated update to counter c (no crash), reading the last counter for that node returns exactly c, other nodes' counters are unchanged, and updates not strictly greater than the stored counter are refused without any change; this persists over any sequence of updates (both the cheap unary path and the full rewrite path).", "quantifier": "all update sequences, all nodes in the table", "why_tests_cant": "Unbounded update sequences over 2^48 values.", "anchors": ["content/OTRadioLink/utility/OTRadioLink_SecureableFrameType_V0p2Impl.cpp:authAndUpdateRXMsgCtr", "content/OTRadioLink/utility/OTRadioLink_SecureableFrameType_V0p2Impl.cpp:getLastRXMsgCtr", "content/OTRadioLink/utility/OTV0P2BASE_EEPROM.cpp:eeprom_unary_2byte_encode"]}
{"id": "C20", "title": "Unary non-volatile counters", "statement": "The one- and two-byte unary codes decode to the value encoded, for every legal value; moving to any larger value only ever clears bits (no erase cycle needed); and invalid bit patterns are reported as errors.", "quantifier": "all values and all 2^16 bit patterns", "why_tests_cant": "Exhaustive over patterns plus the order relation between all pairs.", "anchors": ["content/OTRadioLink/utility/OTV0P2BASE_EEPROM.cpp:eeprom_unary_1byte_encode/decode", "content/OTRadioLink/utility/OTV0P2BASE_EEPROM.cpp:eeprom_unary_2byte_encode/decode"]}
{"id": "C21", "title": "Smart EEPROM byte updates", "statement": "eeprom_smart_update_byte / eeprom_smart_erase_byte / eeprom_smart_clear_bits leave the target byte with exactly the requested value (or old AND mask) and no other byte changed, and perform an erase only when some bit must change from 0 to 1 and a write only when the content changes.", "quantifier": "all memory contents, addresses and values", "why_tests_cant": "All contents; wear properties are about the absence of operations.", "anchors": ["content/OTRadioLink/utility/OTV0P2BASE_EEPROM.cpp:eeprom_smart_update_byte", "content/OTRadioLink/utility/OTV0P2BASE_EEPROM.cpp:eeprom_smart_clear_bits"]}
{"id": "C22", "title": "Node association table", "statement": "After clearing the table and adding up to 8 node IDs (none starting 0xff), the table lists exactly those IDs in order; adding to a full table fails and changes nothing; prefix lookup from an index returns the first association at or after that index whose ID starts with the given prefix, or -1 if there is none; a lookup never reads outside the table.", "quantifier": "all sequences of adds and clears, all IDs and prefixes", "why_tests_cant": "Unbounded operation histories.", "anchors": ["content/OTRadioLink/utility/OTV0P2BASE_Security.cpp:addNodeAssociation / clearAllNodeAssociations / getNextMatchingNodeIDGeneric", "content/OTRadioLink/utility/OTRadioLink_SecureableFrameType_V0p2Impl.cpp:_getNextMatchingNodeID"]}
{"id": "C23", "title": "Secret key storage", "statement": "A 16-byte key set in EEPROM is returned unchanged by get, and get reports failure when no key (all 0xff) has been set; setting the key to NULL erases it.", "quantifier": "all keys and prior memory contents", "why_tests_cant": "2^128 keys.", "anchors": ["content/OTRadioLink/utility/OTV0P2BASE_Security.cpp:setPrimaryBuilding16ByteSecretKey / getPrimaryBuilding16ByteSecretKey"]}
{"id": "C24", "title": "RX queue is a faithful FIFO", "statement": "Frames removed from the radio receive queue are exactly the frames successfully queued by the ISR, in order, each exactly once and unaltered, with arbitrary interleaving of ISR queueing and application removal; a frame that does not fit is dropped whole without damaging queued frames.", "quantifier": "all interleavings of queue/dequeue operations and all frames", "why_tests_cant": "Unbounded interleavings.", "anchors": ["content/OTRadioLink/utility/OTRadioLink_ISRRXQueue.h:ISRRXQueueVarLenMsg", "content/OTRadioLink/utility/OTRadioLink_ISRRXQueue.h:ISRRXQueue1Deep"]}
{"id": "C25", "title": "RX queue has at least the advertised capacity", "statement": "A queue declared for a target number of maximum-size frames never drops a frame while it holds fewer than that target number of frames.", "quantifier": "all histories, all template parameters (frame size 1..255, target 1..)", "why_tests_cant": "All ring positions reached by arbitrary histories.", "anchors": ["content/OTRadioLink/utility/OTRadioLink_ISRRXQueue.h:ISRRXQueueVarLenMsg::_getRXBufForInbound / isFull"]}
{"id": "C26", "title": "Valve position always in range", "statement": "Over any sequence of valve model ticks with any sensor inputs, targets and settings, the computed valve opening stays within 0..100% and never rises above the larger of its current value and the configured maximum opening.", "quantifier": "all input histories, all temperatures, targets and flags", "why_tests_cant": "Unbounded feedback histories.", "anchors": ["content/OTRadioLink/utility/OTRadValve_ModelledRadValveState.h:ModelledRadValveState::tick", "content/OTRadioLink/utility/OTRadValve_ModelledRadValveState.h:computeRequiredTRVPercentOpen"]}
{"id": "C27", "title": "Anti-hunting: no quick re-opening or re-closing", "statement": "After the valve has been closed a little, it is not re-opened for the documented 11 minutes (outside BAKE mode), and after it has been opened it is not closed again for the documented 10 minutes unless the permitted maximum opening has been lowered; with any sensor inputs.", "quantifier": "all input histories", "why_tests_cant": "Properties of all traces, depends on countdown interplay.", "anchors": ["content/OTRadioLink/utility/OTRadValve_ModelledRadValveState.h:valveTurndown / valveTurnup / dontTurnup / dontTurndown"]}
{"id": "C28", "title": "Frost protection always wins", "statement": "If the (adjusted) room temperature stays below the minimum temperature 5C, the valve opens to its maximum permitted opening within a bounded number of ticks from any state, whatever the target is and whatever happened before, and stays there.", "quantifier": "all prior states and all subsequent inputs with temperature under the minimum", "why_tests_cant": "Liveness from every state.", "anchors": ["content/OTRadioLink/utility/OTRadValve_ModelledRadValveState.h:computeRequiredTRVPercentOpen"]}
{"id": "C29", "title": "Over-temperature always closes the valve", "statement": "If the room stays well above target (outside the wide deadband), the valve closes fully within a bounded number of ticks from any state and stays closed; if it stays well below target it opens to maximum within a bounded number of ticks.", "quantifier": "all prior states, targets and temperatures outside the proportional band", "why_tests_cant": "Liveness from every state over unbounded histories.", "anchors": ["content/OTRadioLink/utility/OTRadValve_ModelledRadValveState.h:computeRequiredTRVPercentOpen"]}
{"id": "C30", "title": "Temperature filter sanity", "statement": "The smoothed temperature used by the valve model is always within the range of the last 16 raw readings, the filter fills instantly on first use, and smallIntMean rounds to within one unit of the true mean.", "quantifier": "all 16-element arrays and all tick sequences", "why_tests_cant": "All raw temperature sequences.", "anchors": ["content/OTRadioLink/utility/OTRadValve_ModelledRadValveState.h:smallIntMean / getSmoothedRecent / tick"]}
{"id": "C31", "title": "Target temperature stays within safe limits", "statement": "The computed target temperature is always between the minimum (frost) and maximum supported temperatures; in WARM mode it is at most the user's warm target and no lower than the warm target less the full setback; in BAKE mode it is the warm target plus the bake uplift (capped); in FROST mode it never exceeds max(frost, warm-1).", "quantifier": "all user settings, modes, occupancy, light and schedule inputs, for each shipped parameter set", "why_tests_cant": "Cross product of all control inputs.", "anchors": ["content/OTRadioLink/utility/OTRadValve_ModelledRadValve.h:ModelledRadValveComputeTargetTempBasic::computeTargetTemp"]}
{"id": "C32", "title": "No setback while needed", "statement": "When the room is recently occupied, or a WARM schedule is on (and the room not long vacant), or a setback lockout is active, the WARM target equals the user's target with no setback; with a comfort temperature selected the setback never exceeds the ECO setback; a schedule due soon limits it to 1C; a room vacant for over a day is set back by at least the ECO amount.", "quantifier": "all control inputs", "why_tests_cant": "Cross product of all control inputs.", "anchors": ["content/OTRadioLink/utility/OTRadValve_ModelledRadValve.h:ModelledRadValveComputeTargetTempBasic::computeTargetTemp"]}
{"id": "C33", "title": "Boiler minimum on and off times", "statement": "Whatever calls for heat arrive, once the boiler output turns on it stays on for at least the configured minimum on-time, and once it turns off it stays off for more than the configured number of minutes; the output pin always equals the logical boiler state while in hub mode.", "quantifier": "all histories of remote calls and 2s ticks", "why_tests_cant": "Unbounded event interleavings.", "anchors": ["content/OTRadioLink/utility/OTRadValve_BoilerDriver.h:OnOffBoilerDriverLogic::processCallsForHeat / remoteCallForHeatRX"]}
{"id": "C34", "title": "Boiler never runs without a recent call for heat", "statement": "If no valve has called for heat with at least 50% open during the configured minimum on-time, the boiler is off; a call of at least 66% is always counted as a call for heat, and a call below 50% never is; when not a hub the boiler pin is held low.", "quantifier": "all histories", "why_tests_cant": "Unbounded histories.", "anchors": ["content/OTRadioLink/utility/OTRadValve_BoilerDriver.h:OnOffBoilerDriverLogic"]}
{"id": "C35", "title": "Schedule on/off windows", "statement": "A schedule set to start at time t (rounded down to 6 minutes) reports WARM exactly in the circular window starting 36 minutes (pre-warm) before t and lasting pre-warm plus on-time, wrapping correctly at midnight; on/off times read back are within one granule of what was set; invalid times are refused.", "quantifier": "all start times, all minutes of the day, both schedules", "why_tests_cant": "1440 x 240 x 240 combinations with wrap-around (and any learned on-time).", "anchors": ["content/OTRadioLink/utility/OTRadValve_SimpleValveSchedule.cpp:getSimpleScheduleOn/Off / isAnyScheduleOnWARMNow", "content/OTRadioLink/utility/OTRadValve_SimpleValveSchedule.h"]}
{"id": "C36", "title": "Schedule application follows the programme", "statement": "While the on-time in force is constant, if the schedule is applied every minute and the user does not intervene, then from any starting mode, from the first scheduled boundary on, the valve mode is WARM exactly when some schedule is on; a manual override persists only until the next boundary.", "quantifier": "all programmes (one or two schedules), all starting times and modes, unbounded time", "why_tests_cant": "Unbounded time and all pairs of programmes.", "anchors": ["content/OTRadioLink/utility/OTRadValve_SimpleValveSchedule.cpp:applyUserSchedule"]}
{"id": "C37", "title": "Bake mode always times out", "statement": "After BAKE is started it ends by itself after exactly the configured number of minutes unless restarted, selecting FROST or cancelling ends it at once, and the mode never leaves {FROST, WARM, BAKE}.", "quantifier": "all sequences of mode operations", "why_tests_cant": "Unbounded sequences.", "anchors": ["content/OTRadioLink/utility/OTRadValve_ValveMode.h:ValveMode"]}
{"id": "C38", "title": "Temperature dial mapping", "statement": "The warm target derived from the dial is within the parameter set's scale, is monotone in dial position, hits the scale minimum and maximum at the ends, and the frost target never exceeds the warm target.", "quantifier": "all dial positions 0..255, all calibration endpoints, each shipped parameter set", "why_tests_cant": "All calibrations x positions.", "anchors": ["content/OTRadioLink/utility/OTRadValve_TempControl.h:TempControlTempPot::computeWARMTargetC"]}
{"id": "C39", "title": "Occupancy timers", "statement": "Marking occupied keeps the room reported occupied for exactly the documented number of minutes, weaker hints never shorten an already longer occupancy, vacancy hours count up correctly and saturate, and holiday mode gives immediate long vacancy.", "quantifier": "all sequences of marks and minute reads", "why_tests_cant": "Unbounded sequences.", "anchors": ["content/OTRadioLink/utility/OTV0P2BASE_SensorOccupancy.cpp:PseudoSensorOccupancyTracker"]}
{"id": "C40", "title": "Occupancy tracking is ISR-safe", "statement": "When marks from an interrupt are interleaved at any point of the minute read or of another mark, an occupied mark is never lost: afterwards the room is reported occupied with at least (timeout-1) minutes remaining.", "quantifier": "all interleavings of the ISR with the main-line code", "why_tests_cant": "Races show up only in specific interleavings.", "anchors": ["content/OTRadioLink/utility/OTV0P2BASE_SensorOccupancy.cpp", "content/OTRadioLink/utility/OTV0P2BASE_Concurrency.h:safeDecIfNZWeak"]}
{"id": "C41", "title": "Clock persistence", "statement": "After a restart the restored time of day is within a quarter hour of the time last persisted, persisting within the same hour only clears bits, and an unset or corrupt stored time is reported as an error leaving the time of day unchanged; a power failure while persisting leaves either the old or the new stored time.", "quantifier": "all times, all prior store contents", "why_tests_cant": "All store contents (crash/wear-damaged).", "anchors": ["content/OTRadioLink/utility/OTV0P2BASE_RTC.cpp:persistRTC / restoreRTC"]}
{"id": "C42", "title": "Real-time clock ticks correctly", "statement": "Each 2-second tick advances the clock by exactly 2 seconds; the time of day always lies in 00:00..23:59, and after 43200 ticks it is unchanged with the day count one higher.", "quantifier": "all clock states, any number of ticks", "why_tests_cant": "Unbounded ticks and carries.", "anchors": ["content/OTRadioLink/utility/OTV0P2BASE_RTC.cpp:tickRTC ISR / setHoursMinutesLT"]}
{"id": "C43", "title": "Motorised valve position estimate in range", "statement": "The position computed from dead-reckoning is always within 0..100%, monotone in the tick counts, terminates for all counts, and intermediate estimates are never reported as fully open or closed.", "quantifier": "all tick counts and calibrations", "why_tests_cant": "All 2^64 calibration/tick states.", "anchors": ["content/OTRadioLink/utility/OTRadValve_CurrentSenseValveMotorDirect.cpp:CalibrationParameters::computePosition / recomputeIntermediatePosition"]}
{"id": "C44", "title": "Motorised valve state machine safety", "statement": "Over any sequence of polls, pin-withdraw waits, end-stop callbacks, battery states and targets, the reported position is 0..100%, states only advance along documented edges, and in non-proportional operation the valve never reports fully open/closed without the required consecutive end-stop confirmations.", "quantifier": "all event histories", "why_tests_cant": "Unbounded event histories with nondeterministic hardware.", "anchors": ["content/OTRadioLink/utility/OTRadValve_CurrentSenseValveMotorDirect.cpp:CurrentSenseValveMotorDirect::poll / do_valveNormal_prop / do_valveCalibrating_prop"]}
{"id": "C45", "title": "FHT8V bit-stream round trip", "statement": "The FHT8V transmit encoding of any command decodes back to exactly the same house codes, command and extension; the stream is 0xff-terminated with no earlier 0xff and fits the documented buffer size.", "quantifier": "all hc1, hc2, command and extension bytes", "why_tests_cant": "2^32 commands; bit-packing across byte boundaries.", "anchors": ["content/OTRadioLink/utility/OTRadValve_FHT8VRadValve.cpp:FHT8VCreate200usBitStreamBptr / FHT8VDecodeBitStream"]}
{"id": "C46", "title": "FHT8V decoder is safe on arbitrary input", "statement": "The FHT8V decoder, on any received buffer, terminates, never reads beyond the last byte given, and accepts only messages with correct parity on every byte and correct checksum.", "quantifier": "all received buffers", "why_tests_cant": "Arbitrary noise input.", "anchors": ["content/OTRadioLink/utility/OTRadValve_FHT8VRadValve.cpp:readOneBit / readOneByteWithParity / FHT8VDecodeBitStream"]}
{"id": "C47", "title": "JSON statistics output is well-formed and bounded", "statement": "Any JSON line produced by the stats rotation is within the supplied buffer, '\\0'-terminated, starts with '{' and ends with '}', every emitted key/value is a value put in the rotation, and on failure to fit produces an empty result rather than a truncated one.", "quantifier": "all sets of stats, values, sensitivities, buffer sizes and rotation states", "why_tests_cant": "All histories of rotation state.", "anchors": ["content/OTRadioLink/utility/OTV0P2BASE_JSONStats.cpp:SimpleStatsRotationBase::writeJSON"]}
{"id": "C48", "title": "JSON frame CRC protection", "statement": "A JSON message adjusted for transmission and then received is accepted by the receive check with the same content, for all valid JSON bodies; the receive check never reads outside the given buffer; corrupted (odd number of bits flipped / short burst) messages are rejected.", "quantifier": "all messages and buffers", "why_tests_cant": "All messages; all buffers of attacker-supplied bytes.", "anchors": ["content/OTRadioLink/utility/OTV0P2BASE_JSONStats.cpp:adjustJSONMsgForTXAndComputeCRC / checkJSONMsgRXCRC"]}
{"id": "C49", "title": "Binary stats codec round trip", "statement": "Minimal and full binary stats payloads decode to the values encoded for every in-range value, never contain 0xff, and corrupted payloads (single-bit) are rejected by the CRC.", "quantifier": "all stats values, IDs and flags", "why_tests_cant": "Cross product of all fields.", "anchors": ["content/OTRadioLink/utility/OTV0P2BASE_SimpleBinaryStats.cpp:writeTrailingMinimalStatsPayload / encodeFullStatsMessageCore / decodeFullStatsMessageCore"]}
{"id": "C50", "title": "Hourly statistics smoothing", "statement": "Smoothing a new sample into an hourly statistic always gives a result between the old and new values, converges to a constant input, and never produces the 'unset' value from set values.", "quantifier": "all old/new values and unbounded update sequences", "why_tests_cant": "Convergence is a property of unbounded iteration.", "anchors": ["content/OTRadioLink/utility/OTV0P2BASE_Stats.h:smoothStatsValue", "content/OTRadioLink/utility/OTV0P2BASE_Stats.cpp:updateStatsCore"]}
{"id": "C51", "title": "Temperature compression is monotone and accurate", "statement": "Compressing and re-expanding a temperature reproduces it within the documented quantisation over the supported range, saturates outside it, is monotone, and never yields the 'unset' byte 0xff.", "quantifier": "all 16-bit temperatures", "why_tests_cant": "65536 inputs plus monotonicity over all pairs.", "anchors": ["content/OTRadioLink/utility/OTV0P2BASE_Stats.cpp:compressTempC16 / expandTempC16"]}
{"id": "C52", "title": "Hour-of-day quartile statistics", "statement": "inOutlierQuartile/getMin/Max by-hour queries agree with the mathematical definition (number of set samples strictly below/above) for any stored day of statistics.", "quantifier": "all 24-element stat sets with unset entries", "why_tests_cant": "256^24 arrays.", "anchors": ["content/OTRadioLink/utility/OTV0P2BASE_Stats.cpp:inOutlierQuartile / getMinByHourStat / getMaxByHourStat"]}
{"id": "C53", "title": "Unique transmit IVs across all secure frames", "statement": "Every secure frame successfully produced by encode() (beacons, valve frames) over a node's life carries a distinct IV, so no key/IV pair is reused, including across restarts and failed sends.", "quantifier": "all histories of sends, restarts and crash points", "why_tests_cant": "Unbounded histories with crash points.", "anchors": ["content/OTRadioLink/utility/OTRadioLink_SecureableFrameType.cpp:SimpleSecureFrame32or0BodyTXBase::encode / encodeValveFrame / generateSecureBeacon", "content/OTRadioLink/utility/OTRadioLink_SecureableFrameType.h:computeIVForTX12B"]}
{"id": "C54", "title": "Secure sends succeed when their preconditions hold", "statement": "Each secure-send API (generic body, valve frame, beacon) produces a non-empty valid frame whenever the ID, counter, key and buffers are valid, and returns 0 without a partial frame otherwise.", "quantifier": "all valid arguments", "why_tests_cant": "All argument combinations.", "anchors": ["content/OTRadioLink/utility/OTRadioLink_SecureableFrameType.cpp:encode / encodeValveFrame", "content/OTRadioLink/utility/OTRadioLink_SecureableFrameType.h:generateSecureBeacon"]}
{"id": "C55", "title": "Temperature dial sensor", "statement": "Any dial movement of at least one step of the reduced scale is reported exactly; mode callbacks are made only when the reported position changes, never on the first reading, always with an occupancy report, and are the ones the new position calls for (bottom: FROST, top: BAKE, down: cancel BAKE, up: WARM); the reported position follows the dial however it is turned.", "quantifier": "all sequences of raw readings, all end stops", "why_tests_cant": "Unbounded sequences of readings and 16-bit wrap-around in the hysteresis test.", "anchors": ["content/OTRadioLink/utility/OTV0P2BASE_SensorTemperaturePot.h:SensorTemperaturePot::read"]}
{"id": "C56", "title": "Setback lockout countdown", "statement": "The setback lockout counts down by exactly one per call to zero and stays there, an unset store means no lockout, nothing else in the store changes, and a power failure during the count leaves the old or the new count.", "quantifier": "all store contents and crash points", "why_tests_cant": "All store contents with crash points.", "anchors": ["content/OTRadioLink/utility/OTRadValve_ModelledRadValve.h:getSetbackLockout / countDownSetbackLockout"]}
{"id": "C57", "title": "Filter engagement and hold time", "statement": "The temperature filter is on after any minute in which the reading differs by more than 0.5C from the one five minutes earlier, is started by nothing else, then stays on for at least a further 63 minutes, and is released only when the raw reading is within 3/16C of the smoothed one.", "quantifier": "all temperature histories", "why_tests_cant": "Unbounded histories of readings.", "anchors": ["content/OTRadioLink/utility/OTRadValve_ModelledRadValveState.h:ModelledRadValveState::tick"]}
{"id": "C58", "title": "Cumulative movement statistic", "statement": "Without an attached device the reported cumulative movement is the total travel of the computed valve position since start, modulo 1024.", "quantifier": "all histories", "why_tests_cant": "Unbounded histories and wrap-around.", "anchors": ["content/OTRadioLink/utility/OTRadValve_ModelledRadValveState.h:ModelledRadValveState::tick"]}
{"id": "C59", "title": "No endless part-open call for heat", "statement": "If all inputs (room temperature included) stay constant then within a bounded number of minutes, from any state, the valve is either below the boiler's call-for-heat threshold or as far open as permitted, and stays so: it does not hover part-open calling for heat.", "quantifier": "all states and constant inputs", "why_tests_cant": "Liveness over all states, unbounded time.", "anchors": ["content/OTRadioLink/utility/OTRadValve_ModelledRadValveState.h:ModelledRadValveState::computeRequiredTRVPercentOpen"]}
{"id": "C60", "title": "Reported valve status is truthful", "statement": "The complete valve reports calling-for-heat exactly when the room is below target, its opening was at the call-for-heat level and at least the really-open threshold and any attached device agrees it is open; reports under-target exactly when the room is below target; reports as setback exactly how far the target is below the user's warm setting (at most 6C, 0 in frost mode); and BAKE ends as soon as the target is reached. The stored really-open threshold reads back as set, and is 1..100 whatever is stored.", "quantifier": "all states and inputs", "why_tests_cant": "All combinations of state and inputs.", "anchors": ["content/OTRadioLink/utility/OTRadValve_ModelledRadValve.h:ModelledRadValvePlugglableState::computeTargetTemperature / getMinValvePcReallyOpen / setMinValvePcReallyOpen"]}
{"id": "C61", "title": "Frost protection and overheat cut-off of the complete valve", "statement": "The complete valve (mode, schedule, target, setbacks and position computation together) opens to its permitted maximum within a bounded time when the room stays below the minimum temperature, and closes within a bounded time when the room stays well above the highest target the controls can ask for, whatever the user, schedule, occupancy and light do meanwhile.", "quantifier": "all histories of user operations and inputs", "why_tests_cant": "Composition of several stateful components over unbounded histories.", "anchors": ["content/OTRadioLink/utility/OTRadValve_ModelledRadValve.h:ModelledRadValvePlugglableState::read / setupInputState", "content/OTRadioLink/utility/OTRadValve_ModelledRadValveState.h:tick"]}
{"id": "C62", "title": "Received-frame trimming keeps the message", "statement": "The optional receive filter only ever drops zero bytes from the end of a frame, leaves one of them, keeps at least one byte, and looks at nothing outside the frame; the length helper for 0xff-terminated frames returns exactly the position of the first 0xff, or 0 when there is none in 256 bytes, reading no further than it.", "quantifier": "all frames and lengths up to 255", "why_tests_cant": "All buffers and positions of zeros.", "anchors": ["content/OTRadioLink/utility/OTRadioLink_OTRadioLink.cpp:frameFilterTrailingZeros / frameLenFFTerminated"]}
{"id": "C63", "title": "FHT8V valve scale conversion", "statement": "Percent open converts to the FHT8V 0..255 scale and back monotonically, exactly at both ends (never turning a part-open valve into a closed or fully open one) and to within one percent in the round trip.", "quantifier": "all percentages and scale values", "why_tests_cant": "Arithmetic shortcuts with rounding at every value.", "anchors": ["content/OTRadioLink/utility/OTRadValve_FHT8VRadValve.h:convertPercentTo255Scale / convert255ScaleToPercent"]}
{"id": "C64", "title": "Valve calibration is sound and complete", "statement": "Calibration from any measured travel counts terminates and succeeds exactly when proportional running is then possible; on success one minimum pulse moves the valve by less than the claimed precision (at most 15%) plus one percent and the exchange rate between opening and closing counts is right to within one count; any balanced valve with a travel of more than eight minimum pulses is accepted.", "quantifier": "all measured travel counts and minimum pulse lengths", "why_tests_cant": "2^40 measurements.", "anchors": ["content/OTRadioLink/utility/OTRadValve_CurrentSenseValveMotorDirect.cpp:CalibrationParameters::updateAndCompute"]}
{"id": "C65", "title": "Motor is left off and only started in time", "statement": "Whatever the hardware reports, when a poll returns the motor is off, every pulse was started only after reading a sub-cycle time early enough for the pulse to end within the allowed limit, and a poll made too late in the cycle does nothing.", "quantifier": "all histories of polls, callbacks and times", "why_tests_cant": "All schedules of callbacks and clock readings.", "anchors": ["content/OTRadioLink/utility/OTRadValve_CurrentSenseValveMotorDirect.cpp:CurrentSenseValveMotorDirectBinaryOnly::poll / runTowardsEndStop / wiggle"]}
{"id": "C66", "title": "Low supply never closes the valve", "statement": "In normal operation with the supply reported low the valve is never driven towards closed (fail-safe open).", "quantifier": "all histories and supply readings", "why_tests_cant": "All states of the driver at the moment the supply drops.", "anchors": ["content/OTRadioLink/utility/OTRadValve_CurrentSenseValveMotorDirect.cpp:CurrentSenseValveMotorDirectBinaryOnly::poll / do_valveNormal_prop"]}
{"id": "C67", "title": "Really-open threshold of the motorised valve", "statement": "The driver's really-open threshold is always 1..99%, and the valve is reported really open exactly in normal operation at or above that threshold, in particular always at the fully-open end stop.", "quantifier": "all reachable driver states", "why_tests_cant": "All calibrations and histories.", "anchors": ["content/OTRadioLink/utility/OTRadValve_CurrentSenseValveMotorDirect.cpp:getMinPercentOpen", "content/OTRadioLink/utility/OTRadValve_CurrentSenseValveMotorDirect.h:isControlledValveReallyOpen"]}
{"id": "C68", "title": "Motor moves only towards the target and stops there", "statement": "In normal operation a poll gives the motor at most one pulse, opening only if the target is above the reported position or at least 50% and closing only if it is below or under 50%; once the reported position equals the target, is the end the target calls for, or is within the calibrated precision of an intermediate target, the motor is not run at all; and the end-stop-only driver reaches the end called for within four polls that hit it.", "quantifier": "all reachable states, targets and hardware responses", "why_tests_cant": "Unbounded histories of targets and hardware responses.", "anchors": ["content/OTRadioLink/utility/OTRadValve_CurrentSenseValveMotorDirect.cpp:CurrentSenseValveMotorDirectBinaryOnly::poll / do_valveNormal_prop"]}
{"id": "C69", "title": "Statistics rotate without starvation", "statement": "As long as the buffer has room for the leading members and any one statistic, every statistic of normal priority is included in at least one of any 4N successive messages (N the number of statistics), whatever values are put meanwhile; on three of four messages a changed value, if pending, is included first; with maximise no changed value that would still fit is left out.", "quantifier": "all rotation states and histories of puts and writes", "why_tests_cant": "Unbounded histories of interleaved updates and messages.", "anchors": ["content/OTRadioLink/utility/OTV0P2BASE_JSONStats.cpp:SimpleStatsRotationBase::writeJSON / changedValue"]}
{"id": "C70", "title": "The statistics set is a finite map", "statement": "Putting, describing and removing statistics behaves as a map from names to values of bounded size: put sets exactly that name (marking it changed iff new or different), remove deletes exactly that name, a full set refuses new names only, names and ID that would need JSON escaping are refused, and every history of calls keeps names distinct.", "quantifier": "all histories of calls", "why_tests_cant": "All histories and key sets.", "anchors": ["content/OTRadioLink/utility/OTV0P2BASE_JSONStats.cpp:SimpleStatsRotationBase::put / putDescriptor / remove / findByKey / isValidSimpleStatsKey"]}
{"id": "C71", "title": "Binary stats privacy", "statement": "What a full binary stats message contains depends only on the fields the privacy level allows: whenever the level is above 'always all', two states differing only in occupancy encode to the same bytes, and the ID, temperature/power and ambient-light fields appear exactly when present and requested.", "quantifier": "all stats structures and privacy levels", "why_tests_cant": "All pairs of states (a hyperproperty).", "anchors": ["content/OTRadioLink/utility/OTV0P2BASE_SimpleBinaryStats.cpp:encodeFullStatsMessageCore"]}
{"id": "C72", "title": "Binary stats codec memory safety", "statement": "Decoding never reads outside the bytes given, and encoding never writes outside the buffer given, whatever the content, and encoding fails with 0 exactly when there is no room for the whole message.", "quantifier": "all buffers, lengths and contents", "why_tests_cant": "All malformed inputs.", "anchors": ["content/OTRadioLink/utility/OTV0P2BASE_SimpleBinaryStats.cpp:encodeFullStatsMessageCore", "content/OTRadioLink/utility/OTV0P2BASE_SimpleBinaryStats.cpp:decodeFullStatsMessageCore"]}
{"id": "C73", "title": "Binary stats acceptance grammar", "statement": "A received full stats message is accepted exactly when it is the wire image of some structure: right header, allowed flags, no 0xff, fields in range, right CRC; a minimal one exactly when its three bytes have the right header bits and CRC.", "quantifier": "all byte sequences", "why_tests_cant": "2^(8n) inputs.", "anchors": ["content/OTRadioLink/utility/OTV0P2BASE_SimpleBinaryStats.cpp:decodeFullStatsMessageCore", "content/OTRadioLink/utility/OTV0P2BASE_SimpleBinaryStats.cpp:verifyHeaderAndCRCForTrailingMinimalStatsPayload"]}
{"id": "C74", "title": "Binary stats error detection of the minimal payload", "statement": "The minimal 3-byte payload detects every single-bit error, and the errors of up to three bits that go undetected are exactly the characterised two-bit pattern.", "quantifier": "all payloads and error patterns", "why_tests_cant": "All payloads times all patterns.", "anchors": ["content/OTRadioLink/utility/OTV0P2BASE_SimpleBinaryStats.cpp:writeTrailingMinimalStatsPayload", "content/OTRadioLink/utility/OTV0P2BASE_SimpleBinaryStats.cpp:verifyHeaderAndCRCForTrailingMinimalStatsPayload"]}
{"id": "C75", "title": "Hourly statistics hold the rounded mean of the hour", "statement": "After an hour of sub-samples and a final full sample, the hour's raw slot for each sensor that was available throughout holds the mean of the accepted samples (the first M-1 and the final one), rounded to nearest, temperature then compressed, and the smoothed slot holds that value if it was unset, else the old one smoothed towards it; nothing is ever written by a sub-sample, to another hour, to other sets, or for an unavailable sensor.", "quantifier": "all numbers of sub-samples, readings and stored values", "why_tests_cant": "All sample sequences.", "anchors": ["content/OTRadioLink/utility/OTV0P2BASE_Stats.h:StatsUpdaterLogic::update_stats_store", "content/OTRadioLink/utility/OTV0P2BASE_Stats.h:update_stats_pair", "content/OTRadioLink/utility/OTV0P2BASE_Stats.h:divide_to_u8"]}
{"id": "C76", "title": "Hourly statistics stay in range", "statement": "Over any history of calls, every stored hourly statistic is the unset mark or in the range of its kind (temperature 0..248, light 0..254, occupancy and humidity 0..100).", "quantifier": "all histories of sub-samples and full samples", "why_tests_cant": "Unbounded histories.", "anchors": ["content/OTRadioLink/utility/OTV0P2BASE_Stats.h:StatsUpdaterLogic::update_stats_store"]}
{"id": "C77", "title": "EEPROM statistics store", "statement": "The slots of all sets and hours are disjoint; writing one leaves every other EEPROM cell alone whenever power fails, and leaves the slot old or new; reading gives what was written; invalid sets or hours read as unset and write nothing.", "quantifier": "all sets, hours, values, EEPROM contents and power-failure points", "why_tests_cant": "All crash points.", "anchors": ["content/OTRadioLink/utility/OTV0P2BASE_EEPROM.h:EEPROMByHourByteStats::_getByHourStatSimple / _setByHourStatSimple"]}
{"id": "C78", "title": "Erasing statistics is bounded and terminates", "statement": "Erasing statistics touches only the statistics area even if power fails, erases at most the given number of bytes per call, answers 'done' only when the whole area is erased, and repeated calls always finish.", "quantifier": "all EEPROM contents, limits and power-failure points", "why_tests_cant": "All crash points and contents.", "anchors": ["content/OTRadioLink/utility/OTV0P2BASE_EEPROM.cpp:EEPROMByHourByteStats::_zapStats"]}
{"id": "C79", "title": "FHT8V synchronisation timeline", "statement": "An available FHT8V driver that starts (or is told to restart) synchronising sends nothing while it randomly puts the start off by whole two-second cycles, then 120 sync commands exactly one second apart counting 241, 239 .. 3, each sent twice, then the sync-final command exactly (HC2 mod 8)/2 + 4 s after the sync commands end, then valve commands every 115 + (HC2 mod 8)/2 s, and nothing else.", "quantifier": "all EEPROM contents, set-up operations, house codes, random numbers, target changes at any slot, and run lengths", "why_tests_cant": "Runs are unbounded and the random start and the house code multiply the cases.", "anchors": ["content/OTRadioLink/utility/OTRadValve_FHT8VRadValve.cpp:FHT8VRadValveBase::doSync", "content/OTRadioLink/utility/OTRadValve_FHT8VRadValve.cpp:FHT8VRadValveBase::FHT8VPollSyncAndTX_First", "content/OTRadioLink/utility/OTRadValve_FHT8VRadValve.cpp:FHT8VRadValveBase::FHT8VPollSyncAndTX_Next"]}
{"id": "C80", "title": "FHT8V valve commands are regular and current", "statement": "In any state the main loop can reach in which the driver is in sync, and while radio and house codes are left alone, a single valve command with the current house codes and the latest accepted target is sent exactly every 230 + (HC2 mod 8) half-second slots, and nothing is sent in between.", "quantifier": "all reachable states, all later target changes, all run lengths", "why_tests_cant": "All histories.", "anchors": ["content/OTRadioLink/utility/OTRadValve_FHT8VRadValve.cpp:FHT8VRadValveBase::FHT8VPollSyncAndTX_First", "content/OTRadioLink/utility/OTRadValve_FHT8VRadValve.cpp:FHT8VRadValveBase::FHT8VPollSyncAndTX_Next", "content/OTRadioLink/utility/OTRadValve_FHT8VRadValve.h:FHT8VRadValveBase::FHT8VTXGapHalfSeconds"]}
{"id": "C81", "title": "FHT8V driver sends only what it should", "statement": "After any history of calls in any order, only a poll sends, at most one command, only with a radio set; sync commands only while out of sync, doubled, with the current house codes; valve commands only while in sync, single, with the current house codes and the latest accepted target.", "quantifier": "all call histories, in any order", "why_tests_cant": "All histories.", "anchors": ["content/OTRadioLink/utility/OTRadValve_FHT8VRadValve.cpp:FHT8VRadValveBase::valveSettingTX", "content/OTRadioLink/utility/OTRadValve_FHT8VRadValve.cpp:FHT8VRadValveBase::FHT8VTXFHTQueueAndSendCmd", "content/OTRadioLink/utility/OTRadValve_FHT8VRadValve.h:FHT8VRadValve::set"]}
{"id": "C82", "title": "FHT8V valve reported open only if told to open", "statement": "Whenever the driver reports the controlled valve really open, it is in sync, the target is at least the minimum open percentage and the last command sent to the valve was a valve command of at least that percentage.", "quantifier": "all call histories", "why_tests_cant": "All histories.", "anchors": ["content/OTRadioLink/utility/OTRadValve_FHT8VRadValve.h:FHT8VRadValveBase::isControlledValveReallyOpen", "content/OTRadioLink/utility/OTRadValve_FHT8VRadValve.cpp:FHT8VRadValveBase::setFHT8V_isValveOpen"]}
{"id": "C83", "title": "FHT8V driver available iff configured", "statement": "The driver is available, and drives its valve, exactly when a radio and valid house codes are set.", "quantifier": "all call histories", "why_tests_cant": "All histories.", "anchors": ["content/OTRadioLink/utility/OTRadValve_FHT8VRadValve.h:FHT8VRadValveBase::isAvailable", "content/OTRadioLink/utility/OTRadValve_FHT8VRadValve.cpp:FHT8VRadValveBase::doSync"]}
{"id": "C84", "title": "FHT8V house codes survive restarts", "statement": "After a restart, loading the stored house codes gives the codes last stored, whatever happened before, and unset codes if those are not valid; nothing else changes the stored codes.", "quantifier": "all call histories and EEPROM contents", "why_tests_cant": "All histories.", "anchors": ["content/OTRadioLink/utility/OTRadValve_FHT8VRadValve.cpp:FHT8VRadValveBase::nvSetHC1 / nvSetHC2 / nvClearHC", "content/OTRadioLink/utility/OTRadValve_FHT8VRadValve.cpp:FHT8VRadValveBase::nvLoadHC"]}
{"id": "C85", "title": "Receive queues stay safe with an over-long frame length", "statement": "If the interrupt routine reports a frame longer than the maximum, no access leaves the queue's buffer and no longer length is passed on.", "quantifier": "all histories and all length bytes", "why_tests_cant": "All histories.", "anchors": ["content/OTRadioLink/utility/OTRadioLink_ISRRXQueue.h:ISRRXQueue1Deep::_loadedBuf", "content/OTRadioLink/utility/OTRadioLink_ISRRXQueue.h:ISRRXQueueVarLenMsgBase::_loadedBuf"]}
{"id": "C86", "title": "Ambient light thresholds stay ordered and usable", "statement": "At all times the light threshold is in [1,254], the dark threshold in [0,253] and strictly below it; the range is flagged too narrow exactly when both long-term limits are known and within 4 of each other (or inverted, or the minimum is at the top of the scale), and then the room is reported neither lit nor dark and the dark time is zero; when the limits are known and usable a reading at the long-term maximum is reported lit and one at the long-term minimum dark.", "quantifier": "all histories of readings and statistics updates, all byte values", "why_tests_cant": "All histories, 2^25 parameter combinations.", "anchors": ["content/OTRadioLink/utility/OTV0P2BASE_SensorAmbientLight.h:SensorAmbientLightAdaptiveTBase::recomputeThresholds", "content/OTRadioLink/utility/OTV0P2BASE_SensorAmbientLight.h:SensorAmbientLightAdaptiveTBase::setTypMinMax", "content/OTRadioLink/utility/OTV0P2BASE_SensorAmbientLight.h:SensorAmbientLightBase::isRoomLit", "content/OTRadioLink/utility/OTV0P2BASE_SensorAmbientLight.h:SensorAmbientLightBase::isRoomDark"]}
{"id": "C87", "title": "Room lit/dark hysteresis", "statement": "With a usable range the room is reported lit exactly when some reading was above the light threshold in force at the time and no reading since was at or below the dark threshold in force at its time; otherwise it is reported dark; it is never reported both. It is reported very dark exactly when, with a usable range, the last reading was at most 4.", "quantifier": "all histories of readings, statistics updates, callback changes and resets", "why_tests_cant": "All histories.", "anchors": ["content/OTRadioLink/utility/OTV0P2BASE_SensorAmbientLight.h:SensorAmbientLightAdaptiveTBase::read", "content/OTRadioLink/utility/OTV0P2BASE_SensorAmbientLight.h:SensorAmbientLightBase::isRoomLit", "content/OTRadioLink/utility/OTV0P2BASE_SensorAmbientLight.h:SensorAmbientLightBase::isRoomDark"]}
{"id": "C88", "title": "Dark minutes", "statement": "The dark time reported is the number of readings at or below the dark threshold while the range was usable since the last reading above the light threshold (or reset or too-narrow range), saturating at 65535; it is non-zero only if the room is reported dark.", "quantifier": "all histories", "why_tests_cant": "All histories; saturation takes 45 days.", "anchors": ["content/OTRadioLink/utility/OTV0P2BASE_SensorAmbientLight.h:SensorAmbientLightAdaptiveTBase::read", "content/OTRadioLink/utility/OTV0P2BASE_SensorAmbientLight.h:SensorAmbientLightBase::getDarkMinutes"]}
{"id": "C89", "title": "Light-based occupancy reported exactly on the documented evidence", "statement": "An update reports probable occupancy exactly when there is a rise of at least 4 and at least the required fraction of the usual mean after three steady ticks (and the room was not very dark for 255 ticks), or when such a rise from long dark is confirmed; weak exactly for the unconfirmed rise from long dark or for 30 ticks of steady light near the usual mean and away from the extremes; never strong; never on a falling level or on the first level after power-up.", "quantifier": "all histories of levels and settings", "why_tests_cant": "All histories; the state depends on up to 255 previous levels.", "anchors": ["content/OTRadioLink/utility/OTV0P2BASE_SensorAmbientLightOccupancy.cpp:SensorAmbientLightOccupancyDetectorSimple::update", "content/OTRadioLink/utility/OTV0P2BASE_SensorAmbientLightOccupancy.cpp:SensorAmbientLightOccupancyDetectorSimple::setTypMinMax"]}
{"id": "C90", "title": "A flash of light in a dark room does not wake the heating", "statement": "After at least 255 steady ticks at or below the dark floor a sudden rise is not reported as probable occupancy, nor are the next two levels, whatever they are; if the level falls back by 4 or more the rise is forgotten; if the light stays on and steady the third following update reports probable occupancy.", "quantifier": "all histories and later levels", "why_tests_cant": "All histories.", "anchors": ["content/OTRadioLink/utility/OTV0P2BASE_SensorAmbientLightOccupancy.cpp:SensorAmbientLightOccupancyDetectorSimple::update"]}
{"id": "C91", "title": "Occupancy callbacks of the light sensor", "statement": "A reading makes the callback with 'probable' exactly when the detector, shown the readings made while a callback was set, reports probable occupancy; with 'weak' exactly when it reports weak and the reading is above the light threshold; no callback is made otherwise, or when none is set.", "quantifier": "all histories", "why_tests_cant": "All histories.", "anchors": ["content/OTRadioLink/utility/OTV0P2BASE_SensorAmbientLight.h:SensorAmbientLightAdaptiveTBase::read", "content/OTRadioLink/utility/OTV0P2BASE_SensorAmbientLight.h:SensorAmbientLightAdaptiveTBase::setOccCallbackOpt"]}
{"id": "C92", "title": "The hub never acts twice on a message, nor on an old one", "statement": "Over any sequence of received messages, two messages that make the hub act (call the boiler, relay, print) on behalf of one node carry strictly increasing message counters, and the same message bytes never make it act twice; handling never runs into undefined behaviour whatever the bytes.", "quantifier": "all message sequences, EEPROM contents, keys, primitives, operators and stack contents", "why_tests_cant": "All histories of arbitrary bytes.", "anchors": ["content/OTRadioLink/utility/OTRadioLink_Messaging.h:decodeAndHandleRawRXedMessage", "content/OTRadioLink/utility/OTRadioLink_Messaging.h:decodeAndHandleOTSecureOFrame", "content/OTRadioLink/utility/OTRadioLink_Messaging.h:authAndDecodeOTSecurableFrame"]}
{"id": "C93", "title": "The hub acts only on authentic messages, and only on what they say", "statement": "The hub calls for heat, relays or prints only for a well-formed secure O frame that authenticates under the key and an associated node's ID and is newer than that node's last; the boiler percentage is then the first byte of the decrypted body and at most 100, the relayed bytes are exactly the received frame, and the printed text is exactly the stats after the brace; any other message changes nothing and is offered to the next handler.", "quantifier": "all messages, EEPROM contents, keys, primitives, operators and stack contents", "why_tests_cant": "All inputs, including all forgeries.", "anchors": ["content/OTRadioLink/utility/OTRadioLink_Messaging.h:boilerFrameOperation", "content/OTRadioLink/utility/OTRadioLink_Messaging.h:relayFrameOperation", "content/OTRadioLink/utility/OTRadioLink_Messaging.h:serialFrameOperation", "content/OTRadioLink/utility/OTRadioLink_Messaging.h:decodeAndHandleOTSecureOFrame"]}
{"id": "C94", "title": "A valve's report reaches the boiler", "statement": "A valve frame encoded by any transmitter whose ID is associated with the hub and received intact with a counter newer than the last makes the hub call for heat with exactly the valve percentage when it is 0 to 100 and not at all otherwise, relay it exactly and print its stats exactly when it carries non-empty stats, and advances the stored counter to the frame's.", "quantifier": "all transmitter and hub states, valve positions, stats, IDs, counters, trailing buffer bytes, inverse encryption/decryption pairs", "why_tests_cant": "All inputs of two devices at once.", "anchors": ["content/OTRadioLink/utility/OTRadioLink_Messaging.h:decodeAndHandleOTSecureOFrame", "content/OTRadioLink/utility/OTRadioLink_SecureableFrameType.cpp:SimpleSecureFrame32or0BodyTXBase::encodeValveFrame"]}
{"id": "C95", "title": "Queued messages are handled one per call, oldest first, never late in the cycle", "statement": "Each handler call made before 3/4 of the sub-cycle handles and removes exactly the oldest queued message, or none if the queue is empty; a later call does nothing; so after any calls the messages handled are exactly the first k queued, in order, with k the number of in-time calls capped by the queue length; a call reports work done exactly when in time and there was a message or serial activity.", "quantifier": "all call sequences, queue contents and handlers", "why_tests_cant": "All histories.", "anchors": ["content/OTRadioLink/utility/OTRadioLink_Messaging.h:OTMessageQueueHandler::handle"]}
{"id": "C96", "title": "Recent use of the controls lapses on time", "statement": "After a read() that reports activity, recentUIControlUse() stays true for at least the next 928 reads (2 s each) with nobody touching the unit and is false after 992, veryRecentUIControlUse() for at least 32 and not after 96; whatever the history, the remaining minutes are those there were less one per 32 reads, never below zero.", "quantifier": "all configurations, histories of reads, presses, dial and mode changes, and interrupt timings", "why_tests_cant": "All histories and interrupt points.", "anchors": ["content/OTRadioLink/utility/OTRadValve_ActuatorPhysicalUI.h:recentUIControlUse", "content/OTRadioLink/utility/OTRadValve_ActuatorPhysicalUI.h:veryRecentUIControlUse", "content/OTRadioLink/utility/OTRadValve_ActuatorPhysicalUI.cpp:ModeButtonAndPotActuatorPhysicalUI::read"]}
{"id": "C97", "title": "A press of the boost button is never lost", "statement": "With the dial neither at its bottom end nor being turned down, a press of the MODE button at any moment of a read() leaves the valve in BAKE for the full period, the room occupied and the controls very recently used at its end, whatever else the read does; and the read reports activity unless the press fell in the instant between the flag being copied and cleared (then the report, though nothing else, is lost).", "quantifier": "all configurations, states, inputs, and numbers of presses at every interrupt point", "why_tests_cant": "All interrupt timings.", "anchors": ["content/OTRadioLink/utility/OTRadValve_ActuatorPhysicalUI.h:startBakeFromInt", "content/OTRadioLink/utility/OTRadValve_ActuatorPhysicalUI.cpp:ModeButtonAndPotActuatorPhysicalUI::read"]}
{"id": "C98", "title": "Turning the dial to the bottom means FROST", "statement": "Every read that finds the dial newly at its bottom end, and every fourth read with it there, leaves the valve in FROST with no BAKE pending, whatever presses occur at whatever moment and whatever the dial's callbacks do; and it stays in FROST through any reads, presses and minutes while the dial is left there.", "quantifier": "all configurations, states, histories and interrupt timings", "why_tests_cant": "All histories and interrupt points.", "anchors": ["content/OTRadioLink/utility/OTRadValve_ActuatorPhysicalUI.cpp:ModeButtonAndPotActuatorPhysicalUI::read", "content/OTRadioLink/utility/OTRadValve_ActuatorPhysicalUI.h:startBakeFromInt"]}
{"id": "C99", "title": "A UI read is short", "statement": "A read() takes at most 350 ms (waits and naps).", "quantifier": "all configurations, states, inputs and interrupt timings", "why_tests_cant": "All paths.", "anchors": ["content/OTRadioLink/utility/OTRadValve_ActuatorPhysicalUI.cpp:ModeButtonAndPotActuatorPhysicalUI::read", "content/OTRadioLink/utility/OTRadValve_ActuatorPhysicalUI.h:pollMODEButton"]}
{"id": "C100", "title": "The LED tells the mode, and does not disturb", "statement": "Every read ends with the LED off; with no press or feedback in it, it flashes exactly: when just or very recently touched once, twice if calling for heat (or under target while very recent) and three times in BAKE; otherwise, only if the room is not dark, in WARM the same on every fourth read or when calling for heat or in BAKE, and in FROST twice on every fourth read when calling for heat; so in the dark with nobody at the controls there is no light at all.", "quantifier": "all configurations, states and inputs", "why_tests_cant": "All states and inputs.", "anchors": ["content/OTRadioLink/utility/OTRadValve_ActuatorPhysicalUI.cpp:ModeButtonAndPotActuatorPhysicalUI::read"]}
{"id": "C101", "title": "Clicks count degrees", "statement": "After the dial is turned so that the target differs by x from that last shown, each of the next x reads gives exactly one click and later ones none (x up to 10; exactly one click in all if x is more), with FROST and BAKE ends counting as one beyond the scale.", "quantifier": "all configurations, states, dial positions and numbers of reads", "why_tests_cant": "All histories of unbounded length.", "anchors": ["content/OTRadioLink/utility/OTRadValve_ActuatorPhysicalUI.cpp:ModeButtonAndPotActuatorPhysicalUI::read", "content/OTRadioLink/utility/OTRadValve_ActuatorPhysicalUI.h:userOpFeedback"]}
{"id": "C102", "title": "Power-up", "statement": "From power-up with the dial steady above its bottom end, the unit is in FROST until the fourth read and in WARM, never BAKE, from then on, and no read ever clicks, reports activity or counts as use of the controls, for however many reads.", "quantifier": "all configurations and unbounded numbers of reads", "why_tests_cant": "Unbounded histories.", "anchors": ["content/OTRadioLink/utility/OTRadValve_ActuatorPhysicalUI.cpp:ModeButtonAndPotActuatorPhysicalUI::read"]}
{"id": "C103", "title": "Holding the MODE button cycles through the modes", "statement": "On units with the cycling button, holding it for n reads and letting go leaves the mode n steps on in the cycle FROST, WARM, BAKE from that at the first (BAKE with the full period), changes no mode while held, and is reported as activity, whatever interrupts and minutes pass meanwhile.", "quantifier": "all states, numbers of reads and interrupt timings", "why_tests_cant": "Unbounded histories.", "anchors": ["content/OTRadioLink/utility/OTRadValve_ActuatorPhysicalUI.h:pollMODEButton"]}
{"id": "C104", "title": "Reading a command line is safe and exact", "statement": "The line reader never writes or reads outside the caller's buffer; a line it delivers is exactly the printable characters typed up to the end of line (leading ones that cannot start a command dropped, the first upper-cased), NUL-terminated, or the first size-1 of them; a line that fits and is completed in time is delivered; it gives up without a line at the first idle look after its time limit, and at once if too little time is left or the buffer is too small.", "quantifier": "all buffers, time limits, character sequences and timings", "why_tests_cant": "All schedules of arriving characters.", "anchors": ["content/OTRadioLink/utility/OTV0P2BASE_CLI.cpp:promptAndReadCommandLine"]}
{"id": "C105", "title": "Numbers on the command line", "statement": "One or two hex digits (either case) are parsed to their value, anything not starting so is rejected, and every byte survives printing and parsing in hex; a decimal number up to 32767 is parsed to its value.", "quantifier": "all strings", "why_tests_cant": "All strings.", "anchors": ["content/OTRadioLink/utility/OTV0P2BASE_Util.cpp:parseHexByte", "content/OTRadioLink/utility/OTV0P2BASE_Util.h:parseHexDigit", "content/OTRadioLink/utility/OTV0P2BASE_CLI.cpp:GenericParam::doCommand"]}
{"id": "C106", "title": "A CLI command changes only what it is about", "statement": "Whatever is typed, whatever the EEPROM contains and whenever the power fails, each command changes no EEPROM byte outside its own area: associations (A), nothing (D), generic parameters (G), node ID (I), the key and what the key-cleared callback changes (K), saved time (T), privacy level (X), statistics (Z); and so for any session of commands.", "quantifier": "all commands, lines, EEPROM contents, sessions and power-failure points", "why_tests_cant": "All inputs and crash points.", "anchors": ["content/OTRadioLink/utility/OTV0P2BASE_CLI.cpp:SetNodeAssoc::doCommand", "content/OTRadioLink/utility/OTV0P2BASE_CLI.cpp:SetSecretKey::doCommand", "content/OTRadioLink/utility/OTV0P2BASE_CLI.cpp:GenericParam::doCommand", "content/OTRadioLink/utility/OTV0P2BASE_CLI.cpp:ZapStats::doCommand"]}
{"id": "C107", "title": "CLI node associations", "statement": "A with eight ID bytes appends exactly that ID after those present and reports its index, or is refused if the table is full; A ? lists all of them in order and finds the first with a given first byte; A * clears them; every other line is refused and changes nothing.", "quantifier": "all lines and EEPROM contents", "why_tests_cant": "All strings and tables.", "anchors": ["content/OTRadioLink/utility/OTV0P2BASE_CLI.cpp:SetNodeAssoc::doCommand", "content/OTRadioLink/utility/OTV0P2BASE_Security.cpp:addNodeAssociation"]}
{"id": "C108", "title": "CLI generic parameters", "statement": "G N shows parameter N and G N V sets it to V (0-255) for each N from 0 to 31, changing nothing else; any other N or V is refused and changes nothing.", "quantifier": "all lines and EEPROM contents", "why_tests_cant": "All strings.", "anchors": ["content/OTRadioLink/utility/OTV0P2BASE_CLI.cpp:GenericParam::doCommand"]}
{"id": "C109", "title": "CLI secret key", "statement": "K B with sixteen hex bytes sets exactly that key; K B * clears it and then runs the callback; every other line is refused and leaves the key alone.", "quantifier": "all lines, EEPROM contents and callbacks", "why_tests_cant": "All strings.", "anchors": ["content/OTRadioLink/utility/OTV0P2BASE_CLI.cpp:SetSecretKey::doCommand", "content/OTRadioLink/utility/OTV0P2BASE_Security.cpp:setPrimaryBuilding16ByteSecretKey"]}
{"id": "C110", "title": "The node ID", "statement": "Creating the node ID, whatever the EEPROM and the random bytes and whenever the power fails, never changes a byte that was set (unless forced), writes only usable ID bytes and reports success exactly if all are usable; it finishes given eight usable random bytes; I shows the stored ID, I * renews it, I with eight usable bytes sets exactly those, and any other line sets nothing.", "quantifier": "all lines, EEPROM contents, random sequences and power-failure points", "why_tests_cant": "All inputs and crash points.", "anchors": ["content/OTRadioLink/utility/OTV0P2BASE_Security.cpp:ensureIDCreated", "content/OTRadioLink/utility/OTV0P2BASE_CLI.cpp:NodeID::doCommand", "content/OTRadioLink/utility/OTV0P2BASE_CLI.cpp:NodeIDWithSet::doCommand"]}
{"id": "C111", "title": "CLI time and privacy", "statement": "T HH MM sets exactly that time of day, keeping seconds and date, and anything else is refused and changes nothing; X NN sets exactly privacy level NN.", "quantifier": "all lines, clocks and EEPROM contents", "why_tests_cant": "All strings.", "anchors": ["content/OTRadioLink/utility/OTV0P2BASE_CLI.cpp:SetTime::doCommand", "content/OTRadioLink/utility/OTV0P2BASE_CLI.cpp:SetTXPrivacy::doCommand"]}
{"id": "C112", "title": "CLI statistics", "statement": "D N shows for each hour in order the value of set N ('-' if unset, degrees for temperatures) with a mark at the current hour, and changes nothing; Z erases statistics and says so exactly when none are left; if it reports not being finished there are fewer left than before.", "quantifier": "all lines, EEPROM contents and times left", "why_tests_cant": "All contents.", "anchors": ["content/OTRadioLink/utility/OTV0P2BASE_CLI.cpp:DumpStats::doCommand", "content/OTRadioLink/utility/OTV0P2BASE_CLI.cpp:ZapStats::doCommand"]}
{"id": "C113", "title": "CLI house code", "statement": "H with two numbers from 0 to 99 sets the live and the stored house code and makes the valve resynchronise exactly if the code changed; H alone forgets both; numbers out of range and incomplete lines change nothing.", "quantifier": "all lines and valve states", "why_tests_cant": "All strings and states.", "anchors": ["content/OTRadioLink/utility/OTRadValve_FHT8VRadValve.cpp:SetHouseCode::doCommand"]}
{"id": "C114", "title": "The CLI stays active for its time-out", "statement": "The CLI is active exactly if it was started and neither stopped nor left for two count-downs since, for any history, including starts and stops from interrupts in the middle of a count-down (a start in the very minute of an earlier start counts from that one).", "quantifier": "all histories and interrupt points", "why_tests_cant": "All histories.", "anchors": ["content/OTRadioLink/utility/OTV0P2BASE_CLI.cpp:resetCLIActiveTimer", "content/OTRadioLink/utility/OTV0P2BASE_CLI.cpp:countDownCLI", "content/OTRadioLink/utility/OTV0P2BASE_Concurrency.h:safeDecIfNZWeak"]}
{"id": "C115", "title": "The CLI does not reveal the secret key", "statement": "Two devices differing only in their secret key answer every command, and any session of commands, with identical output, and afterwards still differ only in the key (assuming that the key-cleared callback does not itself read the key).", "quantifier": "all commands, lines, sessions and EEPROM contents", "why_tests_cant": "Relates all pairs of executions.", "anchors": ["content/OTRadioLink/utility/OTV0P2BASE_CLI.cpp:SetNodeAssoc::doCommand", "content/OTRadioLink/utility/OTV0P2BASE_CLI.cpp:SetSecretKey::doCommand", "content/OTRadioLink/utility/OTV0P2BASE_CLI.cpp:GenericParam::doCommand", "content/OTRadioLink/utility/OTV0P2BASE_CLI.cpp:DumpStats::doCommand"]}
{"id": "C116", "title": "The GSM link sends what was queued", "statement": "queueToSend() accepts exactly the messages of up to 64 bytes; every frame the link writes to the module is the last message accepted and not yet written, so each is written at most once and a replaced one never; each frame directly follows an announcement of its exact length.", "quantifier": "all histories of polls, queueing and module answers", "why_tests_cant": "All schedules and module behaviours.", "anchors": ["content/OTRadioLink/utility/OTSIM900Link_OTSIM900Link.h:queueToSend", "content/OTRadioLink/utility/OTSIM900Link_OTSIM900Link.h:poll", "content/OTRadioLink/utility/OTSIM900Link_OTSIM900Link.h:initUDPSend"]}
{"id": "C117", "title": "The GSM link delivers", "statement": "After any history, with a message waiting, from the moment the module behaves (whether on or off and whatever its connection state) and polled every 1 s to 46 s, the link writes the message within 2700 polls and nothing before it; unless it was in the middle of sending, the module transmits it.", "quantifier": "all histories, module states, module registration delays and poll times", "why_tests_cant": "Liveness over all histories.", "anchors": ["content/OTRadioLink/utility/OTSIM900Link_OTSIM900Link.h:poll", "content/OTRadioLink/utility/OTSIM900Link_OTSIM900Link.h:retryLockOut", "content/OTRadioLink/utility/OTSIM900Link_OTSIM900Link.h:onStateChange"]}
{"id": "C118", "title": "The GSM link's attempts are bounded and spaced", "statement": "Whatever the module answers, between two power pulses the link asks for the PIN at most 10 times, for registration at most 30, sets the access point, starts GPRS and opens the socket at most 10 times each and announces at most 255 messages; and never repeats one of these attempts within 3 s.", "quantifier": "all histories with clocks that do not go backwards", "why_tests_cant": "All module behaviours and schedules.", "anchors": ["content/OTRadioLink/utility/OTSIM900Link_OTSIM900Link.h:poll", "content/OTRadioLink/utility/OTSIM900Link_OTSIM900Link.h:setRetryLock", "content/OTRadioLink/utility/OTSIM900Link_OTSIM900Link.h:retryLockOut"]}
{"id": "C119", "title": "The GSM module's power pin", "statement": "The pin is raised only when low, lowered only when high and at least 3 s after it was raised, and nothing is said to the module until 13 s after it was raised.", "quantifier": "all histories with clocks that do not go backwards", "why_tests_cant": "All schedules, including around the minute.", "anchors": ["content/OTRadioLink/utility/OTSIM900Link_OTSIM900Link.h:poll", "content/OTRadioLink/utility/OTSIM900Link_OTSIM900Link.h:powerToggle"]}
{"id": "C120", "title": "The GSM link's blocking send", "statement": "sendRaw() announces the exact length, writes the frame exactly if the module's prompt arrives in time, says so, and returns within about two seconds.", "quantifier": "all messages, starting times and characters read", "why_tests_cant": "All timings.", "anchors": ["content/OTRadioLink/utility/OTSIM900Link_OTSIM900Link.h:sendRaw", "content/OTRadioLink/utility/OTSIM900Link_OTSIM900Link.h:flushUntil"]}
{"id": "C121", "title": "The GSM module's answers", "statement": "No answer of the module makes the link read outside its buffers, and answers that report failure (or no answer) are not taken for success.", "quantifier": "all character sequences the module may send", "why_tests_cant": "All strings.", "anchors": ["content/OTRadioLink/utility/OTSIM900Link_OTSIM900Link.h:getResponse", "content/OTRadioLink/utility/OTSIM900Link_OTSIM900Link.h:setAPN", "content/OTRadioLink/utility/OTSIM900Link_OTSIM900Link.h:openUDPSocket", "content/OTRadioLink/utility/OTSIM900Link_OTSIM900Link.h:isRegistered", "content/OTRadioLink/utility/OTSIM900Link_OTSIM900Link.h:checkUDPStatus"]}
{"id": "C122", "title": "OneWire search finds every device", "statement": "On any bus, search() returns without touching anything outside the 8-byte address. On a bus of any number of devices with distinct codes, reset_search() followed by search() until it returns false yields every device's code exactly once, in increasing order (bits as sent), and leaves the devices' memories unchanged.", "quantifier": "all bus behaviours; all sets of devices", "why_tests_cant": "All sets of 64-bit codes.", "anchors": ["content/OTRadioLink/utility/OTV0P2BASE_MinOW.cpp:MinimalOneWireBase::search", "content/OTRadioLink/utility/OTV0P2BASE_MinOW.cpp:MinimalOneWireBase::reset_search"]}
{"id": "C123", "title": "DS18B20 readMultiple reads the right devices", "statement": "readMultiple() gives the values of the DS18B20s on the bus from number index on, in order of their codes, as many as asked for or as there are, returns how many, leaves the rest of the array alone, ignores other devices, and gives the present temperatures; read() gives that of the first, or the error value if there is none.", "quantifier": "all sets of devices, temperatures, counts, indexes and arrays", "why_tests_cant": "All bus populations and temperatures.", "anchors": ["content/OTRadioLink/utility/OTV0P2BASE_SensorDS18B20.cpp:TemperatureC16_DS18B20::readMultiple", "content/OTRadioLink/utility/OTV0P2BASE_SensorDS18B20.cpp:TemperatureC16_DS18B20::read", "content/OTRadioLink/utility/OTV0P2BASE_SensorDS18B20.cpp:TemperatureC16_DS18B20::init"]}
{"id": "C124", "title": "DS18B20 initialisation", "statement": "getSensorCount() on a new driver returns the number of DS18B20s; afterwards each has exactly the requested precision (9 to 12 bits, else the nearest) in its configuration register and alarm limits 0, everything else in it is unchanged, and no other device has been written.", "quantifier": "all sets of devices, scratchpad contents and precisions", "why_tests_cant": "All bus populations.", "anchors": ["content/OTRadioLink/utility/OTV0P2BASE_SensorDS18B20.cpp:TemperatureC16_DS18B20::init", "content/OTRadioLink/utility/OTV0P2BASE_SensorDS18B20.cpp:TemperatureC16_DS18B20::getSensorCount"]}
{"id": "C125", "title": "JeeLabs packets", "statement": "encode() turns a payload of up to 250 bytes into group, header (node or destination, flags), length, payload and CRC-16, at the start of the buffer, and touches nothing beyond; the radio's filter passes it (up to 59 bytes); decode() by a node of the group gives back exactly the payload, its length and the flags if it is broadcast or for that node, else reports that it is not for it.", "quantifier": "all payloads, nodes, groups, flags and buffer contents after it", "why_tests_cant": "All payloads.", "anchors": ["content/OTRadioLink/utility/OTRadioLink_JeelabsOemPacket.cpp:JeelabsOemPacket::encode", "content/OTRadioLink/utility/OTRadioLink_JeelabsOemPacket.cpp:JeelabsOemPacket::decode", "content/OTRadioLink/utility/OTRadioLink_JeelabsOemPacket.cpp:JeelabsOemPacket::filter"]}
{"id": "C126", "title": "JeeLabs packets: damage", "statement": "A packet damaged in a burst of at most 16 bits, in any two bits, or in an odd number of bits (length byte intact) is not passed by the filter and not decoded.", "quantifier": "all packets up to 255 bytes, all such damage", "why_tests_cant": "All pairs of packets.", "anchors": ["content/OTRadioLink/utility/OTRadioLink_JeelabsOemPacket.cpp:JeelabsOemPacket::decode", "content/OTRadioLink/utility/OTRadioLink_JeelabsOemPacket.cpp:JeelabsOemPacket::filter", "content/OTRadioLink/utility/OTRadioLink_JeelabsOemPacket.cpp:JeelabsOemPacket::calcCrc"]}
{"id": "C127", "title": "JeeLabs packets: bounds", "statement": "Whatever was received, the filter and decode() of what it passed read only the radio's 64-byte buffer, and only complete packets pass.", "quantifier": "all buffer contents", "why_tests_cant": "All buffers.", "anchors": ["content/OTRadioLink/utility/OTRadioLink_JeelabsOemPacket.cpp:JeelabsOemPacket::filter", "content/OTRadioLink/utility/OTRadioLink_JeelabsOemPacket.cpp:JeelabsOemPacket::decode"]}
{"id": "C128", "title": "RFM23B link: receiving, over any history", "statement": "Whatever frames, flags and interrupts come, interleaved with polling, sending, changing channel, setting filters and reading the queue: a frame received while listening is queued exactly, or counted as filtered or dropped, and the application gets the queued frames in order, each once; no buffer is overrun; afterwards the radio is receiving again on the channel listened to; only what was given to sendRaw() is on the air. A frame is never lost without a counter telling.", "quantifier": "all configurations, filters, frames, flags and histories, interrupts at all points they can come", "why_tests_cant": "Interleavings of interrupts with driver code.", "anchors": ["content/OTRadioLink/utility/OTRFM23BLink_OTRFM23BLink.h:OTRFM23BLink::_poll", "content/OTRadioLink/utility/OTRFM23BLink_OTRFM23BLink.h:OTRFM23BLink::_RXFIFO", "content/OTRadioLink/utility/OTRFM23BLink_OTRFM23BLink.h:OTRFM23BLink::_dolistenNonVirtual", "content/OTRadioLink/utility/OTRFM23BLink_OTRFM23BLink.h:OTRFM23BLink::_handleInterruptNonVirtual", "content/OTRadioLink/utility/OTRFM23BLink_OTRFM23BLink.cpp:OTRFM23BLinkBase::sendRaw"]}
{"id": "C129", "title": "RFM23B link: sending", "statement": "sendRaw() of up to 64 bytes on an existing channel puts exactly those bytes on the air, once (twice at maximum power), with every register as that channel's configuration says, and returns whether the chip confirmed each transmission; the queue and counters are unchanged and if the link was listening it is receiving again.", "quantifier": "all states, frames, channels, powers, and interrupts during the call", "why_tests_cant": "All chip states and interrupt timings.", "anchors": ["content/OTRadioLink/utility/OTRFM23BLink_OTRFM23BLink.cpp:OTRFM23BLinkBase::sendRaw", "content/OTRadioLink/utility/OTRFM23BLink_OTRFM23BLink.cpp:OTRFM23BLinkBase::_queueFrameInTXFIFO", "content/OTRadioLink/utility/OTRFM23BLink_OTRFM23BLink.cpp:OTRFM23BLinkBase::_TXFIFO", "content/OTRadioLink/utility/OTRFM23BLink_OTRFM23BLink.cpp:OTRFM23BLinkBase::_setChannel"]}
{"id": "C130", "title": "RFM23B link: channels", "statement": "listen(true, c) makes the radio receive on channel c (or the last, if there are fewer), listen(false) stops it, whatever state it was in, including after end() and begin(); switching to a standard configuration leaves no register of the configuration before.", "quantifier": "all states, channel numbers, previous configurations and chip states", "why_tests_cant": "All histories of channel use.", "anchors": ["content/OTRadioLink/utility/OTRadioLink_OTRadioLink.h:OTRadioLink::listen", "content/OTRadioLink/utility/OTRFM23BLink_OTRFM23BLink.h:OTRFM23BLink::_dolistenNonVirtual", "content/OTRadioLink/utility/OTRFM23BLink_OTRFM23BLink.cpp:OTRFM23BLinkBase::_setChannel", "content/OTRadioLink/utility/OTRFM23BLink_OTRFM23BLink.cpp:OTRFM23BLinkBase::begin", "content/OTRadioLink/utility/OTRFM23BLink_OTRFM23BLink.cpp:OTRFM23BLinkBase::end", "content/OTRadioLink/utility/OTRFM23BLink_OTRFM23BLink.cpp:StandardRegSettingsGFSK57600"]}
{"id": "C131", "title": "RFM23B link: true means sent", "statement": "If sendRaw() returns true the whole frame was sent on the channel asked for.", "quantifier": "all frames and channel numbers", "why_tests_cant": "All inputs.", "anchors": ["content/OTRadioLink/utility/OTRFM23BLink_OTRFM23BLink.cpp:OTRFM23BLinkBase::sendRaw", "content/OTRadioLink/utility/OTRFM23BLink_OTRFM23BLink.cpp:OTRFM23BLinkBase::_setChannel", "content/OTRadioLink/utility/OTRFM23BLink_OTRFM23BLink.cpp:OTRFM23BLinkBase::_queueFrameInTXFIFO"]}
{"id": "C132", "title": "Error reports persist", "statement": "A report given to the error reporter while it is free, or any positive (error) report at any time, is taken; it is then reported unchanged until at least ten polls later whatever warnings or clears come meanwhile, only another error may replace it, and after those polls it is available no longer. The reporter is available exactly when there is an error.", "quantifier": "all histories of set() and read()", "why_tests_cant": "All histories.", "anchors": ["content/OTRadioLink/utility/OTV0P2BASE_ErrorReport.h:ErrorReport::set", "content/OTRadioLink/utility/OTV0P2BASE_ErrorReport.h:ErrorReport::read", "content/OTRadioLink/utility/OTV0P2BASE_ErrorReport.h:ErrorReport::isAvailable"]}
{"id": "C133", "title": "Supply voltage", "statement": "The supply voltage reported never exceeds the true one and is at most 3 cV (plus ADC error) below it; 'very low' implies 'low', neither is reported for a supply good enough for mains, and a supply at or below the thresholds is always flagged and, as long as it is very low, stays reported as an error.", "quantifier": "all ADC readings, all earlier histories", "why_tests_cant": "All readings and histories.", "anchors": ["content/OTRadioLink/utility/OTV0P2BASE_PowerManagement.cpp:SupplyVoltageCentiVolts::read", "content/OTRadioLink/utility/OTV0P2BASE_PowerManagement.h:SupplyVoltageCentiVolts::isSupplyVoltageVeryLow"]}
{"id": "C134", "title": "Pseudo-random generator never sticks", "statement": "From any state each call of randRNG8() changes the state, different states stay different, every state recurs, and no cycle is shorter than 256 calls; seeding keeps apart any two states and any two seeds.", "quantifier": "all 2^32 states, all seeds", "why_tests_cant": "All states and unbounded call sequences.", "anchors": ["content/OTRadioLink/utility/OTV0P2BASE_QuickPRNG.cpp:randRNG8", "content/OTRadioLink/utility/OTV0P2BASE_QuickPRNG.cpp:seedRNG8"]}
{"id": "C135", "title": "Secure random bytes keep their entropy", "statement": "With the other sources fixed, each source of entropy of getSecureRandomByte() with all its 256 values gives 256 different results.", "quantifier": "all values of all sources, both whitening choices", "why_tests_cant": "All combinations.", "anchors": ["content/OTRadioLink/utility/OTV0P2BASE_Entropy.cpp:getSecureRandomByte"]}
{"id": "C136", "title": "TMP112 temperature", "statement": "If the sensor answers, read() returns the temperature in its register in C/16, leaving TWI power as it was; any bus fault or a conversion that does not finish gives an error value, and the sensor shuts down and power is restored in every case.", "quantifier": "all temperatures, all bus faults at each point, all conversion times", "why_tests_cant": "Every fault position.", "anchors": ["content/OTRadioLink/utility/OTV0P2BASE_SensorTMP112.cpp:RoomTemperatureC16_TMP112::read"]}
{"id": "C137", "title": "SHT21 temperature", "statement": "read() returns the data sheet temperature of the measurement, rounded down by less than 1.5/16 C, monotonic in it, without arithmetic overflow; a measurement that never arrives is an error value; initialisation sets reduced precision and no reserved bit; TWI power is left as found.", "quantifier": "all measurements, all user register values", "why_tests_cant": "All readings.", "anchors": ["content/OTRadioLink/utility/OTV0P2BASE_SensorSHT21.cpp:RoomTemperatureC16_SHT21::read", "content/OTRadioLink/utility/OTV0P2BASE_SensorSHT21.cpp:SHT21_init"]}
{"id": "C138", "title": "SHT21 humidity", "statement": "read() returns the data sheet humidity of the measurement rounded down, valid exactly if at most 100%, and the high-humidity flag is set above, cleared below and otherwise kept within the hysteresis band; a measurement that never arrives is invalid.", "quantifier": "all measurements and previous states", "why_tests_cant": "All readings.", "anchors": ["content/OTRadioLink/utility/OTV0P2BASE_SensorSHT21.cpp:HumiditySensorSHT21::read", "content/OTRadioLink/utility/OTV0P2BASE_SensorSHT21.h:HumiditySensorBase::isAvailable"]}
{"id": "C139", "title": "Blocking software serial", "statement": "Bytes sent by an 8N1 sender at a rate within tolerance, back to back or with pauses shorter than the timeout, are returned by successive read() calls, in order, each once, and write() produces an 8N1 frame; an idle or stuck line times out. The delays computed fit every supported baud rate.", "quantifier": "all byte sequences, pauses, phases and tolerated clock errors", "why_tests_cant": "All real-time schedules.", "anchors": ["content/OTRadioLink/utility/OTV0P2BASE_SoftSerial2.h:OTSoftSerial2::read", "content/OTRadioLink/utility/OTV0P2BASE_SoftSerial2.h:OTSoftSerial2::write", "content/OTRadioLink/utility/OTV0P2BASE_SoftSerial2.h:OTSoftSerial2::begin"]}
{"id": "C140", "title": "Interrupt-driven software serial", "statement": "Bytes received are returned by read() in order, each once; when the buffer is full new bytes are dropped and nothing else is disturbed; available() and peek() tell the truth; the bytes are those sent.", "quantifier": "all byte sequences, interleaved with read() calls", "why_tests_cant": "All interleavings.", "anchors": ["content/OTRadioLink/utility/OTV0P2BASE_SoftSerialAsync.h:OTSoftSerialAsync::handle_interrupt", "content/OTRadioLink/utility/OTV0P2BASE_SoftSerialAsync.h:OTSoftSerialAsync::read", "content/OTRadioLink/utility/OTV0P2BASE_SoftSerialAsync.h:OTSoftSerialAsync::begin"]}
{"id": "C141", "title": "RN2483 link: what is sent", "statement": "sendRaw() gives the module exactly its transmit command with the frame in hexadecimal, whatever the frame (two frames never give the same command) and reads nothing but the frame; it returns true only if the module accepted it; no answer of the module makes it leave its buffers.", "quantifier": "all frames up to 255 bytes, all answers", "why_tests_cant": "All frames and answers.", "anchors": ["content/OTRadioLink/utility/OTRN2483Link_OTRN2483Link.cpp:OTRN2483Link::sendRaw", "content/OTRadioLink/utility/OTRN2483Link_OTRN2483Link.cpp:OTRN2483Link::getHex", "content/OTRadioLink/utility/OTRN2483Link_OTRN2483Link.cpp:OTRN2483Link::timedBlockingRead"]}
{"id": "C142", "title": "Older software serial", "statement": "read(buf, len) stores the bytes of an 8N1 message arriving at a rate within tolerance in order and returns their number, at most len; whatever is on the line it stays within the buffer; read() tells a time-out from a byte; the delays fit every baud rate begin() accepts.", "quantifier": "all messages, pauses, phases and tolerated clock errors; all line behaviours", "why_tests_cant": "All real-time schedules.", "anchors": ["content/OTRadioLink/utility/OTV0P2BASE_SoftSerial.cpp:OTSoftSerial::read", "content/OTRadioLink/utility/OTV0P2BASE_SoftSerial.cpp:OTSoftSerial::begin"]}
{"id": "C143", "title": "Serial status line", "statement": "Every status line, over any sequence of reports, reads back to exactly the mode, valve opening and temperature reported, followed by a well-formed JSON object with the node's ID and sensors' current values; of any 12 lines in a row every sensor is in at least one; each sensor is optional.", "quantifier": "all values, all sequences of reports", "why_tests_cant": "All values and histories.", "anchors": ["content/OTRadioLink/utility/OTV0P2BASE_SystemStatsLine.h:SystemStatsLine::serialStatusReport"]}
{"id": "C144", "title": "Sleeping to a sub-cycle time", "statement": "sleepUntilSubCycleTime(t), called at any phase of any earlier tick of the cycle, returns true within tick t of that same cycle, provided naps overrun by at most half and low-power milliseconds by at most a fifth; if t has passed it returns false at once; true is only ever returned in tick t.", "quantifier": "all targets, start times and sleep lengths within tolerance", "why_tests_cant": "All real-time schedules.", "anchors": ["content/OTRadioLink/utility/OTV0P2BASE_Sleep.cpp:sleepUntilSubCycleTime"]}
{"id": "C145", "title": "Naps end with the watchdog", "statement": "nap() and _idleCPU() return when the watchdog fires, whatever other interrupts wake the CPU before; with premature wake-up allowed they return at the first wake-up and say truly whether the watchdog fired; sleepUntilNewCycle returns at the next roll of the seconds, never with the old ones.", "quantifier": "all sequences of interrupts at all program points", "why_tests_cant": "Interrupts may fall between any two instructions.", "anchors": ["content/OTRadioLink/utility/OTV0P2BASE_Sleep.cpp:nap", "content/OTRadioLink/utility/OTV0P2BASE_Sleep.cpp:_idleCPU", "content/OTRadioLink/utility/OTV0P2BASE_Sleep.cpp:sleepPwrSaveWithBODDisabled", "content/OTRadioLink/utility/OTV0P2BASE_Sleep.h:sleepUntilNewCycle"]}
{"id": "C146", "title": "Busy-wait delays", "statement": "The microsecond and millisecond delays take the time asked for over their documented ranges on each supported CPU (AVR at 1 and 16 MHz, ARM).", "quantifier": "all delay arguments", "why_tests_cant": "All arguments, cycle by cycle.", "anchors": ["content/OTRadioLink/utility/OTV0P2BASE_Sleep.h:OTV0P2BASE_busy_spin_delay", "content/OTRadioLink/utility/OTV0P2BASE_Sleep.h:_delay_x4cycles", "content/OTRadioLink/utility/OTV0P2BASE_Sleep.h:delay_ms", "content/OTRadioLink/utility/OTV0P2BASE_Sleep.h:_sleepLowPowerMs"]}
{"id": "C147", "title": "Sub-cycle arithmetic", "statement": "msRemainingThisBasicCycle() never exceeds the real time left in the cycle and is not far below it; the emulated sub-cycle of the EFR32 counts 256 ticks in 2 s.", "quantifier": "all times in the cycle, all core clocks", "why_tests_cant": "All times.", "anchors": ["content/OTRadioLink/utility/OTV0P2BASE_Sleep.h:msRemainingThisBasicCycle", "content/OTRadioLink/utility/OTV0P2BASE_Sleep.h:setupEmulated2sSubCycle"]}
{"id": "C148", "title": "Crystal oscillator tests", "statement": "check32768HzOsc() fails for a stopped counter and passes for one that runs (at any rate that counts twice during the test and does not wrap round during a nap); the extended test passes exactly if also one of at most 32 ticks measures 119 to 125 CPU counts.", "quantifier": "all counter behaviours, nap lengths, start phases and frequencies", "why_tests_cant": "All hardware behaviours over time.", "anchors": ["content/OTRadioLink/utility/OTV0P2BASE_HardwareTests.cpp:check32768HzOsc", "content/OTRadioLink/utility/OTV0P2BASE_HardwareTests.cpp:check32768HzOscExtended"]}
{"id": "C149", "title": "Internal oscillator calibration", "statement": "calibrateInternalOscWithExtOsc() makes at most 128 measurements, keeps OSCCAL in its range, reports success only with a setting that has just measured the target count, finds the right setting from anywhere if the frequency increases with OSCCAL, and touches nothing if the crystal does not run.", "quantifier": "all frequency responses and start settings", "why_tests_cant": "All hardware responses.", "anchors": ["content/OTRadioLink/utility/OTV0P2BASE_HardwareTests.cpp:calibrateInternalOscWithExtOsc"]}
{"id": "C150", "title": "Noise-reduced analogue reads", "statement": "A noise-reduced read is in the documented range 0..1023: it is one of at most the given number of conversions, the first that repeats its predecessor or the last that samples or time allow; and what depends on it (light, dial, supply voltage, motor current) follows that reading.", "quantifier": "all conversion values and times in the cycle", "why_tests_cant": "All schedules against the cycle clock.", "anchors": ["content/OTRadioLink/utility/OTV0P2BASE_ADC.cpp:_analogueNoiseReducedReadM", "content/OTRadioLink/utility/OTV0P2BASE_ADC.cpp:analogueNoiseReducedRead", "content/OTRadioLink/utility/OTV0P2BASE_SensorAmbientLight.h:SensorAmbientLightAdaptive::read", "content/OTRadioLink/utility/OTV0P2BASE_SensorTemperaturePot.h:SensorTemperaturePot::read", "content/OTRadioLink/utility/OTRadValve_ValveMotorDirectV1.h:ValveMotorDirectV1HardwareDriver::isCurrentHigh"]}
{"id": "C151", "title": "The motor bridge is never shorted", "statement": "Whatever calls of motorRun are made, and with the CPU reset at any instruction, the two halves of the V1 H-bridge are never on together, and between one half being on and the other the driver waits at least 120 ms with both off; after a call the lines are those of the direction asked for.", "quantifier": "all call sequences, starting line states and reset points", "why_tests_cant": "All histories and crash points.", "anchors": ["content/OTRadioLink/utility/OTRadValve_ValveMotorDirectV1.h:ValveMotorDirectV1HardwareDriver::motorRun"]}
{"id": "C152", "title": "Running the motor by ticks", "statement": "A run asked for between minT and maxT ticks does nothing, returning true, if the minimum does not fit in the cycle; otherwise stops at maxT or at the limit of the cycle having reported each tick run, or before at the first high current after the minimum, reporting an end stop once and returning true.", "quantifier": "all start ticks, limits, poll times and current readings", "why_tests_cant": "All schedules of the counter and the current.", "anchors": ["content/OTRadioLink/utility/OTRadValve_ValveMotorBase.cpp:ValveMotorDirectV1HardwareDriverBase::spinSCTTicks"]}
{"id": "C153", "title": "DRV8850 motor driver", "statement": "motorRun drives the motor only in the direction asked for, from any state; off leaves the driver asleep with both lines low; the driver uses the pins it is given for the purposes named.", "quantifier": "all states and call sequences", "why_tests_cant": "All histories.", "anchors": ["content/OTRadioLink/utility/OTRadValve_ValveMotorDRV8850.h:DRV8850HardwareDriver::motorRun", "content/OTRadioLink/utility/OTRadValve_ValveMotorDRV8850.h:DRV8850Driver"]}
{"id": "C154", "title": "Internal thermometer", "statement": "readInternalTemperatureC16() is the data sheet's line for every ADC reading, with no overflow.", "quantifier": "all ADC readings", "why_tests_cant": "All readings, with the integer widths of the target.", "anchors": ["content/OTRadioLink/utility/OTV0P2BASE_ADC.cpp:readInternalTemperatureC16"]}
{"id": "C155", "title": "Frame dump line", "statement": "The line that prints a received frame is all printable characters, can be read back to exactly the frame whatever its bytes (two frames never give the same line), and reads nothing outside the frame; each byte is shown as documented: printable characters after a space, others as two hexadecimal digits.", "quantifier": "all frames up to 255 bytes", "why_tests_cant": "All frames.", "anchors": ["content/OTRadioLink/utility/OTRadioLink_OTRadioLink.cpp:printRXMsg"]}
{"id": "C156", "title": "Scratch space is never shared", "statement": "However routines nest, each keeping the front of the scratch space it is given and passing the tail on, the parts kept are disjoint and within the original buffer, and a routine is given an unusable (NULL) space exactly if nothing was kept or nothing is left; small (8-bit) spaces and those wrapped round large ones alike.", "quantifier": "all buffer sizes, nestings and amounts kept", "why_tests_cant": "All nestings.", "anchors": ["content/OTRadioLink/utility/OTV0P2BASE_Util.h:ScratchSpaceL", "content/OTRadioLink/utility/OTV0P2BASE_Util.h:ScratchSpace"]}
{"id": "C157", "title": "Stack watch", "statement": "The minimum stack pointer recorded is the least of all recording points, whatever interrupts record in the middle of recording; the stack check forces a reset exactly if the stack has reached the variables; the low-stack error is raised when fewer than 64 bytes are left.", "quantifier": "all call nestings, interrupt points and stack depths", "why_tests_cant": "Interrupts may fall between any two instructions.", "anchors": ["content/OTRadioLink/utility/OTV0P2BASE_Util.h:MemoryChecks", "content/OTRadioLink/utility/OTV0P2BASE_Util.h:MemoryChecks::recordIfMinSP"]}
{"id": "C158", "title": "Device power is restored", "statement": "However code powers devices up, uses them and powers them down, nested and with interrupts doing the same at any point, all power and enable bits are left as they were found, and every user has its device powered and enabled throughout its use.", "quantifier": "all nestings of users, all interrupt points, all initial states", "why_tests_cant": "All nestings and interleavings.", "anchors": ["content/OTRadioLink/utility/OTV0P2BASE_PowerManagement.h:powerUpADCIfDisabled", "content/OTRadioLink/utility/OTV0P2BASE_PowerManagement.h:powerUpTWIIfDisabled", "content/OTRadioLink/utility/OTV0P2BASE_PowerManagement.h:powerUpSPIIfDisabled", "content/OTRadioLink/utility/OTV0P2BASE_PowerManagement.h:powerUpSerialIfDisabled", "content/OTRadioLink/utility/OTV0P2BASE_SensorTMP112.cpp:RoomTemperatureC16_TMP112::read"]}
{"id": "C159", "title": "Voice sensor counts", "statement": "A poll of the voice sensor returns the activations (at most 255) since the last poll, with voice detected if there were 4 or more in this or the previous period; every activation from the fourth on calls the occupancy callback if there is one.", "quantifier": "all interleavings of activations and polls at all times of day", "why_tests_cant": "All histories.", "anchors": ["content/OTRadioLink/utility/OTV0P2BASE_SensorQM1.cpp:VoiceDetectionQM1::read", "content/OTRadioLink/utility/OTV0P2BASE_SensorQM1.cpp:VoiceDetectionQM1::handleInterruptSimple"]}
{"id": "C160", "title": "Relay follows the valve", "statement": "After setup(), over any sequence of set() calls, values above 100 are refused without effect, the relay is driven on (whatever its polarity) exactly while the last accepted value is 50 or more, and exactly then the valve says it is open and calls for heat.", "quantifier": "all sequences of set() calls, both polarities", "why_tests_cant": "All histories.", "anchors": ["content/OTRadioLink/utility/OTRadValve_AbstractRadValve.h:BinaryRelayDirect", "content/OTRadioLink/utility/OTRadValve_AbstractRadValve.h:AbstractRadValve::isCallingForHeat"]}
{"id": "C161", "title": "Motor tester alternates", "statement": "The motor tester runs the motor in one direction poll by poll until a poll hits an end stop, then in the other; the motor is off after every poll, and the counter is the number of polls that hit an end stop (modulo 2^32).", "quantifier": "all sequences of polls and end stops", "why_tests_cant": "All histories.", "anchors": ["content/OTRadioLink/utility/OTRadValve_TestValve.cpp:TestValveMotor::poll", "content/OTRadioLink/utility/OTRadValve_TestValve.cpp:TestValveMotor::runFastTowardsEndStop"]}
{"id": "C162", "title": "Lock-free counters never wrap", "statement": "With any number of threads or interrupts decrementing, incrementing and setting a counter, each call changes it by at most one, never below 0 or above 255; a call not at the limit takes effect exactly if the value at its end is the value at its beginning; with decrementers only, a completed call means the value has gone down.", "quantifier": "all interleavings of all threads", "why_tests_cant": "All interleavings.", "anchors": ["content/OTRadioLink/utility/OTV0P2BASE_Concurrency.h:safeDecIfNZWeak", "content/OTRadioLink/utility/OTV0P2BASE_Concurrency.h:safeIncIfNotMaxWeak"]}
{"id": "C163", "title": "Printed numbers read back", "statement": "Every number printed in any base reads back as itself, without leading zeros and without leaving the conversion buffer; signed numbers in base 10 with a minus sign.", "quantifier": "all 64-bit numbers and bases", "why_tests_cant": "All numbers.", "anchors": ["content/OTRadioLink/utility/OTV0P2BASE_ArduinoCompat.h:Print::printUnsigned", "content/OTRadioLink/utility/OTV0P2BASE_ArduinoCompat.h:Print::printSigned"]}
{"id": "C164", "title": "Restart entropy wears EEPROM slowly", "statement": "Seeding at restart makes at most one EEPROM operation, on one of the four seed bytes only, never a combined erase and write, and at most every second operation on a byte is an erase; so over any number of restarts, with power failing anywhere.", "quantifier": "all restart histories, random choices and power failures", "why_tests_cant": "All histories and crash points.", "anchors": ["content/OTRadioLink/utility/OTV0P2BASE_Entropy.cpp:seedPRNGs"]}
{"id": "C165", "title": "A valve's statistics reach the hub's serial line", "statement": "Statistics written by a valve into its report, sent in a secure frame and received intact and in order by a hub that knows the valve, appear on the hub's serial line as one JSON object ended by CR LF: the sender's ID in hexadecimal under \"@\", the frame's sequence number under \"+\", then exactly the members the valve wrote.", "quantifier": "all sets of statistics, IDs, counters and buffer contents", "why_tests_cant": "All inputs through five components.", "anchors": ["content/OTRadioLink/utility/OTRadioLink_Messaging.h:serialFrameOperation", "content/OTRadioLink/utility/OTV0P2BASE_JSONStats.cpp:SimpleStatsRotationBase::writeJSON", "content/OTRadioLink/utility/OTRadioLink_SecureableFrameType.cpp:SimpleSecureFrame32or0BodyTXBase::encodeValveFrame"]}
{"id": "C166", "title": "Radio links listen where they say", "statement": "Over any sequence of configure() and listen() calls, the driver has always been told the channel that getListenChannel() reports; listening is never on a channel without a configuration, out-of-range requests are clamped, switching off is always passed on; getChannelConfig() returns the caller's configuration for that channel, NULL if there is none.", "quantifier": "all call histories, all configurations and channel numbers", "why_tests_cant": "All histories.", "anchors": ["content/OTRadioLink/utility/OTRadioLink_OTRadioLink.h:OTRadioLink::listen", "content/OTRadioLink/utility/OTRadioLink_OTRadioLink.h:OTRadioLink::configure", "content/OTRadioLink/utility/OTRadioLink_OTRadioLink.h:OTRadioLink::getChannelConfig"]}
{"id": "C167", "title": "RTC watchdog", "statement": "With the RTC watchdog enabled, the system is reset if and only if resetRTCWatchDog() is not called between one tick and the next: a program that calls it between any two ticks is never reset, and one that hangs is reset at the second tick at the latest.", "quantifier": "all interleavings of ticks, calls and enabling", "why_tests_cant": "All interleavings.", "anchors": ["content/OTRadioLink/utility/OTV0P2BASE_RTC.cpp:enableRTCWatchdog", "content/OTRadioLink/utility/OTV0P2BASE_RTC.cpp:resetRTCWatchDog", "content/OTRadioLink/utility/OTV0P2BASE_RTC.cpp:ISR(TIMER2_OVF_vect)"]}
{"id": "C168", "title": "Conditional renewal of the transmit counter", "statement": "resetRaw3BytePersistentTXRestartCounterCond() increments the restart counter if little of its range is used and otherwise replaces it by a random low value, so that afterwards at least 7/8 of the range is unused; it says false and changes nothing if there is no readable counter; nothing else in EEPROM changes.", "quantifier": "all EEPROM contents, random values and power failures", "why_tests_cant": "All states and crash points.", "anchors": ["content/OTRadioLink/utility/OTRadioLink_SecureableFrameType_V0p2Impl.h:resetRaw3BytePersistentTXRestartCounterCond"]}
{"id": "C169", "title": "I2C transfers end", "statement": "A polled I2C transfer returns, after at most 300000 polls, the peripheral's first answer other than in-progress; requests without data never reach the bus, and the seven-bit address is sent shifted left.", "quantifier": "all answers of the peripheral", "why_tests_cant": "All schedules of the peripheral.", "anchors": ["silabs_drivers/cppDrivers/i2c_driver.cpp:I2CSPM::transfer", "silabs_drivers/cppDrivers/i2c_driver.cpp:I2CSPM::read", "silabs_drivers/cppDrivers/i2c_driver.cpp:I2CSPM::write"]}
{"id": "C170", "title": "The GSM link takes each step only on the module's word", "statement": "In every history of a started SIM900 link, whatever the module answers and whenever the link is polled: the PIN state is asked for only of a module that has echoed since it was last power-cycled; registration is asked for only after a PIN answer of READY; the access point is set, GPRS started, the address asked for, the socket opened and a message announced only after the module has answered 'registered' (home or roaming) since the last power-cycle; GPRS is never started while the module reports a connected socket; the socket is opened only after the module has reported GPRS active; and a message is announced by the state machine only after it has reported the socket connected since the last power-cycle.", "quantifier": "every history of polls (any times, any answers to any command, cut or garbled), queued messages and end() calls after start-up", "why_tests_cant": "the answers and their order are the module's choice; tests script a few", "anchors": ["content/OTRadioLink/utility/OTSIM900Link_OTSIM900Link.h: poll, isRegistered, isPINRequired, checkUDPStatus, getResponse, readMany"]}
{"id": "C171", "title": "Serial output is complete when the print routine returns", "statement": "serialPrintAndFlush(), serialPrintlnAndFlush() and serialWriteAndFlush() return, with every byte of their text on the line behind all earlier output, in order and once; they power the port up if it was down and leave it as it was; code holding the port itself loses nothing when powering down. The same text, with the requested number base and one line end, is printed by every build, and print calls return the number of characters sent.", "quantifier": "all histories of uses of the port, texts, byte times and states of the transmit-complete flag", "why_tests_cant": "All histories and timings of the transmitter.", "anchors": ["content/OTRadioLink/utility/OTV0P2BASE_Serial_IO.cpp:serialPrintAndFlush", "content/OTRadioLink/utility/OTV0P2BASE_PowerManagement.cpp:flushSerialProductive", "content/OTRadioLink/utility/OTV0P2BASE_PowerManagement.cpp:powerDownSerial", "content/OTRadioLink/utility/OTV0P2BASE_Serial_IO.cpp:PrintEFR32::write"]}
{"id": "C172", "title": "Frames to a radio valve are whole and readable", "statement": "Every set() of a target up to 100% and every completed synchronisation leave in the driver's transmit buffer, without writing outside it, a frame that is sent as: a receiver preamble when one is needed, the bit stream of the command for the current house codes and last accepted target, and the application's trailer if it has one that fits. A receiver that misses the first bytes of the stream still decodes codes, command and percentage and finds the trailer; the frame takes no longer on the air than the advertised maximum. Frames of a valve that is to be open carry the preamble the hub needs.", "quantifier": "all house codes, targets, preamble and trailer sizes, trailer functions keeping to their contract, and histories of calls", "why_tests_cant": "All histories, trailer functions and buffer contents.", "anchors": ["content/OTRadioLink/utility/OTRadValve_FHT8VRadValve.h:FHT8VRadValve::FHT8VCreateValveSetCmdFrame", "content/OTRadioLink/utility/OTRadValve_FHT8VRadValve.h:FHT8VRadValve::set", "content/OTRadioLink/utility/OTRadValve_FHT8VRadValve.cpp:FHT8VTXFHTQueueAndSendCmd"]}
{"id": "C173", "title": "Worn EEPROM cells can't make security state go backwards unnoticed", "statement": "With EEPROM cells that may end up holding anything when erased or written: transmit counters keep strictly increasing over any sequence of requests and restarts for as long as none is refused; a stored restart counter reported as incremented reads back as the next value and no other memory has changed; an accepted message counter is on record, so it can't be accepted again; a key reported as set reads back as that key, and one reported as cleared is gone.", "quantifier": "all behaviours of the cells, memory contents, random bytes, and sequences of requests and restarts", "why_tests_cant": "Faulty cells can't be exercised by unit tests on good ones, and every behaviour of every cell matters.", "anchors": ["content/OTRadioLink/utility/OTRadioLink_SecureableFrameType_V0p2Impl.cpp:saveRaw3BytePersistentTXRestartCounterToEEPROM", "content/OTRadioLink/utility/OTRadioLink_SecureableFrameType_V0p2Impl.cpp:updateRXMessageCount", "content/OTRadioLink/utility/OTRadioLink_SecureableFrameType_V0p2Impl.cpp:authAndUpdateRXMsgCtr", "content/OTRadioLink/utility/OTRadioLink_SecureableFrameType_V0p2Impl.cpp:getNextTXMsgCtr", "content/OTRadioLink/utility/OTV0P2BASE_Security.cpp:setPrimaryBuilding16ByteSecretKey"]}
{"id": "C174", "title": "Entropy gathered from clock jitter is what was counted", "statement": "clockJitterEntropyByte() returns once eight counts (CPU polls per watchdog period or per timer tick) have differed from the previous one of their kind, and its byte is the hash of exactly those eight counts and of the wait before them; clocks with jitter always yield a byte, whose last count contributes all its bits. sramCRC() and eeCRC() differ for any two memories differing in one byte.", "quantifier": "all histories of watchdog and timer polls of any length, all memory contents and sizes", "why_tests_cant": "The counts and memories come from physical noise; all of them and any number of polls matter.", "anchors": ["content/OTRadioLink/utility/OTV0P2BASE_Sleep.cpp:clockJitterEntropyByte", "content/OTRadioLink/utility/OTV0P2BASE_Sleep.cpp:clockJitterWDT", "content/OTRadioLink/utility/OTV0P2BASE_Entropy.cpp:clockJitterRTC", "content/OTRadioLink/utility/OTV0P2BASE_Entropy.cpp:sramCRC", "content/OTRadioLink/utility/OTV0P2BASE_Entropy.cpp:eeCRC"]}
{"id": "C175", "title": "Fast pin access reads and writes the right pin only", "statement": "For every constant pin number of the board, fastDigitalRead() gives that pin's level, fastDigitalWrite() of a constant sets that pin's output and leaves every other pin and spare register bit alone, distinct pins never share a bit, and the input register and mask given for polling loops pick out the same pin; other arguments always use the generic routines.", "quantifier": "all pins, register contents and values", "why_tests_cant": "All combinations of pins and register contents matter, and the macros only exist on the target.", "anchors": ["content/OTRadioLink/utility/OTV0P2BASE_FastDigitalIO.h:fastDigitalRead", "content/OTRadioLink/utility/OTV0P2BASE_FastDigitalIO.h:fastDigitalWrite", "content/OTRadioLink/utility/OTV0P2BASE_FastDigitalIO.h:fastDigitalMask", "content/OTRadioLink/utility/OTV0P2BASE_FastDigitalIO.h:fastDigitalInputRegister"]}
{"id": "C176", "title": "Parameters derived from any product's arguments are safe", "statement": "For every set of template arguments the derived valve parameters are in their documented ranges and order (frost thresholds supported and below the warm temperatures, setbacks increasing), every temperature control built on them promises no frost target above its warm target, and computed targets stay between frost and maximum; sensible arguments are used as given.", "quantifier": "all template arguments, user settings, stored settings and control inputs", "why_tests_cant": "The arguments, settings and inputs have far too many combinations; tests use the shipped sets only.", "anchors": ["content/OTRadioLink/utility/OTRadValve_Parameters.h:ValveControlParameters", "content/OTRadioLink/utility/OTRadValve_TempControl.h:TempControlSimpleEEPROMBacked", "content/OTRadioLink/utility/OTRadValve_TempControl.h:TempControlTempPot", "content/OTRadioLink/utility/OTRadValve_ModelledRadValve.h:ModelledRadValveComputeTargetTempBasic::computeTargetTemp"]}
{"id": "C177", "title": "Noise read from the analogue inputs is not thrown away", "statement": "Of the ten conversions of noisyADCRead(), a different reading of any one, or a different time taken by it, with everything else alike, gives a different result.", "quantifier": "all readings and times of all conversions", "why_tests_cant": "Real noise can't be reproduced in a test, and all combinations of readings matter.", "anchors": ["content/OTRadioLink/utility/OTV0P2BASE_ADC.cpp:noisyADCRead"]}
{"id": "C178", "title": "The dial's end stops are at the ends of its travel", "statement": "Whatever range a dial is declared with, either way round, turning it to the cold end of that range (when the read sees it move) asks for FROST, to the hot end for a BAKE, and to anywhere well between for neither.", "quantifier": "all declared ranges in both directions, previous readings and new positions", "why_tests_cant": "Tests can only use the few shipped ranges; the claim is for all of them at every position.", "anchors": ["content/OTRadioLink/utility/OTV0P2BASE_SensorTemperaturePot.h:SensorTemperaturePot::read", "content/OTRadioLink/utility/OTV0P2BASE_SensorTemperaturePot.h:SensorTemperaturePot::_computeLoEndStop", "content/OTRadioLink/utility/OTV0P2BASE_SensorTemperaturePot.h:SensorTemperaturePot::_computeHiEndStop"]}
{"id": "C179", "title": "A valve command and the statistics sent after it both arrive", "statement": "For every house code, percentage, privacy level and set of statistics that can be sent, with the transmit area of the declared size: a hub that misses up to six bytes of the start of the bit stream and hears anything afterwards decodes the command, and from where that ends exactly the statistics that the privacy level lets out; statistics that can't be sent leave the command on its own.", "quantifier": "all commands, statistics, privacy levels, losses of preamble and following noise", "why_tests_cant": "The commands, statistics, buffer contents and noise combine far beyond any test, and the two decoders meet at a position that depends on the bits sent.", "anchors": ["content/OTRadioLink/utility/OTRadValve_FHT8VRadValve.h:FHT8VCreateValveSetCmdFrame", "content/OTRadioLink/utility/OTRadValve_FHT8VRadValve.cpp:FHT8VDecodeBitStream", "content/OTRadioLink/utility/OTV0P2BASE_SimpleBinaryStats.cpp:encodeFullStatsMessageCore", "content/OTRadioLink/utility/OTV0P2BASE_SimpleBinaryStats.cpp:decodeFullStatsMessageCore"]}
{"id": "C180", "title": "Motor current limits by direction", "statement": "Whatever the samples and timing of a read away from the last tick of the cycle: the V1 driver calls the current high only after some sample above the direction's limit (600 closing, 450 opening) and always if all are, opening is stopped whenever closing would be; the DRV8850 driver uses 300 both ways, and the shaft encoder 120.", "quantifier": "all samples, their number and times, both directions", "why_tests_cant": "The settling of the read on one of its samples makes all sequences matter; tests have no ADC.", "anchors": ["content/OTRadioLink/utility/OTRadValve_ValveMotorDirectV1.h:ValveMotorDirectV1HardwareDriver::isCurrentHigh", "content/OTRadioLink/utility/OTRadValve_ValveMotorDirectV1.h:ValveMotorDirectV1HardwareDriver::isOnShaftEncoderMark", "content/OTRadioLink/utility/OTRadValve_ValveMotorDRV8850.h:DRV8850HardwareDriver::isCurrentHigh", "content/OTRadioLink/utility/OTV0P2BASE_ADC.cpp:_analogueNoiseReducedReadM"]}
{"id": "C181", "title": "Humidity flags over any history of reads", "statement": "After any history of reads, failing or not, the plain high flag says whether the last reading is above 75%, the flag with hysteresis is on exactly when the last reading outside 65..75% was above 75% (or there was none), and plainly high implies high with hysteresis.", "quantifier": "all histories of reads, successful or not, and initial bus states", "why_tests_cant": "Hysteresis depends on the whole history of readings.", "anchors": ["content/OTRadioLink/utility/OTV0P2BASE_SensorSHT21.h:HumiditySensorBase::isRHHigh", "content/OTRadioLink/utility/OTV0P2BASE_SensorSHT21.h:HumiditySensorBase::isRHHighWithHyst", "content/OTRadioLink/utility/OTV0P2BASE_SensorSHT21.cpp:HumiditySensorSHT21::read"]}
{"id": "C182", "title": "Non-secure beacon", "statement": "For every buffer, sequence number and ID: a beacon is generated exactly when the ID is at most 8 bytes and 5 bytes and the ID fit; bytes past the frame are untouched; and the frame decodes to a non-secure keep-alive with that ID, the sequence number mod 16 and an empty body.", "quantifier": "all buffers, stated sizes, sequence numbers and IDs", "why_tests_cant": "Tests encode one or two beacons.", "anchors": ["content/OTRadioLink/utility/OTRadioLink_SecureableFrameType.cpp:generateNonsecureBeacon", "content/OTRadioLink/utility/OTRadioLink_SecureableFrameType.cpp:decodeNonsecure"]}
{"id": "C183", "title": "Noise added to the pool is never lost", "statement": "Adding a noise byte to the random pool, with the clock readings taken, is injective in the byte, in the readings and in the pool before: runs that differ in exactly one contribution end in different pool states, however much is added before or after.", "quantifier": "all pool states, all sequences of contributions", "why_tests_cant": "Loss of noise by the mixing would only show for particular states and later contributions.", "anchors": ["content/OTRadioLink/utility/OTV0P2BASE_Entropy.cpp:addEntropyToPool", "content/OTRadioLink/utility/OTV0P2BASE_QuickPRNG.cpp:seedRNG8"]}
{"id": "C184", "title": "New occupancy is reported for three minutes after an arrival", "statement": "After any history of marks, reads and vacancy declarations, new occupancy is reported exactly when a confident or probable mark was made while the room was unoccupied, with fewer than three minute reads since and no vacancy declared since; it implies occupied. Weak hints never raise it and marks in an occupied room never renew it.", "quantifier": "all histories", "why_tests_cant": "The report depends on what the room was at the time of the mark and on everything since.", "anchors": ["content/OTRadioLink/utility/OTV0P2BASE_SensorOccupancy.h:PseudoSensorOccupancyTracker::reportedNewOccupancyRecently", "content/OTRadioLink/utility/OTV0P2BASE_SensorOccupancy.cpp:PseudoSensorOccupancyTracker::read", "content/OTRadioLink/utility/OTV0P2BASE_SensorOccupancy.h:PseudoSensorOccupancyTracker::markAsOccupied"]}
{"id": "C185", "title": "Message kinds are told apart", "statement": "No sequence of received bytes is accepted by more than one of the decoders for FS20 valve commands, full binary statistics, JSON frames and length-prefixed (secureable) frames; the first byte alone shows the kind.", "quantifier": "all byte sequences and lengths", "why_tests_cant": "A clash between formats shows only on particular bytes.", "anchors": ["content/OTRadioLink/utility/OTRadioLink_FrameType.h:FrameType_V0p2_FS20", "content/OTRadioLink/utility/OTRadValve_FHT8VRadValve.cpp:FHT8VRadValveUtil::FHT8VDecodeBitStream", "content/OTRadioLink/utility/OTV0P2BASE_SimpleBinaryStats.cpp:decodeFullStatsMessageCore", "content/OTRadioLink/utility/OTV0P2BASE_JSONStats.cpp:checkJSONMsgRXCRC", "content/OTRadioLink/utility/OTRadioLink_SecureableFrameType.cpp:SecurableFrameHeader::decodeHeader"]}
{"id": "C186", "title": "Text and numbers over the older software UART", "statement": "Printing any NUL-terminated text sends exactly its characters, reads nothing past the terminator and returns its length; every int8_t number is printed as its decimal numeral without overrunning the local buffer, and a receiver within the timing tolerance gets that numeral.", "quantifier": "all texts, all int8_t numbers, all line timings within the tolerance", "why_tests_cant": "Tests have no line to print to.", "anchors": ["content/OTRadioLink/utility/OTV0P2BASE_SoftSerial.cpp:OTSoftSerial::print", "content/OTRadioLink/utility/OTV0P2BASE_SoftSerial.cpp:OTSoftSerial::printNum", "content/OTRadioLink/utility/OTV0P2BASE_SoftSerial.cpp:OTSoftSerial::read"]}
{"id": "C187", "title": "From the dial to the target temperature", "statement": "With either radiator parameter set and whatever the end stops: after any history of dial readings and queries since power-up, each query gives a warm target within the scale, and any target temperature computed with it, in any mode, is within the supported limits; and after a first reading or a move of at least a step of the reduced scale, the next query gives what the new position selects (bottom and top at the end stops, monotone), whatever was cached.", "quantifier": "all histories of readings and queries, all end stops, all modes and circumstances", "why_tests_cant": "The sensor's noise rejection, the cached result and the mapping interact over the whole history.", "anchors": ["content/OTRadioLink/utility/OTV0P2BASE_SensorTemperaturePot.h:SensorTemperaturePot::read", "content/OTRadioLink/utility/OTRadValve_TempControl.h:TempControlTempPot::getWARMTargetC", "content/OTRadioLink/utility/OTRadValve_ModelledRadValve.h:ModelledRadValveComputeTargetTempBasic::computeTargetTemp"]}
{"id": "C188", "title": "The clock over any number of power cuts", "statement": "With the time persisted at least every quarter hour and restored after each power cut, whatever the number of cuts and wherever they fall, including in the middle of persisting: every restore succeeds, and the time of day is the starting time plus the time powered, at most 22 minutes slow and 8 minutes fast for each cut; with no cut it is exact.", "quantifier": "all histories of ticks, persists and power cuts, all starting clocks and store contents", "why_tests_cant": "The error accumulates over unboundedly many cuts at arbitrary points, so no finite set of runs bounds it.", "anchors": ["content/OTRadioLink/utility/OTV0P2BASE_RTC.cpp:persistRTC", "content/OTRadioLink/utility/OTV0P2BASE_RTC.cpp:restoreRTC", "content/OTRadioLink/utility/OTV0P2BASE_RTC.cpp:ISR(TIMER2_OVF_vect)"]}
