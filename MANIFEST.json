{
 "claims": [
  {
   "property": "C01",
   "status": "proved",
   "theorems": [
    "C01_header_encode_iff",
    "C01_header_round_trip"
   ],
   "note": ""
  },
  {
   "property": "C02",
   "status": "proved",
   "theorems": [
    "C02_decode_header_exact",
    "C02_decode_header_null"
   ],
   "note": ""
  },
  {
   "property": "C03",
   "status": "proved",
   "theorems": [
    "C03_encode_nonsecure",
    "C03_nonsecure_round_trip"
   ],
   "note": ""
  },
  {
   "property": "C04",
   "status": "proved",
   "theorems": [
    "C04_burst_rejected",
    "C04_odd_errors_rejected",
    "C04_odd_errors_in_crc_refuted"
   ],
   "note": "The _refuted theorem shows why the CRC byte is excluded from the odd-error claim."
  },
  {
   "property": "C05",
   "status": "proved",
   "theorems": [
    "C05_crc7_range",
    "C05_crc7_linear",
    "C05_crc7_hamming4",
    "C05_crc7_odd",
    "C05_crc7_burst",
    "C05_nz_final"
   ],
   "note": ""
  },
  {
   "property": "C06",
   "status": "proved",
   "theorems": [
    "C06_pad_roundtrip",
    "C06_pad_refused"
   ],
   "note": ""
  },
  {
   "property": "C07",
   "status": "partial",
   "theorems": [
    "C07_bad_padding_partial",
    "C07_bad_padding_refuted"
   ],
   "note": "False of the code: an authenticated body with impossible pad count is accepted as an empty message (refuted by witness). Proved: it never delivers garbage."
  },
  {
   "property": "C08",
   "status": "proved",
   "theorems": [
    "C08_cmp_numeric"
   ],
   "note": ""
  },
  {
   "property": "C09",
   "status": "partial",
   "theorems": [
    "C09_add_behaviour",
    "C09_add_partial",
    "C09_add_refuted"
   ],
   "note": "False of the code: carry into the top byte is lost (refuted by witness). Exact behaviour for all inputs proved, and the claim proved whenever no carry reaches byte 0."
  },
  {
   "property": "C10",
   "status": "proved",
   "theorems": [
    "C10_secure_round_trip"
   ],
   "note": ""
  },
  {
   "property": "C11",
   "status": "proved",
   "theorems": [
    "C11_decodeRaw_exact"
   ],
   "note": ""
  },
  {
   "property": "C20",
   "status": "partial",
   "theorems": [
    "C20_unary1",
    "C20_unary2_partial",
    "C20_unary2_refuted"
   ],
   "note": "Round trip and clear-only growth proved for both codes. The 'invalid patterns are errors' part is false for the two-byte code: an invalid high byte with low byte 0 decodes to 7-ish values (refuted by witness)."
  },
  {
   "property": "C21",
   "status": "proved",
   "theorems": [
    "C21_smart_erase",
    "C21_smart_clear_bits",
    "C21_smart_update"
   ],
   "note": ""
  },
  {
   "property": "C22",
   "status": "proved",
   "theorems": [
    "C22_history",
    "C22_clear",
    "C22_count",
    "C22_get",
    "C22_add",
    "C22_add_history",
    "C22_lookup",
    "C22_reads_table_only"
   ],
   "note": ""
  },
  {
   "property": "C23",
   "status": "proved",
   "theorems": [
    "C23_set_key",
    "C23_clear_key",
    "C23_no_key"
   ],
   "note": ""
  },
  {
   "property": "C14",
   "status": "partial",
   "theorems": [
    "C14_tx_counter_partial",
    "C14_tx_counter_unique_partial",
    "C14_never_zero",
    "C14_tx_counter_refuted",
    "C14_seven_refuted"
   ],
   "note": "False in full: seven power failures between two sends make the CRC-8 accept a mixed copy and the same counter is handed out twice (explicit history). Proved: strictly increasing over every life, from any EEPROM contents, any restarts, as long as at most six power failures hit EEPROM updates between two consecutive sends; six is exact (C14_seven_refuted)."
  },
  {
   "property": "C15",
   "status": "proved",
   "theorems": [
    "C15_exhaustion_is_final",
    "C15_no_wrap"
   ],
   "note": ""
  },
  {
   "property": "C16",
   "status": "proved",
   "theorems": [
    "C16_single_power_failure",
    "C16_two_power_failures_refuted"
   ],
   "note": "The refuted theorem is the second half of the statement: two failures can destroy both copies."
  },
  {
   "property": "C17",
   "status": "partial",
   "theorems": [
    "C17_one_power_failure_partial",
    "C17_one_power_failure_refuted"
   ],
   "note": "Proved for interrupted updates whose new counter is not within 255 of a carry out of its low 40 bits (then always readable and >= old). The excluded case is refuted (msgcounteradd drops that carry, see C09): a concrete replay after one failure."
  },
  {
   "property": "C18",
   "status": "partial",
   "theorems": [
    "C18_repeated_power_failures_partial",
    "C18_unreadable_is_final",
    "C18_replay_refuted",
    "C18_loss_refuted"
   ],
   "note": "The unconditional claim is refuted (two failures can lead to replay or to permanent loss); proved when between two interrupted updates of a node one accepted message is more than 16 beyond the stored counter."
  },
  {
   "property": "C19",
   "status": "proved",
   "theorems": [
    "C19_update_any_content",
    "C19_update_exact",
    "C19_history",
    "C19_new_node"
   ],
   "note": "Any EEPROM content / consistent content / any history over all nodes; exact up to counters within 16 of 2^48, where updates are refused."
  },
  {
   "property": "C12",
   "status": "proved",
   "theorems": [
    "C12_anti_replay",
    "C12_never_twice",
    "C12_accepted_authentic",
    "C12_power_failures"
   ],
   "note": "Any frames, EEPROM content, keys and cipher. With power failures inside counter updates the history reduces to one of counter updates (C12_power_failures), whose guarantees are C17/C18."
  },
  {
   "property": "C13",
   "status": "proved",
   "theorems": [
    "C13_rejected_no_change",
    "C13_refusal_cases"
   ],
   "note": ""
  },
  {
   "property": "C53",
   "status": "partial",
   "theorems": [
    "C53_unique_iv_partial",
    "C53_whole_life_partial",
    "C53_unique_iv_refuted"
   ],
   "note": "False in full (as C14: seven power failures between two sends repeat an IV, explicit history of frames). Proved for every life of generic, valve and beacon sends, failed sends, restarts and power failures with at most six failures between any two successive frames; the whole-life form allows any number in all."
  },
  {
   "property": "C54",
   "status": "partial",
   "theorems": [
    "C54_encodeRaw_exact",
    "C54_encode_exact_partial",
    "C54_valve_exact_partial",
    "C54_beacon_refuted",
    "C54_valve_null_refuted",
    "C54_id_failure_refuted"
   ],
   "note": "Exact success conditions and frame contents proved for encodeRaw, encode and encodeValveFrame. False of the code: generateSecureBeacon always fails; encodeValveFrame with the documented NULL ptext writes through NULL; encode reports 255 when the ID source fails late."
  },
  {
   "property": "C33",
   "status": "partial",
   "theorems": [
    "C33_min_on_partial",
    "C33_min_on_refuted",
    "C33_min_off",
    "C33_min_off_power_up",
    "C33_min_off_ticks",
    "C33_min_off_255_refuted",
    "C33_pin_follows_state"
   ],
   "note": "Minimum on-time is one 2s tick short of the claim in the code (refuted by a witness; the proved bound is exact), and with 255 minutes configured the off-time is one minute short (refuted); the off-time theorems cover every configured value with min(254,m). Assumes the hub stays in hub mode with a constant configured minimum."
  },
  {
   "property": "C34",
   "status": "partial",
   "theorems": [
    "C34_recent_call_partial",
    "C34_thresholds",
    "C34_call_extends",
    "C34_not_hub_low",
    "C34_mode_change_refuted"
   ],
   "note": "The recency half holds while in hub mode with a constant minimum (all histories); it is refuted across changes of mode, because the countdown is frozen out of hub mode."
  },
  {
   "property": "C35",
   "status": "proved",
   "theorems": [
    "C35_window",
    "C35_soon",
    "C35_set",
    "C35_invalid",
    "C35_clear",
    "C35_any_set"
   ],
   "note": "Any number of schedules up to 255, any on-time byte."
  },
  {
   "property": "C36",
   "status": "proved",
   "theorems": [
    "C36_apply",
    "C36_follows",
    "C36_boundary_daily",
    "C36_override_kept",
    "C36_variable_on_time_refuted"
   ],
   "note": "For a constant on-time. C36_variable_on_time_refuted shows the claim does not extend to SimpleValveSchedule, whose on-time follows the dial and occupancy: an off boundary can be missed."
  },
  {
   "property": "C37",
   "status": "proved",
   "theorems": [
    "C37_bake_times_out",
    "C37_timeout_to_warm",
    "C37_bake_only_if_started",
    "C37_ends_at_once",
    "C37_three_modes",
    "C37_invalid_refused",
    "C37_set_warm_keeps_bake_refuted"
   ],
   "note": "Also recorded: selecting WARM does not end a bake, though it is reported as WARM until the next read."
  },
  {
   "property": "C39",
   "status": "proved",
   "theorems": [
    "C39_occupied_iff",
    "C39_recent_iff",
    "C39_confidence",
    "C39_mark_visible",
    "C39_hint_never_shortens",
    "C39_vacancy_hours",
    "C39_vacancy_cleared",
    "C39_holiday"
   ],
   "note": "All histories of marks, reads, vacancy declarations."
  },
  {
   "property": "C40",
   "status": "proved",
   "theorems": [
    "C40_mark_not_lost",
    "C40_reported_occupied",
    "C40_any_history",
    "C40_repaired_by_next_read",
    "C40_value_race_refuted"
   ],
   "note": "Reported occupied in the sense of isLikelyOccupied / isLikelyRecentlyOccupied; C40_value_race_refuted shows the percentage value and getVacancyH can be stale until the next read (as the code's comment admits)."
  },
  {
   "property": "C41",
   "status": "proved",
   "theorems": [
    "C41_restore_after_persist",
    "C41_crash_safe",
    "C41_restore_any_store",
    "C41_erased",
    "C41_error_changes_day_refuted",
    "C41_same_hour_clears_bits",
    "C41_redundant_persist_free"
   ],
   "note": "Per-byte atomic EEPROM operations. C41_error_changes_day_refuted records that the day count is restored even when the stored time is reported bad."
  },
  {
   "property": "C42",
   "status": "proved",
   "theorems": [
    "C42_tick",
    "C42_n_ticks",
    "C42_day",
    "C42_set",
    "C42_set_seconds",
    "C42_hours_around",
    "C42_elapsed"
   ],
   "note": "Day count modulo 2^16. The watchdog part of the timer interrupt is not modelled."
  },
  {
   "property": "C31",
   "status": "proved",
   "theorems": [
    "C31_simple_control",
    "C31_null_control",
    "C31_eeprom_control",
    "C31_dial_control",
    "C31_warm",
    "C31_bake",
    "C31_frost",
    "C31_in_range",
    "C31_warm_bounds",
    "C31_warm5_wraps_refuted",
    "C31_2016_in_range"
   ],
   "note": "For every control meeting the interface contract with a warm target of at least 6C, which all shipped controls do; both target computations. C31_warm5_wraps_refuted shows the wrap at the lowest target the bare interface would permit."
  },
  {
   "property": "C32",
   "status": "proved",
   "theorems": [
    "C32_no_setback_occupied",
    "C32_marked_no_setback",
    "C32_no_setback_scheduled",
    "C32_no_setback_lockout",
    "C32_comfort_limit",
    "C32_schedule_soon_limit",
    "C32_long_vacant_saves"
   ],
   "note": "For the current (Basic) computation; light, schedule and statistics inputs arbitrary."
  },
  {
   "property": "C38",
   "status": "partial",
   "theorems": [
    "C38_dial",
    "C38_all_selectable",
    "C38_full_range_refuted",
    "C38_dhw_refuted",
    "C38_dhw_partial",
    "C38_cache",
    "C38_frost_le_warm",
    "C38_stored_warm",
    "C38_stored_frost"
   ],
   "note": "Full for the two radiator parameter sets. False for the hot-water set: C38_dhw_refuted shows the default dial reaching 67C on a scale ending at 66C, dropping back at the end stop, and a division by zero for close end stops; C38_dhw_partial is what holds."
  },
  {
   "property": "C55",
   "status": "partial",
   "theorems": [
    "C55_first_reading",
    "C55_big_move_tracked",
    "C55_callbacks_partial",
    "C55_creep_refuted"
   ],
   "note": "The last clause is false: C55_creep_refuted turns the dial end to end, three raw counts a reading, with no change reported."
  },
  {
   "property": "C56",
   "status": "proved",
   "theorems": [
    "C56_get",
    "C56_countdown"
   ],
   "note": ""
  },
  {
   "property": "C26",
   "status": "proved",
   "theorems": [
    "valve_position_in_range",
    "valve_position_below_maximum"
   ],
   "note": "Any retained state; permitted maximum 0..100; with or without an attached device."
  },
  {
   "property": "C27",
   "status": "proved",
   "theorems": [
    "no_quick_reopen",
    "no_quick_reclose",
    "no_quick_reclose_fixed_maximum"
   ],
   "note": "One tick per minute; the bounds are shown attained by examples."
  },
  {
   "property": "C28",
   "status": "proved",
   "theorems": [
    "frost_protection",
    "frost_protection_binary",
    "cold_room_opens_fully_glacial"
   ],
   "note": "Room under 4.5C as sensed (5C with the code's half degree offset), permitted maximum constant. 26 minutes, or 125 if glacial operation is in force. In binary operation the target given must be at least 5C (which the target computation ensures: C61)."
  },
  {
   "property": "C29",
   "status": "proved",
   "theorems": [
    "hot_room_closes_fully",
    "cold_room_opens_fully",
    "cold_room_opens_fully_glacial"
   ],
   "note": "25 minutes to close, 26 (glacial: 125) to open; temperatures within +-127C."
  },
  {
   "property": "C30",
   "status": "partial",
   "theorems": [
    "mean_between_partial",
    "mean_rounds_partial",
    "mean_between_any",
    "mean_rounds_any",
    "mean_negative_refuted",
    "mean_no_overflow",
    "filter_fills_at_once",
    "filter_memory",
    "smoothed_within_recent"
   ],
   "note": "Full for readings at or above 0C. Below 0C the claim is false (mean_negative_refuted: truncation towards zero); mean_between_any / mean_rounds_any give the exact slack."
  },
  {
   "property": "C57",
   "status": "proved",
   "theorems": [
    "filter_on_after_jump",
    "filter_on_only_after_jump",
    "filter_minimum_time",
    "filter_released_close"
   ],
   "note": ""
  },
  {
   "property": "C58",
   "status": "proved",
   "theorems": [
    "movement_is_total_travel"
   ],
   "note": ""
  },
  {
   "property": "C59",
   "status": "proved",
   "theorems": [
    "no_hovering_call_for_heat",
    "binary_hovers_refuted"
   ],
   "note": "190 minutes, for the proportional implementation; the minimal binary one does hover (binary_hovers_refuted)."
  },
  {
   "property": "C60",
   "status": "proved",
   "theorems": [
    "calling_for_heat_sound",
    "calling_for_heat_complete",
    "under_target_iff",
    "bake_ends_at_target",
    "setback_reported",
    "min_open_round_trip",
    "min_open_in_range"
   ],
   "note": ""
  },
  {
   "property": "C61",
   "status": "proved",
   "theorems": [
    "whole_frost_protection",
    "whole_frost_protection_binary",
    "whole_overheat_closes"
   ],
   "note": "Whole valve with the Basic target computation and shipped parameters."
  },
  {
   "property": "C24",
   "status": "proved",
   "theorems": [
    "rxqueue_fifo",
    "rxqueue1_fifo"
   ],
   "note": "Variable-length queue (AVR build: removal in an atomic block) and 1-deep queue, interrupt routine interleaved between the application's individual accesses."
  },
  {
   "property": "C25",
   "status": "partial",
   "theorems": [
    "rxqueue_drop_occupancy",
    "rxqueue_capacity_partial",
    "rxqueue_capacity_fullsize",
    "rxqueue_capacity_refuted"
   ],
   "note": "Claim as documented is false (rxqueue_capacity_refuted: default driver configuration reports 3, drops while holding 2). Proved: bytes held at any drop, target-1 frames when the buffer is not capped, and the reported number when all frames are full-size."
  },
  {
   "property": "C62",
   "status": "proved",
   "theorems": [
    "trailing_zero_filter",
    "trailing_zero_filter_local",
    "ff_length",
    "ff_length_unterminated"
   ],
   "note": ""
  },
  {
   "property": "C45",
   "status": "proved",
   "theorems": [
    "fht_encode",
    "fht_encode_fits",
    "fht_round_trip",
    "fht_encode_addr_overrun_refuted"
   ],
   "note": "Default build (no address byte). In the ADR build the documented 46-byte buffer is too small (fht_encode_addr_overrun_refuted); fht_encode states the room needed."
  },
  {
   "property": "C46",
   "status": "proved",
   "theorems": [
    "fht_decode_accepts_iff",
    "fht_decode_pointer"
   ],
   "note": "Exact characterisation of accepted input."
  },
  {
   "property": "C63",
   "status": "proved",
   "theorems": [
    "fht_scale_percent"
   ],
   "note": ""
  },
  {
   "property": "C43",
   "status": "proved",
   "theorems": [
    "motor_position",
    "motor_position_monotone",
    "motor_intermediate"
   ],
   "note": "All calibrations and tick counts."
  },
  {
   "property": "C44",
   "status": "partial",
   "theorems": [
    "motor_range",
    "motor_edges",
    "motor_end_reported_partial",
    "motor_end_reported_binary",
    "motor_end_fresh",
    "motor_waits_for_fitting",
    "motor_error_final",
    "motor_start_up_bounded",
    "motor_calibration_bounded",
    "motor_stale_open_refuted",
    "motor_aborted_calibration_refuted",
    "motor_end_direction_refuted"
   ],
   "note": "Full for the end-stop-only driver. Proportional driver: the four confirmations need not all be in the reported direction (motor_end_direction_refuted) and a fully-open report can be stale (motor_aborted_calibration_refuted; for the end-stop-only driver motor_stale_open_refuted)."
  },
  {
   "property": "C64",
   "status": "proved",
   "theorems": [
    "motor_calibration",
    "motor_calibration_accepts"
   ],
   "note": ""
  },
  {
   "property": "C65",
   "status": "proved",
   "theorems": [
    "motor_left_off_and_timely"
   ],
   "note": ""
  },
  {
   "property": "C66",
   "status": "partial",
   "theorems": [
    "motor_low_supply_binary_partial",
    "motor_low_supply_prop_refuted"
   ],
   "note": "Holds for the end-stop-only driver; false for the proportional one."
  },
  {
   "property": "C67",
   "status": "partial",
   "theorems": [
    "motor_really_open_partial",
    "motor_really_open_refuted"
   ],
   "note": "Holds once calibrated (or end-stop-only); false after failed or missing calibration (threshold 110%)."
  },
  {
   "property": "C68",
   "status": "proved",
   "theorems": [
    "motor_moves",
    "motor_binary_arrives"
   ],
   "note": ""
  },
  {
   "property": "C47",
   "status": "partial",
   "theorems": [
    "json_write_partial",
    "json_members",
    "json_decimal",
    "json_leading_comma_refuted",
    "json_unset_value_refuted"
   ],
   "note": "Full if there is an ID or count field, or every statistic fits a message on its own; otherwise the object can start with a comma (json_leading_comma_refuted). A merely described statistic is emitted with value 0 (json_unset_value_refuted)."
  },
  {
   "property": "C48",
   "status": "partial",
   "theorems": [
    "json_quick_validate",
    "json_adjust",
    "json_rx_accepts_iff",
    "json_round_trip",
    "json_corruption_partial",
    "json_rx_overread_refuted",
    "json_truncated_accepted_refuted",
    "json_raw_accepted_refuted"
   ],
   "note": "Round trip and exact acceptance proved. The receive check can read past the given buffer and some corruptions are accepted (refuted theorems)."
  },
  {
   "property": "C69",
   "status": "partial",
   "theorems": [
    "json_rotation_fair_partial",
    "json_changed_goes_first",
    "json_write_maximise",
    "json_low_starves_refuted",
    "json_stuck_refuted",
    "json_changed_priority_refuted",
    "json_changed_first_refuted",
    "json_changed_empty_refuted"
   ],
   "note": "Full for normal-priority statistics that fit. Changes of the first statistic put are overlooked; low-priority statistics can starve; a statistic that does not fit blocks the rotation (refuted theorems)."
  },
  {
   "property": "C70",
   "status": "proved",
   "theorems": [
    "json_put",
    "json_put_descriptor",
    "json_remove",
    "json_set_id",
    "json_valid_key",
    "json_rotation_ok"
   ],
   "note": ""
  },
  {
   "property": "C49",
   "status": "partial",
   "theorems": [
    "full_round_trip",
    "full_single_bit_detected_with_terminator_partial",
    "full_hamming_distance",
    "minimal_round_trip",
    "minimal_single_bit_detected",
    "full_single_bit_detected_refuted",
    "decoded_id_valid_refuted"
   ],
   "note": "Round trips full. Single-bit detection of a full message needs the 0xff terminator to be checked by the caller (full_single_bit_detected_refuted without it)."
  },
  {
   "property": "C71",
   "status": "proved",
   "theorems": [
    "full_reveals_only_visible"
   ],
   "note": ""
  },
  {
   "property": "C72",
   "status": "proved",
   "theorems": [
    "decode_no_overread",
    "encode_full_outcome"
   ],
   "note": ""
  },
  {
   "property": "C73",
   "status": "proved",
   "theorems": [
    "decode_accepts_only_wire",
    "decode_accepts_wire",
    "verify_min_iff"
   ],
   "note": ""
  },
  {
   "property": "C74",
   "status": "proved",
   "theorems": [
    "minimal_errors_exact",
    "minimal_single_bit_detected",
    "minimal_two_bit_detected_refuted"
   ],
   "note": "Two-bit errors can go undetected: minimal_errors_exact characterises which."
  },
  {
   "property": "C50",
   "status": "partial",
   "theorems": [
    "smooth_between",
    "smooth_never_unset",
    "smooth_unbiased",
    "smooth_moves_iff",
    "smooth_distance_shrinks",
    "smooth_converges_near_partial",
    "smooth_converges_with_luck",
    "smooth_converges_refuted"
   ],
   "note": "Convergence all the way depends on the random source (smooth_converges_refuted); within 7 of the input always (smooth_converges_near_partial), exactly with enough lucky draws."
  },
  {
   "property": "C51",
   "status": "proved",
   "theorems": [
    "compress_range",
    "compress_monotone",
    "compress_expand_accuracy",
    "expand_compress"
   ],
   "note": ""
  },
  {
   "property": "C52",
   "status": "partial",
   "theorems": [
    "countBelow_correct",
    "getMin_correct",
    "getMax_correct",
    "inBottomQuartile_exact",
    "inTopQuartile_exact",
    "quartiles_full_day_partial",
    "quartile_at_least_18_set",
    "outlier_exclusive",
    "outlier_flat_day",
    "quartile_needs_full_day_refuted"
   ],
   "note": "Exact for any stored day; the documented requirement that no hour be unset is not enforced (quartile_needs_full_day_refuted)."
  },
  {
   "property": "C75",
   "status": "proved",
   "theorems": [
    "hour_mean_ambient",
    "hour_mean_temperature",
    "hour_mean_occupancy",
    "hour_mean_humidity",
    "sub_sample_writes_nothing",
    "bad_hour_discards",
    "full_sample_touches_only_hour",
    "full_sample_unavailable_untouched",
    "whole_hour_resets"
   ],
   "note": "Temperatures bounded so that the running total fits 16 bits."
  },
  {
   "property": "C76",
   "status": "partial",
   "theorems": [
    "stats_always_in_range_partial",
    "stats_in_range_refuted",
    "stats_never_unset_refuted"
   ],
   "note": "Holds when each sensor is always or never available; false when a sensor becomes available in mid-hour (the old total is reused)."
  },
  {
   "property": "C77",
   "status": "proved",
   "theorems": [
    "stat_slots_disjoint",
    "ee_get_reads",
    "ee_set_writes_one"
   ],
   "note": ""
  },
  {
   "property": "C78",
   "status": "proved",
   "theorems": [
    "zap_touches_only_stats",
    "zap_exact",
    "zap_repeated",
    "zap_terminates"
   ],
   "note": ""
  },
  {
   "property": "C79",
   "status": "proved",
   "theorems": [
    "fht_sync_power_up",
    "fht_sync_after_resync"
   ],
   "note": "Stated for drivers whose isAvailable() is true; see C83 for when that is."
  },
  {
   "property": "C80",
   "status": "proved",
   "theorems": [
    "fht_regular"
   ],
   "note": ""
  },
  {
   "property": "C81",
   "status": "proved",
   "theorems": [
    "fht_any_history"
   ],
   "note": ""
  },
  {
   "property": "C82",
   "status": "partial",
   "theorems": [
    "fht_open_was_told_partial",
    "fht_open_refuted"
   ],
   "note": "Holds whenever a radio is set at every poll; without a radio the driver marks the valve open without sending anything (fht_open_refuted)."
  },
  {
   "property": "C83",
   "status": "partial",
   "theorems": [
    "fht_valid_codes_never_driven",
    "fht_available_refuted"
   ],
   "note": "The claim is false of the code: isAvailable() negates the house-code test, so a driver with valid codes never transmits (fht_valid_codes_never_driven, all histories) and one with unset codes does."
  },
  {
   "property": "C84",
   "status": "proved",
   "theorems": [
    "fht_codes_persist"
   ],
   "note": ""
  },
  {
   "property": "C85",
   "status": "partial",
   "theorems": [
    "rxqueue1_any_length_partial",
    "rxqueue_any_length_refuted"
   ],
   "note": "True of the 1-deep queue; the variable-length queue stores the length unchecked (rxqueue_any_length_refuted)."
  },
  {
   "property": "C86",
   "status": "proved",
   "theorems": [
    "light_thresholds",
    "light_typ"
   ],
   "note": ""
  },
  {
   "property": "C87",
   "status": "proved",
   "theorems": [
    "light_lit_iff",
    "light_dark_iff",
    "light_never_both",
    "light_very_dark"
   ],
   "note": "light_case and light_very_dark_case meet the hypotheses."
  },
  {
   "property": "C88",
   "status": "proved",
   "theorems": [
    "light_dark_minutes",
    "light_dark_run",
    "light_never_both"
   ],
   "note": ""
  },
  {
   "property": "C89",
   "status": "proved",
   "theorems": [
    "light_occ_probable_iff",
    "light_occ_weak_iff",
    "light_occ_never_strong",
    "light_occ_fall_none",
    "light_occ_first_none",
    "light_occ_no_rise_no_probable",
    "light_occ_on_immediate"
   ],
   "note": ""
  },
  {
   "property": "C90",
   "status": "proved",
   "theorems": [
    "light_occ_flash_not_probable",
    "light_occ_flash_forgotten",
    "light_occ_dark_confirmed",
    "light_occ_dark_weak"
   ],
   "note": ""
  },
  {
   "property": "C91",
   "status": "proved",
   "theorems": [
    "light_callback",
    "light_callback_only_read"
   ],
   "note": ""
  },
  {
   "property": "C92",
   "status": "proved",
   "theorems": [
    "hub_no_replay"
   ],
   "note": "Without power failures during an update (those: C17, C18, C12_power_failures)."
  },
  {
   "property": "C93",
   "status": "partial",
   "theorems": [
    "hub_acts_partial",
    "hub_boiler_refuted",
    "msg_handler"
   ],
   "note": "The guard tests a constant instead of the body length, so an authentic frame with an empty body calls for heat with an uninitialised stack byte (hub_boiler_refuted); everything else is proved."
  },
  {
   "property": "C94",
   "status": "proved",
   "theorems": [
    "valve_to_hub"
   ],
   "note": ""
  },
  {
   "property": "C95",
   "status": "proved",
   "theorems": [
    "hub_queue"
   ],
   "note": ""
  },
  {
   "property": "C96",
   "status": "proved",
   "theorems": [
    "ui_countdown",
    "ui_recent_use"
   ],
   "note": ""
  },
  {
   "property": "C97",
   "status": "proved",
   "theorems": [
    "ui_press_served",
    "ui_press_report_refuted"
   ],
   "note": "The exception named in the statement is shown to be real by ui_press_report_refuted."
  },
  {
   "property": "C98",
   "status": "proved",
   "theorems": [
    "ui_frost_end",
    "ui_frost_stays"
   ],
   "note": ""
  },
  {
   "property": "C99",
   "status": "partial",
   "theorems": [
    "ui_read_time_partial",
    "ui_read_time_refuted"
   ],
   "note": "390 ms is the bound (330 ms in normal running, excluding the motor wiggle); the documented 350 ms is exceeded when the valve is not yet running."
  },
  {
   "property": "C100",
   "status": "proved",
   "theorems": [
    "ui_led_off",
    "ui_flashes",
    "ui_dark"
   ],
   "note": ""
  },
  {
   "property": "C101",
   "status": "proved",
   "theorems": [
    "ui_clicks"
   ],
   "note": ""
  },
  {
   "property": "C102",
   "status": "proved",
   "theorems": [
    "ui_power_up",
    "ui_noise_refuted"
   ],
   "note": "For a dial steady to within one step of its 8-bit value; three counts of ADC noise across a step boundary are enough to mark the room occupied (ui_noise_refuted)."
  },
  {
   "property": "C103",
   "status": "proved",
   "theorems": [
    "ui_cycle",
    "ui_cycle_held"
   ],
   "note": ""
  },
  {
   "property": "C104",
   "status": "proved",
   "theorems": [
    "cli_read_safe",
    "cli_read_exact",
    "cli_read_delivers",
    "cli_read_ends",
    "cli_read_refuses",
    "cli_line_shape"
   ],
   "note": "The time limit is only looked at when no character is waiting."
  },
  {
   "property": "C105",
   "status": "proved",
   "theorems": [
    "cli_hex_parse",
    "cli_hex_roundtrip",
    "cli_decimal_parse"
   ],
   "note": ""
  },
  {
   "property": "C106",
   "status": "proved",
   "theorems": [
    "cli_footprint",
    "cli_footprint_session"
   ],
   "note": "The generic parameter area includes one byte too many (C108)."
  },
  {
   "property": "C107",
   "status": "partial",
   "theorems": [
    "cli_assoc_add",
    "cli_assoc_refuses_partial",
    "cli_assoc_clear",
    "cli_assoc_query",
    "cli_assoc_short_refuted"
   ],
   "note": "A line of 25 or more characters with fewer than eight words is not refused: the missing ID bytes are uninitialised stack bytes (cli_assoc_short_refuted)."
  },
  {
   "property": "C108",
   "status": "partial",
   "theorems": [
    "cli_param",
    "cli_param_refuses_partial",
    "cli_param_bounds_refuted"
   ],
   "note": "N = 32 writes the byte after the area and numbers from 256 wrap around (cli_param_bounds_refuted)."
  },
  {
   "property": "C109",
   "status": "partial",
   "theorems": [
    "cli_key_set",
    "cli_key_clear",
    "cli_key_refuses_partial",
    "cli_key_first_word_refuted"
   ],
   "note": "The first key byte is not checked: an unparsable first word is stored as ff (cli_key_first_word_refuted)."
  },
  {
   "property": "C110",
   "status": "partial",
   "theorems": [
    "cli_id_create",
    "cli_id_create_finishes",
    "cli_id_show",
    "cli_id_renew",
    "cli_id_set",
    "cli_id_set_refuses_partial",
    "cli_id_set_short_refuted"
   ],
   "note": "A long line with fewer than eight words sets uninitialised bytes (cli_id_set_short_refuted)."
  },
  {
   "property": "C111",
   "status": "partial",
   "theorems": [
    "cli_time_partial",
    "cli_time_ignores",
    "cli_time_refuted",
    "cli_privacy_partial",
    "cli_privacy_refuted"
   ],
   "note": "Numbers are taken modulo 256 and non-numbers as 0 (cli_time_refuted, cli_privacy_refuted)."
  },
  {
   "property": "C112",
   "status": "proved",
   "theorems": [
    "cli_dump",
    "cli_zap"
   ],
   "note": ""
  },
  {
   "property": "C113",
   "status": "proved",
   "theorems": [
    "cli_house"
   ],
   "note": ""
  },
  {
   "property": "C114",
   "status": "proved",
   "theorems": [
    "cli_timer"
   ],
   "note": ""
  },
  {
   "property": "C115",
   "status": "proved",
   "theorems": [
    "cli_key_secret",
    "cli_key_secret_session"
   ],
   "note": "Running time (number of EEPROM writes) is not part of the output."
  },
  {
   "property": "C116",
   "status": "partial",
   "theorems": [
    "sim_frames",
    "sim_frames_polls",
    "sim_queue_accepts",
    "sim_length_partial",
    "sim_length_refuted",
    "sim_early_message_refuted"
   ],
   "note": "A message queued between the announcement of another and its writing is sent under the other's length (sim_length_refuted); one queued before the first poll after begin() is accepted and lost (sim_early_message_refuted)."
  },
  {
   "property": "C117",
   "status": "proved",
   "theorems": [
    "sim_delivers",
    "sim_once_a_minute_refuted",
    "sim_send_dead_refuted"
   ],
   "note": "Polled exactly once a minute the link never starts (sim_once_a_minute_refuted), hence the pace in the statement; a module found dead when sending loses the message (sim_send_dead_refuted)."
  },
  {
   "property": "C118",
   "status": "proved",
   "theorems": [
    "sim_attempts",
    "sim_spacing"
   ],
   "note": ""
  },
  {
   "property": "C119",
   "status": "proved",
   "theorems": [
    "sim_power_pin"
   ],
   "note": ""
  },
  {
   "property": "C120",
   "status": "partial",
   "theorems": [
    "sim_sendRaw",
    "sim_flush_ends_partial",
    "sim_flush_ends_refuted"
   ],
   "note": "Begun in second 58 or 59 of a minute it waits for ever if there is no prompt (sim_flush_ends_refuted)."
  },
  {
   "property": "C121",
   "status": "partial",
   "theorems": [
    "sim_safe_partial",
    "sim_safe_refuted",
    "sim_apn_silent_refuted",
    "sim_open_error_refuted"
   ],
   "note": "Safe only if the first marker is not among the last four characters that fit; no answer to the access point and errors opening the socket are taken for success."
  },
  {
   "property": "C122",
   "status": "proved",
   "theorems": [
    "ow_search_safe",
    "ow_enumerates",
    "ow_order_exists"
   ],
   "note": "Devices behave as their data sheet says and have a nonzero family byte; slot timing not modelled."
  },
  {
   "property": "C123",
   "status": "partial",
   "theorems": [
    "ds_read_multiple_partial",
    "ds_read_first",
    "ds_fresh_refuted",
    "ds_count0_refuted"
   ],
   "note": "The values are those in the scratchpads: the conversion is never waited for, so devices that take time give the previous temperature (ds_fresh_refuted); count 0 still writes one value (ds_count0_refuted)."
  },
  {
   "property": "C124",
   "status": "proved",
   "theorems": [
    "ds_configures"
   ],
   "note": ""
  },
  {
   "property": "C125",
   "status": "proved",
   "theorems": [
    "jee_encode",
    "jee_round_trip",
    "jee_filter_passes",
    "jee_encode_long_refuted"
   ],
   "note": "Above 250 bytes the returned length wraps round (jee_encode_long_refuted)."
  },
  {
   "property": "C126",
   "status": "proved",
   "theorems": [
    "jee_damage_rejected",
    "crc16_burst",
    "crc16_two_bits",
    "crc16_odd"
   ],
   "note": ""
  },
  {
   "property": "C127",
   "status": "partial",
   "theorems": [
    "jee_bounds_partial",
    "jee_decode_bounds",
    "jee_filter_short_refuted",
    "jee_filter_wrap_refuted",
    "jee_decode_refuted"
   ],
   "note": "Bounds hold for filtered buffers with the default group; the filter ignores how much was received, so a fragment passes over a stale packet; length bytes of 251 and more wrap round."
  },
  {
   "property": "C128",
   "status": "partial",
   "theorems": [
    "rfm_link_partial",
    "rfm_frame_arrives",
    "rfm_poll",
    "rfm_pending_lost_refuted"
   ],
   "note": "Proved except that without an interrupt line a packet still in the chip is lost uncounted when sendRaw() or a change of channel comes before poll() (rfm_pending_lost_refuted)."
  },
  {
   "property": "C129",
   "status": "proved",
   "theorems": [
    "rfm_send"
   ],
   "note": ""
  },
  {
   "property": "C130",
   "status": "partial",
   "theorems": [
    "rfm_listen_partial",
    "rfm_standard_switching",
    "rfm_minimal_residue_refuted",
    "rfm_restart_channel_refuted",
    "rfm_restart_listen_refuted"
   ],
   "note": "False after end() and begin(): the current channel and the channel listened to are not reset (two refutations). The minimal FHT8V configuration leaves registers of others, as its comment warns."
  },
  {
   "property": "C131",
   "status": "partial",
   "theorems": [
    "rfm_send",
    "rfm_bad_channel_refuted",
    "rfm_long_frame_refuted"
   ],
   "note": "True for up to 64 bytes on an existing channel (rfm_send); a bad channel number sends on the current channel and a 65th byte is lost, both returning true."
  },
  {
   "property": "C132",
   "status": "partial",
   "theorems": [
    "errors_shielded_until_aged_partial",
    "available_means_error_refuted"
   ],
   "note": "The first sentence is proved in full; the last is false: set(0) on a free reporter makes it available with value 0 for ten polls (available_means_error_refuted)."
  },
  {
   "property": "C133",
   "status": "partial",
   "theorems": [
    "supply_reading_conservative_partial",
    "very_low_supply_stays_reported_refuted",
    "supply_any_reading_refuted"
   ],
   "note": "Proved for readings 55..1023 (supplies under 20 V); false that a steady very low supply stays reported: it ages out after ten polls. Readings below 55 wrap round and 0 divides by zero."
  },
  {
   "property": "C134",
   "status": "proved",
   "theorems": [
    "rng8_no_latch_up",
    "rng8_seeding_reversible"
   ],
   "note": ""
  },
  {
   "property": "C135",
   "status": "partial",
   "theorems": [
    "secure_byte_mixing_partial",
    "secure_byte_keeps_jitter_refuted"
   ],
   "note": "True of the watchdog, ADC (unwhitened) and PRNG inputs; the clock jitter byte loses 1 or 2 bits (refuted)."
  },
  {
   "property": "C136",
   "status": "partial",
   "theorems": [
    "tmp112_reading_partial",
    "tmp112_fault_clean_refuted",
    "tmp112_unfinished_is_error_refuted"
   ],
   "note": "Value and error return proved; refuted: TWI power and the stored value after a fault, and unfinished conversions."
  },
  {
   "property": "C137",
   "status": "partial",
   "theorems": [
    "sht21_temperature_partial",
    "sht21_setup_efr32",
    "sht21_setup_avr_refuted",
    "sht21_timeout_power_refuted"
   ],
   "note": "Value proved; initialisation proved for EFR32 and refuted for AVR, where the register is never written; power not restored after a timeout (refuted)."
  },
  {
   "property": "C138",
   "status": "partial",
   "theorems": [
    "sht21_humidity_partial",
    "sht21_dry_air_refuted"
   ],
   "note": "Proved for nominal humidities of 0% and up; slightly negative ones wrap round to 250..255 and set the high-humidity flag (refuted)."
  },
  {
   "property": "C139",
   "status": "partial",
   "theorems": [
    "soft_serial_delivers",
    "soft_serial_write_is_8N1",
    "soft_serial_timeout",
    "soft_serial_delays_partial",
    "soft_serial_slow_baud_refuted"
   ],
   "note": "All but the delays proved in full; delays are right at 1 MHz from 977 to 22727 baud, and wrap round below (refuted)."
  },
  {
   "property": "C140",
   "status": "partial",
   "theorems": [
    "async_serial_queue_partial",
    "async_serial_8bit_refuted",
    "async_begin_clean_refuted"
   ],
   "note": "Queue behaviour proved; refuted: only 7 bits are kept, and begin() leaves old input waiting. The buffer takes 32 bytes from one write() to the next."
  },
  {
   "property": "C141",
   "status": "partial",
   "theorems": [
    "rn_send_partial",
    "rn_command_determines_frame",
    "rn_long_frame_refuted",
    "rn_true_means_accepted_refuted",
    "rn_answer_in_bounds_refuted",
    "rn_begin_commands"
   ],
   "note": "Proved for frames up to 127 bytes and answers under 16; refuted: longer frames are cut, true is returned whatever the answer, and an answer of 16 or more characters is printed past the end of its buffer."
  },
  {
   "property": "C142",
   "status": "partial",
   "theorems": [
    "old_serial_delivers",
    "old_serial_safe",
    "old_serial_delays_partial",
    "old_serial_fast_baud_refuted",
    "old_serial_timeout_told_refuted"
   ],
   "note": "Delivery and bounds proved in full; delays right at 1 MHz from 977 to 5555 baud; refuted: 9600 baud, and read() telling a time-out from a zero byte."
  },
  {
   "property": "C143",
   "status": "partial",
   "theorems": [
    "stats_line_truthful",
    "stats_line_plain",
    "stats_line_shows_all_partial",
    "stats_line_optional_refuted",
    "stats_line_truncated_refuted"
   ],
   "note": "All proved but the last: sensors are used even if NULL when the JSON part is on (refuted). Negative temperatures are shown rounded down, not truncated."
  },
  {
   "property": "C144",
   "status": "proved",
   "theorems": [
    "sleep_until_hits",
    "sleep_until_passed",
    "sleep_until_sound",
    "sleep_until_late_refuted"
   ],
   "note": "Beyond the stated tolerance a nap near the end of the cycle runs into the next one and true is returned a cycle late (sleep_until_late_refuted)."
  },
  {
   "property": "C145",
   "status": "partial",
   "theorems": [
    "nap_full_partial",
    "nap_premature",
    "new_cycle_sound",
    "nap_lost_wake_refuted",
    "new_cycle_missed_refuted"
   ],
   "note": "Proved for interrupts that arrive during the sleep; refuted for those served between the test and the sleep instruction, which are slept through."
  },
  {
   "property": "C146",
   "status": "partial",
   "theorems": [
    "spin_exact_partial",
    "spin_var",
    "delay_ms_exact",
    "spin16_exact",
    "low_slice_short",
    "arm_spin_short",
    "spin_wrap_refuted",
    "spin16_multiple_refuted",
    "arm_x4_refuted",
    "arm_spin_zero_refuted",
    "arm_delay_ms_refuted",
    "low_ms_refuted"
   ],
   "note": "AVR at 1 MHz proved up to 1023 us; at 16 MHz except for multiples of 64 us, which are 64 us too long; ARM delays are short by 3/19, delay_ms by more than half, and _delay_x4cycles hangs; _sleepLowPowerMs wraps round from 3 ms."
  },
  {
   "property": "C147",
   "status": "partial",
   "theorems": [
    "ms_remaining_safe_partial",
    "emulated_fast_refuted"
   ],
   "note": "The first half proved; the emulated sub-cycle is over 10% fast."
  },
  {
   "property": "C148",
   "status": "proved",
   "theorems": [
    "osc_passes",
    "osc_stopped",
    "osc_running",
    "osc_ext_passes",
    "osc_ext_good",
    "osc_aliased_refuted",
    "osc_ext_alias_refuted"
   ],
   "note": "The counts are 8 bits: a nap of a whole cycle or a CPU clock three times too fast is not noticed (refuted lemmas)."
  },
  {
   "property": "C149",
   "status": "proved",
   "theorems": [
    "cal_sound",
    "cal_no_clock",
    "cal_finds",
    "cal_between_refuted",
    "cal_limit_refuted",
    "cal_alias_refuted"
   ],
   "note": "cal_finds needs a setting with the exact count inside the limits; without one the calibration steps to and fro and fails (refuted lemmas)."
  },
  {
   "property": "C150",
   "status": "partial",
   "theorems": [
    "adc_read_spec",
    "adc_read_range_partial",
    "adc_timeout_light_refuted",
    "adc_timeout_dial_refuted",
    "adc_timeout_dial_up_refuted",
    "adc_timeout_supply_refuted",
    "adc_timeout_current_refuted"
   ],
   "note": "The read itself is proved in full and is in range away from the last tick of the cycle; in that tick it returns 1024 and no user looks for it (refuted lemmas)."
  },
  {
   "property": "C151",
   "status": "proved",
   "theorems": [
    "bridge_never_shorted",
    "bridge_break_before_make",
    "bridge_after"
   ],
   "note": "The instants are AVR port accesses; pull-up mode counts as off."
  },
  {
   "property": "C152",
   "status": "proved",
   "theorems": [
    "spin_runs",
    "spin_no_minimum_refuted",
    "spin_missed_refuted"
   ],
   "note": "For a minimum of 1 tick or more and a counter polled at least once a tick; with a minimum of 0 it overruns by a tick, and a missed limit runs on for most of a cycle (refuted lemmas)."
  },
  {
   "property": "C153",
   "status": "partial",
   "theorems": [
    "drv_direction_partial",
    "drv_never_both",
    "drv_never_wrong_way",
    "drv_off_lines_refuted",
    "drv_early_start_refuted",
    "drv_pins_refuted"
   ],
   "note": "Directions proved; refuted: off after opening leaves a line high, and the pins are passed in the wrong order."
  },
  {
   "property": "C154",
   "status": "partial",
   "theorems": [
    "internal_temp_ok_partial",
    "internal_temp_refuted"
   ],
   "note": "Proved from -128 C to +128 C; other readings overflow the 16-bit int (refuted)."
  },
  {
   "property": "C155",
   "status": "partial",
   "theorems": [
    "rx_line_faithful",
    "rx_line_injective",
    "rx_line_documented_partial",
    "rx_line_tilde_refuted"
   ],
   "note": "All but the last clause proved; the tilde (126), documented as printable, is shown in hexadecimal (rx_line_tilde_refuted)."
  },
  {
   "property": "C156",
   "status": "proved",
   "theorems": [
    "scratch_large",
    "scratch_small",
    "scratch_wrap",
    "scratch_unusable",
    "scratch_modulo_refuted"
   ],
   "note": "For small spaces with amounts up to 255: larger amounts are taken modulo 256 (scratch_modulo_refuted)."
  },
  {
   "property": "C157",
   "status": "partial",
   "theorems": [
    "stack_minimum",
    "stack_check_iff_partial",
    "stack_warning_late_refuted",
    "stack_warning_overrun_refuted"
   ],
   "note": "Minimum and reset proved in full; the low-stack error is computed from the minimum before the call, so it comes late or never (refuted)."
  },
  {
   "property": "C158",
   "status": "partial",
   "theorems": [
    "power_restored_partial",
    "power_on_in_use",
    "power_leak_refuted",
    "power_bandgap_refuted",
    "power_window_refuted"
   ],
   "note": "Proved for users that return at the end only, without the band-gap comparison and with no interrupt using the same device between power and enable; refuted: early error returns of the TMP112 and SHT21 reads leave the TWI on for good, the band-gap comparison turns the ADC off under a user, and that interrupt window."
  },
  {
   "property": "C159",
   "status": "partial",
   "theorems": [
    "voice_history_partial",
    "voice_poll",
    "voice_repeats_refuted",
    "voice_null_refuted"
   ],
   "note": "Exactly described over all histories with a callback set; false as documented: the count is cleared only by polls in minutes divisible by 4, so others report the same activations again, and a NULL callback is called (refuted)."
  },
  {
   "property": "C160",
   "status": "proved",
   "theorems": [
    "relay_follows",
    "relay_set_iff",
    "relay_setup_again_refuted"
   ],
   "note": "One setup(), before the calls of set(), as documented; a later setup() turns the relay off under a valve calling for heat (relay_setup_again_refuted)."
  },
  {
   "property": "C161",
   "status": "proved",
   "theorems": [
    "tester_alternates"
   ],
   "note": "End stops are signalled during the runs only."
  },
  {
   "property": "C162",
   "status": "proved",
   "theorems": [
    "counter_never_wraps",
    "counter_dec_effect",
    "counter_inc_effect",
    "counter_at_limit",
    "counter_many_decrements"
   ],
   "note": ""
  },
  {
   "property": "C163",
   "status": "partial",
   "theorems": [
    "print_unsigned_reads_back",
    "print_signed_reads_back_partial",
    "print_least_refuted"
   ],
   "note": "All but the least signed number, whose negation overflows (print_least_refuted)."
  },
  {
   "property": "C164",
   "status": "proved",
   "theorems": [
    "seed_endurance"
   ],
   "note": "Which byte and which bits are arbitrary; each EEPROM byte operation is atomic."
  },
  {
   "property": "C165",
   "status": "partial",
   "theorems": [
    "stats_to_line_partial",
    "hub_line_json",
    "hub_line_sender_refuted"
   ],
   "note": "All IDs without bytes below 16, which includes all valid node IDs; other IDs are printed ambiguously (hub_line_sender_refuted)."
  },
  {
   "property": "C166",
   "status": "partial",
   "theorems": [
    "link_told",
    "link_listen",
    "link_channel_configured_partial",
    "link_channel_refuted",
    "link_get_config"
   ],
   "note": "Reconfiguring with fewer channels leaves the link on a channel without configuration (link_channel_refuted); everything else for all histories."
  },
  {
   "property": "C167",
   "status": "partial",
   "theorems": [
    "wd_exact",
    "wd_fed_safe_partial",
    "wd_hang_reset",
    "wd_grace_refuted"
   ],
   "note": "Exactly described over all histories; the flag of an earlier period of use survives, so the first tick after enabling again can reset the system (wd_grace_refuted)."
  },
  {
   "property": "C168",
   "status": "partial",
   "theorems": [
    "tx_reset_cond",
    "tx_reset_cond_power",
    "tx_reset_cond_power_partial",
    "tx_reset_cond_exhausted_refuted",
    "tx_reset_cond_reuse_refuted"
   ],
   "note": "Proved for completed calls and for a power failure at any point of the call; an exhausted counter cannot be renewed and counters can be used again (refuted)."
  },
  {
   "property": "C169",
   "status": "partial",
   "theorems": [
    "i2c_transfer_ends_partial",
    "i2c_requests",
    "i2c_transfer_complete_refuted"
   ],
   "note": "As documented it waits for completion; refuted: it gives up after 300000 polls with the transfer still running."
  },
  {
   "property": "C170",
   "status": "proved",
   "theorems": [
    "sim_gate"
   ],
   "note": "The access point answer is taken for success when absent (sim_apn_silent_refuted, C121), so it is not among the gates."
  },
  {
   "property": "C171",
   "status": "partial",
   "theorems": [
    "serial_print_delivers_partial",
    "serial_print_power",
    "serial_empty_hangs_refuted",
    "serial_empty_hangs_later_refuted",
    "host_text",
    "host_line_refuted",
    "host_base_refuted",
    "efr_bytes",
    "efr_text_count",
    "efr_number_count_refuted"
   ],
   "note": "Proved for non-empty texts on AVR after any history; refuted for an empty text printed first after reset (waits for ever for the transmit-complete flag); the hosted build ends lines twice and ignores the base; EFR32 sends the right bytes but returns wrong counts for numbers."
  },
  {
   "property": "C172",
   "status": "partial",
   "theorems": [
    "fht_frame",
    "fht_frame_time",
    "fht_frame_history",
    "fht_frame_preamble_partial",
    "fht_frame_preamble_refuted",
    "fht_frame_size_refuted"
   ],
   "note": "All but the last sentence proved for buffers of up to 255 bytes (160 for the time): the frame rebuilt after synchronisation has no preamble even for an open valve (refuted), and a larger trailer size wraps the buffer size round (refuted)."
  },
  {
   "property": "C173",
   "status": "partial",
   "theorems": [
    "wear_counters_increase",
    "wear_increment",
    "wear_receive_full_partial",
    "wear_key",
    "wear_replay_refuted",
    "wear_reset_refuted",
    "wear_key_clear_refuted"
   ],
   "note": "Proved for arbitrary cell behaviour where the code reads back (transmit counter from a readable non-zero prefix, full receive update, setting the key); refuted for the unary receive update, the reset of an empty transmit counter and clearing the key, whose results are not read back."
  },
  {
   "property": "C174",
   "status": "partial",
   "theorems": [
    "jitter_byte_spec_partial",
    "jitter_byte_stopped",
    "jitter_last_count",
    "jitter_wdt_spec",
    "jitter_rtc_spec",
    "hash_step_data",
    "hash_step_hash",
    "memory_hash_one_byte",
    "memory_hash_16_bits",
    "jitter_stable_refuted",
    "jitter_last_refuted"
   ],
   "note": "Proved: the byte is a function of exactly the first eight changed counts, over all polls; the hash step is injective in each argument, so one changed byte changes the memory hash. Refuted: jitter-free clocks, both running, never yield a byte (no bound on the wait), and of the last count two values that differ by 0x91 give the same byte (exactly those). Distribution/entropy itself is not expressible here."
  },
  {
   "property": "C175",
   "status": "proved",
   "theorems": [
    "pins_distinct",
    "pin_read",
    "pin_write",
    "pin_mask",
    "pin_other"
   ],
   "note": "Register level only: the mapping of pins to ports is written out in the specification; interrupts during a read-modify-write are not modelled (single instructions on the target)."
  },
  {
   "property": "C176",
   "status": "partial",
   "theorems": [
    "any_frost",
    "any_warm",
    "any_setbacks",
    "sensible_as_given",
    "sensible_controls_partial",
    "sensible_target_partial",
    "dial_any_product_partial",
    "params_ranges_refuted",
    "params_order_refuted"
   ],
   "note": "Frost thresholds proved for all arguments; warm temperatures, controls and targets for all sensible ones (ordered, below 95C, setbacks that fit below the warm target), which include all shipped; the dial for all sensible arguments with up to nine marks (beyond: C38). Refuted for other arguments, which nothing rejects: frost at 95C puts warm above the maximum, an ECO setback of 255 wraps, a comfort minimum above the scale puts frost above warm, swapped warm arguments give an empty scale."
  },
  {
   "property": "C177",
   "status": "partial",
   "theorems": [
    "noise_input_kept_partial",
    "noise_supply_kept",
    "noise_temperature_kept",
    "noise_last_time_kept_partial",
    "noise_byte",
    "noise_time_refuted",
    "noise_reading_refuted"
   ],
   "note": "Proved for the low byte of every reading (more exactly, for any change of low byte exclusive-or high byte) and for the time of the last conversion; refuted for times of earlier conversions, and for a reading's high and low bits changing together (0x000 and 0x101)."
  },
  {
   "property": "C178",
   "status": "partial",
   "theorems": [
    "endstop_values",
    "endstop_dial_partial",
    "endstop_reversed_refuted",
    "endstop_reversed_high_refuted"
   ],
   "note": "Proved for ranges at least 72 counts wide with the cold end below 988 that run forwards, or backwards symmetrically about the scale's middle (as the default range reversed does). Refuted for other backwards ranges: the end stops are computed from the readings before they are turned round, so with the travel below the middle every position asks for BAKE, and above it for FROST."
  },
  {
   "property": "C179",
   "status": "proved",
   "theorems": [
    "stats_and_command_arrive"
   ],
   "note": "Composition of the FHT8V frame, its decoder and the binary statistics codec; the trailer function (the application's) is modelled as one that encodes its statistics in the room given."
  },
  {
   "property": "C180",
   "status": "proved",
   "theorems": [
    "v1_current_limits",
    "v1_opening_careful",
    "drv_current_limits",
    "encoder_mark",
    "v1_current_late_refuted"
   ],
   "note": "Away from the cycle's last tick, as stated; in that tick the current is always called high (v1_current_late_refuted, also C150)."
  },
  {
   "property": "C181",
   "status": "proved",
   "theorems": [
    "humidity_flags",
    "humidity_unread_high_refuted"
   ],
   "note": "As stated; before any successful read both flags say high (humidity_unread_high_refuted), and very dry air reads as high (C138)."
  },
  {
   "property": "C182",
   "status": "proved",
   "theorems": [
    "nonsecure_beacon"
   ],
   "note": "As stated; on failure part of the header may already have been written (nonsecure_beacon_case)."
  },
  {
   "property": "C183",
   "status": "proved",
   "theorems": [
    "pool_keeps_noise",
    "pool_never_forgets",
    "pool_one_difference"
   ],
   "note": "As stated, for the pool as it is: the four PRNG bytes and the counter."
  },
  {
   "property": "C184",
   "status": "proved",
   "theorems": [
    "new_occupancy_iff",
    "new_occupancy_occupied"
   ],
   "note": "Main-line histories; marks from interrupts are C40."
  },
  {
   "property": "C185",
   "status": "partial",
   "theorems": [
    "kinds_first_byte",
    "kinds_exclusive_partial",
    "kinds_exclusive_refuted"
   ],
   "note": "Proved for all pairs of kinds but JSON and statistics; for those when the object's second character is below '@' (a quote, in every object with a member) or the statistics carry an ID. Otherwise refuted: a five-byte frame that both accept."
  },
  {
   "property": "C186",
   "status": "partial",
   "theorems": [
    "text_sent",
    "text_count_refuted",
    "number_sent",
    "number_arrives"
   ],
   "note": "Sending proved for every text; the count returned is the length only below 256 characters (refuted at 256: reported as empty). itoa is taken from its specification."
  },
  {
   "property": "C187",
   "status": "proved",
   "theorems": [
    "dial_targets_safe",
    "dial_obeyed"
   ],
   "note": "For the two radiator parameter sets, as stated (the hot-water set's mapping is refuted in C38; slow creeping below the step in C55). dial_case meets the hypotheses."
  },
  {
   "property": "C188",
   "status": "proved",
   "theorems": [
    "C188_clock_over_cuts",
    "C188_no_cut_exact",
    "C188_counts",
    "C188_date_over_cuts",
    "C188_day_torn_refuted"
   ],
   "note": "Per-byte atomic EEPROM operations, caller persists each quarter hour. Time of day in full; the date too within 256 days sharing a high byte, but a cut in a persist just after midnight can lose a day (C188_day_lost), and across a change of high byte leave a date neither old nor new (C188_day_torn_refuted). C188_nonvacuous meets the hypotheses."
  }
 ]
}