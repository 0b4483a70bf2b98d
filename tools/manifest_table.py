m("C01","proved","C01_header_encode_iff C01_header_round_trip")
m("C02","proved","C02_decode_header_exact C02_decode_header_null")
m("C03","proved","C03_encode_nonsecure C03_nonsecure_round_trip")
m("C04","proved","C04_burst_rejected C04_odd_errors_rejected C04_odd_errors_in_crc_refuted","The _refuted theorem shows why the CRC byte is excluded from the odd-error claim.")
m("C05","proved","C05_crc7_range C05_crc7_linear C05_crc7_hamming4 C05_crc7_odd C05_crc7_burst C05_nz_final")
m("C06","proved","C06_pad_roundtrip C06_pad_refused")
m("C07","partial","C07_bad_padding_partial C07_bad_padding_refuted","False of the code: an authenticated body with impossible pad count is accepted as an empty message (refuted by witness). Proved: it never delivers garbage.")
m("C08","proved","C08_cmp_numeric")
m("C09","partial","C09_add_behaviour C09_add_partial C09_add_refuted","False of the code: carry into the top byte is lost (refuted by witness). Exact behaviour for all inputs proved, and the claim proved whenever no carry reaches byte 0.")
m("C10","proved","C10_secure_round_trip")
m("C11","proved","C11_decodeRaw_exact")
m("C20","partial","C20_unary1 C20_unary2_partial C20_unary2_refuted","Round trip and clear-only growth proved for both codes. The 'invalid patterns are errors' part is false for the two-byte code: an invalid high byte with low byte 0 decodes to 7-ish values (refuted by witness).")
m("C21","proved","C21_smart_erase C21_smart_clear_bits C21_smart_update")
m("C22","proved","C22_history C22_clear C22_count C22_get C22_add C22_add_history C22_lookup C22_reads_table_only")
m("C23","proved","C23_set_key C23_clear_key C23_no_key")
m("C14","partial","C14_tx_counter_partial C14_tx_counter_unique_partial C14_never_zero C14_tx_counter_refuted C14_seven_refuted","False in full: seven power failures between two sends make the CRC-8 accept a mixed copy and the same counter is handed out twice (explicit history). Proved: strictly increasing over every life, from any EEPROM contents, any restarts, as long as at most six power failures hit EEPROM updates between two consecutive sends; six is exact (C14_seven_refuted).")
m("C15","proved","C15_exhaustion_is_final C15_no_wrap")
m("C16","proved","C16_single_power_failure C16_two_power_failures_refuted","The refuted theorem is the second half of the statement: two failures can destroy both copies.")
m("C17","partial","C17_one_power_failure_partial C17_one_power_failure_refuted","Proved for interrupted updates whose new counter is not within 255 of a carry out of its low 40 bits (then always readable and >= old). The excluded case is refuted (msgcounteradd drops that carry, see C09): a concrete replay after one failure.")
m("C18","partial","C18_repeated_power_failures_partial C18_unreadable_is_final C18_replay_refuted C18_loss_refuted","The unconditional claim is refuted (two failures can lead to replay or to permanent loss); proved when between two interrupted updates of a node one accepted message is more than 16 beyond the stored counter.")
m("C19","proved","C19_update_any_content C19_update_exact C19_history C19_new_node","Any EEPROM content / consistent content / any history over all nodes; exact up to counters within 16 of 2^48, where updates are refused.")
m("C12","proved","C12_anti_replay C12_never_twice C12_accepted_authentic C12_power_failures","Any frames, EEPROM content, keys and cipher. With power failures inside counter updates the history reduces to one of counter updates (C12_power_failures), whose guarantees are C17/C18.")
m("C13","proved","C13_rejected_no_change C13_refusal_cases")
m("C53","partial","C53_unique_iv_partial C53_whole_life_partial C53_unique_iv_refuted","False in full (as C14: seven power failures between two sends repeat an IV, explicit history of frames). Proved for every life of generic, valve and beacon sends, failed sends, restarts and power failures with at most six failures between any two successive frames; the whole-life form allows any number in all.")
m("C54","partial","C54_encodeRaw_exact C54_encode_exact_partial C54_valve_exact_partial C54_beacon_refuted C54_valve_null_refuted C54_id_failure_refuted","Exact success conditions and frame contents proved for encodeRaw, encode and encodeValveFrame. False of the code: generateSecureBeacon always fails; encodeValveFrame with the documented NULL ptext writes through NULL; encode reports 255 when the ID source fails late.")

m("C33","partial","C33_min_on_partial C33_min_on_refuted C33_min_off C33_min_off_power_up C33_min_off_ticks C33_min_off_255_refuted C33_pin_follows_state","Minimum on-time is one 2s tick short of the claim in the code (refuted by a witness; the proved bound is exact), and with 255 minutes configured the off-time is one minute short (refuted); the off-time theorems cover every configured value with min(254,m). Assumes the hub stays in hub mode with a constant configured minimum.")
m("C34","partial","C34_recent_call_partial C34_thresholds C34_call_extends C34_not_hub_low C34_mode_change_refuted","The recency half holds while in hub mode with a constant minimum (all histories); it is refuted across changes of mode, because the countdown is frozen out of hub mode.")

m("C35","proved","C35_window C35_soon C35_set C35_invalid C35_clear C35_any_set","Any number of schedules up to 255, any on-time byte.")
m("C36","proved","C36_apply C36_follows C36_boundary_daily C36_override_kept C36_variable_on_time_refuted","For a constant on-time. C36_variable_on_time_refuted shows the claim does not extend to SimpleValveSchedule, whose on-time follows the dial and occupancy: an off boundary can be missed.")
m("C37","proved","C37_bake_times_out C37_timeout_to_warm C37_bake_only_if_started C37_ends_at_once C37_three_modes C37_invalid_refused C37_set_warm_keeps_bake_refuted","Also recorded: selecting WARM does not end a bake, though it is reported as WARM until the next read.")

m("C39","proved","C39_occupied_iff C39_recent_iff C39_confidence C39_mark_visible C39_hint_never_shortens C39_vacancy_hours C39_vacancy_cleared C39_holiday","All histories of marks, reads, vacancy declarations.")
m("C40","proved","C40_mark_not_lost C40_reported_occupied C40_any_history C40_repaired_by_next_read C40_value_race_refuted","Reported occupied in the sense of isLikelyOccupied / isLikelyRecentlyOccupied; C40_value_race_refuted shows the percentage value and getVacancyH can be stale until the next read (as the code's comment admits).")
m("C41","proved","C41_restore_after_persist C41_crash_safe C41_restore_any_store C41_erased C41_error_changes_day_refuted C41_same_hour_clears_bits C41_redundant_persist_free","Per-byte atomic EEPROM operations. C41_error_changes_day_refuted records that the day count is restored even when the stored time is reported bad.")
m("C42","proved","C42_tick C42_n_ticks C42_day C42_set C42_set_seconds C42_hours_around C42_elapsed","Day count modulo 2^16. The watchdog part of the timer interrupt is not modelled.")
m("C31","proved","C31_simple_control C31_null_control C31_eeprom_control C31_dial_control C31_warm C31_bake C31_frost C31_in_range C31_warm_bounds C31_warm5_wraps_refuted C31_2016_in_range","For every control meeting the interface contract with a warm target of at least 6C, which all shipped controls do; both target computations. C31_warm5_wraps_refuted shows the wrap at the lowest target the bare interface would permit.")
m("C32","proved","C32_no_setback_occupied C32_marked_no_setback C32_no_setback_scheduled C32_no_setback_lockout C32_comfort_limit C32_schedule_soon_limit C32_long_vacant_saves","For the current (Basic) computation; light, schedule and statistics inputs arbitrary.")
m("C38","partial","C38_dial C38_all_selectable C38_full_range_refuted C38_dhw_refuted C38_dhw_partial C38_cache C38_frost_le_warm C38_stored_warm C38_stored_frost","Full for the two radiator parameter sets. False for the hot-water set: C38_dhw_refuted shows the default dial reaching 67C on a scale ending at 66C, dropping back at the end stop, and a division by zero for close end stops; C38_dhw_partial is what holds.")
m("C55","partial","C55_first_reading C55_big_move_tracked C55_callbacks_partial C55_creep_refuted","The last clause is false: C55_creep_refuted turns the dial end to end, three raw counts a reading, with no change reported.")
m("C56","proved","C56_get C56_countdown","")

m("C26","proved","valve_position_in_range valve_position_below_maximum","Any retained state; permitted maximum 0..100; with or without an attached device.")
m("C27","proved","no_quick_reopen no_quick_reclose no_quick_reclose_fixed_maximum","One tick per minute; the bounds are shown attained by examples.")
m("C28","proved","frost_protection frost_protection_binary cold_room_opens_fully_glacial","Room under 4.5C as sensed (5C with the code's half degree offset), permitted maximum constant. 26 minutes, or 125 if glacial operation is in force. In binary operation the target given must be at least 5C (which the target computation ensures: C61).")
m("C29","proved","hot_room_closes_fully cold_room_opens_fully cold_room_opens_fully_glacial","25 minutes to close, 26 (glacial: 125) to open; temperatures within +-127C.")
m("C30","partial","mean_between_partial mean_rounds_partial mean_between_any mean_rounds_any mean_negative_refuted mean_no_overflow filter_fills_at_once filter_memory smoothed_within_recent","Full for readings at or above 0C. Below 0C the claim is false (mean_negative_refuted: truncation towards zero); mean_between_any / mean_rounds_any give the exact slack.")
m("C57","proved","filter_on_after_jump filter_on_only_after_jump filter_minimum_time filter_released_close","")
m("C58","proved","movement_is_total_travel","")
m("C59","proved","no_hovering_call_for_heat binary_hovers_refuted","190 minutes, for the proportional implementation; the minimal binary one does hover (binary_hovers_refuted).")
m("C60","proved","calling_for_heat_sound calling_for_heat_complete under_target_iff bake_ends_at_target setback_reported min_open_round_trip min_open_in_range","")
m("C61","proved","whole_frost_protection whole_frost_protection_binary whole_overheat_closes","Whole valve with the Basic target computation and shipped parameters.")

m("C24","proved","rxqueue_fifo rxqueue1_fifo","Variable-length queue (AVR build: removal in an atomic block) and 1-deep queue, interrupt routine interleaved between the application's individual accesses.")
m("C25","partial","rxqueue_drop_occupancy rxqueue_capacity_partial rxqueue_capacity_fullsize rxqueue_capacity_refuted","Claim as documented is false (rxqueue_capacity_refuted: default driver configuration reports 3, drops while holding 2). Proved: bytes held at any drop, target-1 frames when the buffer is not capped, and the reported number when all frames are full-size.")
m("C62","proved","trailing_zero_filter trailing_zero_filter_local ff_length ff_length_unterminated","")

m("C45","proved","fht_encode fht_encode_fits fht_round_trip fht_encode_addr_overrun_refuted","Default build (no address byte). In the ADR build the documented 46-byte buffer is too small (fht_encode_addr_overrun_refuted); fht_encode states the room needed.")
m("C46","proved","fht_decode_accepts_iff fht_decode_pointer","Exact characterisation of accepted input.")
m("C63","proved","fht_scale_percent","")

m("C43","proved","motor_position motor_position_monotone motor_intermediate","All calibrations and tick counts.")
m("C44","partial","motor_range motor_edges motor_end_reported_partial motor_end_reported_binary motor_end_fresh motor_waits_for_fitting motor_error_final motor_start_up_bounded motor_calibration_bounded motor_stale_open_refuted motor_aborted_calibration_refuted motor_end_direction_refuted","Full for the end-stop-only driver. Proportional driver: the four confirmations need not all be in the reported direction (motor_end_direction_refuted) and a fully-open report can be stale (motor_aborted_calibration_refuted; for the end-stop-only driver motor_stale_open_refuted).")
m("C64","proved","motor_calibration motor_calibration_accepts","")
m("C65","proved","motor_left_off_and_timely","")
m("C66","partial","motor_low_supply_binary_partial motor_low_supply_prop_refuted","Holds for the end-stop-only driver; false for the proportional one.")
m("C67","partial","motor_really_open_partial motor_really_open_refuted","Holds once calibrated (or end-stop-only); false after failed or missing calibration (threshold 110%).")
m("C68","proved","motor_moves motor_binary_arrives","")

m("C47","partial","json_write_partial json_members json_decimal json_leading_comma_refuted json_unset_value_refuted","Full if there is an ID or count field, or every statistic fits a message on its own; otherwise the object can start with a comma (json_leading_comma_refuted). A merely described statistic is emitted with value 0 (json_unset_value_refuted).")
m("C48","partial","json_quick_validate json_adjust json_rx_accepts_iff json_round_trip json_corruption_partial json_rx_overread_refuted json_truncated_accepted_refuted json_raw_accepted_refuted","Round trip and exact acceptance proved. The receive check can read past the given buffer and some corruptions are accepted (refuted theorems).")
m("C69","partial","json_rotation_fair_partial json_changed_goes_first json_write_maximise json_low_starves_refuted json_stuck_refuted json_changed_priority_refuted json_changed_first_refuted json_changed_empty_refuted","Full for normal-priority statistics that fit. Changes of the first statistic put are overlooked; low-priority statistics can starve; a statistic that does not fit blocks the rotation (refuted theorems).")
m("C70","proved","json_put json_put_descriptor json_remove json_set_id json_valid_key json_rotation_ok","")

m("C49","partial","full_round_trip full_single_bit_detected_with_terminator_partial full_hamming_distance minimal_round_trip minimal_single_bit_detected full_single_bit_detected_refuted decoded_id_valid_refuted","Round trips full. Single-bit detection of a full message needs the 0xff terminator to be checked by the caller (full_single_bit_detected_refuted without it).")
m("C71","proved","full_reveals_only_visible","")
m("C72","proved","decode_no_overread encode_full_outcome","")
m("C73","proved","decode_accepts_only_wire decode_accepts_wire verify_min_iff","")
m("C74","proved","minimal_errors_exact minimal_single_bit_detected minimal_two_bit_detected_refuted","Two-bit errors can go undetected: minimal_errors_exact characterises which.")
m("C50","partial","smooth_between smooth_never_unset smooth_unbiased smooth_moves_iff smooth_distance_shrinks smooth_converges_near_partial smooth_converges_with_luck smooth_converges_refuted","Convergence all the way depends on the random source (smooth_converges_refuted); within 7 of the input always (smooth_converges_near_partial), exactly with enough lucky draws.")
m("C51","proved","compress_range compress_monotone compress_expand_accuracy expand_compress","")
m("C52","partial","countBelow_correct getMin_correct getMax_correct inBottomQuartile_exact inTopQuartile_exact quartiles_full_day_partial quartile_at_least_18_set outlier_exclusive outlier_flat_day quartile_needs_full_day_refuted","Exact for any stored day; the documented requirement that no hour be unset is not enforced (quartile_needs_full_day_refuted).")
m("C75","proved","hour_mean_ambient hour_mean_temperature hour_mean_occupancy hour_mean_humidity sub_sample_writes_nothing bad_hour_discards full_sample_touches_only_hour full_sample_unavailable_untouched whole_hour_resets","Temperatures bounded so that the running total fits 16 bits.")
m("C76","partial","stats_always_in_range_partial stats_in_range_refuted stats_never_unset_refuted","Holds when each sensor is always or never available; false when a sensor becomes available in mid-hour (the old total is reused).")
m("C77","proved","stat_slots_disjoint ee_get_reads ee_set_writes_one","")
m("C78","proved","zap_touches_only_stats zap_exact zap_repeated zap_terminates","")
m("C79","proved","fht_sync_power_up fht_sync_after_resync","Stated for drivers whose isAvailable() is true; see C83 for when that is.")
m("C80","proved","fht_regular","")
m("C81","proved","fht_any_history","")
m("C82","partial","fht_open_was_told_partial fht_open_refuted","Holds whenever a radio is set at every poll; without a radio the driver marks the valve open without sending anything (fht_open_refuted).")
m("C83","partial","fht_valid_codes_never_driven fht_available_refuted","The claim is false of the code: isAvailable() negates the house-code test, so a driver with valid codes never transmits (fht_valid_codes_never_driven, all histories) and one with unset codes does.")
m("C84","proved","fht_codes_persist","")
m("C85","partial","rxqueue1_any_length_partial rxqueue_any_length_refuted","True of the 1-deep queue; the variable-length queue stores the length unchecked (rxqueue_any_length_refuted).")
m("C86","proved","light_thresholds light_typ","")
m("C87","proved","light_lit_iff light_dark_iff light_never_both light_very_dark","light_case and light_very_dark_case meet the hypotheses.")
m("C88","proved","light_dark_minutes light_dark_run light_never_both","")
m("C89","proved","light_occ_probable_iff light_occ_weak_iff light_occ_never_strong light_occ_fall_none light_occ_first_none light_occ_no_rise_no_probable light_occ_on_immediate","")
m("C90","proved","light_occ_flash_not_probable light_occ_flash_forgotten light_occ_dark_confirmed light_occ_dark_weak","")
m("C91","proved","light_callback light_callback_only_read","")
m("C92","proved","hub_no_replay","Without power failures during an update (those: C17, C18, C12_power_failures).")
m("C93","partial","hub_acts_partial hub_boiler_refuted msg_handler","The guard tests a constant instead of the body length, so an authentic frame with an empty body calls for heat with an uninitialised stack byte (hub_boiler_refuted); everything else is proved.")
m("C94","proved","valve_to_hub","")
m("C95","proved","hub_queue","")
m("C96","proved","ui_countdown ui_recent_use","")
m("C97","proved","ui_press_served ui_press_report_refuted","The exception named in the statement is shown to be real by ui_press_report_refuted.")
m("C98","proved","ui_frost_end ui_frost_stays","")
m("C99","partial","ui_read_time_partial ui_read_time_refuted","390 ms is the bound (330 ms in normal running, excluding the motor wiggle); the documented 350 ms is exceeded when the valve is not yet running.")
m("C100","proved","ui_led_off ui_flashes ui_dark","")
m("C101","proved","ui_clicks","")
m("C102","proved","ui_power_up ui_noise_refuted","For a dial steady to within one step of its 8-bit value; three counts of ADC noise across a step boundary are enough to mark the room occupied (ui_noise_refuted).")
m("C103","proved","ui_cycle ui_cycle_held","")

m("C104","proved","cli_read_safe cli_read_exact cli_read_delivers cli_read_ends cli_read_refuses cli_line_shape","The time limit is only looked at when no character is waiting.")
m("C105","proved","cli_hex_parse cli_hex_roundtrip cli_decimal_parse","")
m("C106","proved","cli_footprint cli_footprint_session","The generic parameter area includes one byte too many (C108).")
m("C107","partial","cli_assoc_add cli_assoc_refuses_partial cli_assoc_clear cli_assoc_query cli_assoc_short_refuted","A line of 25 or more characters with fewer than eight words is not refused: the missing ID bytes are uninitialised stack bytes (cli_assoc_short_refuted).")
m("C108","partial","cli_param cli_param_refuses_partial cli_param_bounds_refuted","N = 32 writes the byte after the area and numbers from 256 wrap around (cli_param_bounds_refuted).")
m("C109","partial","cli_key_set cli_key_clear cli_key_refuses_partial cli_key_first_word_refuted","The first key byte is not checked: an unparsable first word is stored as ff (cli_key_first_word_refuted).")
m("C110","partial","cli_id_create cli_id_create_finishes cli_id_show cli_id_renew cli_id_set cli_id_set_refuses_partial cli_id_set_short_refuted","A long line with fewer than eight words sets uninitialised bytes (cli_id_set_short_refuted).")
m("C111","partial","cli_time_partial cli_time_ignores cli_time_refuted cli_privacy_partial cli_privacy_refuted","Numbers are taken modulo 256 and non-numbers as 0 (cli_time_refuted, cli_privacy_refuted).")
m("C112","proved","cli_dump cli_zap","")
m("C113","proved","cli_house","")
m("C114","proved","cli_timer","")
m("C115","proved","cli_key_secret cli_key_secret_session","Running time (number of EEPROM writes) is not part of the output.")
m("C116","partial","sim_frames sim_frames_polls sim_queue_accepts sim_length_partial sim_length_refuted sim_early_message_refuted","A message queued between the announcement of another and its writing is sent under the other's length (sim_length_refuted); one queued before the first poll after begin() is accepted and lost (sim_early_message_refuted).")
m("C117","proved","sim_delivers sim_once_a_minute_refuted sim_send_dead_refuted","Polled exactly once a minute the link never starts (sim_once_a_minute_refuted), hence the pace in the statement; a module found dead when sending loses the message (sim_send_dead_refuted).")
m("C118","proved","sim_attempts sim_spacing","")
m("C119","proved","sim_power_pin","")
m("C120","partial","sim_sendRaw sim_flush_ends_partial sim_flush_ends_refuted","Begun in second 58 or 59 of a minute it waits for ever if there is no prompt (sim_flush_ends_refuted).")
m("C121","partial","sim_safe_partial sim_safe_refuted sim_apn_silent_refuted sim_open_error_refuted","Safe only if the first marker is not among the last four characters that fit; no answer to the access point and errors opening the socket are taken for success.")
m("C122","proved","ow_search_safe ow_enumerates ow_order_exists","Devices behave as their data sheet says and have a nonzero family byte; slot timing not modelled.")
m("C123","partial","ds_read_multiple_partial ds_read_first ds_fresh_refuted ds_count0_refuted","The values are those in the scratchpads: the conversion is never waited for, so devices that take time give the previous temperature (ds_fresh_refuted); count 0 still writes one value (ds_count0_refuted).")
m("C124","proved","ds_configures","")
m("C125","proved","jee_encode jee_round_trip jee_filter_passes jee_encode_long_refuted","Above 250 bytes the returned length wraps round (jee_encode_long_refuted).")
m("C126","proved","jee_damage_rejected crc16_burst crc16_two_bits crc16_odd","")
m("C127","partial","jee_bounds_partial jee_decode_bounds jee_filter_short_refuted jee_filter_wrap_refuted jee_decode_refuted","Bounds hold for filtered buffers with the default group; the filter ignores how much was received, so a fragment passes over a stale packet; length bytes of 251 and more wrap round.")
m("C128","partial","rfm_link_partial rfm_frame_arrives rfm_poll rfm_pending_lost_refuted","Proved except that without an interrupt line a packet still in the chip is lost uncounted when sendRaw() or a change of channel comes before poll() (rfm_pending_lost_refuted).")
m("C129","proved","rfm_send","")
m("C130","partial","rfm_listen_partial rfm_standard_switching rfm_minimal_residue_refuted rfm_restart_channel_refuted rfm_restart_listen_refuted","False after end() and begin(): the current channel and the channel listened to are not reset (two refutations). The minimal FHT8V configuration leaves registers of others, as its comment warns.")
m("C131","partial","rfm_send rfm_bad_channel_refuted rfm_long_frame_refuted","True for up to 64 bytes on an existing channel (rfm_send); a bad channel number sends on the current channel and a 65th byte is lost, both returning true.")
m("C132","partial","errors_shielded_until_aged_partial available_means_error_refuted","The first sentence is proved in full; the last is false: set(0) on a free reporter makes it available with value 0 for ten polls (available_means_error_refuted).")
m("C133","partial","supply_reading_conservative_partial very_low_supply_stays_reported_refuted supply_any_reading_refuted","Proved for readings 55..1023 (supplies under 20 V); false that a steady very low supply stays reported: it ages out after ten polls. Readings below 55 wrap round and 0 divides by zero.")
m("C134","proved","rng8_no_latch_up rng8_seeding_reversible","")
m("C135","partial","secure_byte_mixing_partial secure_byte_keeps_jitter_refuted","True of the watchdog, ADC (unwhitened) and PRNG inputs; the clock jitter byte loses 1 or 2 bits (refuted).")
m("C136","partial","tmp112_reading_partial tmp112_fault_clean_refuted tmp112_unfinished_is_error_refuted","Value and error return proved; refuted: TWI power and the stored value after a fault, and unfinished conversions.")
m("C137","partial","sht21_temperature_partial sht21_setup_efr32 sht21_setup_avr_refuted sht21_timeout_power_refuted","Value proved; initialisation proved for EFR32 and refuted for AVR, where the register is never written; power not restored after a timeout (refuted).")
m("C138","partial","sht21_humidity_partial sht21_dry_air_refuted","Proved for nominal humidities of 0% and up; slightly negative ones wrap round to 250..255 and set the high-humidity flag (refuted).")
m("C139","partial","soft_serial_delivers soft_serial_write_is_8N1 soft_serial_timeout soft_serial_delays_partial soft_serial_slow_baud_refuted","All but the delays proved in full; delays are right at 1 MHz from 977 to 22727 baud, and wrap round below (refuted).")
m("C140","partial","async_serial_queue_partial async_serial_8bit_refuted async_begin_clean_refuted","Queue behaviour proved; refuted: only 7 bits are kept, and begin() leaves old input waiting. The buffer takes 32 bytes from one write() to the next.")
m("C141","partial","rn_send_partial rn_command_determines_frame rn_long_frame_refuted rn_true_means_accepted_refuted rn_answer_in_bounds_refuted rn_begin_commands","Proved for frames up to 127 bytes and answers under 16; refuted: longer frames are cut, true is returned whatever the answer, and an answer of 16 or more characters is printed past the end of its buffer.")
m("C142","partial","old_serial_delivers old_serial_safe old_serial_delays_partial old_serial_fast_baud_refuted old_serial_timeout_told_refuted","Delivery and bounds proved in full; delays right at 1 MHz from 977 to 5555 baud; refuted: 9600 baud, and read() telling a time-out from a zero byte.")
m("C143","partial","stats_line_truthful stats_line_plain stats_line_shows_all_partial stats_line_optional_refuted stats_line_truncated_refuted","All proved but the last: sensors are used even if NULL when the JSON part is on (refuted). Negative temperatures are shown rounded down, not truncated.")
m("C144","proved","sleep_until_hits sleep_until_passed sleep_until_sound sleep_until_late_refuted","Beyond the stated tolerance a nap near the end of the cycle runs into the next one and true is returned a cycle late (sleep_until_late_refuted).")
m("C145","partial","nap_full_partial nap_premature new_cycle_sound nap_lost_wake_refuted new_cycle_missed_refuted","Proved for interrupts that arrive during the sleep; refuted for those served between the test and the sleep instruction, which are slept through.")
m("C146","partial","spin_exact_partial spin_var delay_ms_exact spin16_exact low_slice_short arm_spin_short spin_wrap_refuted spin16_multiple_refuted arm_x4_refuted arm_spin_zero_refuted arm_delay_ms_refuted low_ms_refuted","AVR at 1 MHz proved up to 1023 us; at 16 MHz except for multiples of 64 us, which are 64 us too long; ARM delays are short by 3/19, delay_ms by more than half, and _delay_x4cycles hangs; _sleepLowPowerMs wraps round from 3 ms.")
m("C147","partial","ms_remaining_safe_partial emulated_fast_refuted","The first half proved; the emulated sub-cycle is over 10% fast.")
m("C148","proved","osc_passes osc_stopped osc_running osc_ext_passes osc_ext_good osc_aliased_refuted osc_ext_alias_refuted","The counts are 8 bits: a nap of a whole cycle or a CPU clock three times too fast is not noticed (refuted lemmas).")
m("C149","proved","cal_sound cal_no_clock cal_finds cal_between_refuted cal_limit_refuted cal_alias_refuted","cal_finds needs a setting with the exact count inside the limits; without one the calibration steps to and fro and fails (refuted lemmas).")
m("C150","partial","adc_read_spec adc_read_range_partial adc_timeout_light_refuted adc_timeout_dial_refuted adc_timeout_dial_up_refuted adc_timeout_supply_refuted adc_timeout_current_refuted","The read itself is proved in full and is in range away from the last tick of the cycle; in that tick it returns 1024 and no user looks for it (refuted lemmas).")
m("C151","proved","bridge_never_shorted bridge_break_before_make bridge_after","The instants are AVR port accesses; pull-up mode counts as off.")
m("C152","proved","spin_runs spin_no_minimum_refuted spin_missed_refuted","For a minimum of 1 tick or more and a counter polled at least once a tick; with a minimum of 0 it overruns by a tick, and a missed limit runs on for most of a cycle (refuted lemmas).")
m("C153","partial","drv_direction_partial drv_never_both drv_never_wrong_way drv_off_lines_refuted drv_early_start_refuted drv_pins_refuted","Directions proved; refuted: off after opening leaves a line high, and the pins are passed in the wrong order.")
m("C154","partial","internal_temp_ok_partial internal_temp_refuted","Proved from -128 C to +128 C; other readings overflow the 16-bit int (refuted).")
m("C155","partial","rx_line_faithful rx_line_injective rx_line_documented_partial rx_line_tilde_refuted","All but the last clause proved; the tilde (126), documented as printable, is shown in hexadecimal (rx_line_tilde_refuted).")
m("C156","proved","scratch_large scratch_small scratch_wrap scratch_unusable scratch_modulo_refuted","For small spaces with amounts up to 255: larger amounts are taken modulo 256 (scratch_modulo_refuted).")
m("C157","partial","stack_minimum stack_check_iff_partial stack_warning_late_refuted stack_warning_overrun_refuted","Minimum and reset proved in full; the low-stack error is computed from the minimum before the call, so it comes late or never (refuted).")
m("C158","partial","power_restored_partial power_on_in_use power_leak_refuted power_bandgap_refuted power_window_refuted","Proved for users that return at the end only, without the band-gap comparison and with no interrupt using the same device between power and enable; refuted: early error returns of the TMP112 and SHT21 reads leave the TWI on for good, the band-gap comparison turns the ADC off under a user, and that interrupt window.")
m("C159","partial","voice_history_partial voice_poll voice_repeats_refuted voice_null_refuted","Exactly described over all histories with a callback set; false as documented: the count is cleared only by polls in minutes divisible by 4, so others report the same activations again, and a NULL callback is called (refuted).")
m("C160","proved","relay_follows relay_set_iff relay_setup_again_refuted","One setup(), before the calls of set(), as documented; a later setup() turns the relay off under a valve calling for heat (relay_setup_again_refuted).")
m("C161","proved","tester_alternates","End stops are signalled during the runs only.")
m("C162","proved","counter_never_wraps counter_dec_effect counter_inc_effect counter_at_limit counter_many_decrements","")
m("C163","partial","print_unsigned_reads_back print_signed_reads_back_partial print_least_refuted","All but the least signed number, whose negation overflows (print_least_refuted).")
m("C164","proved","seed_endurance","Which byte and which bits are arbitrary; each EEPROM byte operation is atomic.")
m("C165","partial","stats_to_line_partial hub_line_json hub_line_sender_refuted","All IDs without bytes below 16, which includes all valid node IDs; other IDs are printed ambiguously (hub_line_sender_refuted).")
m("C166","partial","link_told link_listen link_channel_configured_partial link_channel_refuted link_get_config","Reconfiguring with fewer channels leaves the link on a channel without configuration (link_channel_refuted); everything else for all histories.")
m("C167","partial","wd_exact wd_fed_safe_partial wd_hang_reset wd_grace_refuted","Exactly described over all histories; the flag of an earlier period of use survives, so the first tick after enabling again can reset the system (wd_grace_refuted).")
m("C168","partial","tx_reset_cond tx_reset_cond_power tx_reset_cond_power_partial tx_reset_cond_exhausted_refuted tx_reset_cond_reuse_refuted","Proved for completed calls and for a power failure at any point of the call; an exhausted counter cannot be renewed and counters can be used again (refuted).")
m("C169","partial","i2c_transfer_ends_partial i2c_requests i2c_transfer_complete_refuted","As documented it waits for completion; refuted: it gives up after 300000 polls with the transfer still running.")
m("C170","proved","sim_gate","The access point answer is taken for success when absent (sim_apn_silent_refuted, C121), so it is not among the gates.")
m("C171","partial","serial_print_delivers_partial serial_print_power serial_empty_hangs_refuted serial_empty_hangs_later_refuted host_text host_line_refuted host_base_refuted efr_bytes efr_text_count efr_number_count_refuted","Proved for non-empty texts on AVR after any history; refuted for an empty text printed first after reset (waits for ever for the transmit-complete flag); the hosted build ends lines twice and ignores the base; EFR32 sends the right bytes but returns wrong counts for numbers.")
m("C172","partial","fht_frame fht_frame_time fht_frame_history fht_frame_preamble_partial fht_frame_preamble_refuted fht_frame_size_refuted","All but the last sentence proved for buffers of up to 255 bytes (160 for the time): the frame rebuilt after synchronisation has no preamble even for an open valve (refuted), and a larger trailer size wraps the buffer size round (refuted).")
m("C173","partial","wear_counters_increase wear_increment wear_receive_full_partial wear_key wear_replay_refuted wear_reset_refuted wear_key_clear_refuted","Proved for arbitrary cell behaviour where the code reads back (transmit counter from a readable non-zero prefix, full receive update, setting the key); refuted for the unary receive update, the reset of an empty transmit counter and clearing the key, whose results are not read back.")
m("C174","partial","jitter_byte_spec_partial jitter_byte_stopped jitter_last_count jitter_wdt_spec jitter_rtc_spec hash_step_data hash_step_hash memory_hash_one_byte memory_hash_16_bits jitter_stable_refuted jitter_last_refuted","Proved: the byte is a function of exactly the first eight changed counts, over all polls; the hash step is injective in each argument, so one changed byte changes the memory hash. Refuted: jitter-free clocks, both running, never yield a byte (no bound on the wait), and of the last count two values that differ by 0x91 give the same byte (exactly those). Distribution/entropy itself is not expressible here.")
m("C175","proved","pins_distinct pin_read pin_write pin_mask pin_other","Register level only: the mapping of pins to ports is written out in the specification; interrupts during a read-modify-write are not modelled (single instructions on the target).")
m("C176","partial","any_frost any_warm any_setbacks sensible_as_given sensible_controls_partial sensible_target_partial dial_any_product_partial params_ranges_refuted params_order_refuted","Frost thresholds proved for all arguments; warm temperatures, controls and targets for all sensible ones (ordered, below 95C, setbacks that fit below the warm target), which include all shipped; the dial for all sensible arguments with up to nine marks (beyond: C38). Refuted for other arguments, which nothing rejects: frost at 95C puts warm above the maximum, an ECO setback of 255 wraps, a comfort minimum above the scale puts frost above warm, swapped warm arguments give an empty scale.")
m("C177","partial","noise_input_kept_partial noise_supply_kept noise_temperature_kept noise_last_time_kept_partial noise_byte noise_time_refuted noise_reading_refuted","Proved for the low byte of every reading (more exactly, for any change of low byte exclusive-or high byte) and for the time of the last conversion; refuted for times of earlier conversions, and for a reading's high and low bits changing together (0x000 and 0x101).")
m("C178","partial","endstop_values endstop_dial_partial endstop_reversed_refuted endstop_reversed_high_refuted","Proved for ranges at least 72 counts wide with the cold end below 988 that run forwards, or backwards symmetrically about the scale's middle (as the default range reversed does). Refuted for other backwards ranges: the end stops are computed from the readings before they are turned round, so with the travel below the middle every position asks for BAKE, and above it for FROST.")
m("C179","proved","stats_and_command_arrive","Composition of the FHT8V frame, its decoder and the binary statistics codec; the trailer function (the application's) is modelled as one that encodes its statistics in the room given.")
m("C180","proved","v1_current_limits v1_opening_careful drv_current_limits encoder_mark v1_current_late_refuted","Away from the cycle's last tick, as stated; in that tick the current is always called high (v1_current_late_refuted, also C150).")
m("C181","proved","humidity_flags humidity_unread_high_refuted","As stated; before any successful read both flags say high (humidity_unread_high_refuted), and very dry air reads as high (C138).")
m("C182","proved","nonsecure_beacon","As stated; on failure part of the header may already have been written (nonsecure_beacon_case).")
m("C183","proved","pool_keeps_noise pool_never_forgets pool_one_difference","As stated, for the pool as it is: the four PRNG bytes and the counter.")
m("C184","proved","new_occupancy_iff new_occupancy_occupied","Main-line histories; marks from interrupts are C40.")
m("C185","partial","kinds_first_byte kinds_exclusive_partial kinds_exclusive_refuted","Proved for all pairs of kinds but JSON and statistics; for those when the object's second character is below '@' (a quote, in every object with a member) or the statistics carry an ID. Otherwise refuted: a five-byte frame that both accept.")
m("C186","partial","text_sent text_count_refuted number_sent number_arrives","Sending proved for every text; the count returned is the length only below 256 characters (refuted at 256: reported as empty). itoa is taken from its specification.")
m("C187","proved","dial_targets_safe dial_obeyed","For the two radiator parameter sets, as stated (the hot-water set's mapping is refuted in C38; slow creeping below the step in C55). dial_case meets the hypotheses.")
m("C188","proved","C188_clock_over_cuts C188_no_cut_exact C188_counts C188_date_over_cuts C188_day_torn_refuted","Per-byte atomic EEPROM operations, caller persists each quarter hour. Time of day in full; the date too within 256 days sharing a high byte, but a cut in a persist just after midnight can lose a day (C188_day_lost), and across a change of high byte leave a date neither old nor new (C188_day_torn_refuted). C188_nonvacuous meets the hypotheses.")
