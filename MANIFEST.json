{
 "claims": [
  {
   "property": "C01",
   "status": "proved",
   "theorems": [
    "C01_integer_roundtrip_quantised",
    "C01_integer_roundtrip_exact",
    "C01_auto_width_covers",
    "C01_store_exact",
    "C01_store_never_out_of_bounds"
   ],
   "note": "All four integer types and all widths; arith_safe is the guard named in the quantifier."
  },
  {
   "property": "C02",
   "status": "partial",
   "theorems": [
    "C02_decode_in_range_refuted",
    "C02_decode_in_range_iff_partial",
    "C02_decode_full_width_in_range"
   ],
   "note": "False of the code: decode does not clamp. Refuted with the mission state field; the exact set of in-range patterns is proved."
  },
  {
   "property": "C03",
   "status": "partial",
   "theorems": [
    "C03_of_nanoseconds_exact",
    "C03_to_nanoseconds_lossless_partial",
    "C03_large_weeks_lossless_refuted",
    "C03_add_exact_partial",
    "C03_add_then_subtract_partial",
    "C03_subtract_exact",
    "C03_subtract_too_much_unsets",
    "C03_comparisons_on_set_times",
    "C03_unset_never_equal_or_below_partial",
    "C03_unset_never_above_refuted",
    "C03_subtract_from_unset_refuted",
    "C03_compare_with_count"
   ],
   "note": "Exact for every time whose nanosecond count fits 64 bits (weeks up to 30500); refuted beyond. Unset operands: never equal or below, but > and >= always hold with an unset operand, and subtracting from an unset time can set it: refuted."
  },
  {
   "property": "C04",
   "status": "proved",
   "theorems": [
    "C04_gps_time_roundtrip",
    "C04_gps_time_clamped",
    "C04_unset_stays_unset"
   ],
   "note": ""
  },
  {
   "property": "C05",
   "status": "partial",
   "theorems": [
    "C05_read_returns_next_bits",
    "C05_read_into_bit_array",
    "C05_peek_keeps_position",
    "C05_peek_bit_array_keeps_position",
    "C05_seek_exact_or_refused_partial",
    "C05_huge_seek_refused_refuted",
    "C05_edit_is_local",
    "C05_write_then_read",
    "C05_edit_in_bounds_iff_partial",
    "C05_edit_in_bounds_refuted",
    "C05_from_bit_array_partial",
    "C05_from_bit_array_refuted",
    "C05_copy_between_streams",
    "C05_append_stream"
   ],
   "note": "Reads, peeks and local effect of edits for all streams. Seeks of less than 2^31 bits; refuted for larger ones (wrap-around). Exact condition for an edit to stay inside the buffer; refuted without it. Streams from bit arrays exact for whole bytes; out-of-bounds read otherwise."
  },
  {
   "property": "C06",
   "status": "proved",
   "theorems": [
    "C06_uplink_all_or_nothing",
    "C06_ill_formed_changes_nothing",
    "C06_no_packet_no_change"
   ],
   "note": ""
  },
  {
   "property": "C07",
   "status": "proved",
   "theorems": [
    "C07_ground_uplink_takes_effect"
   ],
   "note": ""
  },
  {
   "property": "C08",
   "status": "proved",
   "theorems": [
    "C08_validation_is_the_grammar",
    "C08_one_reading",
    "C08_index_size"
   ],
   "note": ""
  },
  {
   "property": "C09",
   "status": "proved",
   "theorems": [
    "C09_constructed_tables",
    "C09_single_packet_frame"
   ],
   "note": ""
  },
  {
   "property": "C10",
   "status": "partial",
   "theorems": [
    "C10_multi_packet_frame_partial",
    "C10_continuation_marker_refuted"
   ],
   "note": "False of the code (header mark of packets after the first goes to byte offset/70). Exact contents of every multi-packet frame proved; refuted with a two-packet frame."
  },
  {
   "property": "C11",
   "status": "partial",
   "theorems": [
    "C11_frame_in_buffer_exactly_when",
    "C11_one_inactive_flow_is_safe_partial",
    "C11_all_flows_active_refuted",
    "C11_marker_count_refuted"
   ],
   "note": "False of the code when all flows are active or the frame needs more than 559 markers' worth of slack; exact safety condition proved, safe whenever one flow is inactive."
  },
  {
   "property": "C12",
   "status": "partial",
   "theorems": [
    "C12_short_frame_read_back_partial",
    "C12_full_packet_read_back_if_erase_end_pops_partial",
    "C12_frame_of_packets_partial",
    "C12_whole_packet_refuted",
    "C12_split_frame_refuted",
    "C12_needs_flows_1_and_2_refuted"
   ],
   "note": "Holds for one-packet frames under 70 bytes with flows 1 and 2 active; refuted for whole packets (erase at end), split frames, and frames without flows 1 and 2. A residual short pad makes the parser report an incomplete id."
  },
  {
   "property": "C13",
   "status": "partial",
   "theorems": [
    "C13_shift_later_partial",
    "C13_shift_earlier_partial",
    "C13_toggle_flips_one",
    "C13_shift_onto_itself",
    "C13_shift_refuted"
   ],
   "note": "Toggle proved; shifts proved when the flows passed have equally many fields, undefined otherwise (both directions exact)."
  },
  {
   "property": "C14",
   "status": "proved",
   "theorems": [
    "C14_storage_keeps_the_last_records",
    "C14_record_read_back"
   ],
   "note": ""
  },
  {
   "property": "C15",
   "status": "proved",
   "theorems": [
    "C15_fault_trips_after_persistence",
    "C15_telemetered_value",
    "C15_consecutive_signals"
   ],
   "note": "All histories (cycle ticks, signals, unsignals, reads, ground writes) from boot before the cycle counter wraps."
  },
  {
   "property": "C16",
   "status": "partial",
   "theorems": [
    "C16_names_unique",
    "C16_lookups_stable",
    "C16_field_registration",
    "C16_event_registration",
    "C16_fault_registration",
    "C16_refused_fault_refuted"
   ],
   "note": "Everything proved except that a refused fault changes nothing: it can leave some of its fields registered."
  },
  {
   "property": "C17",
   "status": "proved",
   "theorems": [
    "C17_reboot_restores_last_saved",
    "C17_only_own_cells_written"
   ],
   "note": "Teensy (flight) build. Crash between any two byte writes."
  },
  {
   "property": "C18",
   "status": "proved",
   "theorems": [
    "C18_most_severe_response",
    "C18_flight_safehold",
    "C18_flight_standby"
   ],
   "note": "Arbitrary list of handlers, and an exact characterisation in terms of fields for the flight list. A handler asking for safehold stops the ones after it for that cycle."
  },
  {
   "property": "C19",
   "status": "proved",
   "theorems": [
    "C19_escalation",
    "C19_power_cycles",
    "C19_contact_recovers"
   ],
   "note": "Closed form for every number of silent cycles below 2^32 over the wrapping counter, with the radio state at stage ends not disabled (see C48)."
  },
  {
   "property": "C20",
   "status": "proved",
   "theorems": [
    "C20_safehold_disarms"
   ],
   "note": ""
  },
  {
   "property": "C21",
   "status": "proved",
   "theorems": [
    "C21_left_only_by_ground"
   ],
   "note": ""
  },
  {
   "property": "C22",
   "status": "proved",
   "theorems": [
    "C22_state_changes_are_edges",
    "C22_docking_and_docked",
    "C22_detumbled"
   ],
   "note": ""
  },
  {
   "property": "C23",
   "status": "proved",
   "theorems": [
    "C23_deployment_wait",
    "C23_first_boot",
    "C23_no_actuation"
   ],
   "note": "Histories without ground writes to the mission state; timer restored anywhere in 0..106."
  },
  {
   "property": "C24",
   "status": "partial",
   "theorems": [
    "C24_docking_timeout_partial",
    "C24_orderly_flight_partial",
    "C24_docking_timeout_refuted"
   ],
   "note": "False: the entry cycle is only forgotten on docked/timeout exits, so a docking left by a fault poisons the next. Proved for stays with no recorded entry. Also proved for whole flights from boot without fault responses during docking (C24_orderly_flight_partial)."
  },
  {
   "property": "C25",
   "status": "partial",
   "theorems": [
    "C25_day_in_safehold_partial",
    "C25_lost_contact_refuted"
   ],
   "note": "False when safehold was entered for want of contact: the handler keeps asking for safehold and each answer restarts the day. Proved otherwise."
  },
  {
   "property": "C26",
   "status": "proved",
   "theorems": [
    "C26_config_write_read_end",
    "C26_exchange_ends",
    "C26_wait_ends",
    "C26_disabled_sends_nothing"
   ],
   "note": "Budgets: six executions from any point of a phase (five after entry); exchange and wait bounded by their ground-set limits."
  },
  {
   "property": "C27",
   "status": "partial",
   "theorems": [
    "C27_packets_are_consecutive_slices",
    "C27_covered_for_some_sizes_partial",
    "C27_tail_never_sent_refuted"
   ],
   "note": "Packets are consecutive slices in every run; whole snapshot covered only for sizes below 70 or congruent to 0 or 69 mod 70, refuted for all others."
  },
  {
   "property": "C28",
   "status": "proved",
   "theorems": [
    "C28_one_valve_opens_per_tick",
    "C28_valves_follow_the_closed_form",
    "C28_open_for_a_third_of_the_time_in_ticks",
    "C28_ends_closed"
   ],
   "note": ""
  },
  {
   "property": "C29",
   "status": "partial",
   "theorems": [
    "C29_closed_when_not_enabled_partial",
    "C29_disable_closes_all",
    "C29_reset_closes_everything",
    "C29_closed_when_not_enabled_refuted"
   ],
   "note": "False for valves opened by hand (venting and manual control do so without enabling the timer); proved for every other call sequence."
  },
  {
   "property": "C30",
   "status": "proved",
   "theorems": [
    "C30_fires_only_when_ready",
    "C30_fires_only_from_waiting",
    "C30_entering_firing_is_counted",
    "C30_disabled_keeps_valves_closed"
   ],
   "note": "For runs in which the ground does not write the propulsion state; the unconditional part is proved per cycle."
  },
  {
   "property": "C31",
   "status": "partial",
   "theorems": [
    "C31_most_schedules_loaded_partial",
    "C31_longest_firing_refused_refuted",
    "C31_short_firing_dropped_refuted"
   ],
   "note": "False at exactly 1000 ms (valid, refused, counted as a firing) and under 10 ms (dropped). Proved for 0 and 10..999."
  },
  {
   "property": "C32",
   "status": "proved",
   "theorems": [
    "C32_valve_follows_the_fill_schedule",
    "C32_at_most_the_configured_openings"
   ],
   "note": "Parameters constant during the attempt; a configured time of 0 acts as 1."
  },
  {
   "property": "C33",
   "status": "partial",
   "theorems": [
    "C33_bytes_partial",
    "C33_others_bytes",
    "C33_power_cycle_partial",
    "C33_others_untouched",
    "C33_lost_command_refuted",
    "C33_period_zero_refuted"
   ],
   "note": "Proved on a working bus for any period > 0: off (once or twice) then on, cleared, within three periods. False when the switch-on command is lost (cleared anyway) or the period is 0."
  },
  {
   "property": "C34",
   "status": "partial",
   "theorems": [
    "C34_converters_follow",
    "C34_disable_partial",
    "C34_reset_partial",
    "C34_disable_reset_refuted"
   ],
   "note": "False for disable+reset together (both end on) and for reset with both commanded off (no off cycle)."
  },
  {
   "property": "C35",
   "status": "partial",
   "theorems": [
    "C35_flag_right_partial",
    "C35_half_turn_ends",
    "C35_flag_refuted",
    "C35_reboot_refuted"
   ],
   "note": "Proved for histories that do not withdraw the command mid-turn; false otherwise, after reboots, and undefined for step angle 0. Constant step angle, exact quotient instead of float division."
  },
  {
   "property": "C36",
   "status": "partial",
   "theorems": [
    "C36_reset_exact",
    "C36_disable_exact_partial",
    "C36_reset_device_disabled_refuted",
    "C36_commands_cleared",
    "C36_nothing_uncommanded",
    "C36_only_by_table_or_failure"
   ],
   "note": "Reset exact. Disable exact when no reset is commanded in the same cycle; otherwise the code also disables the devices to be reset (refuted)."
  },
  {
   "property": "C37",
   "status": "proved",
   "theorems": [
    "C37_only_named_registers"
   ],
   "note": "All driver calls and register states."
  },
  {
   "property": "C38",
   "status": "partial",
   "theorems": [
    "C38_lower_limit_partial",
    "C38_within_limit_partial",
    "C38_full_scale_partial",
    "C38_upper_limit_refuted"
   ],
   "note": "False of the code: values above the limit are replaced by the full-scale constant, not by the limit. Lower limit and in-limit commands proved."
  },
  {
   "property": "C39",
   "status": "partial",
   "theorems": [
    "C39_pending_command_partial",
    "C39_never_stopped_refuted"
   ],
   "note": "False of the code: a disable command raises no new-command flag. Holds only if a command was still pending."
  },
  {
   "property": "C40",
   "status": "proved",
   "theorems": [
    "C40_nonnegative",
    "C40_sum",
    "C40_least_norm"
   ],
   "note": "Exact rationals instead of doubles. Thruster geometry is not in the code: it is the inverse of the coefficients, stated in OrbitSpec.net. The sum is right to 1e-10 of the command (digits in the source). A least-norm solution without negative impulse exists only for the zero command, so that the integer division which makes the least-norm starting point zero has no effect on this claim."
  },
  {
   "property": "C41",
   "status": "proved",
   "theorems": [
    "C41_task_waits"
   ],
   "note": "Flight build. Guard: all clock readings of the cycle within 2^31 microseconds."
  },
  {
   "property": "C42",
   "status": "proved",
   "theorems": [
    "C42_intact_message_accepted",
    "C42_changed_byte_detected",
    "C42_changed_checksum_detected"
   ],
   "note": "Message or checksum bytes changed; a changed length byte can go unnoticed (example beside the theorem)."
  },
  {
   "property": "C43",
   "status": "partial",
   "theorems": [
    "C43_signed_char_one_bit_refuted",
    "C43_default_int_overflow_refuted",
    "C43_store_full_range_refuted"
   ],
   "note": "False of the code; three witnesses. The complementary declarations are covered by C01."
  },
  {
   "property": "C44",
   "status": "partial",
   "theorems": [
    "C44_fault_after_wraparound_refuted",
    "C44_cycle_zero_refuted",
    "C44_signal_counts_once_partial"
   ],
   "note": "False of the code; the exact counting rule for later nonzero cycles is proved."
  },
  {
   "property": "C45",
   "status": "partial",
   "theorems": [
    "C45_wide_field_refuted",
    "C45_all_ones_image_refuted"
   ],
   "note": "False of the flight build: one byte per field."
  },
  {
   "property": "C46",
   "status": "partial",
   "theorems": [
    "C46_never_saved_field_refuted",
    "C46_erased_bool_keeps_default_partial"
   ],
   "note": "False: unwritten cells read 0xFF. Holds for booleans."
  },
  {
   "property": "C47",
   "status": "partial",
   "theorems": [
    "C47_not_before_a_day_partial",
    "C47_not_before_a_day_refuted"
   ],
   "note": "False: ground-commanded safehold uses the stamp of an earlier one (or 0)."
  },
  {
   "property": "C48",
   "status": "partial",
   "theorems": [
    "C48_radio_back_on_partial",
    "C48_radio_back_on_refuted",
    "C48_radio_lost_refuted"
   ],
   "note": "False: a simultaneous safehold request skips the handler; in the last stage the radio is lost."
  },
  {
   "property": "C49",
   "status": "partial",
   "theorems": [
    "C49_safehold_disarmed_partial",
    "C49_safehold_disarmed_refuted"
   ],
   "note": "False for ground command and undefined states; proved for every state change made by the mission manager from a defined state."
  },
  {
   "property": "C50",
   "status": "proved",
   "theorems": [
    "C50_gps_handler"
   ],
   "note": ""
  },
  {
   "property": "C51",
   "status": "partial",
   "theorems": [
    "C51_venting_limit_restored_partial",
    "C51_venting_limit_refuted"
   ],
   "note": "False: the value saved at the first cycle overwrites later ground changes."
  },
  {
   "property": "C52",
   "status": "partial",
   "theorems": [
    "C52_closed_outside_firing_partial",
    "C52_idle_after_manual_refuted"
   ],
   "note": "Proved for runs without ground writes of the state; false when the ground goes from manual to idle."
  },
  {
   "property": "C53",
   "status": "proved",
   "theorems": [
    "C53_pressurization_starts_with_the_time_it_needs",
    "C53_never_given_up_for_lack_of_time"
   ],
   "note": ""
  },
  {
   "property": "C54",
   "status": "proved",
   "theorems": [
    "C54_firing_lasts_at_most_336_ticks",
    "C54_leaving_firing_closes_thrusters"
   ],
   "note": ""
  },
  {
   "property": "C55",
   "status": "partial",
   "theorems": [
    "C55_open_time_delivered_partial",
    "C55_last_interval_cut_refuted"
   ],
   "note": "False by one interval for times divisible by 3; proved within one interval, exact otherwise."
  },
  {
   "property": "C56",
   "status": "partial",
   "theorems": [
    "C56_copy_starts_with_the_snapshot_partial",
    "C56_copy_reads_past_the_snapshot_refuted",
    "C56_foreign_byte_sent_refuted"
   ],
   "note": "False for every size: max(size+1,70) bytes are copied; one extra byte is transmitted when size = 69 mod 70, more below 70."
  },
  {
   "property": "C57",
   "status": "proved",
   "theorems": [
    "C57_contact_only_on_acknowledged_exchange"
   ],
   "note": ""
  },
  {
   "property": "C58",
   "status": "partial",
   "theorems": [
    "C58_published_only_after_a_valid_frame",
    "C58_announced_length_agrees_partial",
    "C58_length_of_the_report_not_of_the_frame_refuted",
    "C58_nothing_left_over"
   ],
   "note": "Length published is the one of the exchange report; proved when it equals the frame's."
  },
  {
   "property": "C59",
   "status": "proved",
   "theorems": [
    "C59_heater_bytes",
    "C59_heater_follows"
   ],
   "note": ""
  },
  {
   "property": "C60",
   "status": "partial",
   "theorems": [
    "C60_bytes_partial",
    "C60_boot_partial",
    "C60_boot_refuted"
   ],
   "note": "False when the heater query fails at boot: the error code becomes the command on."
  },
  {
   "property": "C61",
   "status": "proved",
   "theorems": [
    "C61_tracker_bytes",
    "C61_tracker_mode_follows"
   ],
   "note": ""
  },
  {
   "property": "C62",
   "status": "partial",
   "theorems": [
    "C62_bytes_refuted",
    "C62_voltage_partial",
    "C62_voltage_refuted"
   ],
   "note": "False for every value whose two bytes differ: the voltage is sent byte-swapped."
  },
  {
   "property": "C63",
   "status": "partial",
   "theorems": [
    "C63_receiver_bytes",
    "C63_bytes_partial",
    "C63_receiver_kept_off",
    "C63_released_after_deployment",
    "C63_powered_partial",
    "C63_reboot_docked_refuted"
   ],
   "note": "False after a reboot restored into docking or docked: nothing releases the receiver."
  },
  {
   "property": "C64",
   "status": "partial",
   "theorems": [
    "C64_telemetry_shows_status_partial",
    "C64_telemetry_shows_status_refuted"
   ],
   "note": "Holds right after a reading of a fault that is neither overridden nor suppressed; refuted between readings and for overridden faults."
  },
  {
   "property": "C65",
   "status": "proved",
   "theorems": [
    "C65_rods_off"
   ],
   "note": "Guard: no other rod or mode message within the pass."
  },
  {
   "property": "C66",
   "status": "proved",
   "theorems": [
    "C66_zero_is_off"
   ],
   "note": ""
  },
  {
   "property": "C67",
   "status": "proved",
   "theorems": [
    "C67_rod_moment",
    "C67_rod_limit",
    "C67_wheels",
    "C67_filters",
    "C67_target_temperature",
    "C67_tables"
   ],
   "note": ""
  },
  {
   "property": "C68",
   "status": "partial",
   "theorems": [
    "C68_torque_direction_partial",
    "C68_torque_ignored_refuted",
    "C68_speed_direction_refuted",
    "C68_torque_size_partial"
   ],
   "note": "Torque commands with the potentiometer in use proved; refuted otherwise and for speed commands."
  },
  {
   "property": "C69",
   "status": "partial",
   "theorems": [
    "C69_passive_changes_nothing_partial",
    "C69_actuators_stay_on_refuted"
   ],
   "note": "False: actuators keep their last drive in passive mode."
  },
  {
   "property": "C70",
   "status": "partial",
   "theorems": [
    "C70_refreshed_when_commanded_partial",
    "C70_stale_while_disabled_refuted"
   ],
   "note": "False while wheels are disabled: readings are refreshed only when a new command is flagged."
  },
  {
   "property": "C71",
   "status": "partial",
   "theorems": [
    "C71_heater_rule_partial",
    "C71_heats_without_readings_refuted"
   ],
   "note": "Exact rule proved; refuted when the gyroscope stops delivering."
  },
  {
   "property": "C72",
   "status": "proved",
   "theorems": [
    "C72_vector_was_computed",
    "C72_vector_stable",
    "C72_vector_transmitted",
    "C72_no_vector_unless_complete",
    "C72_live_sensors_only",
    "C72_four_sensors_suffice"
   ],
   "note": ""
  },
  {
   "property": "C73",
   "status": "partial",
   "theorems": [
    "C73_not_functional_partial",
    "C73_numbers_published_refuted",
    "C73_functional_partial"
   ],
   "note": "Not functional is proved unless the stale buffer byte happens to be 15; numbers are published as valid (refuted)."
  },
  {
   "property": "C74",
   "status": "proved",
   "theorems": [
    "C74_rods_whole",
    "C74_wheels_whole"
   ],
   "note": ""
  },
  {
   "property": "C75",
   "status": "proved",
   "theorems": [
    "C75_idle"
   ],
   "note": ""
  },
  {
   "property": "C76",
   "status": "proved",
   "theorems": [
    "C76_table_age"
   ],
   "note": ""
  },
  {
   "property": "C77",
   "status": "partial",
   "theorems": [
    "C77_unflagged_in_range_partial",
    "C77_flags_always_raised_refuted"
   ],
   "note": "Unflagged implies in range for speed, gyroscope and temperature; the other flags are always raised."
  },
  {
   "property": "C78",
   "status": "partial",
   "theorems": [
    "C78_inertial_readings_partial",
    "C78_ramp_refuted",
    "C78_sun_voltage_refuted"
   ],
   "note": "Inertial readings from the second step after boot on; refuted for ramp and sun sensor voltages."
  },
  {
   "property": "C79",
   "status": "proved",
   "theorems": [
    "C79_converter_code",
    "C79_volts"
   ],
   "note": ""
  },
  {
   "property": "C80",
   "status": "partial",
   "theorems": [
    "C80_without_speed_commands_partial",
    "C80_speed_read_as_torque_refuted"
   ],
   "note": "Holds without speed commands; refuted by a speed command read as a torque."
  },
  {
   "property": "C81",
   "status": "proved",
   "theorems": [
    "C81_actuator_commands",
    "C81_computer_mode"
   ],
   "note": ""
  },
  {
   "property": "C82",
   "status": "partial",
   "theorems": [
    "C82_calibrated_partial",
    "C82_request_lost_refuted"
   ],
   "note": "Holds unless the request arrives while readings are published."
  },
  {
   "property": "C83",
   "status": "proved",
   "theorems": [
    "C83_wheel_command",
    "C83_rod_command"
   ],
   "note": ""
  },
  {
   "property": "C84",
   "status": "proved",
   "theorems": [
    "C84_flight_slots",
    "C84_slot_table",
    "C84_slots",
    "C84_cycle_length"
   ],
   "note": ""
  },
  {
   "property": "C85",
   "status": "partial",
   "theorems": [
    "C85_average_partial",
    "C85_mean_refuted"
   ],
   "note": "False: sum over (cycles + 1). Exact value proved; average kept as an exact rational."
  },
  {
   "property": "C86",
   "status": "partial",
   "theorems": [
    "C86_least_propellant_partial",
    "C86_five_times_partial",
    "C86_least_propellant_refuted"
   ],
   "note": "Refuted: factor above 4 for the direction of thruster 4; at most 5 in general; optimal when no thruster would have to pull or the second would have to pull hardest."
  },
  {
   "property": "C87",
   "status": "proved",
   "theorems": [
    "C87_opening_time",
    "C87_defined"
   ],
   "note": "Exact rationals instead of doubles."
  },
  {
   "property": "C88",
   "status": "partial",
   "theorems": [
    "C88_acceptable_partial",
    "C88_defined_partial",
    "C88_too_long_refuted",
    "C88_nothing_fired_refuted"
   ],
   "note": "Refuted for 0.02 Ns along one axis; holds up to 0.0075 Ns per component. While the command is too large propulsion fires nothing, for runs of any length."
  },
  {
   "property": "C89",
   "status": "proved",
   "theorems": [
    "C89_gated",
    "C89_countdown",
    "C89_next_node"
   ],
   "note": "Parameters guarded against 32 bit wraparound (fields' ranges are far below). The angle and angular velocity are inputs."
  },
  {
   "property": "C90",
   "status": "proved",
   "theorems": [
    "C90_between",
    "C90_restart"
   ],
   "note": "Exact rationals instead of doubles; smoothing constant between 0 and 1 as its telemetry range has it."
  },
  {
   "property": "C91",
   "status": "partial",
   "theorems": [
    "C91_at_node_partial",
    "C91_at_node_refuted",
    "C91_third_node_unused_refuted"
   ],
   "note": "Proved for the half orbit after the sun line; refuted for the other half, where the unsigned angle decreases; the third far node is never fired at."
  },
  {
   "property": "C92",
   "status": "partial",
   "theorems": [
    "C92_nodes_partial",
    "C92_spread_refuted",
    "C92_zero_refuted",
    "C92_gain_refuted"
   ],
   "note": "Number of nodes right from 1 to 180; refuted: bunched from the sun line on, zero means all, gain fixed by the first planned cycle."
  },
  {
   "property": "C93",
   "status": "partial",
   "theorems": [
    "C93_no_firing_partial",
    "C93_planned_firing_refuted"
   ],
   "note": "Proved when nothing was planned at the time of leaving, for runs of any length; refuted for a firing already planned."
  },
  {
   "property": "C94",
   "status": "partial",
   "theorems": [
    "C94_current_schedule_partial",
    "C94_empty_firing_refuted"
   ],
   "note": "Proved when all times are 0 or 10 to 999 ms; refuted when the impulse became too large after pressurization."
  },
  {
   "property": "C95",
   "status": "partial",
   "theorems": [
    "C95_near_field_refuted",
    "C95_planned_early_partial"
   ],
   "note": "Refuted in the near field for the initial parameters anywhere on the first half orbit; proved when the node was out of reach one cycle earlier."
  },
  {
   "property": "C96",
   "status": "proved",
   "theorems": [
    "C96_within_a_step",
    "C96_flight_fields"
   ],
   "note": "Holds for all declarations in the quantifier; the fields of the flight software are shown to be among them. Vector components excepted: see C102."
  },
  {
   "property": "C97",
   "status": "partial",
   "theorems": [
    "C97_within_limits_partial",
    "C97_flight_float_fields",
    "C97_flight_double_fields",
    "C97_above_limit_refuted"
   ],
   "note": "Lower limit exact, upper limit up to rounding for every declaration, exactly for all flight fields; refuted for a float field -40..17 of 3 bits."
  },
  {
   "property": "C98",
   "status": "proved",
   "theorems": [
    "C98_order_preserved"
   ],
   "note": "Same declarations as C96."
  },
  {
   "property": "C99",
   "status": "partial",
   "theorems": [
    "C99_reported_back_partial",
    "C99_lower_code_refuted"
   ],
   "note": "Proved: same code or the next lower. Refuted: the top code of the filter constants comes back one lower."
  },
  {
   "property": "C100",
   "status": "partial",
   "theorems": [
    "C100_defined_partial",
    "C100_nan_refuted"
   ],
   "note": "Proved for all values but NaN; encoding NaN proved undefined for every field."
  },
  {
   "property": "C101",
   "status": "partial",
   "theorems": [
    "C101_lower_limit_partial",
    "C101_upper_limit_refuted"
   ],
   "note": "Lower limit proved; upper limit refuted for five flight fields."
  },
  {
   "property": "C102",
   "status": "partial",
   "theorems": [
    "C102_stale_bits_refuted",
    "C102_undefined_refuted",
    "C102_degenerate_refuted",
    "C102_narrow_partial"
   ],
   "note": "Proved up to precision minus two bits; refuted for 50-bit floats as in rwa_speed_cmd, 64 bits, 0 bits and equal limits."
  },
  {
   "property": "C103",
   "status": "partial",
   "theorems": [
    "C103_twice_the_precision_partial",
    "C103_position_fields_partial",
    "C103_zero_based_fields_refuted"
   ],
   "note": "Real arithmetic: rounding of sqrt, acos, atan, sin and cos is not modelled (for one component see C96). Missing: first component zero (C104, C105), and a proof or refutation of the precision itself for fields other than the positions and those with lower limit zero."
  },
  {
   "property": "C104",
   "status": "partial",
   "theorems": [
    "C104_signs_kept_partial",
    "C104_second_component_reversed_refuted"
   ],
   "note": "Real arithmetic: rounding of sqrt, acos, atan, sin and cos is not modelled (for one component see C96). Holds unless the first component is a positive zero, where it fails in every field."
  },
  {
   "property": "C105",
   "status": "partial",
   "theorems": [
    "C105_off_axis_partial",
    "C105_axis_undefined_refuted"
   ],
   "note": "Real arithmetic: rounding of sqrt, acos, atan, sin and cos is not modelled (for one component see C96). Holds off the third axis; fails on it."
  },
  {
   "property": "C106",
   "status": "proved",
   "theorems": [
    "C106_length_within_limits"
   ],
   "note": "Real arithmetic: rounding of sqrt, acos, atan, sin and cos is not modelled (for one component see C96). "
  },
  {
   "property": "C107",
   "status": "proved",
   "theorems": [
    "C107_same_rotation"
   ],
   "note": "Real arithmetic: rounding of sqrt, acos, atan, sin and cos is not modelled (for one component see C96). "
  },
  {
   "property": "C108",
   "status": "partial",
   "theorems": [
    "C108_unit_partial",
    "C108_pattern_of_ones_refuted"
   ],
   "note": "Real arithmetic: rounding of sqrt, acos, atan, sin and cos is not modelled (for one component see C96). Holds for the patterns whose three components have a norm of at most one."
  },
  {
   "property": "C109",
   "status": "partial",
   "theorems": [
    "C109_nonzero_partial",
    "C109_zero_undefined_refuted"
   ],
   "note": "Real arithmetic: rounding of sqrt, acos, atan, sin and cos is not modelled (for one component see C96). Fails for the zero quaternion only; NaNs are outside the model."
  },
  {
   "property": "C110",
   "status": "partial",
   "theorems": [
    "C110_wheel_speed_partial",
    "C110_gyroscope_partial",
    "C110_magnetometers_partial",
    "C110_sun_sensors_partial",
    "C110_ramp_refuted",
    "C110_ramp_constant_unused"
   ],
   "note": "Holds for all readings but the wheels' ramps."
  },
  {
   "property": "C111",
   "status": "partial",
   "theorems": [
    "C111_inertial_partial",
    "C111_sun_sensors_partial",
    "C111_wheel_speed_diverges_refuted",
    "C111_full_speed_at_boot_refuted"
   ],
   "note": "Holds for the inertial and sun sensors; fails for the wheels. With a filter constant of one."
  },
  {
   "property": "C112",
   "status": "partial",
   "theorems": [
    "C112_integers_partial",
    "C112_booleans_partial",
    "C112_gps_time_partial",
    "C112_floats_partial",
    "C112_vectors_partial",
    "C112_large_floats_refuted",
    "C112_large_vectors_refuted",
    "C112_position_refuted",
    "C112_gps_time_refuted"
   ],
   "note": "Holds for booleans and integers, and for GPS times, floats and vectors within the bounds stated; fails beyond them, e.g. for positions on orbit."
  },
  {
   "property": "C113",
   "status": "partial",
   "theorems": [
    "C113_integers_partial",
    "C113_booleans_partial",
    "C113_floats_shown_partial",
    "C113_vectors_partial",
    "C113_gps_time_partial",
    "C113_large_unsigned_refuted",
    "C113_gps_time_stays_unset_refuted"
   ],
   "note": "strtof and strtod are not modelled: for floats it is shown that the text denotes a number within half a millionth, for vectors that every component's text is handed to the conversion."
  },
  {
   "property": "C114",
   "status": "partial",
   "theorems": [
    "C114_within_type_partial",
    "C114_limits_ignored_refuted",
    "C114_wraps_refuted"
   ],
   "note": "Fails: only the range of the type is kept."
  },
  {
   "property": "C115",
   "status": "partial",
   "theorems": [
    "C115_counted_partial",
    "C115_too_many_refuted"
   ],
   "note": "Holds for at most as many numbers as components; fails for more."
  },
  {
   "property": "C116",
   "status": "proved",
   "theorems": [
    "C116_messages_delivered",
    "C116_contents_determined",
    "C116_sent_is_message"
   ],
   "note": "Resizing of buffers by the serial library is not modelled; bytes lost in the port before the driver reads them are not part of the stream."
  },
  {
   "property": "C117",
   "status": "partial",
   "theorems": [
    "C117_burst_noticed_partial",
    "C117_checksum_noticed_partial",
    "C117_cycle_unchanged_partial",
    "C117_adjacent_bytes_refuted"
   ],
   "note": "Holds for changes within type, sender and payload, and within the checksum; fails for a change across the boundary of payload and checksum."
  },
  {
   "property": "C118",
   "status": "proved",
   "theorems": [
    "C118_no_overrun"
   ],
   "note": ""
  },
  {
   "property": "C119",
   "status": "partial",
   "theorems": [
    "C119_full_messages_partial",
    "C119_short_message_refuted"
   ],
   "note": "Holds when every message has at least the length of its format; fails otherwise."
  },
  {
   "property": "C120",
   "status": "proved",
   "theorems": [
    "C120_same_instant"
   ],
   "note": "For messages at least as long as their format (see C119). Positions are carried as the 64 bits received."
  },
  {
   "property": "C121",
   "status": "partial",
   "theorems": [
    "C121_velocity_refuted",
    "C121_baseline_refuted",
    "C121_thousandfold_partial"
   ],
   "note": "Fails: values are a thousand times too large. The unit sent is that of navigation.h:145-155, 191-201; the unit expected is that of the field's limits (PiksiControlTask.cpp:12-13) and of the simulation."
  },
  {
   "property": "C122",
   "status": "partial",
   "theorems": [
    "C122_single_burst_partial",
    "C122_pause_refuted",
    "C122_early_burst_refuted"
   ],
   "note": "Holds for a burst preceded by silence and without long pauses; fails otherwise. The interrupt is taken to come every 100 microseconds."
  },
  {
   "property": "C123",
   "status": "partial",
   "theorems": [
    "C123_one_reading_partial",
    "C123_two_readings_refuted",
    "C123_unrelated_damage_refuted"
   ],
   "note": "Holds for a set completed within one reading; fails when spread over two readings or accompanied by a damaged message."
  },
  {
   "property": "C124",
   "status": "proved",
   "theorems": [
    "C124_time_valid"
   ],
   "note": "The numerical library is arbitrary in all of C124-C137."
  },
  {
   "property": "C125",
   "status": "proved",
   "theorems": [
    "C125_time_value",
    "C125_receiver_fresh"
   ],
   "note": "The age is at most 100 ms, as the receiver's task guarantees (C125_receiver_fresh)."
  },
  {
   "property": "C126",
   "status": "proved",
   "theorems": [
    "C126_dependence",
    "C126_attitude_sensors"
   ],
   "note": ""
  },
  {
   "property": "C127",
   "status": "partial",
   "theorems": [
    "C127_obeyed",
    "C127_forgotten_partial",
    "C127_relative_refuted"
   ],
   "note": "Obedience proved for all four estimates; forgetting proved for time, orbit and attitude, false for the relative orbit (a baseline from before the reset is used)."
  },
  {
   "property": "C128",
   "status": "partial",
   "theorems": [
    "C128_given_up",
    "C128_kept_partial",
    "C128_early_refuted"
   ],
   "note": "Giving up is proved. Keeping holds if the last reading corrected a running estimate; it fails for an estimate started after an earlier one, since the count is not reset."
  },
  {
   "property": "C129",
   "status": "partial",
   "theorems": [
    "C129_consecutive_partial",
    "C129_old_reading_refuted",
    "C129_aged_reading_refuted"
   ],
   "note": "Holds for consecutive cycles with a second reading of age 0; fails for older first readings (cycles without RTK are not counted) and for aged second readings."
  },
  {
   "property": "C130",
   "status": "partial",
   "theorems": [
    "C130_used_partial",
    "C130_not_missed_partial",
    "C130_clock_step_refuted",
    "C130_second_uplink_refuted"
   ],
   "note": "Holds if the clock passes the time by less than 340 ms, in particular always when it is not corrected by GPS in that cycle; fails otherwise."
  },
  {
   "property": "C131",
   "status": "proved",
   "theorems": [
    "C131_consistent"
   ],
   "note": "Addition and subtraction are the library's."
  },
  {
   "property": "C132",
   "status": "proved",
   "theorems": [
    "C132_magnetometer"
   ],
   "note": "The corrections are the library's functions of the reading and of the rods' command as it stood when the estimator last ran."
  },
  {
   "property": "C133",
   "status": "proved",
   "theorems": [
    "C133_alarm"
   ],
   "note": "What the fault makes of it is C15."
  },
  {
   "property": "C134",
   "status": "proved",
   "theorems": [
    "C134_finite"
   ],
   "note": "Commands written over by ground are not included."
  },
  {
   "property": "C135",
   "status": "partial",
   "theorems": [
    "C135_still_partial",
    "C135_manual_refuted"
   ],
   "note": "Holds in all modes but manual and manual pointing; there the last command persists."
  },
  {
   "property": "C136",
   "status": "partial",
   "theorems": [
    "C136_after_autonomous_partial",
    "C136_from_boot_refuted"
   ],
   "note": "Holds if an autonomous mode pointed before; from power-up the body vectors are nan and cannot be written by ground."
  },
  {
   "property": "C137",
   "status": "proved",
   "theorems": [
    "C137_unknown_still",
    "C137_objective"
   ],
   "note": ""
  },
  {
   "property": "C138",
   "status": "partial",
   "theorems": [
    "C138_exchanges",
    "C138_converters",
    "C138_dead_bus_partial",
    "C138_sound_bus",
    "C138_unreadable_refuted"
   ],
   "note": "Exact for converters and for sequences of exchanges; for gyroscope and magnetometers only when nothing (or everything) gets through. Refuted when the status can be read and the data cannot: the sensor is never taken out of use."
  },
  {
   "property": "C139",
   "status": "proved",
   "theorems": [
    "C139_reset",
    "C139_messages"
   ],
   "note": "The bus is an arbitrary state machine; the theorem holds for every message of at least one call, the five messages of the code among them (example)."
  },
  {
   "property": "C140",
   "status": "proved",
   "theorems": [
    "C140_gyroscope",
    "C140_magnetometer_one",
    "C140_magnetometer_two",
    "C140_converter",
    "C140_rates",
    "C140_field"
   ],
   "note": "For every bus. That the device updates its registers coherently is not modelled."
  },
  {
   "property": "C141",
   "status": "partial",
   "theorems": [
    "C141_goes_on_partial",
    "C141_no_more_readings_refuted",
    "C141_frozen_refuted"
   ],
   "note": "Proved if no call fails (in a field steady during the calibration, see C142 for the sign); refuted by two runs with a single failed call: no readings any more, and frozen readings, in both cases with the device in use."
  },
  {
   "property": "C142",
   "status": "partial",
   "theorems": [
    "C142_sign_partial",
    "C142_sign_refuted"
   ],
   "note": "Proved for a bridge magnetized as after an undisturbed calibration; refuted for a calibration with one failed call followed by a successful reset."
  },
  {
   "property": "C143",
   "status": "partial",
   "theorems": [
    "C143_conversion_partial",
    "C143_dead_bus_partial",
    "C143_dying_bus_partial",
    "C143_waits_forever_refuted"
   ],
   "note": "Holds once the alert pin rises, on a dead bus, and for an undisturbed chip; refuted for a device that is never ready on a bus without errors."
  },
  {
   "property": "C144",
   "status": "partial",
   "theorems": [
    "C144_low_battery_partial",
    "C144_docking_refuted",
    "C144_unreadable_refuted"
   ],
   "note": ""
  },
  {
   "property": "C145",
   "status": "proved",
   "theorems": [
    "C145_answered",
    "C145_cause"
   ],
   "note": "Flights shorter than 2^32 cycles (22 years); ground does not override, suppress or unsignal these faults (that is C63-C64's subject)."
  },
  {
   "property": "C146",
   "status": "proved",
   "theorems": [
    "C146_deployment_check"
   ],
   "note": "Flights shorter than 2^32 cycles; ground does not command the faults."
  },
  {
   "property": "C147",
   "status": "partial",
   "theorems": [
    "C147_accepted_partial",
    "C147_kept",
    "C147_duplicate_refuted",
    "C147_rest_lost_refuted",
    "C147_flight_refuted"
   ],
   "note": "Characterised for builds with assertions (ids never checked for duplicates); the flight build, compiled with NDEBUG, accepts every table (C147_flight_refuted)."
  },
  {
   "property": "C148",
   "status": "partial",
   "theorems": [
    "C148_messages_partial",
    "C148_uplink_last_partial",
    "C148_skipped_refuted",
    "C148_sixth_refuted",
    "C148_in_string_refuted"
   ],
   "note": ""
  },
  {
   "property": "C149",
   "status": "partial",
   "theorems": [
    "C149_uplink_partial",
    "C149_short_refuted",
    "C149_length_refuted"
   ],
   "note": ""
  },
  {
   "property": "C150",
   "status": "partial",
   "theorems": [
    "C150_ignored_partial",
    "C150_unreadable_refuted"
   ],
   "note": ""
  },
  {
   "property": "C151",
   "status": "partial",
   "theorems": [
    "C151_returns_partial",
    "C151_forever_refuted"
   ],
   "note": ""
  },
  {
   "property": "C152",
   "status": "proved",
   "theorems": [
    "C152_one_cycle_per_start",
    "C152_automatic"
   ],
   "note": ""
  },
  {
   "property": "C153",
   "status": "partial",
   "theorems": [
    "C153_setup_partial",
    "C153_exchanges_refuted",
    "C153_answering_refuted"
   ],
   "note": "Exchanges never change the verdict (refuted on a dead bus for any number of them); failed pings add up over successful setups (refuted). Proved: three unanswered pings in one setup."
  },
  {
   "property": "C154",
   "status": "proved",
   "theorems": [
    "C154_disabled",
    "C154_reset"
   ],
   "note": "Sequences of fewer than about 1.4e9 operations (the counter has 32 bits)."
  },
  {
   "property": "C155",
   "status": "partial",
   "theorems": [
    "C155_setup_partial",
    "C155_exchanges_refuted"
   ],
   "note": "Refuted in both directions for exchanges; proved for a setup after a reset."
  },
  {
   "property": "C156",
   "status": "partial",
   "theorems": [
    "C156_set_partial",
    "C156_constructed_refuted",
    "C156_large_refuted"
   ],
   "note": "Proved for i2c_set_timeout up to 4294967 ms; refuted beyond and for the constructors' values (10000 gives 10 ms, 1000 gives 1 ms)."
  },
  {
   "property": "C157",
   "status": "partial",
   "theorems": [
    "C157_complete_partial",
    "C157_silent_refuted"
   ],
   "note": "Proved for every complete reply; refuted for a silent supply with a stale stack buffer."
  },
  {
   "property": "C158",
   "status": "partial",
   "theorems": [
    "C158_values_partial",
    "C158_struct_partial",
    "C158_reboots_refuted"
   ],
   "note": "Proved for 30 of 31 values; the number of reboots is shifted right by 16 bits: refuted."
  },
  {
   "property": "C159",
   "status": "proved",
   "theorems": [
    "C159_parts"
   ],
   "note": "Complete replies with error code 0, as in C157."
  },
  {
   "property": "C160",
   "status": "partial",
   "theorems": [
    "C160_switch_partial",
    "C160_delay_refuted"
   ],
   "note": "Proved for delays with equal bytes (in particular 0, the only one the controller uses) and for arguments out of range; refuted for other delays."
  },
  {
   "property": "C161",
   "status": "partial",
   "theorems": [
    "C161_read_refuted",
    "C161_asks_partial"
   ],
   "note": "Refuted for every good reply (memcpy to the address of the pointer)."
  },
  {
   "property": "C162",
   "status": "proved",
   "theorems": [
    "C162_config",
    "C162_config2"
   ],
   "note": "Complete acknowledgements (two bytes)."
  },
  {
   "property": "C163",
   "status": "partial",
   "theorems": [
    "C163_restore_refuted"
   ],
   "note": "Refuted: only the committing message is sent."
  },
  {
   "property": "C164",
   "status": "partial",
   "theorems": [
    "C164_header_partial",
    "C164_state_refuted"
   ],
   "note": "Only the header of the reply is checked; refuted for both states."
  },
  {
   "property": "C165",
   "status": "proved",
   "theorems": [
    "C165_resets"
   ],
   "note": "In the first control cycle the commands are cleared unsent, as announced in the code."
  },
  {
   "property": "C166",
   "status": "proved",
   "theorems": [
    "C166_declared_widths",
    "C166_boots_and_flies",
    "C166_published_size"
   ],
   "note": "Contents are any bit arrays of the declared sizes (shown to be what the serializers leave); toggles of ids 0..43 (others: C169); no move commands in the run (C13, C169)."
  },
  {
   "property": "C167",
   "status": "partial",
   "theorems": [
    "C167_first_packet_refuted",
    "C167_both_packets_partial",
    "C167_cycle_number_refuted"
   ],
   "note": "Refuted for every frame in the strict language and for the first packet alone in the lenient library; partial: both packets together, lenient library, all but one bit."
  },
  {
   "property": "C168",
   "status": "partial",
   "theorems": [
    "C168_one_more_flow_refuted",
    "C168_time_refuted",
    "C168_everything_else_partial"
   ],
   "note": "Refuted for every flow off at boot; partial: up to three packets with flows 1 and 2 on."
  },
  {
   "property": "C169",
   "status": "partial",
   "theorems": [
    "C169_moves_partial",
    "C169_high_ids_refuted",
    "C169_flight_same",
    "C169_flight_moves_partial",
    "C169_flight_toggle"
   ],
   "note": "Exactly 7 of 903 pairs can be exchanged, the others are undefined behaviour; ids 44..63 abort a build with assertions; in the flight build (NDEBUG) they count as flow 1 when moving and toggle nothing."
  },
  {
   "property": "C170",
   "status": "proved",
   "theorems": [
    "C170_lookups",
    "C170_fault_lookups",
    "C170_builds_agree",
    "C170_names",
    "C170_numbering",
    "C170_checked_start"
   ],
   "note": ""
  },
  {
   "property": "C171",
   "status": "proved",
   "theorems": [
    "C171_orders_arrive",
    "C171_unknown_names_refused"
   ],
   "note": "For fields other than the five declared with a width of their own (C172). Values of float, vector, quaternion and time fields are taken as their serialized bits; how those serializers round is C03-C05."
  },
  {
   "property": "C172",
   "status": "partial",
   "theorems": [
    "C172_range_commandable_refuted",
    "C172_value_kept_refuted",
    "C172_every_legal_file_partial"
   ],
   "note": "Refuted: no file may set gomspace.batt_threshold; docking_timeout_limit accepts up to 127 and is set to 0; gomspace.pvN_cmd accepts up to 1023 in steps of 17. Partial: exact outcome of every legal file."
  },
  {
   "property": "C173",
   "status": "partial",
   "theorems": [
    "C173_outside_refused_refuted",
    "C173_outside_refused_partial"
   ],
   "note": "Refuted: pan.state = 257 is accepted and sets 1 (the JSON library converts before the check). Partial: numbers the C++ type can hold."
  },
  {
   "property": "C174",
   "status": "partial",
   "theorems": [
    "C174_fits_the_radio_refuted",
    "C174_seventeen_orders_fit_partial"
   ],
   "note": "Refuted: 191 orders make 401 bytes. Partial: up to 17 orders fit."
  },
  {
   "property": "C175",
   "status": "proved",
   "theorems": [
    "C175_vents_a_tank_that_asks",
    "C175_opens_only_the_chosen_tank",
    "C175_thrusters_take_turns",
    "C175_a_tank_that_asks_is_vented"
   ],
   "note": "Turning to the fault is stated for idle, await_pressurizing, await_firing, firing; while pressurizing, manual or disabled other rules apply (C28-C32, C52-C55). Turns of the thrusters: runs in which the ground does not force the state."
  },
  {
   "property": "C176",
   "status": "proved",
   "theorems": [
    "C176_ends_with_the_fault",
    "C176_valve_follows_the_vent_schedule"
   ],
   "note": "Bound per venting; when both tanks keep asking, ventings alternate without an overall bound, as the code intends."
  },
  {
   "property": "C177",
   "status": "partial",
   "theorems": [
    "C177_orders_partial",
    "C177_no_such_mode",
    "C177_ping_partial",
    "C177_silent_refuted"
   ],
   "note": "Proved for a supply that replies; false of one that does not reply, because the reply buffer is not initialised and what the stack held decides (C177_silent_refuted)."
  },
  {
   "property": "C178",
   "status": "proved",
   "theorems": [
    "C178_configuration",
    "C178_storing",
    "C178_configured",
    "C178_falls_back",
    "C178_recovers"
   ],
   "note": "Answers as in the ISU AT command reference of the Iridium 9602, which the driver compares with. The configuration is complete in four cycles if the entry was a cycle earlier; the cycle counter does not wrap in between."
  },
  {
   "property": "C179",
   "status": "proved",
   "theorems": [
    "C179_errors_reported",
    "C179_errors_kept"
   ],
   "note": "use: operations other than asking for the errors and resetting."
  },
  {
   "property": "C180",
   "status": "partial",
   "theorems": [
    "C180_refused_partial",
    "C180_no_field_refuted",
    "C180_field_number_refuted"
   ],
   "note": "Proved for messages whose field is a string; false for a message without a field (ignored without an answer) and for a field that is not a string (null pointer, undefined)."
  },
  {
   "property": "C181",
   "status": "partial",
   "theorems": [
    "C181_by_hand_partial",
    "C181_each_cycle_partial",
    "C181_while_firing_refuted"
   ],
   "note": "Holds when no firing is in progress when manual control begins; ordered during a firing, the 3 ms interrupt stays enabled and reopens thrusters set to 0 until their schedule is used up (C181_while_firing_refuted)."
  },
  {
   "property": "C182",
   "status": "partial",
   "theorems": [
    "C182_order_reported_partial",
    "C182_same_declarations"
   ],
   "note": "Composes C172 and C168: proved for frames of two or three packets with flows 1 and 2 on, read by a parser given the whole frame on a library that drops the last element; a parser given one packet at a time loses the frame (C167_first_packet_refuted). Float, vector and time fields are left out (their values are bits in CommandModel)."
  },
  {
   "property": "C183",
   "status": "partial",
   "theorems": [
    "C183_saved_fields",
    "C183_counts_partial",
    "C183_short_boots_refuted"
   ],
   "note": "Proved when every boot lasts at least 100 cycles (the counter is saved every 100 cycles), modulo 256 (the counter is a byte). Refuted for shorter boots: they are not counted, and from an erased device the counter reads 255, so every boot after a short first one counts 0 (C183_short_boots_refuted). Also pins the flight program's table of saved fields."
  },
  {
   "property": "C184",
   "status": "partial",
   "theorems": [
    "C184_killed_partial",
    "C184_exactly",
    "C184_docked_refuted",
    "C184_recent_refuted"
   ],
   "note": "Proved when the order has stood for 100 cycles (the kill switch is saved every 100 cycles) and the last saved mission state is not docking or docked. Refuted otherwise: docking and docked are restored after a reboot and startup, the only state that looks at the switch, is skipped (C184_docked_refuted); an order younger than 100 cycles is forgotten (C184_recent_refuted). C184_exactly: the mission manager hangs exactly in startup with the value 127."
  },
  {
   "property": "C185",
   "status": "partial",
   "theorems": [
    "C185_wait_partial",
    "C185_kept",
    "C185_first_save_refuted"
   ],
   "note": "Proved when the first boot completes its first cycle. Refuted otherwise: a power cut inside the very first save leaves the wait counter erased (255), which counts as a wait long over (C185_first_save_refuted)."
  },
  {
   "property": "C186",
   "status": "proved",
   "theorems": [
    "C186_deployed_for_ever",
    "C186_same_boot",
    "C186_set_when"
   ],
   "note": "Any image of the EEPROM, any sequence of boots; relies on no other task writing the read-only field (none looks it up)."
  },
  {
   "property": "C187",
   "status": "partial",
   "theorems": [
    "C187_after_startup_partial",
    "C187_docked_refuted"
   ],
   "note": "Proved for boots that begin in startup. Refuted for a reboot while docking or docked: that state is restored, startup, the only place that switches the radio on at boot, is skipped, and the radio's fault handler ignores a radio that is off (C187_docked_refuted); the ground cannot command the satellite then. A later reboot out of another state (for instance safehold) helps."
  }
 ]
}