{
 "claims": [
  {
   "property": "C01",
   "status": "proved",
   "theorems": [
    "C01_add_sub_saturate"
   ],
   "note": ""
  },
  {
   "property": "C02",
   "status": "proved",
   "theorems": [
    "C02_mul_rounds"
   ],
   "note": "A product outside 32 bits is undefined behaviour in the code; the theorem characterises exactly when the result is defined. C23_pid_defined and the system theorems show the firmware never gets there."
  },
  {
   "property": "C03",
   "status": "proved",
   "theorems": [
    "C03_div_rounds",
    "C03_nearest_away_unique"
   ],
   "note": ""
  },
  {
   "property": "C04",
   "status": "partial",
   "theorems": [
    "C04_div_zero_refuted",
    "C04_div_zero_actual"
   ],
   "note": "False of the code: C04_div_zero_refuted. FIXPTBIG_MAX/MIN are cast to the 24-bit type and become -1/+1; C04_div_zero_actual states what happens for every dividend."
  },
  {
   "property": "C05",
   "status": "proved",
   "theorems": [
    "C05_neg_abs_clamp"
   ],
   "note": ""
  },
  {
   "property": "C06",
   "status": "proved",
   "theorems": [
    "C06_int_conversion"
   ],
   "note": ""
  },
  {
   "property": "C07",
   "status": "proved",
   "theorems": [
    "C07_int_part",
    "C07_dec_fract",
    "C07_one_digit_refuted",
    "C07_eight_digits_refuted"
   ],
   "note": "Digit counts 0..7. With 1 digit the fraction may need two digits (C07_one_digit_refuted), with 8 digits the 32-bit product wraps (C07_eight_digits_refuted); the UI uses 2 and 3."
  },
  {
   "property": "C08",
   "status": "proved",
   "theorems": [
    "C08_pow_int"
   ],
   "note": ""
  },
  {
   "property": "C09",
   "status": "proved",
   "theorems": [
    "C09_sdiv_round_up",
    "C09_sdiv_round_up_defined",
    "C09_sdiv_round",
    "C09_udiv"
   ],
   "note": "sdiv_round and udiv_* under the stated no-overflow conditions of the C expression."
  },
  {
   "property": "C10",
   "status": "proved",
   "theorems": [
    "C10_ring",
    "C10_ring_iterate",
    "C10_ring_visits_once"
   ],
   "note": ""
  },
  {
   "property": "C11",
   "status": "proved",
   "theorems": [
    "C11_bitmap",
    "C11_bitmap_one_bit",
    "C11_bitmap_set_clear",
    "C11_bitmap_get",
    "C11_bitmap_init"
   ],
   "note": ""
  },
  {
   "property": "C12",
   "status": "proved",
   "theorems": [
    "C12_filter_running_max",
    "C12_filter_no_wrap",
    "C12_filter_converges"
   ],
   "note": ""
  },
  {
   "property": "C13",
   "status": "partial",
   "theorems": [
    "C13_priming_refuted",
    "C13_priming_actual"
   ],
   "note": "False of the code: C13_priming_refuted. lp_filter_u16_set stores v, not v << shift, so the output drops to about v/8; exact value in C13_priming_actual."
  },
  {
   "property": "C14",
   "status": "proved",
   "theorems": [
    "C14_model_filter",
    "C14_reset"
   ],
   "note": ""
  },
  {
   "property": "C15",
   "status": "proved",
   "theorems": [
    "C15_scale_general",
    "C15_sensor_channels"
   ],
   "note": ""
  },
  {
   "property": "C16",
   "status": "proved",
   "theorems": [
    "C16_pwm_linear",
    "C16_pwm_endpoints",
    "C16_pwm_antitone"
   ],
   "note": ""
  },
  {
   "property": "C17",
   "status": "proved",
   "theorems": [
    "C17_temp_to_amps",
    "C17_temp_to_amps_mono"
   ],
   "note": ""
  },
  {
   "property": "C18",
   "status": "proved",
   "theorems": [
    "C18_timer_oneshot",
    "C18_counter_step"
   ],
   "note": ""
  },
  {
   "property": "C19",
   "status": "partial",
   "theorems": [
    "C19_stays_expired_refuted",
    "C19_expired_actual"
   ],
   "note": "False of the code: C19_stays_expired_refuted (16-bit wrap). Exact behaviour at all times in C19_expired_actual."
  },
  {
   "property": "C20",
   "status": "proved",
   "theorems": [
    "C20_ms_since",
    "C20_periodic_no_drift"
   ],
   "note": ""
  },
  {
   "property": "C21",
   "status": "partial",
   "theorems": [
    "C21_tick_1ms_refuted",
    "C21_tick_within_1_percent"
   ],
   "note": "False of the code: C21_tick_1ms_refuted, a tick is 8064 cycles = 1.008 ms. Deviation of at most 1 % proved in C21_tick_within_1_percent."
  },
  {
   "property": "C22",
   "status": "proved",
   "theorems": [
    "C22_pid_limits"
   ],
   "note": ""
  },
  {
   "property": "C23",
   "status": "proved",
   "theorems": [
    "C23_pid_law",
    "C23_pid_defined",
    "C23_pid_zero_error",
    "C23_pid_forgets"
   ],
   "note": "Law for every defined run with dt <> 0, plus definedness in the operating region."
  },
  {
   "property": "C24",
   "status": "proved",
   "theorems": [
    "C24_current_controller_safe",
    "C24_firmware"
   ],
   "note": ""
  },
  {
   "property": "C25",
   "status": "proved",
   "theorems": [
    "C25_emergency_off_api",
    "C25_fixed_current_refuted",
    "C25_emergency_off"
   ],
   "note": "Firmware level: C25_emergency_off. At API level contrcurr_set_enabled(false, percent) would override the emergency (C25_fixed_current_refuted); C24_firmware shows that the firmware never calls it so."
  },
  {
   "property": "C26",
   "status": "proved",
   "theorems": [
    "C26_restricted_run",
    "C26_cold_start",
    "C26_firmware"
   ],
   "note": ""
  },
  {
   "property": "C27",
   "status": "proved",
   "theorems": [
    "C27_feedback_source",
    "C27_resync_terminates"
   ],
   "note": ""
  },
  {
   "property": "C28",
   "status": "proved",
   "theorems": [
    "C28_exact",
    "C28_over_temperature",
    "C28_measured"
   ],
   "note": ""
  },
  {
   "property": "C29",
   "status": "partial",
   "theorems": [
    "C29_off_refuted",
    "C29_residual"
   ],
   "note": "False of the code: C29_off_refuted (the integrator of the current PID keeps up to 0.5 A commanded while the measured current stays 0). Demand is zero and the residual is at most 0.5 A: C29_residual."
  },
  {
   "property": "C30",
   "status": "partial",
   "theorems": [
    "C30_no_heating_refuted",
    "C30_restricted"
   ],
   "note": "False of the code: C30_no_heating_refuted. At most 2 A are commanded before the first plausible temperature: C30_restricted."
  },
  {
   "property": "C31",
   "status": "partial",
   "theorems": [
    "C31_temp_refuted",
    "C31_curr_refuted",
    "C31_temp_step",
    "C31_curr_step"
   ],
   "note": "False of the code beyond 32.767 s between two runs (possible after an emergency): C31_temp_refuted, C31_curr_refuted. Up to there dt is the elapsed time: C31_temp_step, C31_curr_step."
  },
  {
   "property": "C32",
   "status": "proved",
   "theorems": [
    "C32_floored_mean",
    "C32_mean_code"
   ],
   "note": ""
  },
  {
   "property": "C33",
   "status": "proved",
   "theorems": [
    "C33_handover",
    "C33_consumed",
    "C33_not_twice",
    "C33_alternate"
   ],
   "note": ""
  },
  {
   "property": "C34",
   "status": "proved",
   "theorems": [
    "C34_temperature",
    "C34_current",
    "C34_values"
   ],
   "note": "Results of the same channel less than 29.768 s apart, as stated."
  },
  {
   "property": "C35",
   "status": "proved",
   "theorems": [
    "C35_setpoint"
   ],
   "note": ""
  },
  {
   "property": "C36",
   "status": "proved",
   "theorems": [
    "C36_ranges",
    "C36_power_refuted",
    "C36_power"
   ],
   "note": "Until the next reset (reach1), as stated. Across power failures the ranges are not kept (C36_power_refuted: 483 C after a failure between two stores); C36_power bounds what can be loaded."
  },
  {
   "property": "C37",
   "status": "proved",
   "theorems": [
    "C37_tap",
    "C37_short",
    "C37_long",
    "C37_idle_release",
    "C37_leave",
    "C37_leave_release",
    "C37_builds"
   ],
   "note": "Boost+idle build: C37_tap..C37_leave_release; the four other builds: C37_builds. The 1 s limit is evaluated at the 10 ms key samples: a key released at 1 s or later without a held sample taken after 1 s still counts as a tap (C37_tap with t_idle y1 = false)."
  },
  {
   "property": "C38",
   "status": "proved",
   "theorems": [
    "C38_calls",
    "C38_alternate",
    "C38_rate",
    "C38_other_pins"
   ],
   "note": ""
  },
  {
   "property": "C39",
   "status": "proved",
   "theorems": [
    "C39_set",
    "C39_chain",
    "C39_chain_back",
    "C39_adjust",
    "C39_press",
    "C39_hold_short",
    "C39_hold_long",
    "C39_only"
   ],
   "note": "Every build configuration. While debug output is enabled (y_dbg) releasing SET does not leave the DBG menu (menu.c:630)."
  },
  {
   "property": "C40",
   "status": "proved",
   "theorems": [
    "C40_limit",
    "C40_not_before",
    "C40_clock"
   ],
   "note": "C40_clock defines the age: entering a menu and, in the menus that restart, key events of SET, MINUS, PLUS (held ones included) set it to 0. 'In time' = no clock polled more than 30 s late; C67_prompt removes this assumption for a main loop polling every 25 ms."
  },
  {
   "property": "C41",
   "status": "proved",
   "theorems": [
    "C41_suspended"
   ],
   "note": ""
  },
  {
   "property": "C42",
   "status": "proved",
   "theorems": [
    "C42_item",
    "C42_key_down",
    "C42_release",
    "C42_error",
    "C42_settings"
   ],
   "note": ""
  },
  {
   "property": "C43",
   "status": "proved",
   "theorems": [
    "C43_not_faster",
    "C43_pace"
   ],
   "note": "C43_not_faster for every polling schedule; C43_pace gives the exact number of steps when menu_work is polled every 25 ms."
  },
  {
   "property": "C44",
   "status": "proved",
   "theorems": [
    "C44_temperature_text",
    "C44_gain_text_2",
    "C44_gain_text_3",
    "C44_wraps_beyond_int16_refuted"
   ],
   "note": "Exact text for every temperature below 32767.5 degrees; beyond that the 16-bit conversion wraps (C44_wraps_beyond_int16_refuted), which no reachable value does."
  },
  {
   "property": "C45",
   "status": "proved",
   "theorems": [
    "C45_show",
    "C45_digits_distinct"
   ],
   "note": ""
  },
  {
   "property": "C46",
   "status": "proved",
   "theorems": [
    "C46_pins"
   ],
   "note": ""
  },
  {
   "property": "C47",
   "status": "proved",
   "theorems": [
    "C47_exclusive"
   ],
   "note": ""
  },
  {
   "property": "C48",
   "status": "partial",
   "theorems": [
    "C48_indication",
    "C48_heating",
    "C48_heating_refuted"
   ],
   "note": "Error number and redraw (C62_screen) proved. The heating dot is false as stated: C48_heating_refuted, it compares with the set-point before the same menu_work ramps it (one poll late); exact behaviour in C48_indication, C48_heating."
  },
  {
   "property": "C49",
   "status": "proved",
   "theorems": [
    "C49_store_atomic",
    "C49_idle_is_old"
   ],
   "note": "Assumes the hardware finishes a store (64 bytes, <= 218 ms) before the next one starts (>= 1000 ticks apart: C53_store_gap), and no user change while a store is in progress (see C51). Settings compared without the serial number."
  },
  {
   "property": "C50",
   "status": "proved",
   "theorems": [
    "C50_stored_settings_survive",
    "C50_store_completes",
    "C50_storage_defined"
   ],
   "note": "No assumption about user changes during stores; same hardware timing assumption as C49."
  },
  {
   "property": "C51",
   "status": "partial",
   "theorems": [
    "C51_snapshot_refuted",
    "C51_mixture",
    "C51_unchanged"
   ],
   "note": "False of the code: C51_snapshot_refuted, the EEPROM interrupt reads the live settings. Exact extent: every byte stored is a byte of some settings in use during that store (C51_mixture), so values not changed meanwhile are stored exactly (C51_unchanged). Without changes during a store it holds (C49); after the following store it holds again (C50)."
  },
  {
   "property": "C52",
   "status": "proved",
   "theorems": [
    "C52_write_discipline",
    "C52_other_slots_untouched",
    "C52_round_robin"
   ],
   "note": ""
  },
  {
   "property": "C53",
   "status": "proved",
   "theorems": [
    "C53_coalesced",
    "C53_store_gap"
   ],
   "note": ""
  },
  {
   "property": "C54",
   "status": "partial",
   "theorems": [
    "C54_scan_terminates",
    "C54_scan_result",
    "C54_in_bounds_refuted"
   ],
   "note": "'Reads only existing slots' is false of the code (ring_next is called with N+1 instead of N-1): C54_in_bounds_refuted. Termination, and the exact result if the out-of-range cell aliases slot 0, are proved."
  },
  {
   "property": "C55",
   "status": "partial",
   "theorems": [
    "C55_erased_refuted",
    "C55_exact"
   ],
   "note": "False of the code: C55_erased_refuted (erased EEPROM). C55_exact characterises the images that boot without undefined behaviour."
  },
  {
   "property": "C56",
   "status": "proved",
   "theorems": [
    "C56_defined",
    "C56_noring_refuted"
   ],
   "note": "Every build, with or without the EEPROM ring (build_conf). Without the ring the power must not fail while a byte is being programmed (ev_ok): otherwise the next boot can read outside of the preset array (C56_noring_refuted). Interrupts are interleaved between work items, see DESIGN.md."
  },
  {
   "property": "C57",
   "status": "partial",
   "theorems": [
    "C57_defined",
    "C57_decodes",
    "C57_resync",
    "C57_two_names_ignored",
    "C57_two_names_refuted"
   ],
   "note": "False as stated for lines with two names (C57_two_names_refuted: dumpcurves.py only accepts two words after the time stamp, so the PID terms are dropped). Everything else proved at the level of byte streams: the received table is that of the messages, also after arbitrary noise before a greeting."
  },
  {
   "property": "C58",
   "status": "partial",
   "theorems": [
    "C58_lines",
    "C58_receiver_knows",
    "C58_after_change",
    "C58_before_change",
    "C58_enabled_later_refuted"
   ],
   "note": "Lines are sent exactly on changes (C58_lines) and a receiver connected from power-up with the output on always knows the values (C58_receiver_knows). False if the output is switched on later (C58_enabled_later_refuted: debug_report_* updates *old_value although nothing is sent); exact behaviour in C58_before_change, C58_after_change."
  },
  {
   "property": "C59",
   "status": "proved",
   "theorems": [
    "C59_signed",
    "C59_signed_mul_limit",
    "C59_unsigned",
    "C59_compare",
    "C59_conversion",
    "C59_mixed",
    "C59_mixed_unsigned",
    "C59_mixed_compare_refuted"
   ],
   "note": "All operators of both classes. Products must fit the host int (C59_signed_mul_limit, the firmware multiplies 32-bit values only); operands of wider types are truncated first, so mixed comparisons can differ from the target (C59_mixed_compare_refuted, not used by the firmware)."
  },
  {
   "property": "C60",
   "status": "partial",
   "theorems": [
    "C60_noring_refuted",
    "C60_mixture"
   ],
   "note": "False of the code: C60_noring_refuted. Exact extent: a prefix of the record is from the store in progress, the rest from the last completed one, one byte torn (C60_mixture)."
  },
  {
   "property": "C61",
   "status": "proved",
   "theorems": [
    "C61_select",
    "C61_inverse"
   ],
   "note": ""
  },
  {
   "property": "C62",
   "status": "proved",
   "theorems": [
    "C62_screen",
    "C62_after_poll"
   ],
   "note": ""
  },
  {
   "property": "C63",
   "status": "proved",
   "theorems": [
    "C63_pwm_owner"
   ],
   "note": ""
  },
  {
   "property": "C64",
   "status": "proved",
   "theorems": [
    "C64_last_plausible"
   ],
   "note": ""
  },
  {
   "property": "C65",
   "status": "proved",
   "theorems": [
    "C65_cascade",
    "C65_otherwise",
    "C65_processed"
   ],
   "note": ""
  },
  {
   "property": "C66",
   "status": "proved",
   "theorems": [
    "C66_window_closes",
    "C66_only_samples"
   ],
   "note": ""
  },
  {
   "property": "C67",
   "status": "proved",
   "theorems": [
    "C67_automaton",
    "C67_prompt"
   ],
   "note": "C67_automaton under in_time, C67_prompt without it for a polling main loop."
  },
  {
   "property": "C68",
   "status": "proved",
   "theorems": [
    "C68_cadence",
    "C68_progress",
    "C68_no_deadlock",
    "C68_timeout"
   ],
   "note": "limits_ok and on_time (SpecLive.v) are the assumptions about hardware and main loop speed; they replace the assumption m_count < 65535 of the other system theorems. Executions start at a power-up with a stored adjustment of at most 99 degrees (which is all the user interface allows)."
  },
  {
   "property": "C69",
   "status": "proved",
   "theorems": [
    "C69_fresh"
   ],
   "note": "slow_cycle + slow_window = 105+3A+3B."
  },
  {
   "property": "C70",
   "status": "proved",
   "theorems": [
    "C70_over_temperature",
    "C70_overheat"
   ],
   "note": "The stopwatch v_calm demands that the controller has been on and the adjustment unchanged for the stated time; with the controller off the demand is zero anyway (C41)."
  },
  {
   "property": "C71",
   "status": "proved",
   "theorems": [
    "C71_sensor_failure",
    "C71_recovery"
   ],
   "note": "The current demand is withdrawn; the residual current of up to 0.5 A is the integrator (see C29)."
  },
  {
   "property": "C72",
   "status": "proved",
   "theorems": [
    "C72_environment",
    "C72_defined",
    "C72_iteration",
    "C72_no_deadlock",
    "C72_served",
    "C72_prompt",
    "C72_shows"
   ],
   "note": "Undoes the environment assumptions of the other claims: reach, served and prompt are consequences of the speeds. The serving of the user interface needs iterations of at most 5 ms (C72_prompt, C72_shows)."
  },
  {
   "property": "C73",
   "status": "proved",
   "theorems": [
    "C73_saved",
    "C73_held_refuted"
   ],
   "note": "C73_early and C73_held_refuted show that the time must be counted from the last reading of a pressed key: holding PLUS at the limit delays the store for ever."
  },
  {
   "property": "C74",
   "status": "proved",
   "theorems": [
    "C74_over_temperature",
    "C74_sensor_failure"
   ],
   "note": "Times are those since power-up or reset; the bounds are C70/C71 at iterations of 300 ms."
  },
  {
   "property": "C75",
   "status": "proved",
   "theorems": [
    "C75_law",
    "C75_memory",
    "C75_off",
    "C75_boot"
   ],
   "note": "The elapsed time is exact (time since the controller was last run or switched on) as long as it is at most 32.7 s (longer: see C31)."
  },
  {
   "property": "C76",
   "status": "proved",
   "theorems": [
    "C76_law",
    "C76_memory",
    "C76_histories"
   ],
   "note": "C76_histories shows that the histories and clocks in the hypotheses exist for every reachable state."
  },
  {
   "property": "C77",
   "status": "proved",
   "theorems": [
    "C77_glow",
    "C77_still",
    "C77_clean",
    "C77_refresh",
    "C77_slow_refuted"
   ],
   "note": "The refresh rate needs display_work in every millisecond, which is part of the statement: C77_slow_refuted shows that when it is called every 2 ms the display freezes for 32.7 s (for all such executions of the builds without CONF_DEBUG). The register traces cover display_work; display_show/init/exit are single events."
  },
  {
   "property": "C78",
   "status": "proved",
   "theorems": [
    "C78_transparent",
    "C78_executions",
    "C78_silent"
   ],
   "note": "MTele repeats the functions that make debug calls, with the calls; PTele proves that without them they are the functions of the other files. Time spent sending is not modelled."
  },
  {
   "property": "C79",
   "status": "proved",
   "theorems": [
    "C79_shown",
    "C79_controllers",
    "C79_measured",
    "C79_stale_refuted"
   ],
   "note": "C79_stale_refuted shows that the exception in the statement happens: pressing PLUS in the debug mode sends a second greeting, after which the receiver shows 0 until a value changes. The item tb is printed, not reported; the PID terms have two names and are ignored by the receiver (C57)."
  },
  {
   "property": "C80",
   "status": "proved",
   "theorems": [
    "C80_bytes"
   ],
   "note": "11 bits per byte at 9600 baud: 245 bytes take 281 ms, below the watchdog time-out, which the UART routine serves anyway."
  },
  {
   "property": "C81",
   "status": "proved",
   "theorems": [
    "C81_conservative",
    "C81_includes",
    "C81_defined",
    "C81_setpoint",
    "C81_ranges",
    "C81_power",
    "C81_suspended",
    "C81_pins",
    "C81_exclusive",
    "C81_screen",
    "C81_after_poll",
    "C81_handover",
    "C81_consumed",
    "C81_values"
   ],
   "note": "MFine repeats the functions that read the clock with points for interrupts; C81_conservative proves that without interrupts they are the functions of the other files. Timing properties (C31, C34, C69, C70) are stated for atomic work functions only."
  },
  {
   "property": "C82",
   "status": "proved",
   "theorems": [
    "C82_emergency_off",
    "C82_over_temperature",
    "C82_measured"
   ],
   "note": "Same statements as C25 and C28, for executions with interrupts inside the work functions."
  },
  {
   "property": "C83",
   "status": "proved",
   "theorems": [
    "C83_pwm_owner",
    "C83_last_plausible",
    "C83_processed",
    "C83_cascade",
    "C83_otherwise",
    "C83_restricted",
    "C83_cold",
    "C83_residual"
   ],
   "note": "Same statements as C26, C29 (what holds), C30 (what holds), C63, C64 and C65, for executions with interrupts inside the work functions."
  },
  {
   "property": "C84",
   "status": "proved",
   "theorems": [
    "C84_off",
    "C84_emergency",
    "C84_over_temperature",
    "C84_immediate_refuted",
    "C84_exact",
    "C84_duty",
    "C84_cold",
    "C84_residual",
    "C84_every"
   ],
   "note": "The firmware with interrupts inside the work functions together with timer 1 as in the data sheet. C84_immediate_refuted: the compare register is double buffered, so switching off takes up to a period (262 ms)."
  },
  {
   "property": "C85",
   "status": "proved",
   "theorems": [
    "C85_over_temperature",
    "C85_sensor_failure",
    "C85_every"
   ],
   "note": "C74 composed with C84: the bounds of C74 plus one period of the PWM (two for the residual current). Times are in ticks since power-up or reset."
  },
  {
   "property": "C86",
   "status": "proved",
   "theorems": [
    "C86_demand",
    "C86_heats"
   ],
   "note": "The bounds are sufficient, not necessary: 187 degrees is where the factory gain 1.5 asks for 250 K (5 A) even with the integral term at its lower limit of -30. The spread condition makes the derivative term harmless. PWM 4915 is 2 A, the limit below 100 degrees."
  },
  {
   "property": "C87",
   "status": "proved",
   "theorems": [
    "C87_samples",
    "C87_state",
    "C87_refines",
    "C87_every"
   ],
   "note": "Converter hardware modelled after the data sheet (writes to ADCSRA, ADIF cleared by a one, free running restart, input latched at the start of a conversion). Interrupts are served between events; inside measure_work the converter is off until its last statement."
  },
  {
   "property": "C88",
   "status": "proved",
   "theorems": [
    "C88_demand",
    "C88_rests"
   ],
   "note": "The bounds are sufficient, not necessary: 54 degrees is where the factory gain 1.5 outweighs the integral term at its upper limit of 80. The remaining tenth (0.5 A) is the integrator of the current controller, as in C29."
  },
  {
   "property": "C89",
   "status": "proved",
   "theorems": [
    "C89_fifo",
    "C89_overrun_refuted",
    "C89_lossless",
    "C89_runs"
   ],
   "note": "The threads of the simulator are not modelled (each access holds its mutex). C89_overrun_refuted: what happens at 4096 unread bytes, which no simulated execution reaches."
  },
  {
   "property": "C90",
   "status": "proved",
   "theorems": [
    "C90_decodes",
    "C90_lag_refuted"
   ],
   "note": "C90_lag_refuted: a limit of the decoder (one line per reading), not of the theorem: C90_decodes says which lines are shown."
  },
  {
   "property": "C91",
   "status": "proved",
   "theorems": [
    "C91_shown"
   ],
   "note": "The clause (b <> [] -> pend <> []) is the finding: the greeting has two lines and comes in one reading, so the decoder stays behind for ever."
  },
  {
   "property": "C92",
   "status": "proved",
   "theorems": [
    "C92_settings",
    "C92_temperature",
    "C92_current",
    "C92_pwm",
    "C92_negative_refuted"
   ],
   "note": "Floating point numbers are exact rationals: the rounding of double arithmetic is not modelled. The temperature theorem is for the SMD board (the simulator is built with HW_SMD); on the other board all temperatures would be off by one code."
  },
  {
   "property": "C93",
   "status": "proved",
   "theorems": [
    "C93_write",
    "C93_in_force",
    "C93_read",
    "C93_read_refuted",
    "C93_store_refuted",
    "C93_unknown",
    "C93_defined",
    "C93_unchecked_refuted",
    "C93_shown_refuted",
    "C93_gui"
   ],
   "note": "Refuted parts: reads are not free of effects (C93_read_refuted, C93_store_refuted; the exact effects are in C93_read), values are not checked (C93_unchecked_refuted), a written idle temperature is not redrawn (C93_shown_refuted). Legal values are those the menu of the firmware allows."
  },
  {
   "property": "C94",
   "status": "proved",
   "theorems": [
    "C94_refines",
    "C94_allowed",
    "C94_byte",
    "C94_slow_refuted",
    "C94_boot",
    "C94_every"
   ],
   "note": "EEPROM hardware after the data sheet of the ATmega88 (MEep); the programming mode bits are not modelled. An access to EECR is one step of k cycles (SBI 2, IN/ORI/OUT 3). C94_slow_refuted: with four cycles between EEMPE and EEPE nothing would be written."
  },
  {
   "property": "C95",
   "status": "proved",
   "theorems": [
    "C95_failure",
    "C95_high",
    "C95_recovery",
    "C95_low"
   ],
   "note": "C95_low is a limitation of the code: only readings above 5 A are implausible, and the commanded current is then bounded by the limits of the controller only (C16, C26)."
  },
  {
   "property": "C96",
   "status": "proved",
   "theorems": [
    "C96_rises",
    "C96_falls",
    "C96_rests",
    "C96_dead_band"
   ],
   "note": "C96_rises and C96_falls subsume C86/C88 for long executions (C86/C88 need only kp). C96_dead_band is the limit of the code: the increment of the integrator is rounded."
  },
  {
   "property": "C97",
   "status": "proved",
   "theorems": [
    "C97_includes",
    "C97_cadence",
    "C97_progress",
    "C97_fresh",
    "C97_over_temperature",
    "C97_overheat",
    "C97_sensor_failure",
    "C97_recovery"
   ],
   "note": "C97_includes: the executions of C68-C71 are special cases. C97_progress excludes events other than the three work functions with a non-empty plan (they have no points)."
  },
  {
   "property": "C98",
   "status": "proved",
   "theorems": [
    "C98_fixpt",
    "C98_pid",
    "C98_scale",
    "C98_rescale",
    "C98_scale_converse_refuted",
    "C98_filter",
    "C98_filter_fixpt",
    "C98_timer"
   ],
   "note": "C98_scale_converse_refuted: unit tests of scale() cannot find 16-bit overflows. Which C++ operator is picked for each expression is part of the model (MHostFix), not proved."
  },
  {
   "property": "C99",
   "status": "proved",
   "theorems": [
    "C99_follows",
    "C99_punctual",
    "C99_atomic",
    "C99_includes"
   ],
   "note": "C99_atomic and C99_includes: with no time inside an event the automaton is that of C33-C42; C99_follows gives an execution of the automaton for the whole history, not one per event. The bounds 25 ms and 10 ms are those of `prompt`; the time of a poll counts from its beginning."
  },
  {
   "property": "C100",
   "status": "proved",
   "theorems": [
    "C100_progress",
    "C100_wire",
    "C100_exact",
    "C100_lost_most",
    "C100_line",
    "C100_lost_least",
    "C100_stamp_refuted"
   ],
   "note": "Cycle-level model of the USART transmitter, timer 0 and the interrupt flag (MUart). The naive claim that time stamps are milliseconds is refuted (C100_stamp_refuted); the loss is bounded from both sides."
  },
  {
   "property": "C101",
   "status": "proved",
   "theorems": [
    "C101_codes",
    "C101_reaction",
    "C101_bound"
   ],
   "note": "The iron is an assumption (SpecTip.iron): bounded rise, bounded lag, bounded sensor error. Executions are those of C85 (main loop, ADC, timer 1 unit by unit) from a power-up with a tip of at most 480 degrees, without another power cycle, with the control enabled and the sensor adjustment unchanged. Whether a real iron meets the bounds is not proved."
  },
  {
   "property": "C102",
   "status": "proved",
   "theorems": [
    "C102_boot",
    "C102_switch",
    "C102_flash_refuted",
    "C102_pending",
    "C102_silent",
    "C102_shared_refuted"
   ],
   "note": "Two findings are part of the property: C102_flash_refuted (a digit flashes when the display is switched off) and C102_shared_refuted (pending bytes appear on a segment pin after the display is on again). C102_switch is for states between two events; if two keys are handled in one call the second switch starts from an equivalent state. Timer 1 takes over PB1 after the writes shown (C84)."
  },
  {
   "property": "C103",
   "status": "proved",
   "theorems": [
    "C103_phase",
    "C103_pwm",
    "C103_coarse_refuted",
    "C103_off",
    "C103_on",
    "C103_rc_between",
    "C103_rc_cut",
    "C103_rc_ohm",
    "C103_divider"
   ],
   "note": "The limit on the steps is sharp in kind: C103_coarse_refuted. Floats are rationals; exp is a parameter."
  },
  {
   "property": "C104",
   "status": "proved",
   "theorems": [
    "C104_exclusion",
    "C104_complete",
    "C104_start_refuted",
    "C104_progress",
    "C104_served"
   ],
   "note": "Sequential consistency of the two volatile flags is assumed; io_thread_stop is 0. C104_start_refuted shows the limit at the start."
  },
  {
   "property": "C105",
   "status": "proved",
   "theorems": [
    "C105_not_fast",
    "C105_not_slow",
    "C105_exact",
    "C105_back_refuted",
    "C105_duration",
    "C105_channel",
    "C105_race_refuted"
   ],
   "note": "C105_back_refuted and C105_race_refuted show the limits."
  },
  {
   "property": "C106",
   "status": "proved",
   "theorems": [
    "C106_projects",
    "C106_event",
    "C106_survive",
    "C106_requested",
    "C106_saved",
    "C106_ready",
    "C106_cells"
   ],
   "note": "The storage of C49-C53 was stated for an environment of arbitrary changes; this proves that the firmware is such an environment."
  },
  {
   "property": "C107",
   "status": "proved",
   "theorems": [
    "C107_assumption",
    "C107_saved",
    "C107_progress",
    "C107_firmware",
    "C107_follow",
    "C107_firmware_saved",
    "C107_early_refuted"
   ],
   "note": "C107_early_refuted shows that the bound is needed."
  },
  {
   "property": "C108",
   "status": "proved",
   "theorems": [
    "C108_stream",
    "C108_resync",
    "C108_recover",
    "C108_firmware",
    "C108_temperature",
    "C108_noise_refuted"
   ],
   "note": "The division, conversion and %f formatting of doubles are modelled exactly (SpecFloat of the standard library). C108_noise_refuted: a garbled line with a number of more than 308 digits raises an OverflowError that ends the tool."
  },
  {
   "property": "C109",
   "status": "proved",
   "theorems": [
    "C109_includes",
    "C109_failure",
    "C109_high",
    "C109_recovery",
    "C109_low"
   ],
   "note": "C95 with interrupts inside the work functions (MFine); the bound grows by l_poll, the time measure_work may take."
  },
  {
   "property": "C110",
   "status": "proved",
   "theorems": [
    "C110_includes",
    "C110_demand",
    "C110_rests"
   ],
   "note": "C88 for the executions of C97. The firmware may have heated before (Example)."
  },
  {
   "property": "C111",
   "status": "proved",
   "theorems": [
    "C111_demand",
    "C111_heats"
   ],
   "note": "C86 for the executions of C97."
  }
 ]
}