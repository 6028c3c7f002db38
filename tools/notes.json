{
 "C02": {
  "note": "A product outside 32 bits is undefined behaviour in the code; the theorem characterises exactly when the result is defined. C23_pid_defined and the system theorems show the firmware never gets there."
 },
 "C04": {
  "note": "False of the code: C04_div_zero_refuted. FIXPTBIG_MAX/MIN are cast to the 24-bit type and become -1/+1; C04_div_zero_actual states what happens for every dividend.",
  "status": "partial"
 },
 "C07": {
  "note": "Digit counts 0..7. With 1 digit the fraction may need two digits (C07_one_digit_refuted), with 8 digits the 32-bit product wraps (C07_eight_digits_refuted); the UI uses 2 and 3."
 },
 "C09": {
  "note": "sdiv_round and udiv_* under the stated no-overflow conditions of the C expression."
 },
 "C13": {
  "note": "False of the code: C13_priming_refuted. lp_filter_u16_set stores v, not v << shift, so the output drops to about v/8; exact value in C13_priming_actual.",
  "status": "partial"
 },
 "C19": {
  "note": "False of the code: C19_stays_expired_refuted (16-bit wrap). Exact behaviour at all times in C19_expired_actual.",
  "status": "partial"
 },
 "C21": {
  "note": "False of the code: C21_tick_1ms_refuted, a tick is 8064 cycles = 1.008 ms. Deviation of at most 1 % proved in C21_tick_within_1_percent.",
  "status": "partial"
 },
 "C23": {
  "note": "Law for every defined run with dt <> 0, plus definedness in the operating region."
 },
 "C25": {
  "note": "Firmware level: C25_emergency_off. At API level contrcurr_set_enabled(false, percent) would override the emergency (C25_fixed_current_refuted); C24_firmware shows that the firmware never calls it so."
 },
 "C29": {
  "note": "False of the code: C29_off_refuted (the integrator of the current PID keeps up to 0.5 A commanded while the measured current stays 0). Demand is zero and the residual is at most 0.5 A: C29_residual.",
  "status": "partial"
 },
 "C30": {
  "note": "False of the code: C30_no_heating_refuted. At most 2 A are commanded before the first plausible temperature: C30_restricted.",
  "status": "partial"
 },
 "C31": {
  "note": "False of the code beyond 32.767 s between two runs (possible after an emergency): C31_temp_refuted, C31_curr_refuted. Up to there dt is the elapsed time: C31_temp_step, C31_curr_step.",
  "status": "partial"
 },
 "C34": {
  "note": "Results of the same channel less than 29.768 s apart, as stated."
 },
 "C36": {
  "note": "Until the next reset (reach1), as stated. Across power failures the ranges are not kept (C36_power_refuted: 483 C after a failure between two stores); C36_power bounds what can be loaded."
 },
 "C37": {
  "note": "Boost+idle build: C37_tap..C37_leave_release; the four other builds: C37_builds. The 1 s limit is evaluated at the 10 ms key samples: a key released at 1 s or later without a held sample taken after 1 s still counts as a tap (C37_tap with t_idle y1 = false)."
 },
 "C39": {
  "note": "Every build configuration. While debug output is enabled (y_dbg) releasing SET does not leave the DBG menu (menu.c:630)."
 },
 "C40": {
  "note": "C40_clock defines the age: entering a menu and, in the menus that restart, key events of SET, MINUS, PLUS (held ones included) set it to 0. 'In time' = no clock polled more than 30 s late; C67_prompt removes this assumption for a main loop polling every 25 ms."
 },
 "C43": {
  "note": "C43_not_faster for every polling schedule; C43_pace gives the exact number of steps when menu_work is polled every 25 ms."
 },
 "C44": {
  "note": "Exact text for every temperature below 32767.5 degrees; beyond that the 16-bit conversion wraps (C44_wraps_beyond_int16_refuted), which no reachable value does."
 },
 "C48": {
  "note": "Error number and redraw (C62_screen) proved. The heating dot is false as stated: C48_heating_refuted, it compares with the set-point before the same menu_work ramps it (one poll late); exact behaviour in C48_indication, C48_heating.",
  "status": "partial"
 },
 "C49": {
  "note": "Assumes the hardware finishes a store (64 bytes, <= 218 ms) before the next one starts (>= 1000 ticks apart: C53_store_gap), and no user change while a store is in progress (see C51). Settings compared without the serial number."
 },
 "C50": {
  "note": "No assumption about user changes during stores; same hardware timing assumption as C49."
 },
 "C51": {
  "note": "False of the code: C51_snapshot_refuted, the EEPROM interrupt reads the live settings. Exact extent: every byte stored is a byte of some settings in use during that store (C51_mixture), so values not changed meanwhile are stored exactly (C51_unchanged). Without changes during a store it holds (C49); after the following store it holds again (C50).",
  "status": "partial"
 },
 "C54": {
  "note": "'Reads only existing slots' is false of the code (ring_next is called with N+1 instead of N-1): C54_in_bounds_refuted. Termination, and the exact result if the out-of-range cell aliases slot 0, are proved.",
  "status": "partial"
 },
 "C55": {
  "note": "False of the code: C55_erased_refuted (erased EEPROM). C55_exact characterises the images that boot without undefined behaviour.",
  "status": "partial"
 },
 "C56": {
  "note": "Every build, with or without the EEPROM ring (build_conf). Without the ring the power must not fail while a byte is being programmed (ev_ok): otherwise the next boot can read outside of the preset array (C56_noring_refuted). Interrupts are interleaved between work items, see DESIGN.md."
 },
 "C57": {
  "note": "False as stated for lines with two names (C57_two_names_refuted: dumpcurves.py only accepts two words after the time stamp, so the PID terms are dropped). Everything else proved at the level of byte streams: the received table is that of the messages, also after arbitrary noise before a greeting.",
  "status": "partial"
 },
 "C58": {
  "note": "Lines are sent exactly on changes (C58_lines) and a receiver connected from power-up with the output on always knows the values (C58_receiver_knows). False if the output is switched on later (C58_enabled_later_refuted: debug_report_* updates *old_value although nothing is sent); exact behaviour in C58_before_change, C58_after_change.",
  "status": "partial"
 },
 "C59": {
  "note": "All operators of both classes. Products must fit the host int (C59_signed_mul_limit, the firmware multiplies 32-bit values only); operands of wider types are truncated first, so mixed comparisons can differ from the target (C59_mixed_compare_refuted, not used by the firmware)."
 },
 "C60": {
  "note": "False of the code: C60_noring_refuted. Exact extent: a prefix of the record is from the store in progress, the rest from the last completed one, one byte torn (C60_mixture).",
  "status": "partial"
 },
 "C67": {
  "note": "C67_automaton under in_time, C67_prompt without it for a polling main loop."
 },
 "C68": {
  "note": "limits_ok and on_time (SpecLive.v) are the assumptions about hardware and main loop speed; they replace the assumption m_count < 65535 of the other system theorems. Executions start at a power-up with a stored adjustment of at most 99 degrees (which is all the user interface allows)."
 },
 "C69": {
  "note": "slow_cycle + slow_window = 105+3A+3B."
 },
 "C70": {
  "note": "The stopwatch v_calm demands that the controller has been on and the adjustment unchanged for the stated time; with the controller off the demand is zero anyway (C41)."
 },
 "C71": {
  "note": "The current demand is withdrawn; the residual current of up to 0.5 A is the integrator (see C29)."
 },
 "C72": {
  "note": "Undoes the environment assumptions of the other claims: reach, served and prompt are consequences of the speeds. The serving of the user interface needs iterations of at most 5 ms (C72_prompt, C72_shows)."
 },
 "C73": {
  "note": "C73_early and C73_held_refuted show that the time must be counted from the last reading of a pressed key: holding PLUS at the limit delays the store for ever."
 },
 "C74": {
  "note": "Times are those since power-up or reset; the bounds are C70/C71 at iterations of 300 ms."
 },
 "C75": {
  "note": "The elapsed time is exact (time since the controller was last run or switched on) as long as it is at most 32.7 s (longer: see C31)."
 },
 "C76": {
  "note": "C76_histories shows that the histories and clocks in the hypotheses exist for every reachable state."
 },
 "C77": {
  "note": "The refresh rate needs display_work in every millisecond, which is part of the statement: C77_slow_refuted shows that when it is called every 2 ms the display freezes for 32.7 s (for all such executions of the builds without CONF_DEBUG). The register traces cover display_work; display_show/init/exit are single events."
 },
 "C78": {
  "note": "MTele repeats the functions that make debug calls, with the calls; PTele proves that without them they are the functions of the other files. Time spent sending is not modelled."
 },
 "C79": {
  "note": "C79_stale_refuted shows that the exception in the statement happens: pressing PLUS in the debug mode sends a second greeting, after which the receiver shows 0 until a value changes. The item tb is printed, not reported; the PID terms have two names and are ignored by the receiver (C57)."
 },
 "C80": {
  "note": "11 bits per byte at 9600 baud: 245 bytes take 281 ms, below the watchdog time-out, which the UART routine serves anyway."
 },
 "C81": {
  "note": "MFine repeats the functions that read the clock with points for interrupts; C81_conservative proves that without interrupts they are the functions of the other files. Timing properties (C31, C34, C69, C70) are stated for atomic work functions only."
 },
 "C82": {
  "note": "Same statements as C25 and C28, for executions with interrupts inside the work functions."
 },
 "C83": {
  "note": "Same statements as C26, C29 (what holds), C30 (what holds), C63, C64 and C65, for executions with interrupts inside the work functions."
 },
 "C84": {
  "note": "The firmware with interrupts inside the work functions together with timer 1 as in the data sheet. C84_immediate_refuted: the compare register is double buffered, so switching off takes up to a period (262 ms)."
 },
 "C85": {
  "note": "C74 composed with C84: the bounds of C74 plus one period of the PWM (two for the residual current). Times are in ticks since power-up or reset."
 },
 "C86": {
  "note": "The bounds are sufficient, not necessary: 187 degrees is where the factory gain 1.5 asks for 250 K (5 A) even with the integral term at its lower limit of -30. The spread condition makes the derivative term harmless. PWM 4915 is 2 A, the limit below 100 degrees."
 },
 "C87": {
  "note": "Converter hardware modelled after the data sheet (writes to ADCSRA, ADIF cleared by a one, free running restart, input latched at the start of a conversion). Interrupts are served between events; inside measure_work the converter is off until its last statement."
 },
 "C88": {
  "note": "The bounds are sufficient, not necessary: 54 degrees is where the factory gain 1.5 outweighs the integral term at its upper limit of 80. The remaining tenth (0.5 A) is the integrator of the current controller, as in C29."
 },
 "C89": {
  "note": "The threads of the simulator are not modelled (each access holds its mutex). C89_overrun_refuted: what happens at 4096 unread bytes, which no simulated execution reaches."
 },
 "C90": {
  "note": "C90_lag_refuted: a limit of the decoder (one line per reading), not of the theorem: C90_decodes says which lines are shown."
 },
 "C91": {
  "note": "The clause (b <> [] -> pend <> []) is the finding: the greeting has two lines and comes in one reading, so the decoder stays behind for ever."
 },
 "C92": {
  "note": "Floating point numbers are exact rationals: the rounding of double arithmetic is not modelled. The temperature theorem is for the SMD board (the simulator is built with HW_SMD); on the other board all temperatures would be off by one code."
 },
 "C93": {
  "note": "Refuted parts: reads are not free of effects (C93_read_refuted, C93_store_refuted; the exact effects are in C93_read), values are not checked (C93_unchecked_refuted), a written idle temperature is not redrawn (C93_shown_refuted). Legal values are those the menu of the firmware allows."
 },
 "C94": {
  "note": "EEPROM hardware after the data sheet of the ATmega88 (MEep); the programming mode bits are not modelled. An access to EECR is one step of k cycles (SBI 2, IN/ORI/OUT 3). C94_slow_refuted: with four cycles between EEMPE and EEPE nothing would be written."
 },
 "C95": {
  "note": "C95_low is a limitation of the code: only readings above 5 A are implausible, and the commanded current is then bounded by the limits of the controller only (C16, C26)."
 },
 "C96": {
  "note": "C96_rises and C96_falls subsume C86/C88 for long executions (C86/C88 need only kp). C96_dead_band is the limit of the code: the increment of the integrator is rounded."
 },
 "C97": {
  "note": "C97_includes: the executions of C68-C71 are special cases. C97_progress excludes events other than the three work functions with a non-empty plan (they have no points)."
 },
 "C98": {
  "note": "C98_scale_converse_refuted: unit tests of scale() cannot find 16-bit overflows. Which C++ operator is picked for each expression is part of the model (MHostFix), not proved."
 },
 "C99": {
  "note": "C99_atomic and C99_includes: with no time inside an event the automaton is that of C33-C42; C99_follows gives an execution of the automaton for the whole history, not one per event. The bounds 25 ms and 10 ms are those of `prompt`; the time of a poll counts from its beginning."
 },
 "C100": {
  "note": "Cycle-level model of the USART transmitter, timer 0 and the interrupt flag (MUart). The naive claim that time stamps are milliseconds is refuted (C100_stamp_refuted); the loss is bounded from both sides."
 },
 "C101": {
  "note": "The iron is an assumption (SpecTip.iron): bounded rise, bounded lag, bounded sensor error. Executions are those of C85 (main loop, ADC, timer 1 unit by unit) from a power-up with a tip of at most 480 degrees, without another power cycle, with the control enabled and the sensor adjustment unchanged. Whether a real iron meets the bounds is not proved."
 },
 "C102": {
  "note": "Two findings are part of the property: C102_flash_refuted (a digit flashes when the display is switched off) and C102_shared_refuted (pending bytes appear on a segment pin after the display is on again). C102_switch is for states between two events; if two keys are handled in one call the second switch starts from an equivalent state. Timer 1 takes over PB1 after the writes shown (C84)."
 },
 "C103": {
  "note": "The limit on the steps is sharp in kind: C103_coarse_refuted. Floats are rationals; exp is a parameter."
 },
 "C104": {
  "note": "Sequential consistency of the two volatile flags is assumed; io_thread_stop is 0. C104_start_refuted shows the limit at the start."
 },
 "C105": {
  "note": "C105_back_refuted and C105_race_refuted show the limits."
 },
 "C106": {
  "note": "The storage of C49-C53 was stated for an environment of arbitrary changes; this proves that the firmware is such an environment."
 },
 "C107": {
  "note": "C107_early_refuted shows that the bound is needed."
 },
 "C108": {
  "note": "The division, conversion and %f formatting of doubles are modelled exactly (SpecFloat of the standard library). C108_noise_refuted: a garbled line with a number of more than 308 digits raises an OverflowError that ends the tool."
 },
 "C109": {
  "note": "C95 with interrupts inside the work functions (MFine); the bound grows by l_poll, the time measure_work may take."
 },
 "C110": {
  "note": "C88 for the executions of C97. The firmware may have heated before (Example)."
 },
 "C111": {
  "note": "C86 for the executions of C97."
 }
}