{"id": "C01", "title": "Fixed-point add/sub saturate exactly", "statement": "fixpt_add, fixpt_sub and fixpt_add_limited never overflow or invoke undefined behaviour; the result is the exact mathematical sum/difference saturated to [-(2^23-1), 2^23-1] (and then limited to the requested range for fixpt_add_limited with lo<=hi).", "quantifier": "all pairs of 24-bit operands (2^48) and all limits", "why_tests_cant": "2^48 operand pairs; the tests check a dozen.", "anchors": ["firmware/fixpt.c: fixpt_add, fixpt_sub, fixpt_add_limited, fixpt_deflate"]}
{"id": "C02", "title": "Fixed-point multiplication rounds to nearest and saturates", "statement": "Whenever the exact raw product plus rounding fits in 32 bits, fixpt_mul returns the real product rounded to the nearest multiple of 1/64 (ties towards +infinity), saturated to the 24-bit range; outside that region the C code overflows a signed int (undefined behaviour), and nowhere else.", "quantifier": "all pairs of 24-bit operands", "why_tests_cant": "exhaustive pairs infeasible; overflow region is a curve in a 2^48 space.", "anchors": ["firmware/fixpt.c: fixpt_mul, fixpt_big_mul"]}
{"id": "C03", "title": "Fixed-point division rounds to nearest and never overflows", "statement": "For every non-zero divisor fixpt_div is free of undefined behaviour and returns the real quotient rounded to the nearest multiple of 1/64 (ties away from zero), saturated to the 24-bit range.", "quantifier": "all 24-bit dividends and all non-zero 24-bit divisors", "why_tests_cant": "2^48 pairs.", "anchors": ["firmware/fixpt.c: fixpt_div, fixpt_big_div"]}
{"id": "C04", "title": "Division by zero is handled gracefully", "statement": "fixpt_div(a,0) saturates to the largest value with the sign of a (what 'Handle it gracefully' and the FIXPTBIG_MAX/MIN names promise).", "quantifier": "all 24-bit dividends", "why_tests_cant": "Existing test does not cover the 24-bit truncation of the constant.", "anchors": ["firmware/fixpt.c: fixpt_big_div", "firmware/fixpt.h: FIXPTBIG_MAX, FIXPTBIG_MIN"]}
{"id": "C05", "title": "Negation, absolute value and clamp are total", "statement": "fixpt_neg/fixpt_abs/fixpt_clamp are defined for every 24-bit value including -2^23; neg is exact except that -2^23 saturates; abs is non-negative; clamp lies in the limits and is the identity inside them.", "quantifier": "all 24-bit values and all limit pairs", "why_tests_cant": "the whole 24-bit domain and limit pairs.", "anchors": ["firmware/fixpt.c: fixpt_neg, fixpt_abs, fixpt_clamp"]}
{"id": "C06", "title": "Integer conversions round correctly and round-trip", "statement": "int_to_fixpt saturates exactly, fixpt_to_int rounds to the nearest integer (ties away from zero) without undefined behaviour for every 24-bit value, and fixpt_to_int(int_to_fixpt(i)) = i for every representable i.", "quantifier": "all 24-bit values / all integers whose scaled value fits in 32 bits", "why_tests_cant": "domain size.", "anchors": ["firmware/fixpt.c: fixpt_to_int, _do_int32_to_fixpt, fixpt_big_to_int"]}
{"id": "C07", "title": "Decimal decomposition is faithful", "statement": "fixpt_get_int_part truncates towards zero; fixpt_get_dec_fract(p,n) is the fractional part rounded to n decimal digits, and for n=2,3 (the digit counts the UI uses) it is always smaller than 10^n so it fits into n digits. For n=1 the 'fits' part fails.", "quantifier": "all 24-bit values, all digit counts 0..7", "why_tests_cant": "domain size; carry corner cases.", "anchors": ["firmware/fixpt.c: fixpt_get_int_part, fixpt_get_dec_fract"]}
{"id": "C08", "title": "pow_int computes the power", "statement": "pow_int(b,e) terminates and equals b^e with no intermediate overflow whenever b^e is representable with the magnitude not exceeding 2^31-1.", "quantifier": "all 16-bit bases and all 8-bit exponents", "why_tests_cant": "2^24 inputs and intermediate-overflow freedom is not observable in a test.", "anchors": ["firmware/util.c: pow_int"]}
{"id": "C09", "title": "Rounding-division helpers", "statement": "sdiv_round_up is the exact ceiling, sdiv_round the nearest integer with ties away from zero, for every dividend and non-zero divisor whose intermediate sum does not overflow; udiv_round and udiv_round_up likewise for unsigned.", "quantifier": "all 32-bit operand pairs", "why_tests_cant": "2^64 pairs.", "anchors": ["firmware/util.h: sdiv_round_up, sdiv_round, udiv_round, udiv_round_up"]}
{"id": "C10", "title": "Ring index arithmetic", "statement": "ring_next/ring_prev keep an index inside 0..max_index, are mutually inverse, bring any out-of-range index back in range and visit every index exactly once per max_index+1 steps.", "quantifier": "all 8-bit indices and limits", "why_tests_cant": "iterated behaviour for every size.", "anchors": ["firmware/ring.c: ring_next, ring_prev"]}
{"id": "C11", "title": "Bitmap operations address exactly one bit", "statement": "bm_set_bit/bm_clear_bit/bm_write_bit change exactly the addressed bit and leave every other bit of the map unchanged; reads return what was last written; accesses inside the map are in bounds.", "quantifier": "all maps, all bit numbers below 8*size, all operation sequences", "why_tests_cant": "unbounded sequences.", "anchors": ["firmware/bitmap.h: bm_get_bit, bm_get_bool, bm_set_bit, bm_clear_bit, bm_write_bit"]}
{"id": "C12", "title": "ADC low-pass filter cannot overflow or overshoot", "statement": "Starting from any state reachable from reset or priming, the 24-bit filter accumulator never wraps and the output never exceeds the largest input seen so far; with a constant input x the output converges monotonically to x and then stays there.", "quantifier": "all input sequences of any length, all filter shifts 0..8", "why_tests_cant": "unbounded histories.", "anchors": ["firmware/filter.c: lp_filter_u16_run", "firmware/measure_current.c: meascurr_filter_handler"]}
{"id": "C13", "title": "Priming the filter preserves the level", "statement": "After the filter is primed with the first sample v, feeding v again returns v.", "quantifier": "all samples v", "why_tests_cant": "the relation is never exercised by the tests.", "anchors": ["firmware/filter.h: lp_filter_u16_set", "firmware/measure_current.c: meascurr_filter_handler"]}
{"id": "C14", "title": "Fixed-point low-pass filter stays inside its input range", "statement": "With divisor 16 or 24 and inputs in 0..5 A, the current-model filter never overflows, never saturates, and its output stays in the input range plus at most one LSB for every input history.", "quantifier": "all input sequences of any length", "why_tests_cant": "unbounded histories.", "anchors": ["firmware/filter.c: lp_filter_fixpt_run", "firmware/controller_current.c: contrcurr_run"]}
{"id": "C15", "title": "Sensor scaling is affine, monotone and defined for every ADC code", "statement": "For both sensor channels and every ADC code 0..1023 the raw-to-physical scaling has no undefined behaviour, hits both calibration points exactly, is monotone, and differs from the exact affine map by at most one LSB (1/64).", "quantifier": "all 1024 ADC codes of every channel configuration; all parameters within the no-overflow region for the general theorem", "why_tests_cant": "tests sample a few points; overflow freedom not observable.", "anchors": ["firmware/scale.c: scale", "firmware/measure_temp.c: meastemp_config", "firmware/measure_current.c: meascurr_config"]}
{"id": "C16", "title": "PWM duty is the inverse linear image of the current", "statement": "For every commanded current in 0..5 A the programmed compare value is within 0..0x1FFF, 0 A gives exactly 0x1FFF (off), 5 A gives exactly 0 (full), it is antitone in the current, and equals the nearest integer to the exact linear map up to the two-step rounding (error below 1 count); no undefined behaviour.", "quantifier": "all raw currents 0..3200", "why_tests_cant": "exact antitonicity and range over the whole domain.", "anchors": ["firmware/pwm_current.c: pwmcurr_set", "firmware/scale.c: unscale"]}
{"id": "C17", "title": "Temperature request to current mapping", "statement": "The mapping from controller output (deg C) to a current setpoint is defined for every output in 0..480 C, linear with 250 C -> 5 A rounded to nearest, monotone, and clamped to 0..5 A.", "quantifier": "all 24-bit raw temperatures in the controller output range", "why_tests_cant": "domain size.", "anchors": ["firmware/controller_temp.c: temp_to_amps", "firmware/scale.c: rescale"]}
{"id": "C18", "title": "One-shot timers expire exactly on time across counter wrap", "statement": "After timer_arm(d) with 0<=d<=32767 ms, timer_expired is false until exactly d ticks have elapsed and true from then on until 32768 further ticks have elapsed, whatever the counter value at arming (16-bit wrap included).", "quantifier": "all arming times, all delays, all elapsed times", "why_tests_cant": "wrap-around at every counter value.", "anchors": ["firmware/timer.c: timer_arm, timer_expired"]}
{"id": "C19", "title": "An expired timer stays expired", "statement": "Once expired, a timer reads as expired for ever until re-armed.", "quantifier": "all later times", "why_tests_cant": "needs >32 s of simulated time; every test stops earlier.", "anchors": ["firmware/timer.c: timer_expired"]}
{"id": "C20", "title": "Elapsed-time measurement and periodic timers", "statement": "timer_ms_since after timer_set_now returns exactly the elapsed ticks for up to 32767 ticks at any counter value; a timer advanced by timer_add(p) each time it fires runs at exact multiples of p after its start (no drift), however late it is polled within the window.", "quantifier": "all start times, elapsed times and polling schedules", "why_tests_cant": "schedules and wrap.", "anchors": ["firmware/timer.c: timer_ms_since, timer_set_now, timer_add"]}
{"id": "C21", "title": "System tick length", "statement": "The programmed hardware timer produces one tick per millisecond.", "quantifier": "the hardware configuration, any number of ticks", "why_tests_cant": "no unit test runs on hardware time; the fake timer ticks by itself.", "anchors": ["firmware/timer.c: timer_init"]}
{"id": "C22", "title": "PID output and integrator never leave their limits", "statement": "After every pid_run the returned value is inside [y_neglim,y_poslim] and the integrator is inside [i_neglim,i_poslim], for every history of set-points, gains, feedback values and time steps.", "quantifier": "all call sequences with arbitrary arguments (every execution without arithmetic overflow)", "why_tests_cant": "unbounded histories.", "anchors": ["firmware/pid.c: pid_run, pid_set_factors, pid_reset, pid_init"]}
{"id": "C23", "title": "PID computes the documented law", "statement": "pid_run returns clamp(kp*e + I + kd*de/dt) with e = setpoint - r, I the clamped accumulated ki*e*dt, de the difference to the decayed previous error, each operation being the rounded saturating fixed point one; changing gains or resetting forgets I and the previous error; with zero error and a fresh controller the output is the clamp of 0.", "quantifier": "all states, gains, inputs within the defined region", "why_tests_cant": "state space size.", "anchors": ["firmware/pid.c"]}
{"id": "C24", "title": "Current controller is safe for every call history", "statement": "For every history of current-controller calls with set-points and feedback in 0..5 A and arbitrary timing, no undefined behaviour occurs, the commanded current stays in 0..5 A and the compare register in 0..0x1FFF.", "quantifier": "all finite API call sequences, all times", "why_tests_cant": "unbounded histories.", "anchors": ["firmware/controller_current.c"]}
{"id": "C25", "title": "Current-sensor emergency switches the heater off", "statement": "In every reachable firmware state in which any current-controller emergency flag is set, the PWM compare value is the no-current value, and it remains so until the flags are cleared.", "quantifier": "all event histories (interrupts, button presses, measurements, resets)", "why_tests_cant": "interleavings.", "anchors": ["firmware/controller_current.c: contrcurr_set_emerg, contrcurr_run", "firmware/measure_current.c: meascurr_result_handler"]}
{"id": "C26", "title": "Cold-iron current restriction", "statement": "Whenever the current controller updates the PWM while restricted (last plausible temperature below 100 C, or none yet), the commanded current is at most 2 A.", "quantifier": "all controller states and feedback values", "why_tests_cant": "state space.", "anchors": ["firmware/controller_current.c: contrcurr_run", "firmware/measure_temp.c: meastemp_result_handler"]}
{"id": "C27", "title": "Feedback-source hysteresis", "statement": "The PID uses the real current feedback only while the source state is 'enabled'; it switches to the model exactly when the real feedback is >= 1.8 A, starts resynchronising exactly when it is <= 1.7 A, and returns to the real feedback only when model and feedback differ by less than 0.1 A.", "quantifier": "all histories of feedback values", "why_tests_cant": "unbounded histories.", "anchors": ["firmware/controller_current.c: contrcurr_run"]}
{"id": "C28", "title": "Over-temperature cut-off", "statement": "Whenever the enabled temperature controller processes a measured temperature above 480 C the heater PWM is off when the call returns, and it stays off until the controller processes a temperature of at most 480 C. The over-temperature flag is set exactly while the last processed temperature was above 480 C.", "quantifier": "all reachable states and continuations", "why_tests_cant": "continuations unbounded.", "anchors": ["firmware/controller_temp.c: contrtemp_run", "firmware/controller_current.c: contrcurr_set_emerg"]}
{"id": "C29", "title": "Temperature-sensor failure turns the heater off", "statement": "After the temperature sensor has been reported implausible for longer than the timeout, no heater current is commanded until it becomes plausible again.", "quantifier": "all event histories", "why_tests_cant": "long fault scenarios with controller state left over from before.", "anchors": ["firmware/controller_temp.c: do_set_emerg", "firmware/measure_temp.c: meastemp_result_handler"]}
{"id": "C30", "title": "No heating before the first plausible temperature", "statement": "From power-up until the first plausible temperature measurement, no heater current is commanded.", "quantifier": "all start-up histories", "why_tests_cant": "needs sensor fault at boot.", "anchors": ["firmware/measure_temp.c: meastemp_result_handler", "firmware/main.c: main"]}
{"id": "C31", "title": "Controller time steps are never negative", "statement": "Every time step dt handed to a PID run is non-negative.", "quantifier": "all event histories", "why_tests_cant": "needs >32 s pauses.", "anchors": ["firmware/controller_temp.c: contrtemp_run", "firmware/controller_current.c: contrcurr_run", "firmware/timer.c: timer_ms_since"]}
{"id": "C32", "title": "Averaging returns the floored mean", "statement": "The value handed to scaling is the floor of the arithmetic mean of exactly the samples taken in the window since the channel was started, hence between their minimum and maximum; the division is never by zero and the sums do not overflow for up to 65535 samples.", "quantifier": "all sample sequences", "why_tests_cant": "unbounded sequences.", "anchors": ["firmware/measure.c: ADC_vect, measure_handle_result, adc_trigger_next_chan"]}
{"id": "C33", "title": "Measurement hand-over is race free and alternates channels", "statement": "At every instant either the converter is running and no result is pending, or a result is pending and the converter is stopped; a result is handled exactly once and channels alternate strictly temperature, current, temperature, ...", "quantifier": "all interleavings of ADC interrupts, ticks and main loop work", "why_tests_cant": "interleavings.", "anchors": ["firmware/measure.c: measure_work, ADC_vect, adc_trigger_next_chan"]}
{"id": "C34", "title": "Plausibility timeout", "statement": "A channel is reported 'timed out' exactly when every result since some result at least 3000 ms ago has been implausible (consecutive results less than 29 s apart); a plausible result clears it immediately; values handed to the controllers are always inside the plausibility limits.", "quantifier": "all sequences of timestamped measurement results", "why_tests_cant": "unbounded timing sequences.", "anchors": ["firmware/measure.c: measure_handle_result"]}
{"id": "C35", "title": "Active set-point always follows presets and idle mode", "statement": "In every reachable state the temperature controller's set-point equals the active preset, or min(idle temperature, active preset) when the iron is idle.", "quantifier": "all event histories", "why_tests_cant": "UI x settings x controller histories.", "anchors": ["firmware/controller_temp.c: contrtemp_update_setpoint, contrtemp_do_idle", "firmware/presets.c:40-100"]}
{"id": "C36", "title": "User settings stay in their ranges", "statement": "Starting from in-range settings, and until the next reset, presets and idle temperature stay within 0..480 C, the adjustment within +-99 C, gains within their limits, the active preset index below 6 and the boost mode below 3.", "quantifier": "all event histories", "why_tests_cant": "unbounded UI histories.", "anchors": ["firmware/menu.c: do_ramp_temp, do_ramp_k", "firmware/presets.c:40-100"]}
{"id": "C37", "title": "Iron button semantics", "statement": "With boost and idle enabled: pressing the iron button and releasing it within 1 s advances the boost mode cyclically (normal, boost1, boost2, normal); holding it for 1 s enters idle; pressing it while idle leaves idle and does not change the boost mode.", "quantifier": "all press durations and sampling schedules, all prior states", "why_tests_cant": "timing schedules.", "anchors": ["firmware/controller_temp.c: contrtemp_button_handler", "firmware/buttons.c: buttons_work"]}
{"id": "C38", "title": "Button events are well formed", "statement": "For each button the delivered events alternate press/release, 'held' events occur only between a press and its release, samples are taken at least one debounce period apart on average, and pins that are not buttons have no effect.", "quantifier": "all pin sequences and polling schedules", "why_tests_cant": "unbounded sequences.", "anchors": ["firmware/buttons.c: buttons_work, buttons_get_raw"]}
{"id": "C39", "title": "Menu navigation matches the documented structure", "statement": "Releasing SET walks exactly the documented chain of the menus enabled in the build and finally returns to the temperature display; UP/DOWN release in the temperature display enters preset selection; holding for 1 s enters preset change; nothing else changes the menu.", "quantifier": "all build configurations, all states and button events", "why_tests_cant": "2^6 build configurations, all are never compiled.", "anchors": ["firmware/menu.c: next_menu_state, menu_set_state, menu_button_handler, menu_work", "doc/menu.png"]}
{"id": "C40", "title": "Menu timeouts", "statement": "Preset selection, preset change and idle-temperature menus return to the temperature display 3 s after the last key event, the title screens advance after 1.5 s; the other menus never time out.", "quantifier": "all schedules of events and polls (poll gap < 29 s)", "why_tests_cant": "timing schedules.", "anchors": ["firmware/menu.c: menu_work, menu_set_state, menu_button_handler"]}
{"id": "C41", "title": "Heating is suspended while adjusting", "statement": "In every reachable state the temperature controller is enabled if and only if the menu is not in the sensor-adjust or PID-gain menus (and their title screens); while it is disabled the current set-point is zero.", "quantifier": "all event histories", "why_tests_cant": "UI histories.", "anchors": ["firmware/menu.c: menu_set_state", "firmware/controller_temp.c: do_set_enabled"]}
{"id": "C42", "title": "Value ramping only affects the visible item and stops on release", "statement": "A running ramp always belongs to the menu being shown; it stops when any of SET, MINUS, PLUS is released, on menu timeout and when the error state changes; without a running ramp menu_work changes no setting.", "quantifier": "all event histories", "why_tests_cant": "interleavings of several held buttons, timeouts and errors.", "anchors": ["firmware/menu.c: start_ramping, stop_ramping, menu_button_handler, menu_work"]}
{"id": "C43", "title": "Ramp acceleration schedule", "statement": "While a button stays held the item is stepped by exactly one increment at 0, 400, 600, 700, 750 ms and every 25 ms afterwards (relative to ramp start) provided the work function is polled, and never faster.", "quantifier": "all polling schedules", "why_tests_cant": "timing schedules.", "anchors": ["firmware/menu.c: menu_work, start_ramping"]}
{"id": "C44", "title": "Displayed number is the value", "statement": "The text produced for a temperature is the decimal representation of the value rounded to the nearest degree, clamped to -99..999 and right-aligned in three digits; the text produced for a gain shows the integer part and the rounded fraction; the six-byte text buffer is never overrun.", "quantifier": "all 24-bit values", "why_tests_cant": "domain size, buffer safety.", "anchors": ["firmware/menu.c: int_to_ascii_align_right, menu_put_temp, menu_put_fixpt"]}
{"id": "C45", "title": "Displayed text reaches the right segments", "statement": "display_show lights on each of the four digits exactly the segments of the corresponding character, with the decimal point taken from a following '.' unless forced, and blanks the remaining digits after the end of the string; distinct digits are distinguishable.", "quantifier": "all strings and forced-point settings", "why_tests_cant": "all strings.", "anchors": ["firmware/display.c: display_show, display_force_dp", "firmware/sseg.c: sseg_digit_set"]}
{"id": "C46", "title": "Multiplexing drives at most one digit and disturbs no other pin", "statement": "In every reachable state at most one digit multiplexer output is active, display code never changes the heater PWM pin, the button inputs/pull-ups or the analog pins.", "quantifier": "all event histories", "why_tests_cant": "register interleavings.", "anchors": ["firmware/sseg.c: mux_write, segment_write, sseg_init, sseg_exit", "firmware/display.c: display_work, display_enable"]}
{"id": "C47", "title": "Display and debug UART exclude each other", "statement": "Since they share pins, in every reachable main-loop state exactly one of display and UART transmitter is enabled, and SET cannot leave the debug menu while the UART is on.", "quantifier": "all event histories of debug builds", "why_tests_cant": "UI histories.", "anchors": ["firmware/debug_uart.c: debug_enable", "firmware/menu.c: menu_button_handler"]}
{"id": "C48", "title": "Error and heating indication", "statement": "After every menu_work the indicated error code is 1 if the current sensor is in emergency plus 2 if the temperature sensor is, and the heating dot equals (measured temperature < set-point); the screen is redrawn whenever one of these changes.", "quantifier": "all reachable states", "why_tests_cant": "state space.", "anchors": ["firmware/menu.c: menu_work, menu_update_display"]}
{"id": "C49", "title": "Settings are stored atomically with respect to power loss", "statement": "If power fails at any point of a settings store (including in the middle of programming any byte), the settings loaded at the next boot are either all the previously stored ones or all the new ones.", "quantifier": "all crash points, all store histories, all settings contents, all torn byte values", "why_tests_cant": "crash points x histories.", "anchors": ["firmware/settings.c: EE_READY_vect, settings_work, settings_init"]}
{"id": "C50", "title": "Stored settings survive reboot", "statement": "Once a store has finished and nothing was changed since, a reboot loads exactly the settings in use before it, for any number of stores (serial number and slot index wrap included).", "quantifier": "all store histories of any length", "why_tests_cant": "needs >256 stores to wrap the serial.", "anchors": ["firmware/settings.c"]}
{"id": "C51", "title": "A store captures one consistent snapshot", "statement": "The settings loaded after a reboot were all in use together at some instant, even when the user changes settings while a store is in progress.", "quantifier": "all interleavings of user changes with the EEPROM interrupt", "why_tests_cant": "interleavings.", "anchors": ["firmware/settings.c: EE_READY_vect, store_settings"]}
{"id": "C52", "title": "EEPROM write discipline and wear levelling", "statement": "The EEPROM interrupt writes only bytes of the slot being stored that differ from the new contents, never touches another slot, and successive stores use the slots in round-robin order so that each slot is rewritten once per N stores.", "quantifier": "all histories", "why_tests_cant": "wear counts over unbounded histories.", "anchors": ["firmware/settings.c: EE_READY_vect, settings_work"]}
{"id": "C53", "title": "Changes are coalesced and eventually stored", "statement": "After the last change of a burst a store starts at the first settings_work at least 1000 ms later and not before; a burst causes exactly one store.", "quantifier": "all schedules (poll gap < 31 s)", "why_tests_cant": "timing schedules.", "anchors": ["firmware/settings.c: store_settings, settings_work"]}
{"id": "C54", "title": "Boot scan stays inside the EEPROM array", "statement": "Searching the newest settings slot at boot terminates, reads only existing slots and yields an existing slot index.", "quantifier": "all EEPROM contents", "why_tests_cant": "2^4096 EEPROM images.", "anchors": ["firmware/settings.c: settings_init"]}
{"id": "C55", "title": "Any EEPROM content is safe to boot from", "statement": "Booting from an arbitrary EEPROM image never causes undefined behaviour.", "quantifier": "all EEPROM images", "why_tests_cant": "2^4096 images.", "anchors": ["firmware/settings.c: settings_init", "firmware/presets.c: presets_get_active_value"]}
{"id": "C56", "title": "The firmware never executes undefined behaviour", "statement": "From the factory EEPROM image, no sequence of timer ticks, ADC samples, EEPROM interrupts, button pin values, main-loop work items and power failures makes the firmware execute an arithmetic overflow, division by zero or out-of-bounds access.", "quantifier": "all event sequences of any length, all ADC codes, all pin values, all crash points", "why_tests_cant": "unbounded executions.", "anchors": ["firmware/main.c:65-140", "firmware/measure.c", "firmware/menu.c", "firmware/settings.c", "firmware/controller_temp.c", "firmware/controller_current.c", "firmware/pid.c", "firmware/fixpt.c"]}
{"id": "C57", "title": "Debug telemetry lines decode to what was reported", "statement": "Every line printed by the firmware decodes, with the parser of dumpcurves.py, to the same timestamp, item name and value.", "quantifier": "all 16-bit timestamps, all prefixes without blanks or colon, all 32-bit values", "why_tests_cant": "domain size.", "anchors": ["firmware/debug_uart.c: debug_print_int32, debug_print_str3", "firmware/dumpcurves.py"]}
{"id": "C58", "title": "Telemetry reports a value exactly when it changed", "statement": "debug_report_* emits a line if and only if the value differs from the last value given to it, so that a receiver connected from the start always knows the current value.", "quantifier": "all report sequences", "why_tests_cant": "unbounded sequences.", "anchors": ["firmware/debug_uart.c: debug_report_int32, debug_report_fixpt"]}
{"id": "C59", "title": "The 24-bit integer emulation used by the unit tests is exact", "statement": "The Int24/UInt24 classes used to run the firmware arithmetic on a host compute the same values as 24-bit two's-complement arithmetic for all operations used.", "quantifier": "all operand values", "why_tests_cant": "2^48 pairs; the tests trust this class.", "anchors": ["firmware/tests/fake/int24.h"]}
{"id": "C60", "title": "Crash atomicity without the EEPROM ring", "statement": "With the ring disabled in the build (CONF_EERING=0) a power failure during a store also yields either the old or the new settings.", "quantifier": "all crash points", "why_tests_cant": "configuration never tested.", "anchors": ["firmware/settings.c:110-249"]}
{"id": "C61", "title": "Presets can be stepped through in both directions", "statement": "In preset selection a PLUS release selects the next and a MINUS release the previous preset cyclically, PLUS then MINUS is the identity on the selection, preset values are unchanged by selecting, and the controller set-point follows immediately.", "quantifier": "all preset tables and active indices", "why_tests_cant": "state space.", "anchors": ["firmware/menu.c: menu_button_handler", "firmware/presets.c: presets_next, presets_prev"]}
{"id": "C62", "title": "The screen shows the state of the station", "statement": "After every main-loop pass the text held by the display is the picture of the current state: measured temperature with the mode symbol, error number, selected preset, idle temperature, adjustment or gain being edited, or the title of the menu; it is never stale.", "quantifier": "all reachable firmware states and all event interleavings", "why_tests_cant": "A missing redraw only shows for particular orders of events; the number of orders is unbounded.", "anchors": ["firmware/menu.c:92-297", "firmware/menu.c:637-716", "firmware/display.c:120-166"]}
{"id": "C63", "title": "Only current measurements drive the heater", "statement": "Every event other than a current measurement (and a reset) leaves the heater PWM unchanged, except that the PWM is off as long as an emergency flag is set.", "quantifier": "all reachable firmware states, all events", "why_tests_cant": "Requires examining every state the controllers, menus and interrupts can be in.", "anchors": ["firmware/controller_current.c:83-220", "firmware/controller_temp.c:127-260", "firmware/pwm_current.c:36-73"]}
{"id": "C64", "title": "The controlled and displayed temperature is the last plausible one", "statement": "At any time the temperature used by the controller and shown to the user is the temperature of the last plausible measurement since power-up (0 before the first).", "quantifier": "all executions", "why_tests_cant": "Depends on the whole history of measurements and menu actions.", "anchors": ["firmware/measure_temp.c:58-111", "firmware/controller_temp.c:171-188"]}
{"id": "C65", "title": "Cascade of the two controllers", "statement": "Every plausible temperature measured while heating is enabled runs the temperature PID exactly once with this temperature, and the current demand becomes the mapped PID output (0..250 C of output -> 0..5 A, more is 5 A), or zero above 480 C; between temperature results the demand is kept while the controller is on and the sensor works, and is zero otherwise.", "quantifier": "all reachable states, all events", "why_tests_cant": "The interaction of four modules for all histories cannot be enumerated by tests.", "anchors": ["firmware/controller_temp.c:111-182", "firmware/measure.c:204-308"]}
{"id": "C66", "title": "Averaging windows have the documented length", "statement": "A conversion closes the averaging window of a channel if and only if 50 ms (temperature) or 5 ms (current) have passed since the channel was selected, and nothing but a conversion closes it; conversions at most 32.7 s apart.", "quantifier": "all reachable states, all conversion times", "why_tests_cant": "16-bit timer wrap-around and arbitrary interleavings with the main loop.", "anchors": ["firmware/measure.c:183-202", "firmware/measure.c:270-308"]}
{"id": "C67", "title": "The complete user interface behaves like the documented automaton", "statement": "At every moment of every execution the menu being shown, all user settings, the boost and idle modes, the running ramp and the shown error are those of a small automaton over unbounded time that only knows the key samples, the clock and the sensor error state; no 16-bit timer wrap and no order of interrupts and work functions makes them differ, provided the work functions are polled in time.", "quantifier": "all build configurations with the ring journal, all event interleavings from power-up", "why_tests_cant": "Unbounded sequences of keys, polls, ticks and interrupts in all orders, with timers that wrap every 65 s.", "anchors": ["firmware/menu.c: menu_work, menu_button_handler, menu_set_state, start_ramping", "firmware/buttons.c: buttons_work", "firmware/controller_temp.c: contrtemp_button_handler", "firmware/timer.c: timer_expired, timer_arm, timer_add"]}
{"id": "C68", "title": "The measurement never stalls", "statement": "If conversions complete at least every A ms, at most F per ms, and measure_work is called at least every B ms, then every averaging window is closed and handled at most A+B ms after its nominal length, both channels deliver a result at least every 55+2A+2B ms, every timely event has a defined effect, the deadlines can always be met (no deadlock), the sample counter never overflows and the sensor time-out of C34 is exact without further assumption.", "quantifier": "all build configurations, all speed limits with F*(51+A+B) < 65535 and A+B <= 1000, all interleavings of all events from any power-up", "why_tests_cant": "Bounded response over unbounded executions and all interleavings of interrupts and work functions; tests see single schedules.", "anchors": ["firmware/measure.c:183-308", "firmware/timer.c:64-67"]}
{"id": "C69", "title": "The controlled temperature is fresh", "statement": "Under the limits of C68, if all temperature conversions of the last 105+3A+3B ms gave codes in a range lo..hi, then the mean code last delivered to the temperature controller is in that range; old samples never survive a channel change.", "quantifier": "all code ranges, all limits, all executions", "why_tests_cant": "Quantifies over all ranges and all histories of an unbounded execution.", "anchors": ["firmware/measure.c:183-308"]}
{"id": "C70", "title": "Over-temperature switches the heater off within one measurement cycle", "statement": "If all temperature codes of the last 105+3A+3B ms mean more than 480 and at most 500 degrees Celsius (for the adjustment in use) and the controller has been on, the heater PWM is off. If they mean more than 480 degrees, plausible or not, then after 3216+9A+9B ms the heater is off or the demand is zero with at most 0.5 A commanded.", "quantifier": "all code ranges and adjustments, all limits, all executions, all orders of plausible and implausible values", "why_tests_cant": "Interaction of averaging, plausibility time-out, emergency flags and main loop timing over unbounded executions.", "anchors": ["firmware/controller_temp.c:127-182", "firmware/controller_current.c:83-220", "firmware/measure_temp.c:58-111", "firmware/measure.c:204-268"]}
{"id": "C71", "title": "A broken temperature sensor stops the heater within bounded time, a repaired one is accepted", "statement": "If all temperature codes of the last 3216+9A+9B ms are implausible for every adjustment up to 99 degrees (for instance an open or shorted sensor: codes of at least 484 or at most 45), then the sensor error is set, the current demand is zero and at most 0.5 A is commanded, whatever the user does; if all codes of the last 105+3A+3B ms are plausible the error is not set.", "quantifier": "all code ranges, all limits, all executions", "why_tests_cant": "Worst-case reaction time over all interleavings and all states the failure may hit.", "anchors": ["firmware/measure.c:204-268", "firmware/controller_temp.c:235-256", "firmware/measure_temp.c:58-111"]}
{"id": "C72", "title": "The main loop itself guarantees everything the other properties assume", "statement": "On hardware where an iteration of the main loop, a conversion, the programming of an EEPROM byte and the service of its interrupt take bounded times (a store in all less than 1 s), every execution of the main loop with its work functions in the order of main.c, with any interrupts, keys, codes and power failures, is free of undefined behaviour, meets every assumption made elsewhere about the environment (conversions per window, no store started during a store), never blocks, serves the measurement as C68-C71 require and, if an iteration takes at most 5 ms, polls the keys and the menu so that the firmware always shows what the user interface automaton of C61/C62/C67 shows.", "quantifier": "all speeds within the limits, all builds, all unbounded executions, all interrupt timings, all power failures", "why_tests_cant": "Closes the gap between assumptions on an environment and the real caller; needs induction over all executions of the whole program.", "anchors": ["firmware/main.c:60-140", "firmware/settings.c:110-249", "firmware/measure.c:183-308", "firmware/buttons.c:61-131", "firmware/menu.c:500-640"]}
{"id": "C73", "title": "What the user has set survives power-off after a bounded time", "statement": "If PLUS and MINUS have not been read as pressed for 1010 + 4*pass + store time ms (with 5 ms passes and 5 ms per EEPROM byte: 1.35 s), then a power failure is harmless: the station comes up with exactly the settings it had, and these are the ones the user entered according to the user interface automaton.", "quantifier": "all executions of the main loop, all key sequences, all earlier power failures (torn stores included), all builds with and without the EEPROM ring", "why_tests_cant": "End-to-end property over keys, debouncing, menu, delayed store, interrupt-driven EEPROM writing and boot scan, for every history.", "anchors": ["firmware/settings.c:110-249", "firmware/menu.c:200-640", "firmware/buttons.c:61-131", "firmware/presets.c:40-100", "firmware/controller_temp.c:189-346"]}
{"id": "C74", "title": "With only the watchdog bounding the main loop the protections still act within bounded time", "statement": "If an iteration of the main loop takes at most 300 ms (the 250 ms watchdog with margin; a longer one is a reset), then in each run over-temperature (above 480, up to 500 degrees) for 1011 ms leaves the heater off, and an implausible sensor for 5330 ms leaves the sensor error set, the current demand zero and at most a tenth of the PWM commanded.", "quantifier": "all speeds within the limits, all executions, all code ranges, all resets", "why_tests_cant": "Worst case over all timings of an arbitrarily slow program.", "anchors": ["firmware/main.c:66-140", "firmware/measure.c:183-308", "firmware/controller_temp.c:127-256"]}
{"id": "C75", "title": "The temperature controller in operation is the PID law with the right gains, set-point and memory", "statement": "In every execution each temperature the enabled controller processes is exactly one step of the PID law of C09 with the stored gains of the boost mode in use, the set-point of C35, the memory left by the previous step and the elapsed time; the output converted to a current becomes the set-point of the current controller. Between steps the memory is kept or cleared; it is cleared whenever the gains or the enabling change, by nothing else while the controller is on, and it is clear after power-up and while the controller is off.", "quantifier": "all builds, all reachable states, all events, all power failures", "why_tests_cant": "Unit tests exercise pid.c alone; that the running firmware passes it the right gains, set-point, time and memory in every state needs an invariant over all executions.", "anchors": ["firmware/controller_temp.c:127-346", "firmware/pid.c:30-140", "firmware/menu.c:60-200", "firmware/settings.c:60-110"]}
{"id": "C76", "title": "The current controller in operation is the PID law on the right measured value", "statement": "In every execution each result of the current channel without an emergency is exactly one step of the PID law with the fixed gains on the newest plausible current (or, when the measured current falls below the cut-off, on the model of the low-pass started from it, see C27); the output, limited to 2 A below 100 C, is what the PWM is set to. In an emergency, and at any other event, memory, source and output are unchanged.", "quantifier": "all builds, all reachable states, all ADC codes, all histories", "why_tests_cant": "Needs the whole history of filter, plausibility check and emergencies of the running firmware.", "anchors": ["firmware/controller_current.c:60-260", "firmware/measure.c:183-308", "firmware/measure_current.c:30-90", "firmware/pid.c:30-140"]}
{"id": "C77", "title": "What the eye sees: the right character on each digit, no ghosts, no flicker", "statement": "Whenever display_work changes the pins it drives exactly the digit after the one driven before and lights exactly the segments of its character of the text and the lamp drawn; while it writes the port registers one after the other no digit is driven before the registers have their final values; no other event changes the pins but to switch all digits off; and if display_work is called in every millisecond each digit is driven at least every 4 ms.", "quantifier": "all builds, all reachable states, all executions", "why_tests_cant": "Intermediate register states and the phase of multiplexing over unbounded executions are invisible to unit tests.", "anchors": ["firmware/sseg.c:40-260", "firmware/display.c:60-190"]}
{"id": "C78", "title": "The debug output does not disturb the firmware", "statement": "With the debug output included in the model (every debug_report/debug_print call of the controllers, the measurement and the menu) each event is defined exactly when it is without, and leaves the same state; every execution has its execution with output. Builds without CONF_DEBUG send nothing, and with the debug mode off nothing is sent before a greeting.", "quantifier": "all builds, all reachable states, all events, all values of the report cells", "why_tests_cant": "The unit tests stub the debug functions; that the hooks are pure observers and never overflow for any value reached is a statement about all executions.", "anchors": ["firmware/debug_uart.c:84-260", "firmware/controller_current.c:60-160", "firmware/controller_temp.c:76-182", "firmware/pid.c:40-94", "firmware/measure.c:204-268", "firmware/menu.c:550-730"]}
{"id": "C79", "title": "The receiver shows the state of the controllers", "statement": "Whatever bytes the receiver got before, while the debug mode is on it shows for every reported item (all but tb) the last value reported, or the 0 of its own reset if the value has not changed since the last greeting; the values reported are the temperature and the current given to the controllers, the output of the current controller and its source of feedback, the mean of each measurement window, the filtered current code and the set values computed.", "quantifier": "all builds with CONF_DEBUG, all executions, all noise before power-up", "why_tests_cant": "Relates the Python receiver to the state of the C program over unbounded executions through change-only reporting.", "anchors": ["firmware/debug_uart.c:111-231", "dumpcurves.py:59-183", "firmware/controller_current.c:66-169", "firmware/controller_temp.c:59-182", "firmware/measure_current.c:44-73"]}
{"id": "C80", "title": "The amount of debug output is bounded", "statement": "A call of measure_work sends at most 245 bytes, menu_work 40, buttons_work 320, the initialization 52 and every other event nothing; each string is the greeting or a line of 9 to 25 bytes. At 9600 baud this bounds the time the main loop is held up.", "quantifier": "all builds, all reachable states, all events", "why_tests_cant": "The length depends on which values change and on their decimal length in every reachable state.", "anchors": ["firmware/debug_uart.c:84-231", "firmware/pid.c:40-94"]}
{"id": "C81", "title": "Interrupts inside the work functions break no invariant", "statement": "Timer, converter and EEPROM interrupts in any number at any of the points where measure_work, menu_work or buttons_work read the clock lead to no undefined behaviour, and in all states reached this way: the set-point is the one demanded by the settings and the idle mode, the settings are in range, the temperature controller is suspended exactly in the adjustment menus, at most one multiplexer pin is active and the fixed pins keep their function, display and transmitter exclude each other, the screen shows what the menu demands, a measurement is handed over exactly once, and the temperature and current kept are plausible.", "quantifier": "all builds, all executions with any interrupts at any points inside the three work functions", "why_tests_cant": "The unit tests have no interrupts; the interleavings are unboundedly many.", "anchors": ["firmware/measure.c:183-308", "firmware/menu.c:368-743", "firmware/buttons.c:46-102", "firmware/controller_temp.c:127-346", "firmware/controller_current.c:83-169", "firmware/timer.c:29-93", "firmware/settings.c:110-178"]}
{"id": "C82", "title": "The heater is off in an emergency, also with interrupts inside the work functions", "statement": "Whatever interrupts happen inside the work functions, the heater PWM is off in every state with an emergency flag, and from the measurement of a temperature above 480 degrees until an acceptable one is measured.", "quantifier": "all builds, all executions with any interrupts at any points inside the three work functions", "why_tests_cant": "A safety property over all interleavings of interrupts and main loop.", "anchors": ["firmware/measure.c:183-308", "firmware/menu.c:368-743", "firmware/buttons.c:46-102", "firmware/controller_temp.c:127-346", "firmware/controller_current.c:83-169", "firmware/timer.c:29-93", "firmware/settings.c:110-178"]}
{"id": "C83", "title": "Control of the heater current with interrupts inside the work functions", "statement": "Whatever interrupts happen inside the work functions: only a processed current measurement changes the heater PWM (or it is switched off); only a processed temperature changes the demanded current, to the rounded output of the temperature PID (or it becomes 0); the temperature used is the last plausible one measured; the current is limited to 2 A while that is below 100 degrees or missing and to 0.5 A after a sensor failure.", "quantifier": "all builds, all executions with any interrupts at any points inside the three work functions", "why_tests_cant": "Relates histories of measurements to the PWM over all interleavings.", "anchors": ["firmware/measure.c:183-308", "firmware/menu.c:368-743", "firmware/buttons.c:46-102", "firmware/controller_temp.c:127-346", "firmware/controller_current.c:83-169", "firmware/timer.c:29-93", "firmware/settings.c:110-178"]}
{"id": "C84", "title": "The heater pin follows the commanded current", "statement": "With timer 1 running freely beside the firmware: no current flows once the compare register has been at its maximum for one PWM period (262 ms), in particular once an emergency or a temperature above 480 degrees has lasted that long; over any period the heater is on for exactly 4*(8191-OCR1A) units of 8 us if the register was constant for two periods, and every bound on the commanded duty cycle (2/5 before the first plausible temperature, 1/10 after a sensor failure) is a bound on the time the pin is on. (That the pin reacts at once is false.)", "quantifier": "all builds, all executions with any interrupts at any points inside the work functions, every position of the timer", "why_tests_cant": "The pin is driven by hardware running asynchronously to the program; the tests do not contain it.", "anchors": ["firmware/pwm_current.c:40-73", "firmware/timer.c:95-107", "firmware/controller_current.c:83-169"]}
{"id": "C85", "title": "From the sensor to the heater current", "statement": "With a main loop guarded by the watchdog: 1.3 s after the last conversion of a temperature of at most 480 degrees no current flows through the heater; 5.9 s after the last plausible conversion current flows for at most a tenth of any PWM period.", "quantifier": "all builds, all executions of the main loop on hardware within the stated speeds, every position of the timer", "why_tests_cant": "A bound on a reaction time over all executions, through the converter, the main loop, both controllers and the timer hardware.", "anchors": ["firmware/main.c:68-137", "firmware/measure.c:183-308", "firmware/pwm_current.c:40-73", "firmware/timer.c:95-107", "firmware/controller_current.c:83-169"]}
{"id": "C86", "title": "A cold iron is heated", "statement": "If for two measuring cycles the set-point was constant, the gains at least the factory gains, the controller on and all converted temperatures plausible and at least 187 degrees below the set-point (their spread less than their distance to it), the full 5 A are demanded; one cycle later, if the measured current never was above 3.4 A, no emergency is active and at least 2 A are commanded.", "quantifier": "all builds, all executions on hardware within the stated speeds, all set-points, gains and temperatures meeting the condition", "why_tests_cant": "A liveness property over all executions, through the converter, both controllers, the low pass filter and the current model.", "anchors": ["firmware/controller_temp.c:60-260", "firmware/controller_current.c:83-220", "firmware/pid.c:60-140", "firmware/measure_current.c:30-110"]}
{"id": "C87", "title": "Averages contain only conversions of their own input", "statement": "Every conversion that enters an average was made of the input of the channel being measured (temperature ADC1, current ADC2, reference AREF) and was started after the converter had been switched on for this window, whatever conversions complete while the interrupt handler runs; the converter is off without a pending interrupt while a result waits to be handled and converts continuously otherwise.", "quantifier": "all builds, all executions, all interleavings of conversions, interrupts and the main loop", "why_tests_cant": "Depends on the interleaving of the converter hardware with the interrupt handler and the main loop; the tests do not contain the registers.", "anchors": ["firmware/measure.c:142-202", "firmware/measure.c:270-334", "firmware/measure_current.c:105-119", "firmware/measure_temp.c:85-111"]}
{"id": "C88", "title": "An iron hotter than its set-point is not heated", "statement": "If for two measuring cycles the set-point was constant, the gains at least the factory gains, the controller on and all converted temperatures plausible and at least 54 degrees above the set-point (their spread less than their distance to it), no current is demanded; one cycle later the commanded duty is at most a tenth of the maximum, whatever the current sensor reports.", "quantifier": "all builds, all executions on hardware within the stated speeds, all set-points, gains, temperatures meeting the condition and all current readings", "why_tests_cant": "A liveness property over all executions, through the converter, both controllers, the low pass filter and the current model.", "anchors": ["firmware/controller_temp.c:60-260", "firmware/controller_current.c:83-220", "firmware/pid.c:60-140"]}
{"id": "C89", "title": "The simulator's serial port loses nothing", "statement": "The ring buffer returns what was written, in order and exactly once, while at most 4095 bytes are unread (with 4096 everything is lost); the firmware running in the simulator never has more than 657 bytes unread, the next reading gets all of them, and it runs exactly as without the simulator.", "quantifier": "all sequences of writes and readings; all builds and all simulated executions (work functions in main loop order between readings, interrupts anywhere, any keys and conversions)", "why_tests_cant": "Index arithmetic over unbounded histories, and a bound on the output of all executions.", "anchors": ["firmware/simulator/simulator.cxx:68-71,259-266,423-438", "firmware/simulator/pyxytronic.cxx:107-117", "firmware/simulator/xytronic_simulator.py:67-71"]}
{"id": "C90", "title": "The simulator decodes the debug output however it is cut", "statement": "For every sequence of greetings and values and every way of cutting the bytes into readings, each variable has the value given by the lines taken so far and its divisor, and no error is printed. One line per non-empty reading is taken, so with two lines per reading only the first half is ever shown.", "quantifier": "all message sequences, all values, times and cells, all cuts into chunks", "why_tests_cant": "Unboundedly many streams and cuts, including cuts inside the end of a line.", "anchors": ["firmware/simulator/xytronic_simulator.py:129-294", "firmware/debug_uart.c:60-200"]}
{"id": "C91", "title": "What the simulator shows of the running firmware", "statement": "In every simulated execution the variables show the messages of a beginning of what was sent, at most one line per non-empty reading, without errors; what is shown of a cell that no pending message is about is the firmware's current value; and once anything was sent at least one message is pending: the decoder is never up to date.", "quantifier": "all builds, all simulated executions", "why_tests_cant": "Relates two programs over all interleavings of firmware and readings.", "anchors": ["firmware/simulator/xytronic_simulator.py:67-71,129-294", "firmware/debug_uart.c:60-231", "firmware/main.c:77-96"]}
{"id": "C92", "title": "The simulator's conversions agree with the firmware's", "statement": "Reading a fixed point setting is exact and writing it rounds to the nearest value, halves away from zero; a temperature set between 150 and 1485 degrees is measured within 0.829 degrees, a current up to 17 A within 0.0093 A; the heating current shown is the commanded one within one timer step.", "quantifier": "all 24-bit values; all rational temperatures and currents in the ranges; all commanded currents", "why_tests_cant": "All values of two scalings that must be inverse to each other across two languages.", "anchors": ["firmware/simulator/xytronic_simulator.py:75-165", "firmware/simulator/pyxytronic.cxx:69-105", "firmware/measure_temp.c:90-120", "firmware/measure_current.c:105-130", "firmware/pwm_current.c:40-60"]}
{"id": "C93", "title": "The simulator's access to the settings reads and writes exactly the named number", "statement": "A write of a legal value changes the named number of the settings and no other, is in force at once, is saved one second later and leaves the heater alone; a read returns the number; with such accesses between its steps the firmware stays free of undefined behaviour. A read is not without effect: reading a gain clears the memory of the temperature controller, reading the idle temperature orders a save. Values are not checked.", "quantifier": "all runs of the simulated firmware with reads of any name and legal writes in between; all names; all legal values; all rational temperatures of the GUI from 0 to 480 degrees", "why_tests_cant": "Every name at every moment of every run; the effects on the running controller show only in its memory.", "anchors": ["firmware/simulator/simulator.cxx:462-514", "firmware/simulator/xytronic_simulator.py:37-85", "firmware/simulator/xytronic_simulator_gui.py:66-69", "firmware/controller_temp.c:102-109", "firmware/controller_temp.c:189-215"]}
{"id": "C94", "title": "The EEPROM registers are used as the data sheet demands", "statement": "The register accesses of settings.c make the EEPROM do exactly what the storage model says: a cell is programmed if and only if the byte of the settings differs from it, at the right address, with EEMPE set at most three cycles before EEPE; no register is changed and no cell is read while a byte is being programmed, whenever the store is started, the interrupt is served or the device is reset; boot waits for a byte still being programmed and reads the same settings that the storage model finds.", "quantifier": "all executions of the whole firmware with the EEPROM hardware beside it: any order of events, any moment of the interrupt, of power failures and of watchdog resets; any access time of up to three cycles; any register contents at boot", "why_tests_cant": "The test build replaces the EEPROM functions by stubs; the four-cycle window and the busy state exist in the hardware only.", "anchors": ["firmware/settings.c:110-128", "firmware/settings.c:130-167", "firmware/settings.c:180-209", "firmware/settings.c:211-249"]}
{"id": "C95", "title": "A current sensor that reads too high stops the heater within bounded time, a low one is not noticed", "statement": "If all codes of the current channel of the last 3000 ms + slow_window + 99 cycles are above 5 A (296 and up), or those of the last 3000 ms + slow_window + 15 cycles are at least 512, then the current-sensor error is set and the heater is off, whatever the filter held before and whatever the user does; in general after n+2 cycles when n means of these codes bring the low-pass filter above 5 A. If all codes are plausible and the filter has settled the error is not set; so a sensor that shows no current at all while the heater is driven is never reported.", "quantifier": "all code ranges, all limits of conversion and polling delays, all executions since any power-up", "why_tests_cant": "Worst case of the settling of the filter from any history, of the alternation of the channels and of the plausibility timer over all interleavings.", "anchors": ["firmware/measure_current.c:53-101", "firmware/filter.c:25-37", "firmware/measure.c:204-268", "firmware/controller_current.c:209-220"]}
{"id": "C96", "title": "A persistent deviation from the set-point is corrected", "statement": "While the tip stays on one side of the set-point (the spread of the measured temperatures being less than the distance), the demand of the temperature controller moves against the deviation with every run, at a rate proportional to it: below the set-point, k+1 cycles later, at least min(5 A, (min(80, k*j - 30) + 1.5*distance)/50 A) is demanded, above it at most (max(-30, 80 - k*j) - 1.5*distance)/50 A and finally nothing, and the heater rests; j = floor((19*distance + 544)/1024) units of 1/64 degree (resp. 479 instead of 544), i.e. any deviation of 0.46 degrees or more is corrected in bounded time. Smaller deviations are not integrated: from 0.44 degrees above to 0.39 below the integrator does not move.", "quantifier": "all set-points, boost modes and gains not less than the factory gains, all temperature ranges, all limits of conversion and polling delays, all executions since any power-up, any number of cycles", "why_tests_cant": "Induction over the runs of the controller with rounding, limits and time steps over all interleavings; the settling takes minutes for small deviations.", "anchors": ["firmware/pid.c:33-95", "firmware/controller_temp.c:127-190", "firmware/measure.c:204-268"]}
{"id": "C97", "title": "The reaction times hold with interrupts inside the work functions", "statement": "Also when timer, converter and EEPROM interrupts happen inside measure_work, menu_work and buttons_work: windows are closed and handled in time and each channel gives a result in every cycle; the temperature in use is never older than one cycle and one window; the heater is off after that time above 480 degrees (plausible); after 3001 ms plus one poll, one window and three cycles with the temperature above 480 degrees (plausible or not) or with the sensor lost, the heater is off or the demand is zero with a duty of at most 1/10; plausible temperatures end the emergency within one cycle and one window. Every event that is on time has a defined effect.", "quantifier": "all limits of conversion and polling delays, all code ranges and adjustments, all executions since any power-up with any interrupts that are on time at any points inside the work functions", "why_tests_cant": "Unboundedly many interleavings; the clock advances between the reads of one work function, so that ages, windows and time-outs are computed from different times.", "anchors": ["firmware/measure.c:183-308", "firmware/measure_temp.c:58-111", "firmware/controller_temp.c:127-190", "firmware/controller_current.c:83-220", "firmware/timer.c:29-93"]}
{"id": "C98", "title": "The arithmetic that the unit tests and the simulator execute is that of the target", "statement": "fixpt.c, scale.c, filter.c, pid.c and timer.c compiled by the host compiler (32-bit int, 24-bit numbers as C++ classes with their own operators and conversions) give the same results as on the target (16-bit int, built-in 24-bit numbers), and are undefined in the same cases; only scale() is defined on the host for arguments whose difference overflows on the target.", "quantifier": "all 24-bit fixed-point arguments, all PID states, all 16-bit raw values and timers, all filter buffers and shifts", "why_tests_cant": "The tests run on the host only; whether their result holds for the target is exactly what they cannot see.", "anchors": ["firmware/tests/fake/int24.h:1-410", "firmware/tests/Makefile:1-35", "firmware/fixpt.c:25-245", "firmware/scale.c:36-165", "firmware/filter.c:25-51", "firmware/pid.c:40-94", "firmware/timer.c:29-89"]}
{"id": "C99", "title": "The user interface follows its automaton with interrupts inside the work functions", "statement": "Also when timer, converter and EEPROM interrupts happen inside measure_work, menu_work and buttons_work, the firmware's menu, ramp, error number, debug switch, idle and boost mode and settings agree after every event with an automaton that adds nothing to the one of the documentation but delays inside the polls, as long in total as the time that really passed; and time limits, ramp steps, key samples and the long press of the iron key are never late by more than the time since the beginning of the last poll (at most 25 ms and 10 ms).", "quantifier": "all builds, all histories since any power-up in which menu_work begins at least every 25 ms and buttons_work at least every 10 ms, with any interrupts at any points inside the work functions", "why_tests_cant": "Unboundedly many interleavings; one poll reads the clock several times and a tick between two reads must not make a menu, a ramp and a key disagree about the time.", "anchors": ["firmware/menu.c:368-715", "firmware/buttons.c:89-122", "firmware/controller_temp.c:263-345", "firmware/timer.c:29-93", "firmware/presets.c:32-96"]}
{"id": "C100", "title": "Time while the debug output is on", "statement": "Every byte of the debug output reaches the wire in order and every wait for the transmitter ends. Without output the firmware counts one tick every 8064 CPU cycles exactly. A line is sent with interrupts disabled: a line of n bytes takes at least n - 2 frames of 9152 cycles, in which at most one tick is counted, so it costs at least n - 3 ticks; altogether the clock never runs ahead and lags by at most one frame time for each byte and each line sent. The time stamps of the output are therefore not the time.", "quantifier": "all sequences of code, critical sections, lines and greetings, all durations within the stated limits", "why_tests_cant": "The simulator has no UART timing and no interrupts during transmission; the loss depends on the alignment of lines, frames and compare matches.", "anchors": ["firmware/debug_uart.c:45-109", "firmware/debug_uart.c:233-249", "firmware/timer.c:28-46", "firmware/timer.c:91-104", "firmware/util.h:179-195"]}
{"id": "C101", "title": "The tip cannot overheat (closed loop)", "statement": "With the iron in the loop - a tip whose temperature rises by at most a given rate, that stops rising a given time after the heater went off, and a sensor with a bounded error - the tip never gets hotter than 480 degrees plus the sensor error plus what it gains during the reaction time of the firmware (one measurement cycle, one measurement window, one PWM period) and its own lag, provided that sum is still inside the plausible range of the sensor (500 degrees). This holds for every set point and preset, every action on the keys that leaves the control on, every load and every current sensor value.", "quantifier": "all build configurations, all speeds of the main loop the watchdog allows, all irons within the assumptions, all interleavings of units of timer 1, ticks, conversions and passes of the main loop", "why_tests_cant": "The maximum depends on the alignment of measurement windows, main loop, PWM and the thermal behaviour of the iron; a test sees one iron and one alignment, and testing it for real means overheating the station.", "anchors": ["firmware/controller_temp.c", "firmware/controller_current.c", "firmware/measure.c", "firmware/measure_temp.c", "firmware/main.c"]}
{"id": "C102", "title": "The pins between two register writes", "statement": "After every single write to a port register between reset and the main loop (any EEPROM contents, any keys held) nothing is lit, the port does not turn the heater on, no input pin is driven and transmitter and display do not share PD1. Switching the display on lights nothing; switching it off (debug menu) lights all segments of the digit being driven between the first and the second write, and nothing after any other, and the transmitter is switched on only when the display has left its pin. When the transmitter is switched off it may keep the shared pin for up to two frames (18304 cycles), which the firmware does not wait for.", "quantifier": "all builds, all EEPROM contents, all reachable states, all executions of the transmitter", "why_tests_cant": "The intermediate states last for single CPU cycles and the pending bytes depend on the alignment of line, main loop and key; neither the simulator nor the unit tests have ports or a transmitter.", "anchors": ["firmware/sseg.c:201-238", "firmware/display.c:168-197", "firmware/debug_uart.c:33-43", "firmware/debug_uart.c:210-253", "firmware/pwm_current.c:54-73", "firmware/main.c:43-60", "firmware/buttons.c:124-131"]}
{"id": "C103", "title": "The simulator's circuits follow their physics for steps of any length", "statement": "The PWM generator of the simulator is at every step the wave of its frequency and duty cycle, however the time is cut into steps, as long as no step is longer than the on or the off part of a cycle, and loses no cycle; duty 0 is never on, duty 1 always from the first step on. It fails for coarser steps. The capacitor voltage of the RC element never overshoots the input and does not depend on how the time is cut into steps; the current obeys Ohm's law. The divided voltages add up to the input and are to each other as the resistors.", "quantifier": "for all frequencies, duty cycles, all sequences of time steps of varying length, all resistors, decay factors, voltages and states (over the rationals)", "why_tests_cant": "Sequences of steps are unbounded and of arbitrary lengths; a test sees a few regular ones, and the coarse steps that lose the wave are accepted silently.", "anchors": ["firmware/simulator/circuits/pwm.py:25-72", "firmware/simulator/circuits/rcnet.py:33-69", "firmware/simulator/circuits/voltagedivider.py:37-47"]}
{"id": "C104", "title": "Critical sections of the firmware hold in the simulator", "statement": "In the simulator interrupt handlers run in a thread of their own. For every schedule of the two threads and every sequence of irq_disable, irq_enable, irq_disable_save and irq_restore: after the first return from one of them instructions of interrupt handlers are executed only while the interrupt flag of the device would be set, and no handler is unfinished while it is clear; the firmware never waits for ever (bounded number of turns of the other thread); pending interrupts are served when the flag is set. Before the first of these calls handlers run though the flag is clear.", "quantifier": "for all schedules of the two threads, all calls of the firmware, all lengths of the handlers", "why_tests_cant": "The interleavings are unbounded in number and the wrong ones (a stale flag read between the two writes of the other thread) take a window of nanoseconds.", "anchors": ["firmware/simulator/simulator.cxx:147-212", "firmware/simulator/simulator.cxx:394-421"]}
{"id": "C105", "title": "The simulated clock keeps the system time and conversions belong to their input", "statement": "The simulated firmware's clock never runs faster than a forward running system time, is slower at most by the factor of the longest distance of two iterations of the I/O thread, exact with one iteration in each millisecond; it runs ahead if the system time is set back. Every simulated conversion takes one millisecond. Values are taken for that of the input they were converted from, in every interleaving in which the main thread does nothing between the halves of simulate_adc; otherwise there is an interleaving in which a value of one input is taken for one of the next.", "quantifier": "for all sequences of system times and suspensions, all interleavings of the two threads", "why_tests_cant": "It depends on the times at which two threads run; the wrong interleaving needs a suspended interrupt at the end of a conversion and a switch in a window of nanoseconds.", "anchors": ["firmware/simulator/simulator.cxx:277-421", "firmware/measure.c:150-203", "firmware/measure.c:266-308"]}
{"id": "C106", "title": "The guarantees of the settings storage hold inside the whole firmware", "statement": "However the main loop, the menus, the buttons, the temperature adjustment and the interrupts are interleaved, also with interrupts inside the work functions, the settings and the EEPROM are always in a state the storage module reaches on its own, so its guarantees carry over: every change leaves an order to store, only settings_work takes an order back or moves the ring, a due store can always be completed and is loaded by every later power-up, a power failure with nothing pending changes no setting, and no event writes an EEPROM cell outside the slot of the store.", "quantifier": "all configurations with the EEPROM ring, all reachable states of the firmware with interrupts at any point inside measure_work, menu_work and buttons_work, all events", "why_tests_cant": "the callers of the storage are spread over five modules and the interrupts can fall between the change of a setting and the order to store it.", "anchors": ["firmware/settings.c", "firmware/presets.c", "firmware/controller_temp.c", "firmware/menu.c", "firmware/measure_temp.c"]}
{"id": "C107", "title": "What has been set is stored in bounded time, with interrupts inside the work functions", "statement": "If programming a byte, serving the EEPROM interrupt and reaching the next settings_work take no longer than given times (64 bytes in less than a second, settings_work at least every 32 s), then no store begins while another is running, and the settings survive every power failure later than 1000 ms plus one call of settings_work plus 64 bytes after the last change, wherever interrupts fall inside the work functions. The deadlines can always be met. A power failure 950 ms after a change loses it.", "quantifier": "all deadlines, all configurations with the EEPROM ring, all executions with interrupts at any point, any length, any number of power failures", "why_tests_cant": "an unbounded race between user changes, the 16-bit timer, the interrupt-driven writer and power failures.", "anchors": ["firmware/settings.c", "firmware/timer.c", "firmware/main.c", "firmware/presets.c", "firmware/menu.c"]}
{"id": "C108", "title": "The table written by dumpcurves.py holds what the firmware said", "statement": "The file written by dumpcurves.py (formatting with %d and %f, IEEE double precision arithmetic included) can be read back by any reader of decimal numbers and separators: its titles are the twelve columns, and it has one row for each known value said since the last greeting, with the time stamp, states, converter codes and temperatures exact and the currents to the nearest millionth of an ampere, from which the integer of the firmware is recovered uniquely; in particular, of the running firmware, the last row has the temperature of the controller exactly.", "quantifier": "all sequences of messages of the firmware, all 32-bit values, any noise before a greeting, all executions of the firmware with the debug output on", "why_tests_cant": "2^32 values per cell pass through two roundings (binary quotient, decimal output) with ties for every second current value; all sequences of lines and all executions of the firmware", "anchors": ["firmware/dumpcurves.py:40-56", "firmware/dumpcurves.py:59-119", "firmware/dumpcurves.py:121-183"]}
{"id": "C109", "title": "A current sensor that reads too high stops the heater within bounded time also when interrupts hit the work functions", "statement": "Timer, converter and EEPROM interrupts may occur inside measure_work, menu_work and buttons_work at every point where these read the clock. If then all codes of the current channel of the last 3000 ms + l_poll + slow_window + 99 cycles are above 5 A (296 and up), or those of the last 3000 ms + l_poll + slow_window + 15 cycles are at least 512, the current-sensor error is set and the heater is off; in general after n+2 cycles when n means of these codes bring the low-pass filter above 5 A. If the settled filter shows plausible codes the error is not set.", "quantifier": "all code ranges, all limits of conversion and polling delays, all executions since any power-up with any interrupts inside the work functions", "why_tests_cant": "The plausibility timer reads the clock twice inside measure_work; the worst case is over all places of interrupts, all filter histories and all alternations of the channels.", "anchors": ["firmware/measure.c:204-268", "firmware/measure_current.c:53-101", "firmware/filter.c:25-37", "firmware/controller_current.c:209-220", "firmware/timer.c:33-60"]}
{"id": "C110", "title": "An iron hotter than its set-point is not heated, also when interrupts hit the work functions", "statement": "Timer, converter and EEPROM interrupts may occur inside measure_work, menu_work and buttons_work at every point where these read the clock, so the time step of the temperature controller is not the time between two results. If then the controller has been on, the set-point W and the gains kp >= 1.5, ki, kd >= 0 have been in use and all codes of the temperature channel have meant vlo..vhi (54 degrees or more above W, spread less than the distance to W, at most 500 degrees) for two cycles and a window, the demanded current is 0; one cycle later at most a tenth of the maximum is commanded, whatever the current sensor reports. The executions without interrupts inside the work functions are included.", "quantifier": "all builds, deadlines (limits_ok), executions since a power-up with any placement of the interrupts, set-points, gains of at least the factory kp, temperatures and times", "why_tests_cant": "The controller reads the clock inside the handling of a result, at a place that an interrupt may precede or follow; each placement gives another time step and another derivative term, over unboundedly many earlier histories of the integrator.", "anchors": ["firmware/controller_temp.c:60-260", "firmware/controller_current.c:83-220", "firmware/pid.c:60-140", "firmware/measure.c", "firmware/measure_temp.c"]}
{"id": "C111", "title": "A cold iron is heated, also when interrupts hit the work functions", "statement": "Timer, converter and EEPROM interrupts may occur inside measure_work, menu_work and buttons_work at every point where these read the clock. If then the controller has been on, the set-point W and the gains kp >= 1.5, ki, kd >= 0 have been in use and all codes of the temperature channel have meant vlo..vhi (187 degrees or more below W, spread less than the distance to W) for two cycles and a window, the demanded current is the full 5 A and there is no over-temperature emergency. If no code of the current channel has been above 203 (about 3.4 A) since power-up, one cycle later there is no emergency at all and at least 2 A are commanded. No placement of the interrupts leaves a cold iron cold.", "quantifier": "all builds, deadlines (limits_ok), executions since a power-up with any placement of the interrupts, set-points, gains of at least the factory kp, temperatures, current codes up to 203 and times", "why_tests_cant": "Each placement of an interrupt in the handling of a result gives another time step to both controllers; the current controller may run on the measured current, its model or the way back to the measured one, after unboundedly many earlier histories.", "anchors": ["firmware/controller_temp.c:60-260", "firmware/controller_current.c:83-220", "firmware/pid.c:60-140", "firmware/measure.c", "firmware/measure_current.c", "firmware/measure_temp.c"]}
