(** * Safety and state properties of the whole firmware (C24-C26, C28-C31, C35, C36, C41, C46, C47, C55, C56, C63-C65)

    [reach C y]: the firmware built with configuration [C] is in state [y] after power-up with the
    factory EEPROM image and any sequence of timer ticks, converter samples, EEPROM interrupts, button
    levels, main loop work items and power failures. *)
From Coq Require Import ZArith List Bool Lia.
From Verif Require Import Base MConf MTimer MPid MPwm MCurr SpecNum SpecCurr MSettings SpecSettings MSseg MDisplay MState MTemp MMeas
  MMenu MMain SpecDisplay SpecSys SpecRun PSettingsEx Trace PSysSafe PSysProp PSysTrace PDemand.
Import ListNotations.
Open Scope Z_scope.

(** C24: the firmware uses the current controller only as C24_current_controller_safe allows. *)
Theorem C24_firmware : forall C y, build_conf C -> reach C y -> cc_driven (y_now y) (y_cc y).
Proof. exact sys_driven. Qed.
Print Assumptions C24_firmware.

(** C25: no heater current in any state with an emergency flag. *)
Theorem C25_emergency_off : forall C y, build_conf C -> reach C y -> cc_emerg (y_cc y) <> 0 -> pwm_off y.
Proof. exact sys_emerg_off. Qed.
Print Assumptions C25_emergency_off.
(** The current sensor has failed while 5 A are demanded. *)
Example C25_emergency_ex : exists y, reach conf_m88p y /\ cc_emerg (y_cc y) = 1 /\ p_setpoint (cc_pid (y_cc y)) = 3200.
Proof. exact case25. Qed.

(** C26: at most 2 A of 5 A commanded while the last plausible temperature is below 100 degrees. *)
Theorem C26_firmware : forall C y o e y', build_conf C -> last_good C y o ->
  (o = None \/ exists v, o = Some v /\ v < 100 * 64) -> result y e 0 -> step C y e = Some y' -> duty_at_most y' 2 5.
Proof. exact sys_restricted. Qed.
Print Assumptions C26_firmware.
Example C26_firmware_ex : exists y v, last_good conf_m88p y (Some v) /\ v < 100 * 64.
Proof. exact case26. Qed.

(** C28: over-temperature.  The first theorem covers the whole time from the too hot measurement to the
    next acceptable one, the second the measured code. *)
Theorem C28_over_temperature : forall C y, build_conf C -> too_hot C y -> pwm_off y.
Proof. exact sys_too_hot. Qed.
Print Assumptions C28_over_temperature.
Theorem C28_measured : forall C y e y' v, build_conf C -> reach C y -> result y e 1 -> t_enabled (y_ct y) = true ->
  step C y e = Some y' -> temp_of_code C (s_adj (x_cache (y_set y))) (mean_code y) v -> 480 * 64 < v <= 500 * 64 ->
  too_hot C y' /\ pwm_off y'.
Proof. exact sys_over_temp. Qed.
Print Assumptions C28_measured.
(** The heater was fully on before. *)
Example C28_ex : exists y y', reach conf_m88p y /\ step conf_m88p y EMeasure = Some y' /\ too_hot conf_m88p y' /\ cc_ocr (y_cc y) = 0.
Proof. exact case28. Qed.

(** C29: false.  The sensor has failed and currents have been measured since, but the PWM is not off. *)
Theorem C29_off_refuted : exists y, dead conf_m88p y /\ cc_ocr (y_cc y) = 7372.
Proof. exact refute29. Qed.
Print Assumptions C29_off_refuted.
(** What holds: the demanded current is zero, and at most 0.5 A (a tenth of full scale) is commanded. *)
Theorem C29_residual : forall C y, build_conf C -> dead C y -> p_setpoint (cc_pid (y_cc y)) = 0 /\ duty_at_most y 1 10.
Proof. exact sys_dead. Qed.
Print Assumptions C29_residual.

(** C30: false.  Before any plausible temperature the heater is driven; but with at most 2 A. *)
Theorem C30_no_heating_refuted : exists y, cold conf_m88p y /\ cc_ocr (y_cc y) = 4915.
Proof. exact refute30. Qed.
Print Assumptions C30_no_heating_refuted.
Theorem C30_restricted : forall C y, build_conf C -> cold C y -> duty_at_most y 2 5.
Proof. exact sys_cold. Qed.
Print Assumptions C30_restricted.

(** C31: false of both controllers (a clock that is not read for more than 32.767 s wraps). *)
Theorem C31_temp_refuted : exists y y' r dt out, reach conf_m88p y /\ step conf_m88p y EMeasure = Some y' /\ temp_processed y EMeasure y' r /\
  pid_run (t_pid (y_ct y)) dt r = Some (t_pid (y_ct y'), out) /\ dt_seconds (y_now y) (t_dt (y_ct y)) = Some dt /\ dt < 0.
Proof. exact refute31_temp. Qed.
Print Assumptions C31_temp_refuted.
Theorem C31_curr_refuted : exists y y' used dt out, reach conf_m88p y /\ result y EMeasure 0 /\ step conf_m88p y EMeasure = Some y' /\
  cc_emerg (y_cc y') = 0 /\ pid_run (cc_pid (y_cc y)) dt used = Some (cc_pid (y_cc y'), out) /\
  dt_seconds (y_now y) (cc_timer (y_cc y)) = Some dt /\ dt < 0.
Proof. exact refute31_curr. Qed.
Print Assumptions C31_curr_refuted.
(** What holds: up to 32.767 s the time step is right. *)
Theorem C31_temp_step : forall C y e y' n r, build_conf C -> temp_clock C y n -> n <= 32767 -> temp_processed y e y' r -> step C y e = Some y' ->
  exists dt out, ms_to_q6 n dt /\ 0 <= dt /\ pid_run (t_pid (y_ct y)) dt r = Some (t_pid (y_ct y'), out).
Proof. exact temp_dt_exact. Qed.
Print Assumptions C31_temp_step.
Theorem C31_curr_step : forall C y e y' n, build_conf C -> curr_clock C y n -> n <= 32767 -> result y e 0 -> step C y e = Some y' ->
  cc_emerg (y_cc y') = 0 ->
  exists dt used out, ms_to_q6 n dt /\ 0 <= dt /\ pid_run (cc_pid (y_cc y)) dt used = Some (cc_pid (y_cc y'), out).
Proof. exact sys_curr_dt. Qed.
Print Assumptions C31_curr_step.
Example C31_ex : exists y n m, temp_clock conf_m88p y n /\ curr_clock conf_m88p y m /\ n = 57 /\ m = 51 /\ result y EMeasure 1.
Proof. exact case31. Qed.

(** C35: the set-point in use is the one the settings and the idle mode demand. *)
Theorem C35_setpoint : forall C y, build_conf C -> reach C y ->
  pid_get_setpoint (t_pid (y_ct y)) = wanted_setpoint (x_cache (y_set y)) (c_idle C && t_idle (y_ct y)).
Proof. exact sys_setpoint. Qed.
Print Assumptions C35_setpoint.
Example C35_ex : exists y, reach conf_m88p y /\ t_idle (y_ct y) = true /\ pid_get_setpoint (t_pid (y_ct y)) = 150 * 64.
Proof. exact case35. Qed.

(** C36: ranges until the next reset ([reach1]: no power failure). *)
Theorem C36_ranges : forall C y, build_conf C -> reach1 C y ->
  settings_in_range (x_cache (y_set y)) /\ (c_boost C = true -> 0 <= t_boost (y_ct y) <= 2).
Proof. exact sys_ranges. Qed.
Print Assumptions C36_ranges.
Example C36_ex : exists y, reach1 conf_m88p y /\ nth 3 (s_preset (x_cache (y_set y))) 0 = 351 * 64 /\ t_boost (y_ct y) = 1.
Proof. exact case36. Qed.

(** A power failure between two stores can leave a record mixed of both; what remains true then. *)
Theorem C36_power_refuted : exists y, reach conf_m88p y /\ ~ settings_in_range (x_cache (y_set y)).
Proof. exact refute36. Qed.
Print Assumptions C36_power_refuted.
Theorem C36_power : forall C y, build_conf C -> reach C y -> settings_nearly_in_range (x_cache (y_set y)).
Proof. exact sys_ranges_power. Qed.
Print Assumptions C36_power.

(** C41: the temperature controller is suspended exactly in the adjustment menus. *)
Theorem C41_suspended : forall C y, build_conf C -> reach C y ->
  t_enabled (y_ct y) = negb (adjusting (n_state (y_menu y))) /\
  (t_enabled (y_ct y) = false \/ t_emerg (y_ct y) = true -> p_setpoint (cc_pid (y_cc y)) = 0).
Proof. exact sys_adjusting. Qed.
Print Assumptions C41_suspended.
Example C41_ex : exists y, reach conf_m88p y /\ n_state (y_menu y) = MENU_ADJ /\ cc_ocr (y_cc y) = 0 /\ t_enabled (y_ct y) = false.
Proof. exact case41. Qed.

(** C46: at most one digit is driven and no other pin is disturbed. *)
Theorem C46_pins : forall C y, build_conf C -> reach C y -> 0 <= active_muxes (y_hw y) <= 1 /\ pins_fixed (y_hw y).
Proof. exact sys_pins. Qed.
Print Assumptions C46_pins.
Example C46_ex : exists y, reach conf_m88p y /\ active_muxes (y_hw y) = 1.
Proof. exact case46. Qed.

(** C47: display and transmitter. *)
Theorem C47_exclusive : forall C y, build_conf C -> reach C y ->
  d_enabled (y_disp y) = negb (h_tx (y_hw y)) /\
  (h_tx (y_hw y) = true -> n_state (y_menu y) = MENU_DEBUG /\ c_debug C = true) /\
  (d_enabled (y_disp y) = false -> h_ddrd (y_hw y) = 0 /\ h_portd (y_hw y) = 0 /\ active_muxes (y_hw y) = 0).
Proof. exact sys_uart. Qed.
Print Assumptions C47_exclusive.
Example C47_ex : exists y, reach conf_m328p y /\ h_tx (y_hw y) = true.
Proof. exact case47. Qed.

(** C55: false of the erased EEPROM; the images that boot safely are those whose newest slot has a valid
    active preset number. *)
Theorem C55_erased_refuted : boot conf_m88p (fun _ => 255) NO_KEYS = None.
Proof. exact refute55. Qed.
Print Assumptions C55_erased_refuted.
Theorem C55_exact : forall C ee pinb, ring_conf C -> (forall a, is_u8 (ee a)) ->
  exists x, settings_init C ee = Some x /\ (boot C ee pinb <> None <-> s_active (x_cache x) <= 5).
Proof. exact boot_any. Qed.
Print Assumptions C55_exact.

(** C56: no undefined behaviour. *)
Theorem C56_defined : forall C, build_conf C ->
  (forall pinb, is_u8 pinb -> boot C (factory_ee C) pinb <> None) /\
  (forall y e, reach C y -> ev_ok C y e -> step C y e <> None).
Proof. exact sys_total. Qed.
Print Assumptions C56_defined.
Example C56_ex : build_conf conf_m88p /\ build_conf conf_m328p /\ build_conf conf_noring.
Proof. exact (conj build_m88p (conj build_m328p build_noring)). Qed.
Example C56_noring_ex : exists y, reach conf_noring y /\ s_active (x_cache (y_set y)) = 4 /\ x_ee (y_set y) 57 = 4 /\
  step conf_noring y (EPower 255 NO_KEYS) <> None.
Proof. exact case56. Qed.
(** Without the ring the power must not fail while a byte is being programmed. *)
Theorem C56_noring_refuted : exists y, reach conf_noring y /\ x_busy (y_set y) = Some (57, 4) /\
  step conf_noring y (EPower 255 NO_KEYS) = None.
Proof. exact refute56. Qed.
Print Assumptions C56_noring_refuted.

(** C63: only a current measurement can make the heater current larger; every other event leaves the
    PWM alone, and off in an emergency. *)
Theorem C63_pwm_owner : forall C y e y', build_conf C -> reach C y -> ev_ok C y e -> is_power e = false -> ~ result y e 0 ->
  step C y e = Some y' -> cc_ocr (y_cc y') = if cc_emerg (y_cc y') =? 0 then cc_ocr (y_cc y) else 8191.
Proof. exact ocr_kept. Qed.
Print Assumptions C63_pwm_owner.
Example C63_ex : exists y y', reach conf_m88p y /\ step conf_m88p y EMeasure = Some y' /\ result y EMeasure 0 /\
  cc_ocr (y_cc y) = 8191 /\ cc_ocr (y_cc y') = 0.
Proof. exact case63. Qed.

(** C64: the temperature used by the controller and shown to the user is the last plausible one. *)
Theorem C64_last_plausible : forall C y o, build_conf C -> last_good C y o ->
  y_mt y = match o with None => 0 | Some v => v end /\ t_feedback (y_ct y) = match o with None => 0 | Some v => v end.
Proof. exact last_good_temp. Qed.
Print Assumptions C64_last_plausible.
Example C64_ex : exists y v, last_good conf_m88p y (Some v) /\ v < 100 * 64.
Proof. exact case26. Qed.

(** C65: the cascade.  The output of the temperature PID is the demand of the current controller: 5 A
    for 250 and more degrees, proportionally less below. *)
Theorem C65_cascade : forall C y e y' r, build_conf C -> reach C y -> temp_processed y e y' r -> step C y e = Some y' ->
  exists dt out a, pid_run (t_pid (y_ct y)) dt r = Some (t_pid (y_ct y'), out) /\ 0 <= out <= 480 * 64 /\
    (out <= 250 * 64 -> nearest_away out 5 a) /\ (250 * 64 <= out -> a = 5 * 640) /\
    p_setpoint (cc_pid (y_cc y')) = (if 480 * 64 <? r then 0 else a).
Proof. exact sys_cascade. Qed.
Print Assumptions C65_cascade.
(** Between two processed temperatures the demand is kept while the controller is on and the sensor works;
    otherwise it is 0. *)
Theorem C65_otherwise : forall C y e y', build_conf C -> reach C y -> ev_ok C y e -> is_power e = false -> step C y e = Some y' ->
  ~ (exists r, temp_processed y e y' r) ->
  p_setpoint (cc_pid (y_cc y')) = if t_enabled (y_ct y') && negb (t_emerg (y_ct y')) then p_setpoint (cc_pid (y_cc y)) else 0.
Proof. exact demand_kept. Qed.
Print Assumptions C65_otherwise.
(** Every plausible temperature result of the enabled controller is processed. *)
Theorem C65_processed : forall C y e y' v, build_conf C -> reach C y -> result y e 1 -> t_enabled (y_ct y) = true -> step C y e = Some y' ->
  temp_of_code C (s_adj (x_cache (y_set y))) (mean_code y) v -> -20 * 64 <= v <= 500 * 64 -> temp_processed y e y' v.
Proof. exact good_processed. Qed.
Print Assumptions C65_processed.
Example C65_ex : exists y y' r, reach conf_m88p y /\ step conf_m88p y EMeasure = Some y' /\ temp_processed y EMeasure y' r /\
  p_setpoint (cc_pid (y_cc y)) = 0 /\ p_setpoint (cc_pid (y_cc y')) = 3200.
Proof. exact case65. Qed.
