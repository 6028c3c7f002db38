(** * The firmware with interrupts inside the work functions (C81-C83)

    [freach C y]: like [reach], but during measure_work, menu_work and buttons_work any timer, converter
    and EEPROM interrupts happen at any points ([fstep C y e o]: the event [e] with the interrupts [o]). *)
From Coq Require Import ZArith List Bool Lia.
From Verif Require Import Base MConf MTimer MPid MPwm MCurr SpecNum MSettings SpecSettings MSseg MDisplay MState MTemp MMeas
  MMenu MMain SpecDisplay SpecSys SpecRun PSysRun PSysProp PSysTrace MFine SpecFine PFine7 PFine8 PFineEx.
Import ListNotations.
Open Scope Z_scope.

(** C81: without interrupts inside these are the functions of the other theorems, so that every execution
    of those theorems is one of these. *)
Theorem C81_conservative : forall C y e, fstep C y e [] = step C y e.
Proof. exact fstep_nil. Qed.
Print Assumptions C81_conservative.
Theorem C81_includes : forall C y, (reach C y -> freach C y) /\ (too_hot C y -> ftoo_hot C y) /\ (dead C y -> fdead C y) /\
  (cold C y -> fcold C y) /\ (forall o, last_good C y o -> flast_good C y o).
Proof. exact f_includes. Qed.
Print Assumptions C81_includes.
(** No interrupt anywhere leads to undefined behaviour. *)
Theorem C81_defined : forall C, build_conf C -> forall y e o, freach C y -> ev_ok C y e -> fstep C y e o <> None.
Proof. exact ftotal. Qed.
Print Assumptions C81_defined.
(** Five timer interrupts inside one measure_work; the clock of the controller is set in the middle. *)
Example C81_ex : exists y o y', freach conf_m88p y /\ ev_ok conf_m88p y EMeasure /\ fstep conf_m88p y EMeasure o = Some y' /\ y_now y' = y_now y + 5 /\
  y_now y < t_dt (y_ct y') < y_now y' /\ p_setpoint (cc_pid (y_cc y')) = 5 * 640.
Proof. exact fine_case81. Qed.
(** What holds in all states: the set-point is the one demanded by the settings (C35), the settings are in
    range (C36), the controller is suspended exactly in the adjustment menus (C41), the pins (C46), display and
    transmitter (C47), the screen (C62), the hand-over of the results (C33), the plausible values (C34). *)
Theorem C81_setpoint : forall C y, build_conf C -> freach C y ->
  pid_get_setpoint (t_pid (y_ct y)) = wanted_setpoint (x_cache (y_set y)) (c_idle C && t_idle (y_ct y)).
Proof. intros C y HC R. exact (sys_setpoint_inv C y (s4_inv _ _ _ (freach_s4 C y HC R))). Qed.
Print Assumptions C81_setpoint.
Theorem C81_ranges : forall C y, build_conf C -> freach1 C y ->
  settings_in_range (x_cache (y_set y)) /\ (c_boost C = true -> 0 <= t_boost (y_ct y) <= 2).
Proof. intros C y HC R. exact (sys_ranges_inv C y (s4_inv _ _ _ (freach1_s4 C y HC R))). Qed.
Print Assumptions C81_ranges.
Theorem C81_power : forall C y, build_conf C -> freach C y -> settings_nearly_in_range (x_cache (y_set y)).
Proof. intros C y HC R. exact (sys_ranges_power_inv C y (s4_inv _ _ _ (freach_s4 C y HC R))). Qed.
Print Assumptions C81_power.
Theorem C81_suspended : forall C y, build_conf C -> freach C y ->
  t_enabled (y_ct y) = negb (adjusting (n_state (y_menu y))) /\
  (t_enabled (y_ct y) = false \/ t_emerg (y_ct y) = true -> p_setpoint (cc_pid (y_cc y)) = 0).
Proof. intros C y HC R. exact (sys_adjusting_inv C y (s4_inv _ _ _ (freach_s4 C y HC R))). Qed.
Print Assumptions C81_suspended.
Theorem C81_pins : forall C y, build_conf C -> freach C y -> 0 <= active_muxes (y_hw y) <= 1 /\ pins_fixed (y_hw y).
Proof. intros C y HC R. exact (sys_pins_inv C y (s4_inv _ _ _ (freach_s4 C y HC R))). Qed.
Print Assumptions C81_pins.
Theorem C81_exclusive : forall C y, build_conf C -> freach C y ->
  d_enabled (y_disp y) = negb (h_tx (y_hw y)) /\
  (h_tx (y_hw y) = true -> n_state (y_menu y) = MENU_DEBUG /\ c_debug C = true) /\
  (d_enabled (y_disp y) = false -> h_ddrd (y_hw y) = 0 /\ h_portd (y_hw y) = 0 /\ active_muxes (y_hw y) = 0).
Proof. intros C y HC R. exact (sys_uart_inv C y (s4_inv _ _ _ (freach_s4 C y HC R))). Qed.
Print Assumptions C81_exclusive.
Theorem C81_screen : forall C y, build_conf C -> freach C y -> n_upd (y_menu y) = false ->
  exists s lamp, picture C y s lamp /\ drawn (d_digits (y_disp y)) s lamp.
Proof. exact f_screen. Qed.
Print Assumptions C81_screen.
Theorem C81_after_poll : forall C y y', build_conf C -> freach C y -> fnext C y EMenu y' ->
  exists s lamp, picture C y' s lamp /\ drawn (d_digits (y_disp y')) s lamp.
Proof. exact f_screen_after. Qed.
Print Assumptions C81_after_poll.
Theorem C81_handover : forall C y, build_conf C -> freach C y ->
  m_adc (y_meas y) = negb (m_avail (y_meas y)) /\ (m_avail (y_meas y) = true -> 0 < m_count (y_meas y)) /\
  (m_chan (y_meas y) = 0 \/ m_chan (y_meas y) = 1).
Proof. exact f_handover. Qed.
Print Assumptions C81_handover.
Theorem C81_consumed : forall C y e y' chan, build_conf C -> freach C y -> result y e chan -> fnext C y e y' ->
  m_avail (y_meas y') = false /\ m_count (y_meas y') = 0 /\ m_sum (y_meas y') = 0 /\ m_chan (y_meas y') = 1 - chan.
Proof. exact f_once. Qed.
Print Assumptions C81_consumed.
Theorem C81_values : forall C y, build_conf C -> freach C y ->
  -20 * 64 <= t_feedback (y_ct y) <= 500 * 64 /\ -20 * 64 <= y_mt y <= 500 * 64 /\ 0 <= u_prev (y_mc y) <= 5 * 640.
Proof. exact f_feedback_range. Qed.
Print Assumptions C81_values.

(** C82: the heater is off in every state with an emergency flag (C25), and after a measured
    over-temperature until an acceptable temperature is measured (C28). *)
Theorem C82_emergency_off : forall C y, build_conf C -> freach C y -> cc_emerg (y_cc y) <> 0 -> pwm_off y.
Proof. exact f_emerg_off. Qed.
Print Assumptions C82_emergency_off.
Theorem C82_over_temperature : forall C y, build_conf C -> ftoo_hot C y -> pwm_off y.
Proof. exact f_too_hot. Qed.
Print Assumptions C82_over_temperature.
Theorem C82_measured : forall C y e y' v, build_conf C -> freach C y -> result y e 1 -> t_enabled (y_ct y) = true ->
  fnext C y e y' -> temp_of_code C (s_adj (x_cache (y_set y))) (mean_code y) v -> 480 * 64 < v <= 500 * 64 ->
  ftoo_hot C y' /\ pwm_off y'.
Proof. exact f_over_temp. Qed.
Print Assumptions C82_measured.
(** The heater was fully on; timer interrupts inside the handling of the too hot temperature. *)
Example C82_ex : exists y o y', freach conf_m88p y /\ fstep conf_m88p y EMeasure o = Some y' /\ o = busy 4 /\ ftoo_hot conf_m88p y' /\ cc_ocr (y_cc y) = 0.
Proof. exact fine_case82. Qed.

(** C83: who changes the heater current and its demand, and by how much (C26, C29, C30, C63-C65). *)
Theorem C83_pwm_owner : forall C y e y', build_conf C -> freach C y -> fnext C y e y' -> is_power e = false -> ~ result y e 0 ->
  cc_ocr (y_cc y') = cc_ocr (y_cc y) \/ cc_ocr (y_cc y') = 8191.
Proof. exact f_ocr. Qed.
Print Assumptions C83_pwm_owner.
Theorem C83_last_plausible : forall C y o, build_conf C -> flast_good C y o ->
  y_mt y = match o with None => 0 | Some v => v end /\ t_feedback (y_ct y) = match o with None => 0 | Some v => v end.
Proof. exact f_last_good. Qed.
Print Assumptions C83_last_plausible.
Theorem C83_processed : forall C y e y' v, build_conf C -> freach C y -> result y e 1 -> t_enabled (y_ct y) = true -> fnext C y e y' ->
  temp_of_code C (s_adj (x_cache (y_set y))) (mean_code y) v -> -20 * 64 <= v <= 500 * 64 -> temp_processed y e y' v.
Proof. exact f_processed. Qed.
Print Assumptions C83_processed.
Theorem C83_cascade : forall C y e y' r, build_conf C -> freach C y -> temp_processed y e y' r -> fnext C y e y' ->
  exists dt out a, pid_run (t_pid (y_ct y)) dt r = Some (t_pid (y_ct y'), out) /\ 0 <= out <= 480 * 64 /\
    (out <= 250 * 64 -> nearest_away out 5 a) /\ (250 * 64 <= out -> a = 5 * 640) /\
    p_setpoint (cc_pid (y_cc y')) = (if 480 * 64 <? r then 0 else a).
Proof. exact f_cascade. Qed.
Print Assumptions C83_cascade.
Theorem C83_otherwise : forall C y e y', build_conf C -> freach C y -> fnext C y e y' -> is_power e = false ->
  ~ (exists r, temp_processed y e y' r) ->
  p_setpoint (cc_pid (y_cc y')) = p_setpoint (cc_pid (y_cc y)) \/ p_setpoint (cc_pid (y_cc y')) = 0.
Proof. exact f_cascade_idle. Qed.
Print Assumptions C83_otherwise.
Theorem C83_restricted : forall C y o e y', build_conf C -> flast_good C y o ->
  (o = None \/ exists v, o = Some v /\ v < 100 * 64) -> result y e 0 -> fnext C y e y' -> duty_at_most y' 2 5.
Proof. exact f_restricted. Qed.
Print Assumptions C83_restricted.
Theorem C83_cold : forall C y, build_conf C -> fcold C y -> duty_at_most y 2 5.
Proof. exact f_cold. Qed.
Print Assumptions C83_cold.
Theorem C83_residual : forall C y, build_conf C -> fdead C y -> p_setpoint (cc_pid (y_cc y)) = 0 /\ duty_at_most y 1 10.
Proof. exact f_dead. Qed.
Print Assumptions C83_residual.
(** A converter sample and an EEPROM interrupt inside buttons_work, timer interrupts inside measure_work. *)
Example C83_ex : exists y v, flast_good conf_m88p y (Some v) /\ v < 100 * 64 /\ y_now y = 56.
Proof. exact fine_case83. Qed.
Example C83_dead_ex : exists y, fdead conf_m88p y.
Proof. destruct refute29 as (y & D & _). exists y. exact (dead_fdead _ _ D). Qed.
