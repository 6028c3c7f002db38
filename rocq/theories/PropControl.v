(** * The control laws of the running firmware and what the eye sees (C28, C75-C77)

    [reach C y]: the firmware is in state [y] after any execution (see PropSys). *)
From Coq Require Import ZArith List Bool Lia.
From Verif Require Import Base MConf MTimer MPid MPwm MCurr SpecNum SpecPid SpecCurr MSettings SpecSettings MSseg MDisplay MState MTemp MMeas
  MMenu MMain SpecDisplay SpecSys SpecRun SpecControl SpecEye PSettingsEx Trace PControl PMem PDemand PControlEx PEye PEyeEx.
Import ListNotations.
Open Scope Z_scope.

(** C28: the over-temperature flag is set exactly while the last processed temperature was above 480 degrees. *)
Theorem C28_exact : forall C y, build_conf C -> reach C y -> (Z.testbit (cc_emerg (y_cc y)) 1 = true <-> too_hot C y).
Proof. exact hot_exact. Qed.
Print Assumptions C28_exact.
Example C28_exact_ex : exists y y', reach conf_m88p y /\ step conf_m88p y EMeasure = Some y' /\ reach conf_m88p y' /\
  Z.testbit (cc_emerg (y_cc y)) 1 = true /\ Z.testbit (cc_emerg (y_cc y')) 1 = false /\ too_hot conf_m88p y.
Proof. exact case28_clear. Qed.

(** C75: each processed temperature [r] is one step of the PID law with the stored gains of the boost mode in
    use, with the set-point of C35 and with the time since the controller ran last (or was switched on);
    the output, converted to a current (5 A at 250 and more), is the set-point of the current controller. *)
Theorem C75_law : forall C y e y' r, build_conf C -> reach C y -> temp_processed y e y' r -> step C y e = Some y' ->
  let k := used_gains C y in exists dt out a,
  pid_step (kp k) (ki k) (kd k) 128 (-30 * 64) (80 * 64) 0 (480 * 64)
    (wanted_setpoint (x_cache (y_set y)) (c_idle C && t_idle (y_ct y)))
    (p_integr (t_pid (y_ct y))) (p_prev_e (t_pid (y_ct y))) dt r out
    (p_integr (t_pid (y_ct y'))) (p_prev_e (t_pid (y_ct y'))) /\
  (forall n, temp_clock C y n -> n <= 32767 -> ms_to_q6 n dt) /\
  (out <= 250 * 64 -> nearest_away out 5 a) /\ (250 * 64 <= out -> a = 5 * 640) /\
  p_setpoint (cc_pid (y_cc y')) = (if 480 * 64 <? r then 0 else a).
Proof. exact temp_law. Qed.
Print Assumptions C75_law.
Example C75_ex : exists y y', reach conf_m88p y /\ step conf_m88p y EMeasure = Some y' /\ temp_processed y EMeasure y' 20107 /\
  p_integr (t_pid (y_ct y)) = 849 /\ p_prev_e (t_pid (y_ct y)) = 1147 /\ p_integr (t_pid (y_ct y')) = 892 /\ p_setpoint (cc_pid (y_cc y')) = 1612.
Proof. exact case75. Qed.
(** Between two processed temperatures the memory of the controller is kept or cleared.  It is cleared by
    whatever changes the gains or switches the controller; while the controller is on nothing else clears it
    but switching it off or another boost mode.  While the controller is off it is clear. *)
Theorem C75_memory : forall C y e y', build_conf C -> reach C y -> ev_ok C y e -> is_power e = false -> step C y e = Some y' ->
  (forall r, ~ temp_processed y e y' r) ->
  let M := memory (t_pid (y_ct y)) in let M' := memory (t_pid (y_ct y')) in
  (M' = M \/ M' = (0, 0)) /\
  (M' <> M -> t_enabled (y_ct y) = true -> t_enabled (y_ct y') = false \/ t_boost (y_ct y') <> t_boost (y_ct y)) /\
  (used_gains C y' <> used_gains C y \/ t_enabled (y_ct y') <> t_enabled (y_ct y) -> M' = (0, 0)).
Proof. exact temp_memory. Qed.
Print Assumptions C75_memory.
Example C75_memory_ex : exists y y', reach conf_m88p y /\ ev_ok conf_m88p y (EButtons NO_KEYS) /\ step conf_m88p y (EButtons NO_KEYS) = Some y' /\
  memory (t_pid (y_ct y)) = (225, 1147) /\ memory (t_pid (y_ct y')) = (0, 0) /\ t_boost (y_ct y) = 0 /\ t_boost (y_ct y') = 1.
Proof. exact case75_boost. Qed.
Theorem C75_off : forall C y, build_conf C -> reach C y -> t_enabled (y_ct y) = false -> memory (t_pid (y_ct y)) = (0, 0).
Proof. exact temp_off. Qed.
Print Assumptions C75_off.
(** At power-up, after any history, both controllers start with a clear memory and the current controller
    with the measured current. *)
Theorem C75_boot : forall C ee pinb y, build_conf C ->
  (ee = factory_ee C \/ exists y0 v, reach C y0 /\ ev_ok C y0 (EPower v pinb) /\ ee = ee_after_crash (y_set y0) v) ->
  boot C ee pinb = Some y ->
  memory (t_pid (y_ct y)) = (0, 0) /\ memory (cc_pid (y_cc y)) = (0, 0) /\ src_of (cc_rstate (y_cc y)) = Real /\ cc_prev_y (y_cc y) = 0.
Proof. exact boot_memory. Qed.
Print Assumptions C75_boot.

(** C76: each result of the current channel without an emergency is one step of the PID law of the current
    controller for the newest plausible current (or its substitutes, see [source_step]); the output, at most
    2 A below 100 degrees, is what the PWM is set to.  In an emergency the memory is kept. *)
Theorem C76_law : forall C y T f h o v y', build_conf C -> curr_log C y T f h -> last_good C y o ->
  result y EMeasure 0 -> step C y EMeasure = Some y' -> curr_of_code (lp_code f (mean_code y)) v ->
  let c := y_cc y in let c' := y_cc y' in let r := last_current ((T, v) :: h) in
  (cc_emerg c' = 0 -> exists used dt out,
     source_step (src_of (cc_rstate c)) (cc_model c) (cc_prev_y c) r (cc_model c') used /\
     src_of (cc_rstate c') = src_next (src_of (cc_rstate c)) r used /\
     (forall n, curr_clock C y n -> n <= 32767 -> ms_to_q6 n dt) /\
     pid_step 115 128 0 128 (-320) 320 0 3200 (p_setpoint (cc_pid c)) (p_integr (cc_pid c)) (p_prev_e (cc_pid c)) dt used
       out (p_integr (cc_pid c')) (p_prev_e (cc_pid c')) /\
     cc_prev_y c' = (if cold_limited o then Z.min out 1280 else out) /\ pwm_of (cc_prev_y c') (cc_ocr c')) /\
  (cc_emerg c' <> 0 -> memory (cc_pid c') = memory (cc_pid c) /\ cc_rstate c' = cc_rstate c /\ cc_model c' = cc_model c /\ cc_prev_y c' = cc_prev_y c).
Proof. exact curr_law. Qed.
Print Assumptions C76_law.
Example C76_ex : exists y T f h o n v y', curr_log conf_m88p y T f h /\ last_good conf_m88p y o /\ cold_limited o = false /\ curr_clock conf_m88p y n /\
  result y EMeasure 0 /\ step conf_m88p y EMeasure = Some y' /\ curr_of_code (lp_code f (mean_code y)) v /\
  cc_emerg (y_cc y') = 0 /\ src_of (cc_rstate (y_cc y)) = Resync /\
  memory (cc_pid (y_cc y)) = (320, 289) /\ memory (cc_pid (y_cc y')) = (320, 270) /\ cc_prev_y (y_cc y') = 1289 /\ cc_ocr (y_cc y') = 4892.
Proof. exact case76. Qed.
(** Nothing else touches the memory of the current controller. *)
Theorem C76_memory : forall C y e y', build_conf C -> reach C y -> ev_ok C y e -> is_power e = false -> step C y e = Some y' -> ~ result y e 0 ->
  memory (cc_pid (y_cc y')) = memory (cc_pid (y_cc y)) /\ cc_rstate (y_cc y') = cc_rstate (y_cc y) /\
  cc_model (y_cc y') = cc_model (y_cc y) /\ cc_prev_y (y_cc y') = cc_prev_y (y_cc y).
Proof. exact curr_memory. Qed.
Print Assumptions C76_memory.
(** The histories and clocks that C75 and C76 mention exist for every reachable state. *)
Theorem C76_histories : forall C y, build_conf C -> reach C y ->
  (exists o, last_good C y o) /\ (exists n, temp_clock C y n) /\ (exists n, curr_clock C y n) /\ (exists T f h, curr_log C y T f h).
Proof. exact logs_exist. Qed.
Print Assumptions C76_histories.

(** C77: a call of display_work that changes the pins drives the digit after the one driven before, and
    exactly the segments of its character of the text on the screen glow (see C62 for the text). *)
Theorem C77_glow : forall C y y' s lamp, build_conf C -> reach C y -> step C y EDisplay = Some y' -> y_hw y' <> y_hw y ->
  drawn (d_digits (y_disp y)) s lamp ->
  exists i, 0 <= i <= 3 /\ (forall j, 0 <= j <= 3 -> driven (y_hw y) j = true -> i = (j + 1) mod 4) /\ glowing (y_hw y') i s lamp.
Proof. exact eye_glow. Qed.
Print Assumptions C77_glow.
Example C77_ex : exists y y' s lamp, reach conf_m88p y /\ step conf_m88p y EDisplay = Some y' /\ y_hw y' <> y_hw y /\
  picture conf_m88p y s lamp /\ drawn (d_digits (y_disp y)) s lamp /\ t_feedback (y_ct y) = 20107 /\ driven (y_hw y) 1 = true /\ driven (y_hw y') 2 = true /\
  map (glows (y_hw y') 2) [SA; SB; SC; SD; SE; SF; SG; SDP] = [false; true; true; false; false; true; true; true].
Proof. exact case77. Qed.
(** No other event changes the pins but to switch all digits off. *)
Theorem C77_still : forall C y e y', build_conf C -> reach C y -> ev_ok C y e -> is_power e = false -> e <> EDisplay -> step C y e = Some y' ->
  y_hw y' = y_hw y \/ dark (y_hw y').
Proof. exact eye_still. Qed.
Print Assumptions C77_still.
(** No ghost digits: while display_work writes the port registers one after the other, no digit is driven
    until the registers have their final values. *)
Theorem C77_clean : forall C y, build_conf C -> reach C y -> exists l d' y', display_writes (y_now y) (y_hw y) (y_disp y) = Some (l, d') /\
  step C y EDisplay = Some y' /\ y_hw y' = last l (y_hw y) /\ Forall (fun h => h = y_hw y' \/ dark h) l.
Proof. exact eye_clean. Qed.
Print Assumptions C77_clean.
(** If display_work is called in every millisecond then every digit is driven at least every 4 ms. *)
Theorem C77_refresh : forall C y b w i, build_conf C -> eyes C y b w -> 0 <= i <= 3 -> 0 <= w i <= 4.
Proof. exact eye_refresh. Qed.
Print Assumptions C77_refresh.
Example C77_refresh_ex : exists y w, eyes conf_m88p y true w /\ w 0 = 0 /\ w 1 = 2 /\ w 2 = 1 /\ w 3 = 0.
Proof. exact case77_eyes. Qed.
(** If display_work is called every 2 ms then the multiplexer falls behind its clock and, 65.5 s after power-up,
    the display stands still for 32.7 s. *)
Theorem C77_slow_refuted : forall C y k r u, build_conf C -> c_debug C = false -> slow C y k r u -> 32766 <= k <= 49150 ->
  2 * (k - 32766) + r <= u /\ d_enabled (y_disp y) = true.
Proof. exact freeze77. Qed.
Print Assumptions C77_slow_refuted.
Example C77_slow_ex : exists y u, slow conf_m88p y 49150 0 u.
Proof. exact (slow_ex conf_m88p build_m88p eq_refl). Qed.
