(** * Progress and reaction times (C68-C71)

    [served L lo hi C y w]: the firmware is in state [y] after power-up and an execution in which the
    converter and the main loop are never later than [L] says; the stopwatches of an observer show [w]
    (see SpecLive).  lo..hi is any range of converter codes; [v_steady w] is the time in ms for which all
    codes of the temperature channel have been in it. *)
From Coq Require Import ZArith List Bool Lia.
From Verif Require Import Base MConf MTimer MPid MPwm MCurr SpecNum SpecCurr MSettings SpecSettings MSseg MDisplay MState MTemp MMeas
  MMenu MMain SpecDisplay SpecSys SpecRun SpecLive PSettingsEx Trace TraceLive PLive PLive2 PLive3 PLiveEx.
Import ListNotations.
Open Scope Z_scope.

(** C68: a window is closed and handled within its length plus one conversion plus one poll; each channel
    gives a result in every cycle of two windows; the state is reachable, so that everything proved of
    reachable states holds without an assumption on the number of conversions in a window. *)
Theorem C68_cadence : forall L lo hi C y w, build_conf C -> limits_ok L -> served L lo hi C y w ->
  reach C y /\ v_age w <= averaging_ms (m_chan (y_meas y)) + l_sample L + l_poll L /\
  v_temp w <= slow_cycle L /\ v_curr w <= slow_cycle L.
Proof. exact live_cadence. Qed.
Print Assumptions C68_cadence.
Example C68_ex : limits_ok brisk /\
  exists y w, served brisk 0 1023 conf_m88p y w /\ m_avail (y_meas y) = true /\ v_age w = 54 /\ v_temp w = 59 /\ v_last w = Some 150.
Proof. exact (conj brisk_ok case68). Qed.
(** Every event that is on time has a defined effect. *)
Theorem C68_progress : forall L lo hi C y w e, build_conf C -> limits_ok L -> served L lo hi C y w ->
  on_time L C y w e -> exists y', step C y e = Some y' /\ served L lo hi C y' (watch_step lo hi y w e y').
Proof. exact live_progress. Qed.
Print Assumptions C68_progress.
(** The deadlines can always be met: with positive limits, a conversion (of any code) and a call of
    measure_work, where due, allow the clock to go on. *)
Theorem C68_no_deadlock : forall L lo hi C y w raw, build_conf C -> limits_ok L -> served L lo hi C y w ->
  1 <= l_sample L -> 1 <= l_poll L -> 1 <= l_rate L -> 0 <= raw <= 1023 ->
  exists l y' w', incl l [EAdc raw; EMeasure] /\ path L lo hi C y w (l ++ [ETick]) y' w' /\ served L lo hi C y' w'.
Proof. exact live_no_deadlock. Qed.
Print Assumptions C68_no_deadlock.

(** C34 without its assumption on the gaps between results. *)
Theorem C68_timeout : forall L lo hi C y w, build_conf C -> limits_ok L -> served L lo hi C y w ->
  exists T h, temp_log C y T h /\ gaps_ok h /\ (t_emerg (y_ct y) = true <-> timed_out (-20 * 64) (500 * 64) h).
Proof. exact live_timeout. Qed.
Print Assumptions C68_timeout.

(** C69: the temperature in use is never older than one cycle and one window: if all codes of that time
    were in lo..hi then so was the mean code last handled. *)
Theorem C69_fresh : forall L lo hi C y w, build_conf C -> limits_ok L -> served L lo hi C y w ->
  slow_cycle L + slow_window L < v_steady w -> exists c, v_last w = Some c /\ lo <= c <= hi.
Proof. exact live_last. Qed.
Print Assumptions C69_fresh.

(** C70: heater off after one cycle and one window above 480 degrees. *)
Theorem C70_over_temperature : forall L lo hi C y w, build_conf C -> limits_ok L -> served L lo hi C y w ->
  slow_cycle L + slow_window L < v_steady w -> slow_cycle L < v_calm w ->
  (forall c v, lo <= c <= hi -> temp_of_code C (s_adj (x_cache (y_set y))) c v -> 480 * 64 < v <= 500 * 64) ->
  pwm_off y.
Proof. exact live_over_temp. Qed.
Print Assumptions C70_over_temperature.
Example C70_ex : (exists y w, served brisk 412 422 conf_m88p y w /\ v_steady w = 5 /\ cc_ocr (y_cc y) = 4915) /\
  exists y w, served brisk 412 422 conf_m88p y w /\ slow_cycle brisk + slow_window brisk < v_steady w /\ slow_cycle brisk < v_calm w /\
  forall c v, 412 <= c <= 422 -> temp_of_code conf_m88p (s_adj (x_cache (y_set y))) c v -> 480 * 64 < v <= 500 * 64.
Proof. exact case70. Qed.
(** The same for temperatures that may also be implausible (above 500 degrees), after the plausibility
    time-out of 3 s: the heater is off, or the demand is zero and at most a tenth of the full current flows. *)
Theorem C70_overheat : forall L lo hi C y w, build_conf C -> limits_ok L -> served L lo hi C y w ->
  (forall c v, lo <= c <= hi -> temp_of_code C (s_adj (x_cache (y_set y))) c v -> 480 * 64 < v) ->
  3001 + slow_window L + 3 * slow_cycle L < v_steady w -> 3001 + slow_window L + 3 * slow_cycle L < v_calm w ->
  pwm_off y \/ t_emerg (y_ct y) = true /\ p_setpoint (cc_pid (y_cc y)) = 0 /\ duty_at_most y 1 10.
Proof. exact live_overheat. Qed.
Print Assumptions C70_overheat.
Example C70_overheat_ex : exists y w, served brisk 412 1023 conf_m88p y w /\ 3001 + slow_window brisk + 3 * slow_cycle brisk < v_steady w /\
  3001 + slow_window brisk + 3 * slow_cycle brisk < v_calm w /\ t_emerg (y_ct y) = false /\
  forall c v, 412 <= c <= 1023 -> temp_of_code conf_m88p (s_adj (x_cache (y_set y))) c v -> 480 * 64 < v.
Proof. exact case70_any. Qed.

(** C71: a broken sensor (codes that are implausible whatever the adjustment) is noticed and the demand
    withdrawn; nothing is assumed about the controller being on or the settings. *)
Theorem C71_sensor_failure : forall L lo hi C y w, build_conf C -> limits_ok L -> served L lo hi C y w ->
  (forall adj c v, -99 * 64 <= adj <= 99 * 64 -> lo <= c <= hi -> temp_of_code C adj c v -> v < -20 * 64 \/ 500 * 64 < v) ->
  3001 + slow_window L + 3 * slow_cycle L < v_steady w ->
  t_emerg (y_ct y) = true /\ p_setpoint (cc_pid (y_cc y)) = 0 /\ duty_at_most y 1 10.
Proof. exact live_dead. Qed.
Print Assumptions C71_sensor_failure.
Example C71_ex :
  (forall C adj c v, -99 * 64 <= adj <= 99 * 64 -> c <= 45 \/ 484 <= c -> temp_of_code C adj c v -> v < -20 * 64 \/ 500 * 64 < v) /\
  exists y w, served brisk 484 1023 conf_m88p y w /\ 3001 + slow_window brisk + 3 * slow_cycle brisk < v_steady w.
Proof. exact (conj lost_codes case71). Qed.
(** A repaired sensor is accepted within one cycle and one window. *)
Theorem C71_recovery : forall L lo hi C y w, build_conf C -> limits_ok L -> served L lo hi C y w ->
  (forall adj c v, -99 * 64 <= adj <= 99 * 64 -> lo <= c <= hi -> temp_of_code C adj c v -> -20 * 64 <= v <= 500 * 64) ->
  slow_cycle L + slow_window L < v_steady w -> t_emerg (y_ct y) = false.
Proof. exact live_fine. Qed.
Print Assumptions C71_recovery.
Example C71_recovery_ex :
  (forall C adj c v, -99 * 64 <= adj <= 99 * 64 -> 167 <= c <= 361 -> temp_of_code C adj c v -> -20 * 64 <= v <= 500 * 64) /\
  exists y w, served brisk 167 361 conf_m88p y w /\ slow_cycle brisk + slow_window brisk < v_steady w /\ 3000 < v_calm w.
Proof. exact (conj fine_codes case71_fine). Qed.
