(** * Reaction times with interrupts inside the work functions (C97)

    [fserved L lo hi C y w]: as [served] of PropLive, but timer, converter and EEPROM interrupts may also
    happen inside measure_work, menu_work and buttons_work, at every point where these read the clock
    (see MFine, SpecFine, SpecFineLive).  The stopwatches of the observer go on during the work function;
    the limits L hold for these interrupts as for all others. *)
From Coq Require Import ZArith List Bool Lia.
From Verif Require Import Base MConf MTimer MPid MPwm MCurr SpecNum SpecCurr MSettings SpecSettings MSseg MDisplay MState MTemp MMeas
  MMenu MMain SpecDisplay SpecSys SpecRun SpecLive TraceLive PSettingsEx PLiveEx MFine SpecFine SpecFineLive PFineEx PFineT6.
Import ListNotations.
Open Scope Z_scope.

(** The executions of C68-C71 are special cases. *)
Theorem C97_includes : forall L lo hi C y w, served L lo hi C y w -> fserved L lo hi C y w.
Proof. exact live_fine_includes. Qed.
Print Assumptions C97_includes.

(** A window is closed and handled in time, each channel gives a result in every cycle, and the state is one
    of those of C81. *)
Theorem C97_cadence : forall L lo hi C y w, build_conf C -> limits_ok L -> fserved L lo hi C y w ->
  freach C y /\ v_age w <= averaging_ms (m_chan (y_meas y)) + l_sample L + l_poll L /\
  v_temp w <= slow_cycle L /\ v_curr w <= slow_cycle L.
Proof. exact live_fine_cadence. Qed.
Print Assumptions C97_cadence.

(** Every event that is on time has a defined effect, with any interrupts inside that are on time. *)
Theorem C97_progress : forall L lo hi C y w e o y1 w1, build_conf C -> limits_ok L -> fserved L lo hi C y w ->
  path L lo hi C y w (map irq_event (concat o)) y1 w1 -> on_time L C y1 w1 e ->
  o = [] \/ e = EMeasure \/ e = EMenu \/ (exists pinb, e = EButtons pinb) ->
  exists y' o', fwork C y e o = Some (y', o').
Proof. exact live_fine_progress. Qed.
Print Assumptions C97_progress.

(** The temperature in use is never older than one cycle and one window. *)
Theorem C97_fresh : forall L lo hi C y w, build_conf C -> limits_ok L -> fserved L lo hi C y w ->
  slow_cycle L + slow_window L < v_steady w -> exists c, v_last w = Some c /\ lo <= c <= hi.
Proof. exact live_fine_last. Qed.
Print Assumptions C97_fresh.

(** Heater off after one cycle and one window above 480 degrees. *)
Theorem C97_over_temperature : forall L lo hi C y w, build_conf C -> limits_ok L -> fserved L lo hi C y w ->
  slow_cycle L + slow_window L < v_steady w -> slow_cycle L < v_calm w ->
  (forall c v, lo <= c <= hi -> temp_of_code C (s_adj (x_cache (y_set y))) c v -> 480 * 64 < v <= 500 * 64) ->
  pwm_off y.
Proof. exact live_fine_over_temp. Qed.
Print Assumptions C97_over_temperature.
(** An execution with two timer interrupts inside the handling of every result, and the tip at 485 degrees. *)
Example C97_ex : limits_ok brisk /\
  exists y w, fserved brisk 412 422 conf_m88p y w /\ slow_cycle brisk + slow_window brisk < v_steady w /\ slow_cycle brisk < v_calm w /\ y_now y = 59 * 6 /\
  forall c v, 412 <= c <= 422 -> temp_of_code conf_m88p (s_adj (x_cache (y_set y))) c v -> 480 * 64 < v <= 500 * 64.
Proof. exact (conj brisk_ok flive_hot). Qed.

(** Any temperatures above 480 degrees, plausible or not, in any order. *)
Theorem C97_overheat : forall L lo hi C y w, build_conf C -> limits_ok L -> fserved L lo hi C y w ->
  (forall c v, lo <= c <= hi -> temp_of_code C (s_adj (x_cache (y_set y))) c v -> 480 * 64 < v) ->
  3001 + l_poll L + slow_window L + 3 * slow_cycle L < v_steady w -> 3001 + l_poll L + slow_window L + 3 * slow_cycle L < v_calm w ->
  pwm_off y \/ t_emerg (y_ct y) = true /\ p_setpoint (cc_pid (y_cc y)) = 0 /\ duty_at_most y 1 10.
Proof. exact live_fine_overheat. Qed.
Print Assumptions C97_overheat.

(** A lost sensor. *)
Theorem C97_sensor_failure : forall L lo hi C y w, build_conf C -> limits_ok L -> fserved L lo hi C y w ->
  (forall adj c v, -99 * 64 <= adj <= 99 * 64 -> lo <= c <= hi -> temp_of_code C adj c v -> v < -20 * 64 \/ 500 * 64 < v) ->
  3001 + l_poll L + slow_window L + 3 * slow_cycle L < v_steady w ->
  t_emerg (y_ct y) = true /\ p_setpoint (cc_pid (y_cc y)) = 0 /\ duty_at_most y 1 10.
Proof. exact live_fine_dead. Qed.
Print Assumptions C97_sensor_failure.
Example C97_lost_ex : (forall adj c v, -99 * 64 <= adj <= 99 * 64 -> 484 <= c <= 1023 -> temp_of_code conf_m88p adj c v -> v < -20 * 64 \/ 500 * 64 < v) /\
  exists y w, fserved brisk 484 1023 conf_m88p y w /\ 3001 + l_poll brisk + slow_window brisk + 3 * slow_cycle brisk < v_steady w.
Proof. exact (conj flive_lost_codes flive_lost). Qed.

(** Recovery after one cycle and one window of plausible temperatures. *)
Theorem C97_recovery : forall L lo hi C y w, build_conf C -> limits_ok L -> fserved L lo hi C y w ->
  (forall adj c v, -99 * 64 <= adj <= 99 * 64 -> lo <= c <= hi -> temp_of_code C adj c v -> -20 * 64 <= v <= 500 * 64) ->
  slow_cycle L + slow_window L < v_steady w -> t_emerg (y_ct y) = false.
Proof. exact live_fine_fine. Qed.
Print Assumptions C97_recovery.
