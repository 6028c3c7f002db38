(** * Theorems about the heater pin *)
From Coq Require Import ZArith List Bool.
From Verif Require Import Base MConf MTimer MPid MPwm MCurr MSettings SpecSettings MState MMeas MMenu MMain SpecSys SpecRun SpecUI SpecLive SpecLoop
  MFine SpecFine MHeat SpecHeat PSettingsEx PLiveEx PLoopEx PHeat2 PHeatEx.
Import ListNotations.
Open Scope Z_scope.

(** C84: timer 1 together with any execution of the firmware, with interrupts inside the work functions.
    Units of 8 us; a period of the PWM has 32768. *)
(** If for a whole period the compare register was at its maximum, no current flows. *)
Theorem C84_off : forall C, build_conf C -> forall y h u l, fwired C y h u l -> lately PERIOD pwm_off l -> w_pin h = true.
Proof. exact pin_off. Qed.
Print Assumptions C84_off.
(** An emergency that has lasted for a period: no current flows. *)
Theorem C84_emergency : forall C, build_conf C -> forall y h u l, fwired C y h u l ->
  lately PERIOD (fun y => cc_emerg (y_cc y) <> 0) l -> w_pin h = true.
Proof. exact pin_emerg. Qed.
Print Assumptions C84_emergency.
(** For a period the last temperature processed was above 480 degrees: no current flows. *)
Theorem C84_over_temperature : forall C, build_conf C -> forall y h u l, fwired C y h u l -> lately PERIOD (ftoo_hot C) l -> w_pin h = true.
Proof. exact pin_hot. Qed.
Print Assumptions C84_over_temperature.
Example C84_ex : exists y h u l, fwired conf_m88p y h u l /\ lately PERIOD (ftoo_hot conf_m88p) l.
Proof. exact hot_lasts. Qed.
(** The period is needed: 262 ms after the controller found more than 480 degrees the heater is still on. *)
Theorem C84_immediate_refuted : exists y h u l, fwired conf_m88p y h u l /\ lately 32763 (ftoo_hot conf_m88p) l /\ w_pin h = false.
Proof. exact late. Qed.
Print Assumptions C84_immediate_refuted.
(** The compare register is the duty cycle: the part of a period in which current flows. *)
Theorem C84_exact : forall C, build_conf C -> forall y h u l v, fwired C y h u l -> lately (2 * PERIOD) (fun y => cc_ocr (y_cc y) = v) l ->
  on_units PERIOD l = 4 * (8191 - v).
Proof. exact pin_exact. Qed.
Print Assumptions C84_exact.
(** The bounds on the duty cycle (also while it varies) hold for the current. *)
Theorem C84_duty : forall C, build_conf C -> forall y h u l a b, fwired C y h u l -> 0 < b -> 0 <= a ->
  lately (2 * PERIOD) (fun y => duty_at_most y a b) l -> b * on_units PERIOD l <= a * PERIOD.
Proof. exact pin_duty. Qed.
Print Assumptions C84_duty.
(** Before the first plausible temperature: at most two fifths of the time. *)
Theorem C84_cold : forall C, build_conf C -> forall y h u l, fwired C y h u l -> lately (2 * PERIOD) (fcold C) l -> 5 * on_units PERIOD l <= 2 * PERIOD.
Proof. exact pin_cold. Qed.
Print Assumptions C84_cold.
Example C84_cold_ex : exists y h u l, fwired conf_m88p y h u l /\ lately (2 * PERIOD) (fcold conf_m88p) l /\ on_units PERIOD l = 13104.
Proof. exact cold_heats. Qed.
(** The sensor is considered failed: at most a tenth of the time. *)
Theorem C84_residual : forall C, build_conf C -> forall y h u l, fwired C y h u l -> lately (2 * PERIOD) (fdead C) l -> 10 * on_units PERIOD l <= PERIOD.
Proof. exact pin_dead. Qed.
Print Assumptions C84_residual.
Example C84_residual_ex : exists y h u l, fwired conf_m88p y h u l /\ lately (2 * PERIOD) (fdead conf_m88p) l /\ on_units PERIOD l = 3276.
Proof. exact dead_heats. Qed.
(** These executions are all executions: each can take place with the timer at any position of its period. *)
Theorem C84_every : forall C y q, freach C y -> 0 <= q < PERIOD -> exists h l, fwired C y h 0 l /\ 4 * w_tcnt h + w_pre h = q.
Proof. exact free_wired. Qed.
Print Assumptions C84_every.

(** C85: from the sensor to the heater, for a main loop watched by the watchdog: 1.3 s after the last
    conversion that was not too hot no current flows. *)
Theorem C85_over_temperature : forall S lo hi C, build_conf C -> speed_ok S -> forall t h u l, guarded S -> lwired S lo hi C adj_99 t h u l ->
  (forall c v, lo <= c <= hi -> temp_of_code C (s_adj (x_cache (y_set (st_y t)))) c v -> 480 * 64 < v <= 500 * 64) ->
  1272 < v_steady (st_w t) -> 920 < v_calm (st_w t) -> w_pin h = true.
Proof. exact wall_hot. Qed.
Print Assumptions C85_over_temperature.
Example C85_ex : guarded (mkSpeed 300 2 20 4 1) /\
  exists t h u l, lwired (mkSpeed 300 2 20 4 1) 412 422 conf_m88p adj_99 t h u l /\ 1272 < v_steady (st_w t) /\ 920 < v_calm (st_w t) /\ s_adj (x_cache (y_set (st_y t))) = 0.
Proof. exact (conj (proj1 slow_ok) case85). Qed.
(** 5.9 s after the last plausible conversion: at most a tenth of the time. *)
Theorem C85_sensor_failure : forall S lo hi C, build_conf C -> speed_ok S -> forall t h u l, guarded S -> lwired S lo hi C adj_99 t h u l ->
  (forall adj c v, -99 * 64 <= adj <= 99 * 64 -> lo <= c <= hi -> temp_of_code C adj c v -> v < -20 * 64 \/ 500 * 64 < v) ->
  5851 < v_steady (st_w t) -> 10 * on_units PERIOD l <= PERIOD.
Proof. exact wall_dead. Qed.
Print Assumptions C85_sensor_failure.
Example C85_failure_ex :
  (forall C adj c v, -99 * 64 <= adj <= 99 * 64 -> c <= 45 \/ 484 <= c -> temp_of_code C adj c v -> v < -20 * 64 \/ 500 * 64 < v) /\
  exists t h u l, lwired (mkSpeed 300 2 20 4 1) 484 1023 conf_m88p adj_99 t h u l /\ 5851 < v_steady (st_w t).
Proof. exact (conj lost_codes case85_dead). Qed.
Theorem C85_every : forall S lo hi C ok t q, loop S lo hi C ok t -> 0 <= q < PERIOD -> exists h l, lwired S lo hi C ok t h 0 l /\ 4 * w_tcnt h + w_pre h = q.
Proof. exact loop_wired. Qed.
Print Assumptions C85_every.
