(** * Reaction time to a failing current sensor (C95)

    [sensed L lo hi C y w s]: the firmware is in state [y] after power-up and an execution in which the
    converter and the main loop are never later than [L] says; for [s] ms all codes of the current channel
    have been in lo..hi (see SpecSense).  The codes pass a low-pass filter, so the filter must settle before
    the check of 5 A sees them: [shown_min lo n] is the least code it shows after [n] means. *)
From Coq Require Import ZArith List Bool Lia.
From Verif Require Import Base MConf MTimer MPid MPwm MCurr SpecNum SpecCurr MSettings SpecSettings MSseg MDisplay MState MTemp MMeas
  MMenu MMain SpecDisplay SpecSys SpecRun SpecLive PSettingsEx Trace TraceLive SpecSense PSense PSense2.
Import ListNotations.
Open Scope Z_scope.

(** C95: codes that the settled filter shows as more than 5 A switch the heater off after 3 s. *)
Theorem C95_failure : forall L lo hi C y w s n, build_conf C -> limits_ok L -> 0 <= lo <= hi -> hi <= 1023 -> sensed L lo hi C y w s ->
  (forall c v, shown_min lo (S n) <= c <= shown_max hi (S n) -> curr_of_code c v -> v < 0 \/ 5 * 640 < v) ->
  3000 + settle_ms L n + 2 * slow_cycle L < s -> Z.testbit (cc_emerg (y_cc y)) 0 = true /\ pwm_off y.
Proof. exact sense_failure. Qed.
Print Assumptions C95_failure.
Example C95_ex : (exists y w s, sensed brisk 1000 1023 conf_m88p y w s /\ s = 5 /\ Z.testbit (cc_emerg (y_cc y)) 0 = false /\ cc_ocr (y_cc y) = 4915) /\
  exists y w s, sensed brisk 1000 1023 conf_m88p y w s /\ 3000 + settle_ms brisk 5 + 2 * slow_cycle brisk < s /\
  forall c v, shown_min 1000 6 <= c <= shown_max 1023 6 -> curr_of_code c v -> v < 0 \/ 5 * 640 < v.
Proof. exact case95. Qed.
(** In numbers: every code above 5 A (296 and up) within 99 cycles, codes of at least 512 within 15. *)
Theorem C95_high : forall L lo hi C y w s, build_conf C -> limits_ok L -> lo <= hi -> hi <= 1023 -> sensed L lo hi C y w s ->
  (296 <= lo /\ 3000 + slow_window L + 99 * slow_cycle L < s \/ 512 <= lo /\ 3000 + slow_window L + 15 * slow_cycle L < s) ->
  Z.testbit (cc_emerg (y_cc y)) 0 = true /\ pwm_off y.
Proof. exact sense_high. Qed.
Print Assumptions C95_high.
(** A repaired sensor is accepted as soon as the filter has settled. *)
Theorem C95_recovery : forall L lo hi C y w s n, build_conf C -> limits_ok L -> 0 <= lo <= hi -> hi <= 1023 -> sensed L lo hi C y w s ->
  (forall c v, shown_min lo (S n) <= c <= shown_max hi (S n) -> curr_of_code c v -> 0 <= v <= 5 * 640) ->
  settle_ms L n + slow_cycle L < s -> Z.testbit (cc_emerg (y_cc y)) 0 = false.
Proof. exact sense_recovery. Qed.
Print Assumptions C95_recovery.
(** What the check does not notice: a sensor that reads low, in particular one that shows no current at all
    while the heater is driven. *)
Theorem C95_low : forall L lo hi C y w s, build_conf C -> limits_ok L -> 0 <= lo <= hi -> sensed L lo hi C y w s ->
  (hi <= 295 /\ slow_window L + 112 * slow_cycle L < s \/ hi = 0 /\ slow_window L + 20 * slow_cycle L < s) ->
  Z.testbit (cc_emerg (y_cc y)) 0 = false.
Proof. exact sense_low. Qed.
Print Assumptions C95_low.
Example C95_low_ex : exists y w s, sensed brisk 0 0 conf_m88p y w s /\ slow_window brisk + 20 * slow_cycle brisk < s /\ cc_ocr (y_cc y) < 8191.
Proof. exact case95_zero. Qed.
