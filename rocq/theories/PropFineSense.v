(** * Reaction time to a failing current sensor, with interrupts inside the work functions (C109)

    [fsensed L lo hi C y w s]: as [sensed] of PropSense (C95), but timer, converter and EEPROM interrupts may
    also happen inside measure_work, menu_work and buttons_work, at every point where these read the clock
    (see MFine, SpecFineLive, SpecFineSense).  The time spent inside measure_work is part of [l_poll]; the
    check of 5 A reads the clock inside, so this time is added to the 3 s. *)
From Coq Require Import ZArith List Bool Lia.
From Verif Require Import Base MConf MTimer MPid MPwm MCurr SpecNum SpecCurr MSettings SpecSettings MSseg MDisplay MState MTemp MMeas
  MMenu MMain SpecDisplay SpecSys SpecRun SpecLive PSettingsEx Trace TraceLive SpecSense MFine SpecFine SpecFineLive SpecFineSense PFineS2.
Import ListNotations.
Open Scope Z_scope.

(** The executions of C95 are special cases; all of them are executions of C97. *)
Theorem C109_includes : forall L lo hi C y w s, (sensed L lo hi C y w s -> fsensed L lo hi C y w s) /\ (fsensed L lo hi C y w s -> fserved L 0 1023 C y w).
Proof. exact (fun L lo hi C y w s => conj (fsense_includes L lo hi C y w s) (fsense_served L lo hi C y w s)). Qed.
Print Assumptions C109_includes.

(** C109: codes that the settled filter shows as more than 5 A switch the heater off after 3 s. *)
Theorem C109_failure : forall L lo hi C y w s n, build_conf C -> limits_ok L -> 0 <= lo <= hi -> hi <= 1023 -> fsensed L lo hi C y w s ->
  (forall c v, shown_min lo (S n) <= c <= shown_max hi (S n) -> curr_of_code c v -> v < 0 \/ 5 * 640 < v) ->
  3000 + l_poll L + settle_ms L n + 2 * slow_cycle L < s -> Z.testbit (cc_emerg (y_cc y)) 0 = true /\ pwm_off y.
Proof. exact fsense_failure. Qed.
Print Assumptions C109_failure.
(** Two timer interrupts inside the handling of every result. *)
Example C109_ex : (exists y w s, fsensed brisk 1000 1023 conf_m88p y w s /\ s = 7 /\ Z.testbit (cc_emerg (y_cc y)) 0 = false /\ cc_ocr (y_cc y) = 4915) /\
  exists y w s, fsensed brisk 1000 1023 conf_m88p y w s /\ 3000 + l_poll brisk + settle_ms brisk 5 + 2 * slow_cycle brisk < s /\
  forall c v, shown_min 1000 6 <= c <= shown_max 1023 6 -> curr_of_code c v -> v < 0 \/ 5 * 640 < v.
Proof. exact case109. Qed.
(** In numbers: every code above 5 A (296 and up) within 99 cycles, codes of at least 512 within 15. *)
Theorem C109_high : forall L lo hi C y w s, build_conf C -> limits_ok L -> lo <= hi -> hi <= 1023 -> fsensed L lo hi C y w s ->
  (296 <= lo /\ 3000 + l_poll L + slow_window L + 99 * slow_cycle L < s \/ 512 <= lo /\ 3000 + l_poll L + slow_window L + 15 * slow_cycle L < s) ->
  Z.testbit (cc_emerg (y_cc y)) 0 = true /\ pwm_off y.
Proof. exact fsense_high. Qed.
Print Assumptions C109_high.
(** A repaired sensor is accepted as soon as the filter has settled. *)
Theorem C109_recovery : forall L lo hi C y w s n, build_conf C -> limits_ok L -> 0 <= lo <= hi -> hi <= 1023 -> fsensed L lo hi C y w s ->
  (forall c v, shown_min lo (S n) <= c <= shown_max hi (S n) -> curr_of_code c v -> 0 <= v <= 5 * 640) ->
  settle_ms L n + slow_cycle L < s -> Z.testbit (cc_emerg (y_cc y)) 0 = false.
Proof. exact fsense_recovery. Qed.
Print Assumptions C109_recovery.
(** Codes of at most 5 A, in particular a sensor that shows no current while the heater is driven, never
    raise the flag. *)
Theorem C109_low : forall L lo hi C y w s, build_conf C -> limits_ok L -> 0 <= lo <= hi -> fsensed L lo hi C y w s ->
  (hi <= 295 /\ slow_window L + 112 * slow_cycle L < s \/ hi = 0 /\ slow_window L + 20 * slow_cycle L < s) ->
  Z.testbit (cc_emerg (y_cc y)) 0 = false.
Proof. exact fsense_low. Qed.
Print Assumptions C109_low.
Example C109_low_ex : exists y w s, fsensed brisk 0 0 conf_m88p y w s /\ slow_window brisk + 20 * slow_cycle brisk < s /\ cc_ocr (y_cc y) < 8191.
Proof. exact case109_zero. Qed.
