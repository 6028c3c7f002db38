(** * The tip of the iron in the loop (C101) *)
From Coq Require Import ZArith List Bool.
From Verif Require Import Base MConf MTimer MPid MCurr MSettings SpecSettings MState MMeas MMenu MMain SpecSys SpecRun SpecUI SpecLive SpecLoop
  MFine SpecFine MHeat SpecHeat SpecTip PSettingsEx PTip PTipEx.
Import ListNotations.
Open Scope Z_scope.

(** C101: the range of converter codes is that of the temperatures above 480 and up to 500 degrees. *)
Theorem C101_codes : forall C a c v, temp_of_code C a c v -> (hot_lo C a <= c <= hot_hi C a <-> 480 * 64 < v <= 500 * 64).
Proof. exact hot_codes. Qed.
Print Assumptions C101_codes.
(** From the sensor to the heater, for every speed of the main loop: no current flows if for the reaction time
    every conversion was too hot (C85 is the case of a main loop bounded by the watchdog only). *)
Theorem C101_reaction : forall S lo hi C, build_conf C -> speed_ok S -> forall t h u l, lwired S lo hi C adj_99 t h u l ->
  (forall c v, lo <= c <= hi -> temp_of_code C (s_adj (x_cache (y_set (st_y t)))) c v -> 480 * 64 < v <= 500 * 64) ->
  reaction S < v_steady (st_w t) -> reaction S < v_calm (st_w t) -> w_pin h = true.
Proof. exact wall_hot_any. Qed.
Print Assumptions C101_reaction.
(** The tip never gets hotter than 480 degrees, the error of the sensor, and what it gains in the reaction time
    and its own lag, whatever the set point, the presets, the keys, the load of the tip and the current sensor are or do, as long as the
    control is on and the sensor adjustment is not changed.
    Needed: at this temperature the sensor is still plausible. *)
Theorem C101_bound : forall I S C a, build_conf C -> speed_ok S -> iron_ok I -> tip_max I S + i_err I <= 500 * 1000000 ->
  forall t h u l th, tip I S C a t h u l th -> th <= tip_max I S.
Proof. exact tip_bound. Qed.
Print Assumptions C101_bound.
(** For an iron that warms by up to 10 degrees per second, with a main loop as slow as the watchdog allows, this is
    495.8 degrees. *)
Example C101_ex : (iron_ok some_iron /\ speed_ok slow_speed /\ tip_max some_iron slow_speed = 495831840 /\
  tip_max some_iron slow_speed + i_err some_iron <= 500 * 1000000) /\
  exists t h u l th, tip some_iron slow_speed conf_m88p 0 t h u l th /\ th = 480010080 /\ m_count (y_meas (st_y t)) = 1 /\ v_conv (st_w t) = 0.
Proof. exact (conj case_max case_tip). Qed.
