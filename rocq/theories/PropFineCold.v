(** * Interrupts inside the work functions: a cold iron is heated (C111)

    [fwanting L lo hi chi C W y w n]: see C110 (PropFineWarm.v); no sample of the current channel has been above
    [chi] since power-up. *)
From Coq Require Import ZArith List Bool Lia.
From Verif Require Import Base MConf MTimer MPid MPwm MCurr SpecNum SpecCurr MSettings SpecSettings MSseg MDisplay MState MTemp MMeas
  MMenu MMain SpecDisplay SpecSys SpecRun SpecLive SpecWarm MFine SpecFine SpecFineLive SpecFineWarm PSettingsEx Trace TraceLive PLiveEx PFineC3.
Import ListNotations.
Open Scope Z_scope.

(** The full demand of 5 A: two cycles and a window after all temperatures are in vlo..vhi, 187 degrees or
    more below the set-point; the spread of the temperatures is less than the distance to the set-point. *)
Theorem C111_demand : forall L lo hi chi C W vlo vhi y w n, build_conf C -> limits_ok L ->
  -20 * 64 <= vlo <= vhi -> vhi <= 500 * 64 -> 187 * 64 <= W - vhi -> W - vlo < 2 * (W - vhi) ->
  fwanting L lo hi chi C W y w n ->
  (forall c x, lo <= c <= hi -> temp_of_code C (s_adj (x_cache (y_set y))) c x -> vlo <= x <= vhi) ->
  2 * slow_cycle L < n -> 2 * slow_cycle L < v_calm w -> 2 * slow_cycle L + slow_window L < v_steady w ->
  p_setpoint (cc_pid (y_cc y)) = 5 * 640 /\ Z.testbit (cc_emerg (y_cc y)) 1 = false.
Proof. exact fcold_demand. Qed.
Print Assumptions C111_demand.

(** The heater: one cycle later there is no emergency and at least 2 A are commanded. *)
Theorem C111_heats : forall L lo hi chi C W vlo vhi y w n, build_conf C -> limits_ok L ->
  -20 * 64 <= vlo <= vhi -> vhi <= 500 * 64 -> 187 * 64 <= W - vhi -> W - vlo < 2 * (W - vhi) -> 0 <= chi <= 203 ->
  fwanting L lo hi chi C W y w n ->
  (forall c x, lo <= c <= hi -> temp_of_code C (s_adj (x_cache (y_set y))) c x -> vlo <= x <= vhi) ->
  3 * slow_cycle L < n -> 3 * slow_cycle L < v_calm w -> 3 * slow_cycle L + slow_window L < v_steady w ->
  cc_emerg (y_cc y) = 0 /\ cc_ocr (y_cc y) <= 4915.
Proof. exact fcold_heats. Qed.
Print Assumptions C111_heats.

(** The factory settings (350 degrees) and a tip at room temperature for six cycles; two timer interrupts inside
    the handling of every result. *)
Example C111_ex : limits_ok brisk /\ build_conf conf_m88p /\ exists y w n, fwanting brisk 130 140 203 conf_m88p (350 * 64) y w n /\
  3 * slow_cycle brisk < n /\ 3 * slow_cycle brisk < v_calm w /\ 3 * slow_cycle brisk + slow_window brisk < v_steady w /\
  (forall c x, 130 <= c <= 140 -> temp_of_code conf_m88p (s_adj (x_cache (y_set y))) c x -> 15 * 64 <= x <= 40 * 64).
Proof. exact (conj brisk_ok (conj build_m88p case111)). Qed.
