(** * A cold iron is heated (C86), an iron hotter than its set-point is not (C88)

    [wanting L lo hi chi C W y w n]: the firmware is in state [y] after power-up and an execution as in
    C68-C71, with the stopwatches [w]; for the last [n] ms the set-point has been [W] and the gains in use
    not less than the factory gain kp; no code of the current channel was above [chi] since power-up
    (203 is 3.4 A). *)
From Coq Require Import ZArith List Bool Lia.
From Verif Require Import Base MConf MTimer MPid MPwm MCurr SpecNum SpecCurr MSettings SpecSettings MSseg MDisplay MState MTemp MMeas
  MMenu MMain SpecDisplay SpecSys SpecRun SpecLive SpecWarm PSettingsEx Trace TraceLive PLive PWarm PCool PLiveEx PWarmEx.
Import ListNotations.
Open Scope Z_scope.

(** The full demand of 5 A: two cycles and a window after all temperatures are in vlo..vhi, 187 degrees or
    more below the set-point; the spread of the temperatures is less than the distance to the set-point. *)
Theorem C86_demand : forall L lo hi chi C W vlo vhi y w n, build_conf C -> limits_ok L ->
  -20 * 64 <= vlo <= vhi -> vhi <= 500 * 64 -> 187 * 64 <= W - vhi -> W - vlo < 2 * (W - vhi) ->
  wanting L lo hi chi C W y w n ->
  (forall c x, lo <= c <= hi -> temp_of_code C (s_adj (x_cache (y_set y))) c x -> vlo <= x <= vhi) ->
  2 * slow_cycle L < n -> 2 * slow_cycle L < v_calm w -> 2 * slow_cycle L + slow_window L < v_steady w ->
  p_setpoint (cc_pid (y_cc y)) = 5 * 640 /\ Z.testbit (cc_emerg (y_cc y)) 1 = false.
Proof. exact cold_demand. Qed.
Print Assumptions C86_demand.

(** The heater: one cycle later there is no emergency and at least 2 A are commanded. *)
Theorem C86_heats : forall L lo hi chi C W vlo vhi y w n, build_conf C -> limits_ok L ->
  -20 * 64 <= vlo <= vhi -> vhi <= 500 * 64 -> 187 * 64 <= W - vhi -> W - vlo < 2 * (W - vhi) -> 0 <= chi <= 203 ->
  wanting L lo hi chi C W y w n ->
  (forall c x, lo <= c <= hi -> temp_of_code C (s_adj (x_cache (y_set y))) c x -> vlo <= x <= vhi) ->
  3 * slow_cycle L < n -> 3 * slow_cycle L < v_calm w -> 3 * slow_cycle L + slow_window L < v_steady w ->
  cc_emerg (y_cc y) = 0 /\ cc_ocr (y_cc y) <= 4915.
Proof. exact cold_heats. Qed.
Print Assumptions C86_heats.

(** The factory settings (350 degrees) and a tip at room temperature, 330 ms after power-up. *)
Example C86_ex : limits_ok brisk /\ build_conf conf_m88p /\ exists y w n, wanting brisk 130 140 203 conf_m88p (350 * 64) y w n /\
  3 * slow_cycle brisk < n /\ 3 * slow_cycle brisk < v_calm w /\ 3 * slow_cycle brisk + slow_window brisk < v_steady w /\
  (forall c x, 130 <= c <= 140 -> temp_of_code conf_m88p (s_adj (x_cache (y_set y))) c x -> 15 * 64 <= x <= 40 * 64).
Proof. exact (conj brisk_ok (conj build_m88p case86)). Qed.

(** No demand: two cycles and a window after all temperatures are in vlo..vhi, 54 degrees or more above the
    set-point; the spread of the temperatures is less than the distance to the set-point. *)
Theorem C88_demand : forall L lo hi chi C W vlo vhi y w n, build_conf C -> limits_ok L ->
  -20 * 64 <= vlo <= vhi -> vhi <= 500 * 64 -> 54 * 64 <= vlo - W -> vhi - W < 2 * (vlo - W) ->
  wanting L lo hi chi C W y w n ->
  (forall c x, lo <= c <= hi -> temp_of_code C (s_adj (x_cache (y_set y))) c x -> vlo <= x <= vhi) ->
  2 * slow_cycle L < n -> 2 * slow_cycle L < v_calm w -> 2 * slow_cycle L + slow_window L < v_steady w ->
  p_setpoint (cc_pid (y_cc y)) = 0.
Proof. exact hot_demand. Qed.
Print Assumptions C88_demand.

(** The heater: one cycle later at most a tenth of the maximum is commanded (0.5 A, the current controller's
    integrator), whatever the current sensor reports. *)
Theorem C88_rests : forall L lo hi chi C W vlo vhi y w n, build_conf C -> limits_ok L ->
  -20 * 64 <= vlo <= vhi -> vhi <= 500 * 64 -> 54 * 64 <= vlo - W -> vhi - W < 2 * (vlo - W) ->
  wanting L lo hi chi C W y w n ->
  (forall c x, lo <= c <= hi -> temp_of_code C (s_adj (x_cache (y_set y))) c x -> vlo <= x <= vhi) ->
  3 * slow_cycle L < n -> 3 * slow_cycle L < v_calm w -> 3 * slow_cycle L + slow_window L < v_steady w ->
  duty_at_most y 1 10.
Proof. exact hot_rests. Qed.
Print Assumptions C88_rests.

(** The factory settings and a tip at about 420 degrees, 330 ms after power-up. *)
Example C88_ex : limits_ok brisk /\ build_conf conf_m88p /\ exists y w n, wanting brisk 372 378 1023 conf_m88p (350 * 64) y w n /\
  3 * slow_cycle brisk < n /\ 3 * slow_cycle brisk < v_calm w /\ 3 * slow_cycle brisk + slow_window brisk < v_steady w /\
  (forall c x, 372 <= c <= 378 -> temp_of_code conf_m88p (s_adj (x_cache (y_set y))) c x -> 410 * 64 <= x <= 430 * 64).
Proof. exact (conj brisk_ok (conj build_m88p case88)). Qed.
