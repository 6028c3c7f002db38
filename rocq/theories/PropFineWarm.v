(** * Interrupts inside the work functions: an iron hotter than its set-point is not heated (C110)

    [fwanting L lo hi chi C W y w n]: the firmware is in state [y] after power-up and an execution as in C97 (the
    interrupts occur inside measure_work, menu_work and buttons_work as well as between the events), with the
    stopwatches [w]; for the last [n] ms the set-point has been [W] and the gains in use not less than the
    factory gain kp. *)
From Coq Require Import ZArith List Bool Lia.
From Verif Require Import Base MConf MTimer MPid MPwm MCurr SpecNum SpecCurr MSettings SpecSettings MSseg MDisplay MState MTemp MMeas
  MMenu MMain SpecDisplay SpecSys SpecRun SpecLive SpecWarm MFine SpecFine SpecFineLive SpecFineWarm PSettingsEx Trace TraceLive PLiveEx PFineW3.
Import ListNotations.
Open Scope Z_scope.

(** The executions of C88 are among these, and these are executions of C97. *)
Theorem C110_includes : forall L lo hi chi C W y w n,
  (wanting L lo hi chi C W y w n -> fwanting L lo hi chi C W y w n) /\ (fwanting L lo hi chi C W y w n -> fserved L lo hi C y w).
Proof. exact (fun L lo hi chi C W y w n => conj (fwarm_includes L lo hi chi C W y w n) (fwarm_served L lo hi chi C W y w n)). Qed.
Print Assumptions C110_includes.

(** No demand: two cycles and a window after all temperatures are in vlo..vhi, 54 degrees or more above the
    set-point; the spread of the temperatures is less than the distance to the set-point. *)
Theorem C110_demand : forall L lo hi chi C W vlo vhi y w n, build_conf C -> limits_ok L ->
  -20 * 64 <= vlo <= vhi -> vhi <= 500 * 64 -> 54 * 64 <= vlo - W -> vhi - W < 2 * (vlo - W) ->
  fwanting L lo hi chi C W y w n ->
  (forall c x, lo <= c <= hi -> temp_of_code C (s_adj (x_cache (y_set y))) c x -> vlo <= x <= vhi) ->
  2 * slow_cycle L < n -> 2 * slow_cycle L < v_calm w -> 2 * slow_cycle L + slow_window L < v_steady w ->
  p_setpoint (cc_pid (y_cc y)) = 0.
Proof. exact fhot_demand. Qed.
Print Assumptions C110_demand.

(** The heater: one cycle later at most a tenth of the maximum is commanded, whatever the current sensor
    reports. *)
Theorem C110_rests : forall L lo hi chi C W vlo vhi y w n, build_conf C -> limits_ok L ->
  -20 * 64 <= vlo <= vhi -> vhi <= 500 * 64 -> 54 * 64 <= vlo - W -> vhi - W < 2 * (vlo - W) ->
  fwanting L lo hi chi C W y w n ->
  (forall c x, lo <= c <= hi -> temp_of_code C (s_adj (x_cache (y_set y))) c x -> vlo <= x <= vhi) ->
  3 * slow_cycle L < n -> 3 * slow_cycle L < v_calm w -> 3 * slow_cycle L + slow_window L < v_steady w ->
  duty_at_most y 1 10.
Proof. exact fhot_rests. Qed.
Print Assumptions C110_rests.

(** The factory settings; the tip is cold and heated with 2 A, then at about 420 degrees for six cycles; two
    timer interrupts inside the handling of every result. *)
Example C110_ex : limits_ok brisk /\ build_conf conf_m88p /\
  (exists y w n, fwanting brisk 372 378 1023 conf_m88p (350 * 64) y w n /\ v_steady w = 9 /\ p_setpoint (cc_pid (y_cc y)) = 5 * 640 /\ cc_ocr (y_cc y) = 4915) /\
  exists y w n, fwanting brisk 372 378 1023 conf_m88p (350 * 64) y w n /\
  3 * slow_cycle brisk < n /\ 3 * slow_cycle brisk < v_calm w /\ 3 * slow_cycle brisk + slow_window brisk < v_steady w /\
  (forall c x, 372 <= c <= 378 -> temp_of_code conf_m88p (s_adj (x_cache (y_set y))) c x -> 410 * 64 <= x <= 430 * 64).
Proof. exact (conj brisk_ok (conj build_m88p case110)). Qed.
