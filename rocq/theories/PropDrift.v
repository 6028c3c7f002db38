(** * A persistent deviation from the set-point is corrected (C96)

    [tracking L lo hi C W b y w n]: the firmware is in state [y] after power-up and an execution as in
    C68-C71, with the stopwatches [w]; for the last [n] ms the set-point has been [W], the boost mode [b] and
    the gains in use not less than the factory gains kp and ki.  [j] is the least change of the integrator in
    one run of the controller, in 1/64 degree; [k] is a number of cycles. *)
From Coq Require Import ZArith List Bool Lia.
From Verif Require Import Base MConf MTimer MPid MPwm MCurr SpecNum SpecCurr MSettings SpecSettings MSseg MDisplay MState MTemp MMeas
  MMenu MMain SpecDisplay SpecSys SpecRun SpecLive SpecDrift PSettingsEx Trace TraceLive PLive PDrift PDrift2 PDrift3 PLiveEx.
Import ListNotations.
Open Scope Z_scope.

(** Below the set-point.  The demand rises with every cycle, up to the limit of the integrator (80 degrees)
    or the full demand of 5 A.  250 degrees of correction are 5 A. *)
Theorem C96_rises : forall L lo hi C W b vlo vhi j k y w n, build_conf C -> limits_ok L ->
  -20 * 64 <= vlo <= vhi -> vhi <= 480 * 64 -> 1 <= W - vhi -> W - vlo < 2 * (W - vhi) ->
  0 <= j -> 1024 * j - 544 <= 19 * (W - vhi) -> 1 <= k ->
  tracking L lo hi C W b y w n ->
  (forall c x, lo <= c <= hi -> temp_of_code C (s_adj (x_cache (y_set y))) c x -> vlo <= x <= vhi) ->
  (k + 1) * slow_cycle L < n -> (k + 1) * slow_cycle L < v_calm w -> (k + 1) * slow_cycle L + slow_window L < v_steady w ->
  Z.min (5 * 640) ((Z.min (80 * 64) (k * j - 30 * 64) + 3 * (W - vhi) / 2) / 5) <= p_setpoint (cc_pid (y_cc y)).
Proof. exact drift_up. Qed.
Print Assumptions C96_rises.

(** Above the set-point.  The demand falls with every cycle, *)
Theorem C96_falls : forall L lo hi C W b vlo vhi j k y w n, build_conf C -> limits_ok L ->
  -20 * 64 <= vlo <= vhi -> vhi <= 500 * 64 -> 1 <= vlo - W -> vhi - W < 2 * (vlo - W) ->
  0 <= j -> 1024 * j - 480 < 19 * (vlo - W) -> 1 <= k ->
  tracking L lo hi C W b y w n ->
  (forall c x, lo <= c <= hi -> temp_of_code C (s_adj (x_cache (y_set y))) c x -> vlo <= x <= vhi) ->
  (k + 1) * slow_cycle L < n -> (k + 1) * slow_cycle L < v_calm w -> (k + 1) * slow_cycle L + slow_window L < v_steady w ->
  p_setpoint (cc_pid (y_cc y)) <= Z.max 0 ((Z.max (-30 * 64) (80 * 64 - k * j) - 3 * (vlo - W) / 2 + 2) / 5).
Proof. exact drift_down. Qed.
Print Assumptions C96_falls.

(** down to nothing; then at most a tenth of the maximum is commanded (the current controller's integrator),
    whatever the current sensor reports. *)
Theorem C96_rests : forall L lo hi C W b vlo vhi j k, build_conf C -> limits_ok L ->
  -20 * 64 <= vlo <= vhi -> vhi <= 500 * 64 -> 1 <= vlo - W -> vhi - W < 2 * (vlo - W) ->
  0 <= j -> 1024 * j - 480 < 19 * (vlo - W) -> 1 <= k -> 80 * 64 - k * j <= 3 * (vlo - W) / 2 -> forall y w n,
  tracking L lo hi C W b y w n ->
  (forall c x, lo <= c <= hi -> temp_of_code C (s_adj (x_cache (y_set y))) c x -> vlo <= x <= vhi) ->
  (k + 2) * slow_cycle L < n -> (k + 2) * slow_cycle L < v_calm w -> (k + 2) * slow_cycle L + slow_window L < v_steady w ->
  duty_at_most y 1 10.
Proof. exact drift_rests. Qed.
Print Assumptions C96_rests.

(** The dead band: from 0.44 degrees above to 0.39 below the set-point the integrator does not move, with the
    factory gain ki and runs at most 70 ms apart. *)
Theorem C96_dead_band : forall C y e y' n r, build_conf C -> temp_clock C y n -> n <= 70 -> temp_processed y e y' r -> step C y e = Some y' ->
  ki (used_gains C y) = 19 -> -28 <= wanted_setpoint (x_cache (y_set y)) (c_idle C && t_idle (y_ct y)) - r <= 25 ->
  p_integr (t_pid (y_ct y')) = p_integr (t_pid (y_ct y)).
Proof. exact dead_band. Qed.
Print Assumptions C96_dead_band.

(** Factory settings, the tip stays between 200 and 205 degrees: at least 4.3 A are demanded after 13 cycles. *)
Example C96_rises_ex : limits_ok brisk /\ build_conf conf_m88p /\ (exists y w n, tracking brisk 241 243 conf_m88p (350 * 64) 0 y w n /\
  (12 + 1) * slow_cycle brisk < n /\ (12 + 1) * slow_cycle brisk < v_calm w /\ (12 + 1) * slow_cycle brisk + slow_window brisk < v_steady w /\
  (forall c x, 241 <= c <= 243 -> temp_of_code conf_m88p (s_adj (x_cache (y_set y))) c x -> 200 * 64 <= x <= 205 * 64)) /\
  1024 * 172 - 544 <= 19 * (350 * 64 - 205 * 64) /\
  Z.min (5 * 640) ((Z.min (80 * 64) (12 * 172 - 30 * 64) + 3 * (350 * 64 - 205 * 64) / 2) / 5) = 2812.
Proof. exact (conj brisk_ok (conj build_m88p (conj case96_up rate96_up))). Qed.
(** Factory settings, the tip stays at about 400 degrees: the heater rests after 10 cycles. *)
Example C96_rests_ex : limits_ok brisk /\ build_conf conf_m88p /\ (exists y w n, tracking brisk 362 363 conf_m88p (350 * 64) 0 y w n /\
  (8 + 2) * slow_cycle brisk < n /\ (8 + 2) * slow_cycle brisk < v_calm w /\ (8 + 2) * slow_cycle brisk + slow_window brisk < v_steady w /\
  (forall c x, 362 <= c <= 363 -> temp_of_code conf_m88p (s_adj (x_cache (y_set y))) c x -> 399 * 64 <= x <= 402 * 64)) /\
  1024 * 58 - 480 < 19 * (399 * 64 - 350 * 64) /\ 80 * 64 - 8 * 58 <= 3 * (399 * 64 - 350 * 64) / 2.
Proof. exact (conj brisk_ok (conj build_m88p (conj case96_down rate96_down))). Qed.
(** Factory settings, a tip at 350.3 degrees: the integrator stays at 849/64. *)
Example C96_dead_band_ex : exists y y' r, temp_clock conf_m88p y 57 /\ step conf_m88p y EMeasure = Some y' /\ temp_processed y EMeasure y' r /\
  ki (used_gains conf_m88p y) = 19 /\ wanted_setpoint (x_cache (y_set y)) (c_idle conf_m88p && t_idle (y_ct y)) - r = -19 /\
  p_integr (t_pid (y_ct y)) = 849 /\ p_integr (t_pid (y_ct y')) = 849.
Proof. exact case96_band. Qed.
