(** * The main loop on hardware of known speed (C72-C74)

    [loop S lo hi C ok t]: the whole station (firmware, converter, EEPROM, watchdog or power switch) is in
    state [t] after any execution in which the main loop calls its work functions in the order of
    main.c:77-91 and nothing is later than the speeds [S] say (see SpecLoop).  Nothing else is assumed:
    the hypotheses of the other theorems ([reach], [served], [prompt]) are proved. *)
From Coq Require Import ZArith List Bool Lia.
From Verif Require Import Base MConf MTimer MPid MPwm MCurr SpecNum SpecCurr MSettings SpecSettings MSseg MDisplay MState MTemp MMeas
  MMenu MMain SpecDisplay SpecSys SpecRun SpecUI SpecLive PSettingsEx Trace TraceLive PLoop PLoop2 PLoop3 PLoop4 SpecLoop TraceLoop PLoopEx.
Import ListNotations.
Open Scope Z_scope.

(** C72: every state is reachable in the sense of C24-C67, and every event that can happen meets the
    assumptions made there of the environment. *)
Theorem C72_environment : forall S lo hi C, build_conf C -> speed_ok S -> forall ok t, loop S lo hi C ok t ->
  reach C (st_y t) /\ forall e, may S C t e -> ev_ok C (st_y t) e.
Proof. exact loop_environment. Qed.
Print Assumptions C72_environment.
Example C72_ex : (speed_ok swift /\ quick swift /\ finite_speed swift) /\
  exists t, loop swift 0 1023 conf_m88p adj_99 t /\ busy (st_y t) = true /\ x_request (y_set (st_y t)) = true /\ st_at t = AtSettings /\ u_menu (st_u t) = MENU_SELPRESET.
Proof. exact (conj swift_ok case72). Qed.
(** No call of the main loop and no interrupt has an undefined effect. *)
Theorem C72_defined : forall S lo hi C, build_conf C -> speed_ok S -> forall ok t e, loop S lo hi C ok t -> may S C t e ->
  exists y', step C (st_y t) e = Some y'.
Proof. exact loop_defined. Qed.
Print Assumptions C72_defined.
(** One call of main_loop_once is one round of the five work functions, in this order, back to the first. *)
Theorem C72_iteration : forall S lo hi C, build_conf C -> speed_ok S -> forall ok t pins, loop S lo hi C ok t -> st_at t = AtMeasure -> is_u8 pins ->
  exists t', main_loop_once C (st_y t) pins = Some (st_y t') /\
    moves S lo hi C t [EMeasure; EMenu; EDisplay; EButtons pins; ESettings] t' /\ st_at t' = AtMeasure.
Proof. exact loop_iteration. Qed.
Print Assumptions C72_iteration.
(** The deadlines never block: time can go on for as long as one likes. *)
Theorem C72_no_deadlock : forall S lo hi C, build_conf C -> speed_ok S -> forall ok t n, finite_speed S -> loop S lo hi C ok t -> 0 <= n ->
  exists l t', moves S lo hi C t l t' /\ duration l = n.
Proof. exact loop_no_deadlock. Qed.
Print Assumptions C72_no_deadlock.
(** The measurement is served as C68-C71 require, with the length of an iteration as its polling time. *)
Theorem C72_served : forall S lo hi C, build_conf C -> speed_ok S -> forall t, loop S lo hi C adj_99 t ->
  served (limits_of S) lo hi C (st_y t) (st_w t).
Proof. exact loop_served. Qed.
Print Assumptions C72_served.
(** If an iteration takes at most 5 ms then the user interface is polled as C67 requires, and the firmware
    always shows what the automaton of C61, C62 and C67 shows. *)
Theorem C72_prompt : forall S lo hi C, build_conf C -> speed_ok S -> quick S -> forall ok t, loop S lo hi C ok t ->
  exists m b, prompt C (st_y t) (st_u t) m b.
Proof. exact loop_prompt. Qed.
Print Assumptions C72_prompt.
Theorem C72_shows : forall S lo hi C, build_conf C -> speed_ok S -> quick S -> forall ok t, loop S lo hi C ok t ->
  shows C (st_y t) (st_u t).
Proof. exact loop_shows. Qed.
Print Assumptions C72_shows.

(** C73: what the user has set survives a power failure at any time later than [safe_ms] after the last
    press of PLUS or MINUS: the station comes up with the very settings it had, which are those of the
    automaton of the user interface. *)
Theorem C73_saved : forall S lo hi C, build_conf C -> speed_ok S -> quick S -> forall ok t v pinb, loop S lo hi C ok t ->
  safe_ms S <= st_hands t -> is_u8 v -> is_u8 pinb ->
  may S C t (EPower v pinb) /\ exists y', step C (st_y t) (EPower v pinb) = Some y' /\
    x_cache (y_set y') = x_cache (y_set (st_y t)) /\ same_settings (x_cache (y_set y')) (u_cfg (st_u t)).
Proof. exact loop_saved. Qed.
Print Assumptions C73_saved.
Example C73_ex : exists t, loop swift 0 1023 conf_m88p any_settings t /\ safe_ms swift <= st_hands t /\ s_active (u_cfg (st_u t)) = 4.
Proof. exact case73. Qed.
(** It does not after 900 ms. *)
Example C73_early : exists t y', loop swift 0 1023 conf_m88p any_settings t /\ 900 <= st_hands t /\ s_active (u_cfg (st_u t)) = 4 /\
  may swift conf_m88p t (EPower 255 NO_KEYS) /\ step conf_m88p (st_y t) (EPower 255 NO_KEYS) = Some y' /\ s_active (x_cache (y_set y')) = 3.
Proof. exact case73_early. Qed.
(** Time since the settings last changed is not enough: with PLUS held down at the limit of 480 degrees each
    step of the ramp, though it changes nothing, delays the store by another second. *)
Theorem C73_held_refuted : exists t l t' y', loop swift 0 1023 conf_m88p any_settings t /\ preset_of (u_cfg (st_u t)) = 480 * 64 /\
  moves swift 0 1023 conf_m88p t l t' /\ duration l = 4000 /\ preset_of (u_cfg (st_u t')) = 480 * 64 /\
  may swift conf_m88p t' (EPower 255 NO_KEYS) /\ step conf_m88p (st_y t') (EPower 255 NO_KEYS) = Some y' /\ preset_of (x_cache (y_set y')) = 350 * 64.
Proof. exact case73_held. Qed.
Print Assumptions C73_held_refuted.

(** C74: the protections of C70 and C71 with nothing but the watchdog to bound an iteration: however long
    the iterations are, over-temperature switches the heater off within 1011 ms, and a sensor failure stops
    the temperature controller within 5330 ms, of the run in which they occur.  (An iteration of more than
    300 ms ends the run with a reset; the times are those since power-up or reset.) *)
Theorem C74_over_temperature : forall S lo hi C t, build_conf C -> guarded S -> loop S lo hi C adj_99 t ->
  (forall c v, lo <= c <= hi -> temp_of_code C (s_adj (x_cache (y_set (st_y t)))) c v -> 480 * 64 < v <= 500 * 64) ->
  1011 < v_steady (st_w t) -> 659 < v_calm (st_w t) -> pwm_off (st_y t).
Proof. exact guarded_hot. Qed.
Print Assumptions C74_over_temperature.
Theorem C74_sensor_failure : forall S lo hi C t, build_conf C -> guarded S -> loop S lo hi C adj_99 t ->
  (forall adj c v, -99 * 64 <= adj <= 99 * 64 -> lo <= c <= hi -> temp_of_code C adj c v -> v < -20 * 64 \/ 500 * 64 < v) ->
  5330 < v_steady (st_w t) ->
  t_emerg (y_ct (st_y t)) = true /\ p_setpoint (cc_pid (y_cc (st_y t))) = 0 /\ duty_at_most (st_y t) 1 10.
Proof. exact guarded_dead. Qed.
Print Assumptions C74_sensor_failure.
(** A station whose main loop takes 300 ms for every iteration. *)
Example C74_ex : guarded (mkSpeed 300 2 20 4 1) /\
  exists t, loop (mkSpeed 300 2 20 4 1) 412 422 conf_m88p adj_99 t /\ 1272 < v_steady (st_w t) /\ 920 < v_calm (st_w t) /\ s_adj (x_cache (y_set (st_y t))) = 0.
Proof. exact (conj (proj1 slow_ok) case74). Qed.
