(** * Properties of the keys, the menus and the screen (C37-C40, C42, C43, C48, C61, C62, C67)

    The executions ([ui_run]) start at power-up and obey [in_time]: no clock is polled more than 30 s
    late.  C67_prompt shows that a main loop polling often enough meets this. *)
From Coq Require Import ZArith List Bool.
From Verif Require Import Base MConf MUtil MTimer MPid MCurr MSettings SpecSettings MSseg MDisplay MState MTemp MMeas
  MMenu MMain SpecDisplay SpecSys SpecRun SpecUI PSysProp PSysUI2 PSysUI3 PSysUI4 PSysUI5 PSysUI6 PSysUI7 Trace PSysTrace PSysTrace3.
Import ListNotations.
Open Scope Z_scope.

(** C37: the iron key; [n] is the time for which it was down. *)
Theorem C37_tap : forall C y0 n y1 y2, build_conf C -> c_boost C = true -> c_idle C = true -> t_idle (y_ct y0) = false ->
  iron_up C y0 n y1 y2 -> t_idle (y_ct y1) = false ->
  t_idle (y_ct y2) = false /\ t_boost (y_ct y2) = cycle_up 2 (t_boost (y_ct y0)).
Proof. exact iron_tap. Qed.
Print Assumptions C37_tap.
Example C37_ex_tap : exists y0 y1 y2, iron_up conf_m88p y0 50 y1 y2 /\ t_idle (y_ct y0) = false /\ t_boost (y_ct y0) = 0 /\
  t_idle (y_ct y1) = false /\ t_boost (y_ct y2) = 1.
Proof. exact case37_tap. Qed.
Theorem C37_short : forall C y0 n y u, build_conf C -> c_boost C = true -> c_idle C = true -> t_idle (y_ct y0) = false ->
  iron_held C y0 n y u -> n < 1000 -> t_idle (y_ct y) = false /\ t_boost (y_ct y) = t_boost (y_ct y0).
Proof. exact iron_short. Qed.
Print Assumptions C37_short.
Theorem C37_long : forall C y0 n y u pins y', build_conf C -> c_boost C = true -> c_idle C = true -> t_idle (y_ct y0) = false ->
  iron_held C y0 n y u -> 1000 <= n -> is_u8 pins -> in_time u (EButtons pins) -> sample_due u = true ->
  down pins BUTTON_IRON = true -> down pins BUTTON_SET = false -> step C y (EButtons pins) = Some y' ->
  t_idle (y_ct y') = true /\ t_boost (y_ct y') = t_boost (y_ct y0).
Proof. exact iron_long. Qed.
Print Assumptions C37_long.
Example C37_ex_long : exists y0 y u y', iron_held conf_m88p y0 1000 y u /\ t_idle (y_ct y0) = false /\ t_boost (y_ct y0) = 1 /\
  in_time u (EButtons IRON_KEY) /\ sample_due u = true /\ step conf_m88p y (EButtons IRON_KEY) = Some y' /\ t_idle (y_ct y') = true.
Proof. exact case37_long. Qed.
Theorem C37_idle_release : forall C y0 n y1 y2, build_conf C -> c_boost C = true -> c_idle C = true -> t_idle (y_ct y0) = false ->
  iron_up C y0 n y1 y2 -> t_idle (y_ct y1) = true -> t_idle (y_ct y2) = true /\ t_boost (y_ct y2) = t_boost (y_ct y0).
Proof. exact iron_idle_up. Qed.
Print Assumptions C37_idle_release.
Theorem C37_leave : forall C y0 n y u, build_conf C -> c_boost C = true -> c_idle C = true -> t_idle (y_ct y0) = true ->
  iron_held C y0 n y u -> t_idle (y_ct y) = false /\ t_boost (y_ct y) = t_boost (y_ct y0).
Proof. exact iron_leave. Qed.
Print Assumptions C37_leave.
Example C37_ex_leave : exists y0 y u, iron_held conf_m88p y0 20 y u /\ t_idle (y_ct y0) = true /\ t_idle (y_ct y) = false.
Proof. exact case37_leave. Qed.
Theorem C37_leave_release : forall C y0 n y1 y2, build_conf C -> c_boost C = true -> c_idle C = true -> t_idle (y_ct y0) = true ->
  iron_up C y0 n y1 y2 -> t_idle (y_ct y2) = false /\ t_boost (y_ct y2) = t_boost (y_ct y0).
Proof. exact iron_leave_up. Qed.
Print Assumptions C37_leave_release.
(** The other builds: boost only, idle switch, idle toggle, neither. *)
Theorem C37_builds : forall C y u pins y', build_conf C -> c_boost C && c_idle C = false -> sampled C y u pins y' ->
  down (u_pins u) BUTTON_SET = false -> down pins BUTTON_SET = false ->
  let before := down (u_pins u) BUTTON_IRON in let now := down pins BUTTON_IRON in
  t_boost (y_ct y') = (if c_boost C && (negb before && now) then cycle_up 2 (t_boost (y_ct y)) else t_boost (y_ct y)) /\
  t_idle (y_ct y') = (if negb (c_idle C) then t_idle (y_ct y)
                      else if c_idletoggle C then xorb (t_idle (y_ct y)) (negb before && now)
                      else if Bool.eqb before now then t_idle (y_ct y) else now).
Proof. exact iron_builds. Qed.
Print Assumptions C37_builds.

(** C38: the handlers are called exactly with the key events of the due samples, in the order SET,
    MINUS, PLUS, iron; sample number [k] is due at 10 [k] ms. *)
Theorem C38_calls : forall C y u pins, build_conf C -> ui_run C y u -> is_u8 pins -> in_time u (EButtons pins) ->
  step C y (EButtons pins) =
    if sample_due u
    then run_calls C (set_y_btn y (mkBtn (buttons_get_raw pins) (u16 (10 * (u_count u + 1))))) (key_events (u_pins u) pins)
    else Some y.
Proof. exact keys_calls. Qed.
Print Assumptions C38_calls.
Theorem C38_alternate : forall C y u T s l, build_conf C -> delivered C y u T s l -> forall k, alternate false (calls_of k l).
Proof. exact keys_alternate. Qed.
Print Assumptions C38_alternate.
Theorem C38_rate : forall C y u T s l, build_conf C -> delivered C y u T s l -> 10 * s <= T + 10.
Proof. exact keys_rate. Qed.
Print Assumptions C38_rate.
Theorem C38_other_pins : forall C y p q, is_u8 p -> is_u8 q -> (forall b, down p b = down q b) ->
  step C y (EButtons p) = step C y (EButtons q).
Proof. exact other_pins. Qed.
Print Assumptions C38_other_pins.
Example C38_ex : exists y u, delivered conf_m88p y u 60 7
  [(BUTTON_SET, BSTATE_POSEDGE); (BUTTON_SET, BSTATE_PRESSED); (BUTTON_SET, BSTATE_PRESSED); (BUTTON_SET, BSTATE_NEGEDGE)].
Proof. exact case38. Qed.

(** C39: SET, released alone; the chain of the menus. *)
Theorem C39_set : forall C y u y', build_conf C -> released_key C y u BUTTON_SET y' ->
  n_state (y_menu y') = (if y_dbg y then n_state (y_menu y) else menu_after C (n_state (y_menu y))) /\
  same_settings (x_cache (y_set y')) (x_cache (y_set y)) /\ n_ramp (y_menu y') = RAMP_NONE.
Proof. exact set_release. Qed.
Print Assumptions C39_set.
Example C39_ex_set : exists y u y', released_key conf_m88p y u BUTTON_SET y' /\ n_state (y_menu y) = MENU_CURTEMP /\ n_state (y_menu y') = MENU_IDLETEMP.
Proof. exact case39_set. Qed.
Theorem C39_chain : forall C k, (k < length (menu_chain C))%nat -> nth_error (menu_chain C) k = Some (Nat.iter k (menu_after C) MENU_CURTEMP).
Proof. exact chain_ok. Qed.
Print Assumptions C39_chain.
Theorem C39_chain_back : forall C, Nat.iter (length (menu_chain C)) (menu_after C) MENU_CURTEMP = MENU_CURTEMP /\ NoDup (menu_chain C).
Proof. exact chain_back. Qed.
Print Assumptions C39_chain_back.
(** PLUS and MINUS, released alone. *)
Theorem C39_adjust : forall C y u k y', build_conf C -> k = BUTTON_PLUS \/ k = BUTTON_MINUS -> released_key C y u k y' ->
  n_state (y_menu y') = match n_state (y_menu y) with MENU_CURTEMP => MENU_SELPRESET | _ => n_state (y_menu y) end /\
  same_settings (x_cache (y_set y'))
    (match n_state (y_menu y) with
     | MENU_SELPRESET => set_s_active (x_cache (y_set y)) ((match k with BUTTON_PLUS => cycle_up 5 | _ => cycle_down 5 end) (s_active (x_cache (y_set y))))
     | _ => x_cache (y_set y) end) /\ n_ramp (y_menu y') = RAMP_NONE.
Proof. exact adj_release. Qed.
Print Assumptions C39_adjust.
Example C39_ex_adjust : exists y u y', released_key conf_m88p y u BUTTON_MINUS y' /\ n_state (y_menu y) = MENU_CURTEMP /\ n_state (y_menu y') = MENU_SELPRESET.
Proof. exact case39_adj. Qed.
Theorem C39_press : forall C y u k y', build_conf C -> pressed_key C y u k y' ->
  n_state (y_menu y') = n_state (y_menu y) /\ same_settings (x_cache (y_set y')) (x_cache (y_set y)).
Proof. exact press_keeps. Qed.
Print Assumptions C39_press.
Example C39_ex_press : exists y u y', pressed_key conf_m88p y u BUTTON_PLUS y' /\ n_state (y_menu y) = MENU_SELPRESET.
Proof. exact case39_press. Qed.
(** PLUS or MINUS held. *)
Theorem C39_hold_short : forall C y0 (up : bool) n y u, build_conf C -> waits (n_state (y_menu y0)) = true ->
  key_held C (if up then BUTTON_PLUS else BUTTON_MINUS) y0 n y u -> n < 1000 ->
  n_state (y_menu y) = n_state (y_menu y0) /\ same_settings (x_cache (y_set y)) (x_cache (y_set y0)).
Proof. exact hold_short. Qed.
Print Assumptions C39_hold_short.
Theorem C39_hold_long : forall C y0 (up : bool) n y u y1 y2, build_conf C -> waits (n_state (y_menu y0)) = true ->
  key_held C (if up then BUTTON_PLUS else BUTTON_MINUS) y0 n y u -> 1000 <= n ->
  sensor_error y = n_err (y_menu y) -> sensor_error y1 = n_err (y_menu y1) -> u_age u < 3000 -> in_time u EMenu ->
  step C y EMenu = Some y1 -> step C y1 EMenu = Some y2 -> n_state (y_menu y2) = MENU_CHGPRESET.
Proof. exact hold_long. Qed.
Print Assumptions C39_hold_long.
Example C39_ex_long : exists y0 y u y1 y2, key_held conf_m88p BUTTON_PLUS y0 1000 y u /\ n_state (y_menu y0) = MENU_CURTEMP /\
  sensor_error y = n_err (y_menu y) /\ sensor_error y1 = n_err (y_menu y1) /\ u_age u < 3000 /\ in_time u EMenu /\
  step conf_m88p y EMenu = Some y1 /\ step conf_m88p y1 EMenu = Some y2.
Proof. exact case39_long. Qed.
(** Nothing else changes the menu. *)
Theorem C39_only : forall C y u e y', build_conf C -> ui_run C y u -> ev_ok C y e -> in_time u e -> is_power e = false -> step C y e = Some y' ->
  n_state (y_menu y') <> n_state (y_menu y) ->
  (exists pins b, e = EButtons pins /\ sample_due u = true /\ b <> BUTTON_IRON /\ down (u_pins u) b = true /\ down pins b = false) \/
  (e = EMenu /\ exists d, menu_limit (n_state (y_menu y)) = Some d /\ d <= u_age u /\ n_state (y_menu y') = menu_expired C (n_state (y_menu y))) \/
  (e = EMenu /\ shows_preset (n_state (y_menu y)) = true /\ n_state (y_menu y') = MENU_CHGPRESET /\
   exists up, ramp_phase (n_ramp (y_menu y)) = Some (false, up)).
Proof. exact menu_changes. Qed.
Print Assumptions C39_only.

(** C40: [u_age u] ms since the menu was entered or, in the menus that restart, since the last event of
    SET, MINUS or PLUS (C40_clock). *)
Theorem C40_limit : forall C y u d y', build_conf C -> ui_run C y u -> in_time u EMenu -> step C y EMenu = Some y' ->
  menu_limit (n_state (y_menu y)) = Some d -> d <= u_age u ->
  n_state (y_menu y') = menu_expired C (n_state (y_menu y)) /\ n_ramp (y_menu y') = RAMP_NONE /\
  same_settings (x_cache (y_set y')) (x_cache (y_set y)).
Proof. exact limit_reached. Qed.
Print Assumptions C40_limit.
Example C40_ex : exists y u y', ui_run conf_m88p y u /\ in_time u EMenu /\ step conf_m88p y EMenu = Some y' /\
  n_state (y_menu y) = MENU_SELPRESET /\ u_age u = 3000 /\ n_state (y_menu y') = MENU_CURTEMP.
Proof. exact case40. Qed.
Theorem C40_not_before : forall C y u e y', build_conf C -> ui_run C y u -> ev_ok C y e -> in_time u e -> is_power e = false -> step C y e = Some y' ->
  (forall pins, e <> EButtons pins) -> n_ramp (y_menu y) = RAMP_NONE -> (forall d, menu_limit (n_state (y_menu y)) = Some d -> u_age u < d) ->
  n_state (y_menu y') = n_state (y_menu y).
Proof. exact limit_not_reached. Qed.
Print Assumptions C40_not_before.
Theorem C40_clock : forall C y u e y', build_conf C -> ui_run C y u -> ev_ok C y e -> in_time u e -> is_power e = false -> step C y e = Some y' ->
  u_age (ui_next C u (sensor_error y) e) =
    if negb (mstate_eqb (n_state (y_menu y)) (n_state (y_menu y'))) then 0
    else if restarts (n_state (y_menu y)) && menu_touched u e then 0
    else u_age u + ticks_of e.
Proof. exact age_clock. Qed.
Print Assumptions C40_clock.

(** C42 *)
Theorem C42_item : forall C y, build_conf C -> reach C y -> n_ramp (y_menu y) <> RAMP_NONE ->
  has_item (n_state (y_menu y)) = true /\ exists h, n_handler (y_menu y) = Some h /\ ramp_of_menu h (n_state (y_menu y)).
Proof. exact ramp_item. Qed.
Print Assumptions C42_item.
Theorem C42_key_down : forall C y u p up, build_conf C -> ui_run C y u -> ramp_phase (n_ramp (y_menu y)) = Some (p, up) ->
  down (u_pins u) (if up then BUTTON_PLUS else BUTTON_MINUS) = true.
Proof. exact ramp_key_down. Qed.
Print Assumptions C42_key_down.
Theorem C42_release : forall C y u pins y' b, build_conf C -> sampled C y u pins y' -> b <> BUTTON_IRON ->
  down (u_pins u) b = true -> down pins b = false -> (forall k, down (u_pins u) k = false -> down pins k = false) ->
  n_ramp (y_menu y') = RAMP_NONE.
Proof. exact release_stops. Qed.
Print Assumptions C42_release.
Example C42_ex_release : exists y u y', sampled conf_m88p y u NO_KEYS y' /\ down (u_pins u) BUTTON_PLUS = true /\
  n_ramp (y_menu y) = RAMP_UP /\ n_ramp (y_menu y') = RAMP_NONE.
Proof. exact case42. Qed.
Theorem C42_error : forall C y u y', build_conf C -> ui_run C y u -> in_time u EMenu -> sensor_error y <> n_err (y_menu y) -> step C y EMenu = Some y' ->
  n_ramp (y_menu y') = RAMP_NONE /\ same_settings (x_cache (y_set y')) (x_cache (y_set y)).
Proof. exact error_stops. Qed.
Print Assumptions C42_error.
Example C42_ex_error : exists y u y', ui_run conf_m88p y u /\ in_time u EMenu /\ step conf_m88p y EMenu = Some y' /\
  n_ramp (y_menu y) = RAMP_PRE_UP /\ sensor_error y = 2 /\ n_err (y_menu y) = 0 /\ n_err (y_menu y') = 2.
Proof. exact case42_error. Qed.
(** All changes of the settings: the selection of a preset, or one step of the item of the menu. *)
Theorem C42_settings : forall C y u e y', build_conf C -> ui_run C y u -> ev_ok C y e -> in_time u e -> is_power e = false -> step C y e = Some y' ->
  let x := x_cache (y_set y) in let x' := x_cache (y_set y') in
  same_settings x' x \/
  (exists pins a, e = EButtons pins /\ 0 <= a <= 5 /\ same_settings x' (set_s_active x a)) \/
  (e = EMenu /\ exists up, ramp_phase (n_ramp (y_menu y)) = Some (false, up) /\
   same_settings x' (item_step (n_state (y_menu y)) (t_boost (y_ct y)) up x)).
Proof. exact settings_changes. Qed.
Print Assumptions C42_settings.

(** C43: [j] steps were made, the last not before its time; [n1]: when the ramp started. *)
Theorem C43_not_faster : forall C y0 (up : bool) n y u, build_conf C -> has_item (n_state (y_menu y0)) = true ->
  key_held C (if up then BUTTON_PLUS else BUTTON_MINUS) y0 n y u ->
  let s0 := n_state (y_menu y0) in
  (waits s0 = true /\ ramp_phase (n_ramp (y_menu y)) = Some (true, up) /\ n_state (y_menu y) = s0 /\
   same_settings (x_cache (y_set y)) (x_cache (y_set y0))) \/
  exists n1 j, (if waits s0 then 1000 <= n1 else n1 = 0) /\ n1 <= n /\ ramp_phase (n_ramp (y_menu y)) = Some (false, up) /\
    (forall i, j = S i -> step_time i <= n - n1) /\
    same_settings (x_cache (y_set y)) (iter_step j s0 (t_boost (y_ct y0)) up (x_cache (y_set y0))) /\
    n_state (y_menu y) = if shows_preset s0 && (0 <? Z.of_nat j) then MENU_CHGPRESET else s0.
Proof. exact hold_shows. Qed.
Print Assumptions C43_not_faster.
(** Polled every 25 ms, [m] ms ago the last time: the number of steps is known. *)
Theorem C43_pace : forall C y0 (up : bool) n m y u, build_conf C -> has_item (n_state (y_menu y0)) = true ->
  key_prompt C (if up then BUTTON_PLUS else BUTTON_MINUS) y0 n m y u ->
  let s0 := n_state (y_menu y0) in
  (waits s0 = true /\ n < 1000 + m /\ n_state (y_menu y) = s0 /\ same_settings (x_cache (y_set y)) (x_cache (y_set y0))) \/
  exists n1 j, (if waits s0 then 1000 <= n1 < 1025 else n1 = 0) /\ n1 <= n /\
    match j with 0%nat => n - n1 <= m | S i => step_time i <= n - n1 < step_time j + m end /\
    same_settings (x_cache (y_set y)) (iter_step j s0 (t_boost (y_ct y0)) up (x_cache (y_set y0))).
Proof. exact pace_shows. Qed.
Print Assumptions C43_pace.
Example C43_ex : exists y0 y u, key_prompt conf_m88p BUTTON_PLUS y0 1800 0 y u /\ n_state (y_menu y0) = MENU_CURTEMP /\ n_state (y_menu y) = MENU_CHGPRESET /\
  nth 3 (s_preset (x_cache (y_set y0))) 0 = 350 * 64 /\ nth 3 (s_preset (x_cache (y_set y))) 0 = 357 * 64.
Proof. exact case43. Qed.

(** C48: the error number and the heating dot after a poll; the dot compares with the set-point before
    the poll. *)
Theorem C48_indication : forall C y y', build_conf C -> reach C y -> step C y EMenu = Some y' ->
  n_err (y_menu y') = sensor_error y' /\ sensor_error y' = sensor_error y /\
  n_heating (y_menu y') = (t_feedback (y_ct y) <? pid_get_setpoint (t_pid (y_ct y))) /\ t_feedback (y_ct y') = t_feedback (y_ct y) /\ n_upd (y_menu y') = false.
Proof. exact menu_indicates. Qed.
Print Assumptions C48_indication.
Theorem C48_heating : forall C y y', build_conf C -> reach C y -> step C y EMenu = Some y' ->
  pid_get_setpoint (t_pid (y_ct y')) = pid_get_setpoint (t_pid (y_ct y)) ->
  n_heating (y_menu y') = (t_feedback (y_ct y') <? pid_get_setpoint (t_pid (y_ct y'))).
Proof. exact heating_indicated. Qed.
Print Assumptions C48_heating.
(** Without that hypothesis the dot is one poll late. *)
Theorem C48_heating_refuted : exists y y', reach conf_m88p y /\ step conf_m88p y EMenu = Some y' /\
  n_heating (y_menu y') <> (t_feedback (y_ct y') <? pid_get_setpoint (t_pid (y_ct y'))).
Proof. exact heating_lag. Qed.
Print Assumptions C48_heating_refuted.

(** C61 *)
Theorem C61_select : forall C y u k y', build_conf C -> k = BUTTON_PLUS \/ k = BUTTON_MINUS -> released_key C y u k y' -> n_state (y_menu y) = MENU_SELPRESET ->
  let x := x_cache (y_set y) in let a := match k with BUTTON_PLUS => cycle_up 5 (s_active x) | _ => cycle_down 5 (s_active x) end in
  n_state (y_menu y') = MENU_SELPRESET /\ same_settings (x_cache (y_set y')) (set_s_active x a) /\
  (t_idle (y_ct y') = false -> pid_get_setpoint (t_pid (y_ct y')) = nth (Z.to_nat a) (s_preset x) 0).
Proof. exact select_setpoint. Qed.
Print Assumptions C61_select.
Theorem C61_inverse : forall a, 0 <= a <= 5 ->
  cycle_down 5 (cycle_up 5 a) = a /\ cycle_up 5 (cycle_down 5 a) = a /\ 0 <= cycle_up 5 a <= 5 /\ 0 <= cycle_down 5 a <= 5.
Proof. exact cycle_inverse. Qed.
Print Assumptions C61_inverse.
Example C61_ex : exists y u y', released_key conf_m88p y u BUTTON_PLUS y' /\ n_state (y_menu y) = MENU_SELPRESET /\ s_active (x_cache (y_set y)) = 3 /\
  s_active (x_cache (y_set y')) = 4 /\ t_idle (y_ct y') = false /\ pid_get_setpoint (t_pid (y_ct y')) = 365 * 64.
Proof. exact case61. Qed.

(** C62: whenever no redraw is pending, and after every poll, the screen shows the state. *)
Theorem C62_screen : forall C y, build_conf C -> reach C y -> n_upd (y_menu y) = false ->
  exists s lamp, picture C y s lamp /\ drawn (d_digits (y_disp y)) s lamp.
Proof. exact screen_ok. Qed.
Print Assumptions C62_screen.
Theorem C62_after_poll : forall C y y', build_conf C -> reach C y -> step C y EMenu = Some y' ->
  exists s lamp, picture C y' s lamp /\ drawn (d_digits (y_disp y')) s lamp.
Proof. exact screen_after. Qed.
Print Assumptions C62_after_poll.
Example C62_ex : exists y y', reach conf_m88p y /\ step conf_m88p y EMenu = Some y' /\ n_state (y_menu y) = MENU_CURTEMP /\ n_state (y_menu y') = MENU_CHGPRESET.
Proof. exact case62. Qed.

(** C67: the firmware goes through the states of the automaton. *)
Theorem C67_automaton : forall C y u, build_conf C -> ui_run C y u -> shows C y u.
Proof. exact ui_refines. Qed.
Print Assumptions C67_automaton.
Theorem C67_prompt : forall C y u m b, build_conf C -> prompt C y u m b -> shows C y u.
Proof. exact prompt_shows. Qed.
Print Assumptions C67_prompt.
Example C67_ex : exists y u, prompt conf_m88p y u 0 0 /\ u_menu u = MENU_ADJ /\ u_boost u = 0 /\ u_time u = 201.
Proof. exact case67. Qed.
