(** * C93: the access of the simulator to the settings *)
From Coq Require Import ZArith List Bool String.
From Verif Require Import Base MConf MTimer MPid MCurr MSettings SpecSettings MState MTemp MMeas MMenu MMain SpecSys MSimSet SpecSimSet PSimSet PSimSetEx.
Import ListNotations.
Open Scope Z_scope.

(** Writing a legal value under a name of the list changes this number of the settings and no other one,
    orders the settings to be saved one second later and leaves the heater alone. *)
Theorem C93_write : forall C y name l v, sim_conf C -> sim_reach C y -> refers (get_settings y) name l -> legal l v ->
  exists y', setting_access C y name v true = Some (y', v, true) /\ holds (get_settings y') l = Some v /\
    (forall l', l' <> l -> holds (get_settings y') l' = holds (get_settings y) l') /\
    x_request (y_set y') = true /\ x_timer (y_set y') = u16 (y_now y + 1000) /\ rest_same y y'.
Proof. exact access_write. Qed.
Print Assumptions C93_write.
Example C93_write_ex : exists y y', sim_reach conf_m328p y /\ setting_access conf_m328p y "temp_k[0].kp" 100 true = Some (y', 100, true) /\
  kp (p_k (t_pid (y_ct y))) = 96 /\ kp (p_k (t_pid (y_ct y'))) = 100 /\ p_integr (t_pid (y_ct y)) = 707 /\ p_integr (t_pid (y_ct y')) = 0.
Proof. exact case93_write. Qed.
Example C93_conf : sim_conf conf_m328p.
Proof. exact sim_conf_m328p. Qed.
(** Whatever was written is in force at once. *)
Theorem C93_in_force : forall C y, sim_conf C -> sim_reach C y -> in_force y.
Proof. exact access_in_force. Qed.
Print Assumptions C93_in_force.
(** Reading returns the number and changes no setting; what else it does. *)
Theorem C93_read : forall C y name l w, sim_conf C -> sim_reach C y -> refers (get_settings y) name l ->
  exists y' v, setting_access C y name w false = Some (y', v, true) /\ holds (get_settings y) l = Some v /\
    get_settings y' = get_settings y /\ after_read l y y'.
Proof. exact access_read. Qed.
Print Assumptions C93_read.
(** Reading is not free of effects: a gain of a mode that is not in use, the idle temperature. *)
Theorem C93_read_refuted : exists y y' v, sim_reach conf_m328p y /\ setting_access conf_m328p y "temp_k[2].kp" 0 false = Some (y', v, true) /\
  t_boost (y_ct y) = 0 /\ p_integr (t_pid (y_ct y)) = 707 /\ p_integr (t_pid (y_ct y')) = 0.
Proof. exact read_clears. Qed.
Print Assumptions C93_read_refuted.
Theorem C93_store_refuted : exists y y', sim_reach conf_m328p y /\ setting_access conf_m328p y "temp_idle_setpoint" 0 false = Some (y', 150 * 64, true) /\
  x_request (y_set y) = false /\ x_request (y_set y') = true.
Proof. exact read_stores. Qed.
Print Assumptions C93_store_refuted.
(** A name that is not in the list does nothing. *)
Theorem C93_unknown : forall C y name v w, (forall l, ~ refers (get_settings y) name l) -> setting_access C y name v w = Some (y, v, false).
Proof. exact unknown_ok. Qed.
Print Assumptions C93_unknown.
(** With such accesses in between the firmware does not run into undefined behaviour. *)
Theorem C93_defined : forall C y, sim_conf C -> sim_reach C y ->
  (forall e, ev_ok C y e -> is_power e = false -> step C y e <> None) /\ (forall name v, setting_access C y name v false <> None).
Proof. exact access_defined. Qed.
Print Assumptions C93_defined.
(** The values are not checked: a seventh preset is undefined behaviour, 1000 degrees are accepted. *)
Theorem C93_unchecked_refuted : exists y y' v, sim_reach conf_m328p y /\ setting_access conf_m328p y "temp_setpoint_active" 6 true = None /\
  setting_access conf_m328p y "temp_setpoint" (1000 * 64) true = Some (y', v, true) /\ p_setpoint (t_pid (y_ct y')) = 1000 * 64.
Proof. exact unchecked. Qed.
Print Assumptions C93_unchecked_refuted.
(** A new idle temperature is not shown, although the menu shows the idle temperature: no redraw is ordered. *)
Theorem C93_shown_refuted : exists y y', sim_reach conf_m328p y /\ setting_access conf_m328p y "temp_idle_setpoint" 12800 true = Some (y', 12800, true) /\
  n_state (y_menu y') = MENU_IDLETEMP /\ s_idle (get_settings y) = 9600 /\ s_idle (get_settings y') = 12800 /\ y_disp y' = y_disp y /\ n_upd (y_menu y') = false.
Proof. exact idle_unseen. Qed.
Print Assumptions C93_shown_refuted.
(** The temperature control of the window: [n / d] degrees, rounded to 1/64 degree, become preset 1, which is
    made the active one, and the set-point unless the idle temperature is lower. *)
Theorem C93_gui : forall C y n d, sim_conf C -> sim_reach C y -> 0 < d -> 0 <= n <= 480 * d -> exists y' t, gui_update_values C y n d = Some y' /\ sim_reach C y' /\
  0 <= t <= 480 * 64 /\ 2 * Z.abs (64 * n - d * t) <= d /\ s_active (get_settings y') = 0 /\ nth_error (s_preset (get_settings y')) 0 = Some t /\
  p_setpoint (t_pid (y_ct y')) = if t_idle (y_ct y) then Z.min (s_idle (get_settings y)) t else t.
Proof. exact gui_ok. Qed.
Print Assumptions C93_gui.
(** 330.5 degrees *)
Example C93_gui_ex : exists y y', sim_reach conf_m328p y /\ s_active (get_settings y) = 3 /\ gui_update_values conf_m328p y 661 2 = Some y' /\
  p_setpoint (t_pid (y_ct y)) = 350 * 64 /\ p_setpoint (t_pid (y_ct y')) = 21152.
Proof. exact case93_gui. Qed.
