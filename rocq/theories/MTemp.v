(** * Model of firmware/controller_temp.c and presets.c *)
From Coq Require Import ZArith List Bool.
From Verif Require Import Base MConf MFixpt MRing MTimer MPid MTempMap MPwm MCurr MSettings MState.
Import ListNotations.
Open Scope Z_scope.

(** menu.c:293-297 [menu_request_display_update] *)
Definition menu_request_display_update (y : sys) : sys := set_y_menu y (set_n_upd (y_menu y) true).

(** settings.c:169-172 [get_settings] *)
Definition get_settings (y : sys) : settings := x_cache (y_set y).
Definition put_settings (y : sys) (s : settings) : sys := set_y_set y (set_x_cache (y_set y) s).
(** settings.c:174-178 [store_settings] on the whole state *)
Definition sys_store (y : sys) : option sys :=
  x <- store_settings (y_now y) (y_set y) ;; Some (set_y_set y x).

(** controller_temp.h:49-57 *)
Definition NR_BOOST_MODES (C : conf) : Z := if c_boost C then 3 else 1.

(** controller_temp.c:67-74 *)
Definition contrtemp_get_boost_mode (C : conf) (y : sys) : Z := if c_boost C then t_boost (y_ct y) else 0.

(** controller_temp.c:76-91 (debug output omitted) *)
Definition contrtemp_set_boost_mode (C : conf) (y : sys) (new_boost_mode : Z) : option sys :=
  k_set <- zget (s_k (get_settings y)) new_boost_mode ;;
  let t := y_ct y in
  let t := set_t_pid t (pid_set_factors (t_pid t) k_set) in
  let t := if c_boost C then set_t_boost t new_boost_mode else t in
  Some (menu_request_display_update (set_y_ct y t)).

(** controller_temp.c:93-100 *)
Definition contrtemp_is_idle (C : conf) (y : sys) : bool := if c_idle C then t_idle (y_ct y) else false.

(** controller_temp.c:102-109 *)
Definition contrtemp_update_pid_config (C : conf) (y : sys) : option sys :=
  contrtemp_set_boost_mode C y (contrtemp_get_boost_mode C y).

(** controller_temp.c:127-169 (debug output omitted) *)
Definition contrtemp_run (y : sys) (r : Z) : option sys :=
  let t := y_ct y in
  if negb (t_enabled t) then Some y
  else if t_emerg t then Some y
  else
    dt <- dt_seconds (y_now y) (t_dt t) ;;
    let t := set_t_dt t (timer_set_now (y_now y)) in
    '(p, out) <- pid_run (t_pid t) dt r ;;
    let t := set_t_pid t p in
    y_current <- temp_to_amps out ;;
    let c := y_cc y in
    let emergency_flags := contrcurr_get_emerg c in
    let '(emergency_flags, y_current) :=
      if CONTRTEMP_POSLIM <? r
      then (Z.lor emergency_flags EMERG_HIGH_TEMP, CONTRCURR_NEGLIM)
      else (Z.land emergency_flags (u8 (Z.lnot EMERG_HIGH_TEMP)), y_current) in
    c <- contrcurr_set_emerg c emergency_flags ;;
    let c := contrcurr_set_setpoint c y_current in
    Some (set_y_cc (set_y_ct y t) c).

(** controller_temp.c:171-182 (debug output omitted) *)
Definition contrtemp_set_feedback (y : sys) (r : Z) : option sys :=
  let y := if negb (r =? t_feedback (y_ct y))
           then menu_request_display_update (set_y_ct y (set_t_feedback (y_ct y) r))
           else y in
  contrtemp_run y r.

(** presets.c:64-71 *)
Definition presets_get_active_index (y : sys) : Z := s_active (get_settings y).
(** presets.c:73-84 *)
Definition presets_get_active_value (y : sys) : option Z :=
  zget (s_preset (get_settings y)) (s_active (get_settings y)).

(** controller_temp.c:189-203 *)
Definition contrtemp_update_setpoint (C : conf) (y : sys) : option sys :=
  temp_setpoint <- presets_get_active_value y ;;
  let temp_idle_setpoint := s_idle (get_settings y) in
  let w := if contrtemp_is_idle C y && (temp_idle_setpoint <? temp_setpoint)
           then temp_idle_setpoint else temp_setpoint in
  Some (set_y_ct y (set_t_pid (y_ct y) (pid_set_setpoint (t_pid (y_ct y)) w))).

(** controller_temp.c:205-215 *)
Definition contrtemp_set_idle_setpoint (C : conf) (y : sys) (w : Z) : option sys :=
  if c_idle C then
    let y := put_settings y (set_s_idle (get_settings y) w) in
    y <- contrtemp_update_setpoint C y ;;
    sys_store y
  else Some y.

(** controller_temp.c:217-227 *)
Definition do_set_enabled (C : conf) (y : sys) (enabled : bool) : option sys :=
  let t := set_t_enabled (y_ct y) enabled in
  let t := set_t_pid t (pid_reset (t_pid t)) in
  let t := set_t_dt t (timer_set_now (y_now y)) in
  y <- contrtemp_set_boost_mode C (set_y_ct y t) 0 ;;
  Some (set_y_cc y (contrcurr_set_setpoint (y_cc y) CONTRCURR_NEGLIM)).
(** controller_temp.c:229-233 *)
Definition contrtemp_set_enabled (C : conf) (y : sys) (enabled : bool) : option sys :=
  if negb (Bool.eqb (t_enabled (y_ct y)) enabled) then do_set_enabled C y enabled else Some y.

(** controller_temp.c:235-244 *)
Definition do_set_emerg (y : sys) (emergency : bool) : sys :=
  let y := set_y_ct y (set_t_emerg (y_ct y) emergency) in
  if emergency then set_y_cc y (contrcurr_set_setpoint (y_cc y) CONTRCURR_NEGLIM) else y.
(** controller_temp.c:246-250 *)
Definition contrtemp_set_emerg (y : sys) (emergency : bool) : sys :=
  if negb (Bool.eqb emergency (t_emerg (y_ct y))) then do_set_emerg y emergency else y.

(** controller_temp.c:257-260 *)
Definition contrtemp_is_heating_up (y : sys) : bool :=
  t_feedback (y_ct y) <? pid_get_setpoint (t_pid (y_ct y)).

(** controller_temp.c:263-271 *)
Definition contrtemp_do_next_boost_mode (C : conf) (y : sys) : option sys :=
  contrtemp_set_boost_mode C y (ring_next (u8 (t_boost (y_ct y))) (NR_BOOST_MODES C - 1)).

(** controller_temp.c:275-280 *)
Definition contrtemp_do_idle (C : conf) (y : sys) (idle : bool) : option sys :=
  let y := set_y_ct y (set_t_idle (y_ct y) idle) in
  y <- contrtemp_update_setpoint C y ;;
  Some (menu_request_display_update y).

(** controller_temp.c:36 *)
Definition CONTRTEMP_BUTTON_BOOST_DELAY : Z := 1000.

(** controller_temp.c:286-308: CONF_BOOST and CONF_IDLE *)
Definition button_boost_idle (C : conf) (y : sys) (button : button) (bs : bstate) : option sys :=
  let idle := t_idle (y_ct y) in
  if negb (is_iron button) then Some y
  else
    y <- (if is_pos bs then
            tm <- timer_arm (y_now y) CONTRTEMP_BUTTON_BOOST_DELAY ;;
            Some (set_y_ct y (set_t_bilet (set_t_bitimer (y_ct y) tm) true))
          else Some y) ;;
    if t_bilet (y_ct y) then
      if idle || (is_held bs && timer_expired (y_now y) (t_bitimer (y_ct y))) then
        y <- contrtemp_do_idle C y (negb idle) ;;
        Some (set_y_ct y (set_t_bilet (y_ct y) false))
      else if is_neg bs then
        y <- contrtemp_do_next_boost_mode C y ;;
        Some (set_y_ct y (set_t_bilet (y_ct y) false))
      else Some y
    else Some y.

(** controller_temp.c:310-317: CONF_BOOST only *)
Definition button_boost (C : conf) (y : sys) (button : button) (bs : bstate) : option sys :=
  if negb (is_iron button) then Some y
  else if is_pos bs then contrtemp_do_next_boost_mode C y else Some y.

(** controller_temp.c:319-339: CONF_IDLE only, CONF_IDLETOGGLE selects toggling *)
Definition button_idle (C : conf) (y : sys) (button : button) (bs : bstate) : option sys :=
  if negb (is_iron button) then Some y
  else
    let idle := t_idle (y_ct y) in
    let idle := if c_idletoggle C then if is_pos bs then negb idle else idle
                else
                  let idle := if is_pos bs then true else idle in
                  if is_neg bs then false else idle in
    if negb (Bool.eqb idle (t_idle (y_ct y))) then contrtemp_do_idle C y idle else Some y.

(** controller_temp.c:285-346: which of the handlers is compiled *)
Definition contrtemp_button_handler (C : conf) (y : sys) (button : button) (bs : bstate) : option sys :=
  if c_boost C && c_idle C then button_boost_idle C y button bs
  else if c_boost C then button_boost C y button bs
  else if c_idle C then button_idle C y button bs
  else Some y.

(** controller_temp.c:348-372 *)
Definition contrtemp_init (C : conf) (y : sys) : option sys :=
  k_set <- zget (s_k (get_settings y)) 0 ;;
  let p := pid_init (t_pid (y_ct y)) k_set CONTRTEMP_NEGLIM_I CONTRTEMP_POSLIM_I
                    CONTRTEMP_NEGLIM CONTRTEMP_POSLIM in
  temp_setpoint <- presets_get_active_value y ;;
  let y := set_y_ct y (set_t_pid (y_ct y) (pid_set_setpoint p temp_setpoint)) in
  y <- do_set_enabled C y true ;;
  Some (do_set_emerg y false).

(** presets.c:32-37 *)
Definition presets_store (C : conf) (y : sys) : option sys :=
  y <- sys_store y ;;
  y <- contrtemp_update_setpoint C y ;;
  Some (menu_request_display_update y).

(** presets.h:12 *)
Definition NR_PRESETS : Z := 6.

(** presets.c:40-50 *)
Definition presets_next (C : conf) (y : sys) : option sys :=
  let s := get_settings y in
  presets_store C (put_settings y (set_s_active s (ring_next (s_active s) (NR_PRESETS - 1)))).
(** presets.c:52-62 *)
Definition presets_prev (C : conf) (y : sys) : option sys :=
  let s := get_settings y in
  presets_store C (put_settings y (set_s_active s (ring_prev (s_active s) (NR_PRESETS - 1)))).
(** presets.c:86-96 *)
Definition presets_set_active_value (C : conf) (y : sys) (value : Z) : option sys :=
  let s := get_settings y in
  l <- zupd (s_preset s) (s_active s) value ;;
  presets_store C (put_settings y (set_s_preset s l)).
