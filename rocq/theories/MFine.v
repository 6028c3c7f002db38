(** * Model of interrupts inside the work functions

    In SpecSys the work functions called by the main loop are atomic.  Here are the three of them that read
    the tick counter more than once or after they have changed something (measure_work, menu_work,
    buttons_work, with all functions they call that do so), with interrupts in between.  Before every read of the
    tick counter there is a point ([pt]) at which any interrupts can happen.  These points stand for all
    places between two statements: the interrupts change nothing but the tick counter, the sums and
    flags of the converter and the EEPROM registers, and the work functions read these only at the
    points; the EEPROM interrupt reads the settings, and every change of the settings is followed by a
    point before the next change (store_settings reads the tick counter).  An interrupt between two bytes of one
    setting is not modelled here but in C51_mixture.
    The other two work functions (display_work and settings_work) and the ADC interrupt read the tick
    counter once, before they change anything: an interrupt before that read is an interrupt before the
    function. *)
From Coq Require Import ZArith List Bool.
From Verif Require Import Base MConf MFixpt MScale MRing MFilter MTimer MPid MTempMap MPwm MCurr MSens MSettings MSseg
  MDisplay MText MState MTemp MMeas MMenu MMain SpecSys.
Import ListNotations.
Open Scope Z_scope.

(** The interrupts: timer.c:29-33, measure.c:270-288, settings.c:110-143 and the end of the programming of
    an EEPROM byte *)
Inductive irq : Set := ITick | IAdc (raw : Z) | IReady | IDone.
Definition irq_event (i : irq) : event :=
  match i with ITick => ETick | IAdc raw => EAdc raw | IReady => EReady | IDone => EDone end.
(** An interrupt that cannot happen (SpecSys.ev_ok) does not happen. *)
Definition fire (C : conf) (y : sys) (i : irq) : option sys :=
  if ev_okb C y (irq_event i) then step C y (irq_event i) else Some y.
Fixpoint fires (C : conf) (y : sys) (l : list irq) : option sys :=
  match l with
  | [] => Some y
  | i :: r => y <- fire C y i ;; fires C y r
  end.

(** A computation that takes the interrupts at its points from a list *)
Definition plan : Type := list (list irq).
Definition F (A : Type) : Type := plan -> option (A * plan).
Definition ret {A} (a : A) : F A := fun o => Some (a, o).
Definition lift {A} (m : option A) : F A := fun o => a <- m ;; Some (a, o).
Definition fbind {A B} (m : F A) (f : A -> F B) : F B :=
  fun o => match m o with Some (a, o') => f a o' | None => None end.
Notation "x <~ m ;; k" := (fbind m (fun x => k)) (at level 61, m at next level, right associativity).
Notation "' p <~ m ;; k" := (fbind m (fun x => match x with p => k end)) (at level 61, p pattern, m at next level, right associativity).
(** A point; without a list for it nothing happens. *)
Definition pt (C : conf) (y : sys) : F sys :=
  fun o => match o with
           | [] => Some (y, [])
           | l :: r => y <- fires C y l ;; Some (y, r)
           end.

(** settings.c:174-178: the request is made before the time is read *)
Definition sys_store_f (C : conf) (y : sys) : F sys :=
  y <~ pt C (set_y_set y (set_x_request (y_set y) true)) ;; lift (sys_store y).

(** controller_current.c:83-157 (debug reports omitted): the time is read twice *)
Definition contrcurr_run_f (C : conf) (y : sys) (real_r : Z) : F sys :=
  if negb (cc_enabled (y_cc y)) then ret y
  else if negb (cc_emerg (y_cc y) =? 0) then ret y
  else
    y <~ pt C y ;;
    dt <~ lift (dt_seconds (y_now y) (cc_timer (y_cc y))) ;;
    y <~ pt C y ;;
    let c := cc_set_timer (y_cc y) (timer_set_now (y_now y)) in
    '(c, r) <~ lift (cc_select_r c real_r) ;;
    '(p, out) <~ lift (pid_run (cc_pid c) dt r) ;;
    let c := cc_set_pid c p in
    let out := if cc_restricted c then
                 if CONTRCURR_RESTRICT_MAXCURR <? out then CONTRCURR_RESTRICT_MAXCURR else out
               else out in
    c <~ lift (cc_pwm (cc_set_prev_y c out) out) ;;
    ret (set_y_cc y c).
(** controller_current.c:159-169 *)
Definition contrcurr_set_feedback_f (C : conf) (y : sys) (r : Z) : F sys :=
  let c := y_cc y in
  let c := if negb (r =? cc_feedback c) then cc_set_feedback c r else c in
  contrcurr_run_f C (set_y_cc y c) r.

(** controller_temp.c:127-169 (debug output omitted): the time is read twice *)
Definition contrtemp_run_f (C : conf) (y : sys) (r : Z) : F sys :=
  if negb (t_enabled (y_ct y)) then ret y
  else if t_emerg (y_ct y) then ret y
  else
    y <~ pt C y ;;
    dt <~ lift (dt_seconds (y_now y) (t_dt (y_ct y))) ;;
    y <~ pt C y ;;
    let t := set_t_dt (y_ct y) (timer_set_now (y_now y)) in
    '(p, out) <~ lift (pid_run (t_pid t) dt r) ;;
    let t := set_t_pid t p in
    y_current <~ lift (temp_to_amps out) ;;
    let c := y_cc y in
    let emergency_flags := contrcurr_get_emerg c in
    let '(emergency_flags, y_current) :=
      if CONTRTEMP_POSLIM <? r
      then (Z.lor emergency_flags EMERG_HIGH_TEMP, CONTRCURR_NEGLIM)
      else (Z.land emergency_flags (u8 (Z.lnot EMERG_HIGH_TEMP)), y_current) in
    c <~ lift (contrcurr_set_emerg c emergency_flags) ;;
    let c := contrcurr_set_setpoint c y_current in
    ret (set_y_cc (set_y_ct y t) c).
(** controller_temp.c:171-182 (debug output omitted) *)
Definition contrtemp_set_feedback_f (C : conf) (y : sys) (r : Z) : F sys :=
  let y := if negb (r =? t_feedback (y_ct y))
           then menu_request_display_update (set_y_ct y (set_t_feedback (y_ct y) r))
           else y in
  contrtemp_run_f C y r.
(** controller_temp.c:205-215 *)
Definition contrtemp_set_idle_setpoint_f (C : conf) (y : sys) (w : Z) : F sys :=
  if c_idle C then
    let y := put_settings y (set_s_idle (get_settings y) w) in
    y <~ lift (contrtemp_update_setpoint C y) ;;
    sys_store_f C y
  else ret y.
(** controller_temp.c:217-227 *)
Definition do_set_enabled_f (C : conf) (y : sys) (enabled : bool) : F sys :=
  let t := set_t_enabled (y_ct y) enabled in
  let t := set_t_pid t (pid_reset (t_pid t)) in
  y <~ pt C (set_y_ct y t) ;;
  let t := set_t_dt (y_ct y) (timer_set_now (y_now y)) in
  y <~ lift (contrtemp_set_boost_mode C (set_y_ct y t) 0) ;;
  ret (set_y_cc y (contrcurr_set_setpoint (y_cc y) CONTRCURR_NEGLIM)).
(** controller_temp.c:229-233 *)
Definition contrtemp_set_enabled_f (C : conf) (y : sys) (enabled : bool) : F sys :=
  if negb (Bool.eqb (t_enabled (y_ct y)) enabled) then do_set_enabled_f C y enabled else ret y.

(** controller_temp.c:286-308: CONF_BOOST and CONF_IDLE *)
Definition button_boost_idle_f (C : conf) (y : sys) (button : button) (bs : bstate) : F sys :=
  let idle := t_idle (y_ct y) in
  if negb (is_iron button) then ret y
  else
    y <~ (if is_pos bs then
            y <~ pt C y ;;
            tm <~ lift (timer_arm (y_now y) CONTRTEMP_BUTTON_BOOST_DELAY) ;;
            ret (set_y_ct y (set_t_bilet (set_t_bitimer (y_ct y) tm) true))
          else ret y) ;;
    if t_bilet (y_ct y) then
      y <~ pt C y ;;
      if idle || (is_held bs && timer_expired (y_now y) (t_bitimer (y_ct y))) then
        y <~ lift (contrtemp_do_idle C y (negb idle)) ;;
        ret (set_y_ct y (set_t_bilet (y_ct y) false))
      else if is_neg bs then
        y <~ lift (contrtemp_do_next_boost_mode C y) ;;
        ret (set_y_ct y (set_t_bilet (y_ct y) false))
      else ret y
    else ret y.
(** controller_temp.c:285-346: which of the handlers is compiled; the others do not read the time *)
Definition contrtemp_button_handler_f (C : conf) (y : sys) (button : button) (bs : bstate) : F sys :=
  if c_boost C && c_idle C then button_boost_idle_f C y button bs
  else lift (contrtemp_button_handler C y button bs).

(** presets.c:32-37 *)
Definition presets_store_f (C : conf) (y : sys) : F sys :=
  y <~ sys_store_f C y ;;
  y <~ lift (contrtemp_update_setpoint C y) ;;
  ret (menu_request_display_update y).
(** presets.c:40-50 *)
Definition presets_next_f (C : conf) (y : sys) : F sys :=
  let s := get_settings y in
  presets_store_f C (put_settings y (set_s_active s (ring_next (s_active s) (NR_PRESETS - 1)))).
(** presets.c:52-62 *)
Definition presets_prev_f (C : conf) (y : sys) : F sys :=
  let s := get_settings y in
  presets_store_f C (put_settings y (set_s_active s (ring_prev (s_active s) (NR_PRESETS - 1)))).
(** presets.c:86-96 *)
Definition presets_set_active_value_f (C : conf) (y : sys) (value : Z) : F sys :=
  let s := get_settings y in
  l <~ lift (zupd (s_preset s) (s_active s) value) ;;
  presets_store_f C (put_settings y (set_s_preset s l)).

(** measure_current.c:78-101 *)
Definition meascurr_result_handler_f (C : conf) (y : sys) (v : Z) (p : plaus) : F sys :=
  let c := y_cc y in
  let flags := contrcurr_get_emerg c in
  let flags := match p with
               | MEAS_PLAUSIBLE => Z.land flags (u8 (Z.lnot EMERG_UNPLAUS_FEEDBACK))
               | MEAS_PLAUS_TIMEOUT => Z.lor flags EMERG_UNPLAUS_FEEDBACK
               | MEAS_NOT_PLAUSIBLE => flags
               end in
  c <~ lift (contrcurr_set_emerg c flags) ;;
  let y := set_y_cc y c in
  y <~ match p with
       | MEAS_PLAUSIBLE =>
         y <~ contrcurr_set_feedback_f C y v ;; ret (set_y_mc y (set_u_prev (y_mc y) v))
       | MEAS_NOT_PLAUSIBLE => contrcurr_set_feedback_f C y (u_prev (y_mc y))
       | MEAS_PLAUS_TIMEOUT => ret y
       end ;;
  ret (set_y_mc y (set_u_init (y_mc y) true)).
(** measure_temp.c:61-81 *)
Definition meastemp_result_handler_f (C : conf) (y : sys) (v : Z) (p : plaus) : F sys :=
  let y := match p with
           | MEAS_PLAUSIBLE => contrtemp_set_emerg y false
           | MEAS_PLAUS_TIMEOUT => contrtemp_set_emerg y true
           | MEAS_NOT_PLAUSIBLE => y
           end in
  match p with
  | MEAS_PLAUSIBLE =>
    let y := set_y_mt y v in
    let y := set_y_cc y (contrcurr_set_restricted (y_cc y) (v <? CONTRCURR_RESTRICT_TOTEMP)) in
    contrtemp_set_feedback_f C y v
  | MEAS_NOT_PLAUSIBLE => contrtemp_set_feedback_f C y (y_mt y)
  | MEAS_PLAUS_TIMEOUT => ret y
  end.
(** measure.c:127-140 *)
Definition measure_user_result_handler_f (C : conf) (y : sys) (chan_id phys : Z) (p : plaus) : F sys :=
  if chan_id =? MEAS_CHAN_TEMP then meastemp_result_handler_f C y phys p
  else meascurr_result_handler_f C y phys p.
(** measure.c:183-202 *)
Definition adc_trigger_next_chan_f (C : conf) (y : sys) : F sys :=
  let active_chan := ring_next (m_chan (y_meas y)) (NR_MEAS_CHANS - 1) in
  config <~ lift (chan_config C active_chan) ;;
  let y := set_y_meas y (set_m_count (set_m_sum (set_m_chan (y_meas y) active_chan) 0) 0) in
  y <~ pt C y ;;
  t <~ lift (timer_arm (y_now y) (mc_avg_ms config)) ;;
  ret (set_y_meas y (set_m_adc (set_m_timer (y_meas y) t) true)).
(** measure.c:239-265: the plausibility check; the time can be read twice.  The channel is in a local
    pointer: the interrupts do not touch it. *)
Definition plaus_check_f (C : conf) (config : mconfig) (y : sys) (ch : chan) (phys : Z)
  : F (sys * (chan * Z * plaus)) :=
  let '(ch, phys, plaus) :=
    if phys <? mc_plaus_neg config then (ch, mc_plaus_neg config, MEAS_NOT_PLAUSIBLE)
    else if mc_plaus_pos config <? phys then (ch, mc_plaus_pos config, MEAS_NOT_PLAUSIBLE)
    else (set_ch_timeout (set_ch_running ch false) false, phys, MEAS_PLAUSIBLE) in
  '(y, ch) <~ (match plaus with
               | MEAS_PLAUSIBLE => ret (y, ch)
               | _ => if negb (ch_running ch) then
                        y <~ pt C y ;;
                        t <~ lift (timer_arm (y_now y) (mc_plaus_ms config)) ;;
                        ret (y, set_ch_running (set_ch_timer ch t) true)
                      else ret (y, ch)
               end) ;;
  y <~ pt C y ;;
  let ch := if ch_running ch && timer_expired (y_now y) (ch_timer ch) then set_ch_timeout ch true else ch in
  let plaus := if ch_timeout ch then MEAS_PLAUS_TIMEOUT else plaus in
  ret (y, (ch, phys, plaus)).
(** measure.c:204-268 (debug output omitted); the sum and the number of the samples are read after a point *)
Definition measure_handle_result_f (C : conf) (y : sys) : F sys :=
  y <~ pt C y ;;
  let id := m_chan (y_meas y) in
  ch <~ lift (zget (m_chans (y_meas y)) id) ;;
  config <~ lift (chan_config C id) ;;
  raw_adc <~ lift (raw_average (y_meas y)) ;;
  let '(y, raw_adc) := measure_user_filter_handler y id raw_adc in
  phys <~ lift (scale (s16 raw_adc) (s16 (mc_raw_lo config)) (s16 (mc_raw_hi config))
                (mc_phys_lo config) (mc_phys_hi config)) ;;
  phys <~ lift (if c_adj C then fixpt_sub phys (ch_adj ch) else Some phys) ;;
  '(y, (ch, phys, plaus)) <~ plaus_check_f C config y ch phys ;;
  chans <~ lift (zupd (m_chans (y_meas y)) id ch) ;;
  let y := set_y_meas y (set_m_chans (y_meas y) chans) in
  measure_user_result_handler_f C y id phys plaus.
(** measure.c:295-308; the flag is read and cleared with interrupts disabled *)
Definition measure_work_f (C : conf) (y : sys) : F sys :=
  let result_available := m_avail (y_meas y) in
  let y := set_y_meas y (set_m_avail (y_meas y) false) in
  if result_available then
    y <~ measure_handle_result_f C y ;; adc_trigger_next_chan_f C y
  else ret y.
(** measure_temp.c:43-51 *)
Definition meastemp_adjust_set_f (C : conf) (y : sys) (adjustment : Z) : F sys :=
  if c_adj C then
    y <~ lift (measure_adjust_set C y MEAS_CHAN_TEMP adjustment) ;;
    let y := put_settings y (set_s_adj (get_settings y) adjustment) in
    y <~ sys_store_f C y ;;
    ret (menu_request_display_update y)
  else ret y.

(** debug_uart.c:210-231 with display.c:168-192, which reads the time last *)
Definition debug_enable_f (C : conf) (y : sys) (enable : bool) : F sys :=
  if c_debug C then
    y <~ pt C (set_y_dbg y enable) ;;
    '(h, d) <~ lift (display_enable (y_now y) (y_hw y) (y_disp y) (negb enable)) ;;
    ret (set_y_hw (set_y_disp y d) (set_h_tx h enable))
  else ret y.
(** timer_arm(&menu.timeout, ms) *)
Definition arm_menu_timeout_f (C : conf) (y : sys) (ms : Z) : F sys :=
  y <~ pt C y ;; lift (arm_menu_timeout y ms).
(** menu.c:368-416 *)
Definition menu_set_state_f (C : conf) (y : sys) (new_state : mstate) : F sys :=
  if mstate_eqb (n_state (y_menu y)) new_state then ret y
  else
    let y := set_y_menu y (set_n_state (y_menu y) new_state) in
    y <~ match new_state with
         | MENU_SELPRESET => arm_menu_timeout_f C y MENU_SELPRESET_TIMEOUT
         | MENU_CHGPRESET => arm_menu_timeout_f C y MENU_CHGPRESET_TIMEOUT
         | MENU_IDLETEMP => arm_menu_timeout_f C y MENU_IDLETEMP_TIMEOUT
         | MENU_ADJ_PRE =>
           if negb (c_adj C) then ret y
           else y <~ arm_menu_timeout_f C y MENU_ADJ_PRE_TIMEOUT ;; contrtemp_set_enabled_f C y false
         | MENU_ADJ => if negb (c_adj C) then ret y else contrtemp_set_enabled_f C y false
         | MENU_KP_PRE | MENU_KI_PRE | MENU_KD_PRE =>
           if negb (c_kconf C) then ret y
           else y <~ arm_menu_timeout_f C y MENU_KCONF_PRE_TIMEOUT ;; contrtemp_set_enabled_f C y false
         | MENU_KP | MENU_KI | MENU_KD =>
           if negb (c_kconf C) then ret y else contrtemp_set_enabled_f C y false
         | MENU_CURTEMP => contrtemp_set_enabled_f C y true
         | MENU_DEBUG => ret y
         end ;;
    ret (menu_request_display_update y).
(** menu.c:418-421 *)
Definition menu_set_next_state_f (C : conf) (y : sys) : F sys :=
  menu_set_state_f C y (next_menu_state C (n_state (y_menu y))).

(** menu.c:432-443 *)
Definition settemp_ramp_handler_f (C : conf) (y : sys) (up : bool) : F sys :=
  setpoint <~ lift (presets_get_active_value y) ;;
  setpoint <~ lift (do_ramp_temp setpoint up CONTRTEMP_NEGLIM CONTRTEMP_POSLIM) ;;
  y <~ presets_set_active_value_f C y setpoint ;;
  menu_set_state_f C y MENU_CHGPRESET.
(** menu.c:445-454 *)
Definition idletemp_ramp_handler_f (C : conf) (y : sys) (up : bool) : F sys :=
  setpoint <~ lift (do_ramp_temp (s_idle (get_settings y)) up CONTRTEMP_NEGLIM CONTRTEMP_POSLIM) ;;
  contrtemp_set_idle_setpoint_f C y setpoint.
(** menu.c:456-462 *)
Definition do_ramp_k_f (C : conf) (y : sys) (get : pid_k -> Z) (put : pid_k -> Z -> pid_k)
  (inc max_val : Z) (up : bool) : F sys :=
  let s := get_settings y in
  let i := contrtemp_get_boost_mode C y in
  k <~ lift (zget (s_k s) i) ;;
  v <~ lift (fixpt_add_limited (get k) (if up then inc else fixpt_neg inc) 0 max_val) ;;
  l <~ lift (zupd (s_k s) i (put k v)) ;;
  y <~ sys_store_f C (put_settings y (set_s_k s l)) ;;
  lift (contrtemp_update_pid_config C y).
(** menu.c:464-473 *)
Definition adj_ramp_handler_f (C : conf) (y : sys) (up : bool) : F sys :=
  temp_adj <~ lift (meastemp_adjust_get C y) ;;
  temp_adj <~ lift (do_ramp_temp temp_adj up (celsius (-99)) (celsius 99)) ;;
  meastemp_adjust_set_f C y temp_adj.
(** menu.c:475-494 *)
Definition kconf_kp_ramp_handler_f (C : conf) (y : sys) (up : bool) : F sys :=
  do_ramp_k_f C y kp (fun k v => mkK v (ki k) (kd k) (d_decay_div k)) (fxc 3125 100000) (fxc 99 1) up.
Definition kconf_ki_ramp_handler_f (C : conf) (y : sys) (up : bool) : F sys :=
  do_ramp_k_f C y ki (fun k v => mkK (kp k) v (kd k) (d_decay_div k)) (fxc 15625 1000000) (fxc 9 1) up.
Definition kconf_kd_ramp_handler_f (C : conf) (y : sys) (up : bool) : F sys :=
  do_ramp_k_f C y kd (fun k v => mkK (kp k) (ki k) v (d_decay_div k)) (fxc 3125 100000) (fxc 99 1) up.
(** menu.c:700: the call through the function pointer; calling NULL is undefined *)
Definition call_ramp_handler_f (C : conf) (y : sys) (h : option rhandler) (up : bool) : F sys :=
  h <~ lift h ;;
  match h with
  | HSettemp => settemp_ramp_handler_f C y up
  | HIdletemp => idletemp_ramp_handler_f C y up
  | HAdj => adj_ramp_handler_f C y up
  | HKp => kconf_kp_ramp_handler_f C y up
  | HKi => kconf_ki_ramp_handler_f C y up
  | HKd => kconf_kd_ramp_handler_f C y up
  end.

(** menu.c:496-507: the time can be read twice *)
Definition start_ramping_f (C : conf) (y : sys) (up pre_ramp_wait : bool) (handler : option rhandler) : F sys :=
  y <~ (if pre_ramp_wait then
          let y := set_y_menu y (set_n_ramp (y_menu y) (if up then RAMP_PRE_UP else RAMP_PRE_DOWN)) in
          y <~ pt C y ;;
          t <~ lift (timer_arm (y_now y) RAMP_PRE_TIMEOUT_MS) ;;
          ret (set_y_menu y (set_n_pretimer (y_menu y) t))
        else ret (set_y_menu y (set_n_ramp (y_menu y) (if up then RAMP_UP else RAMP_DOWN)))) ;;
  let y := set_y_menu y (set_n_period (set_n_handler (y_menu y) handler) RAMP_START_PERIOD_MS) in
  y <~ pt C y ;;
  ret (set_y_menu y (set_n_rtimer (y_menu y) (timer_set_now (y_now y)))).
(** menu.c:509-520 *)
Definition start_ramping_button_f (C : conf) (y : sys) (b : button) (bs : bstate) (pre_ramp_wait : bool)
  (handler : rhandler) : F sys :=
  if is_pos bs then
    if is_minus b then start_ramping_f C y false pre_ramp_wait (Some handler)
    else if is_plus b then start_ramping_f C y true pre_ramp_wait (Some handler)
    else ret y
  else ret y.

(** menu.c:537-622 *)
Definition menu_button_switch_f (C : conf) (y : sys) (b : button) (bs : bstate) : F sys :=
  match n_state (y_menu y) with
  | MENU_CURTEMP =>
    y <~ start_ramping_button_f C y b bs true HSettemp ;;
    if is_neg bs && negb (is_set b) then menu_set_state_f C y MENU_SELPRESET else ret y
  | MENU_SELPRESET =>
    y <~ arm_menu_timeout_f C y MENU_SELPRESET_TIMEOUT ;;
    y <~ (if is_neg bs then
            if is_plus b then presets_next_f C y
            else if is_minus b then presets_prev_f C y
            else ret y
          else ret y) ;;
    start_ramping_button_f C y b bs true HSettemp
  | MENU_CHGPRESET =>
    y <~ arm_menu_timeout_f C y MENU_CHGPRESET_TIMEOUT ;;
    start_ramping_button_f C y b bs false HSettemp
  | MENU_IDLETEMP =>
    if negb (c_idle C) then ret y
    else
      y <~ arm_menu_timeout_f C y MENU_IDLETEMP_TIMEOUT ;;
      start_ramping_button_f C y b bs false HIdletemp
  | MENU_DEBUG =>
    if negb (c_debug C) then ret y
    else if is_pos bs then
      if is_plus b then debug_enable_f C y true
      else if is_minus b then
        y <~ debug_enable_f C y false ;; ret (menu_request_display_update y)
      else ret y
    else ret y
  | MENU_ADJ => if negb (c_adj C) then ret y else start_ramping_button_f C y b bs false HAdj
  | MENU_KP => if negb (c_kconf C) then ret y else start_ramping_button_f C y b bs false HKp
  | MENU_KI => if negb (c_kconf C) then ret y else start_ramping_button_f C y b bs false HKi
  | MENU_KD => if negb (c_kconf C) then ret y else start_ramping_button_f C y b bs false HKd
  | MENU_ADJ_PRE | MENU_KP_PRE | MENU_KI_PRE | MENU_KD_PRE => ret y
  end.
(** menu.c:531-634 *)
Definition menu_button_handler_f (C : conf) (y : sys) (b : button) (bs : bstate) : F sys :=
  if is_iron b then ret y
  else
    y <~ menu_button_switch_f C y b bs ;;
    if is_neg bs then
      let y := stop_ramping y in
      if is_set b then
        if negb (debug_is_enabled C y) then menu_set_next_state_f C y else ret y
      else ret y
    else ret y.

(** menu.c:644-668 *)
Definition menu_timeouts_f (C : conf) (y : sys) : F sys :=
  match n_state (y_menu y) with
  | MENU_CURTEMP | MENU_DEBUG | MENU_ADJ | MENU_KP | MENU_KI | MENU_KD => ret y
  | MENU_ADJ_PRE | MENU_KP_PRE | MENU_KI_PRE | MENU_KD_PRE
  | MENU_SELPRESET | MENU_CHGPRESET | MENU_IDLETEMP =>
    y <~ pt C y ;;
    if timer_expired (y_now y) (n_timeout (y_menu y)) then
      y <~ (if mstate_eqb (n_state (y_menu y)) MENU_IDLETEMP then menu_set_state_f C y MENU_CURTEMP
            else menu_set_next_state_f C y) ;;
      ret (stop_ramping y)
    else ret y
  end.
(** menu.c:699-705 *)
Definition ramp_step_f (C : conf) (y : sys) (up : bool) : F sys :=
  y <~ pt C y ;;
  if timer_expired (y_now y) (n_rtimer (y_menu y)) then
    y <~ call_ramp_handler_f C y (n_handler (y_menu y)) up ;;
    let y := menu_request_display_update y in
    t <~ lift (timer_add (n_rtimer (y_menu y)) (n_period (y_menu y))) ;;
    let n := set_n_rtimer (y_menu y) t in
    let n := if RAMP_MIN_PERIOD_MS <? n_period n then set_n_period n (n_period n / 2) else n in
    ret (set_y_menu y n)
  else ret y.
(** menu.c:689-707 *)
Definition menu_ramping_f (C : conf) (y : sys) : F sys :=
  let pre up := y <~ pt C y ;;
                if timer_expired (y_now y) (n_pretimer (y_menu y))
                then start_ramping_f C y up false (n_handler (y_menu y)) else ret y in
  match n_ramp (y_menu y) with
  | RAMP_NONE => ret y
  | RAMP_PRE_UP => pre true
  | RAMP_PRE_DOWN => pre false
  | RAMP_UP => ramp_step_f C y true
  | RAMP_DOWN => ramp_step_f C y false
  end.
(** menu.c:637-716 *)
Definition menu_work_f (C : conf) (y : sys) : F sys :=
  y <~ menu_timeouts_f C y ;;
  y <~ menu_ramping_f C (menu_heating (menu_errors y)) ;;
  if n_upd (y_menu y) then
    lift (menu_update_display C (set_y_menu y (set_n_upd (y_menu y) false)))
  else ret y.

(** buttons.c:89-93 *)
Definition call_button_handlers_f (C : conf) (y : sys) (b : button) (bs : bstate) : F sys :=
  y <~ contrtemp_button_handler_f C y b bs ;; menu_button_handler_f C y b bs.
(** buttons.c:89-93, 111-120 *)
Fixpoint run_calls_f (C : conf) (y : sys) (l : list (button * bstate)) : F sys :=
  match l with
  | [] => ret y
  | (b, bs) :: r => y <~ call_button_handlers_f C y b bs ;; run_calls_f C y r
  end.
(** buttons.c:95-122 *)
Definition buttons_work_f (C : conf) (y : sys) (pinb : Z) : F sys :=
  y <~ pt C y ;;
  let bt := y_btn y in
  if negb (timer_expired (y_now y) (b_timer bt)) then ret y
  else
    t <~ lift (timer_add (b_timer bt) BUTTONS_DEBOUNCE_MS) ;;
    let y := set_y_btn y (mkBtn (buttons_get_raw pinb) t) in
    run_calls_f C y (sample_calls (b_prev bt) pinb).

(** One event with the interrupts [o] inside *)
Definition fstep (C : conf) (y : sys) (e : event) (o : plan) : option sys :=
  '(y, _) <- (match e with
              | EMeasure => measure_work_f C y
              | EMenu => menu_work_f C y
              | EButtons pinb => buttons_work_f C y pinb
              | _ => lift (step C y e)
              end) o ;;
  Some y.
