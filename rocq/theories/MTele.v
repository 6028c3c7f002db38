(** * Model of the debug output of the running firmware

    MCurr, MTemp, MMeas, MMenu and MMain leave out the calls of debug_print_*, debug_report_* and the
    greeting of debug_enable.  Here are the functions that (directly or not) make such calls, with the calls:
    each returns its result and the list of calls.  PTele proves that without the lists they are the functions
    of those files.  [perform] then makes the calls: the output depends on nothing but the calls, the flag
    [debug_enabled], the [old_value] cells and the time. *)
From Coq Require Import ZArith List Bool.
From Verif Require Import Base MUtil MConf MFixpt MScale MRing MFilter MTimer MPid MTempMap MPwm MCurr MSens MSettings SpecSettings MSseg
  MDisplay MText MState MTemp MMeas MMenu MMain MDebug SpecSys.
Import ListNotations.
Open Scope Z_scope.

(** pid.c:51-88: the terms that are reported *)
Inductive term : Set := TE | TP | TI | TD | TPe.
(** The variables given to debug_report_* as [old_value]: controller_current.c:66-70, controller_temp.c:59-63,
    measure.h (old_report_value), measure_current.c:44, pid.h (debug_old_e, ...); [Some i]: reported as the
    item [i]; of the two controllers [true] is the temperature controller. *)
Inductive cell : Set := CItem (i : item) | CPid (temp : bool) (t : term).
Definition cell_dec (a b : cell) : {a = b} + {a <> b}.
Proof. repeat decide equality. Defined.
(** Names: "e", "p", "i", "d", "pe"; controller_current.c:234 "pid-c", controller_temp.c:359 "pid-t" *)
Definition term_name (t : term) : list Z :=
  match t with TE => [101] | TP => [112] | TI => [105] | TD => [100] | TPe => [112; 101] end.
Definition pid_name (temp : bool) : list Z := [112; 105; 100; 45; if temp then 116 else 99].
(** The two prefixes of a cell *)
Definition prefix0 (c : cell) : list Z := match c with CItem i => fw_name i | CPid temp _ => pid_name temp end.
Definition prefix1 (c : cell) : option (list Z) := match c with CItem _ => None | CPid _ t => Some (term_name t) end.

(** Calls: debug_report_*, debug_print_int16 of controller_temp.c:87 (item tb), debug_enable *)
Inductive act : Set :=
| AReport (c : cell) (v : Z)
| APrint (i : item) (v : Z)
| AEnable (enable : bool).

(** A result and the calls made on the way *)
Definition W (A : Type) : Type := option (A * list act).
Definition lift {A} (m : option A) : W A := a <- m ;; Some (a, []).
Definition ret {A} (a : A) : W A := Some (a, []).
Definition tell (a : act) : W unit := Some (tt, [a]).
Definition wbind {A B} (m : W A) (f : A -> W B) : W B :=
  match m with
  | Some (a, l) => match f a with Some (b, l') => Some (b, l ++ l') | None => None end
  | None => None
  end.
Notation "x <~ m ;; k" := (wbind m (fun x => k)) (at level 61, m at next level, right associativity).
Notation "' p <~ m ;; k" := (wbind m (fun x => match x with p => k end)) (at level 61, p pattern, m at next level, right associativity).
Notation "m ,, k" := (wbind m (fun _ => k)) (at level 61, right associativity).

(** ** The functions with their calls *)

(** pid.c:40-94 *)
Definition pid_run_t (temp : bool) (p : pid) (dt r : Z) : W (pid * Z) :=
  e <~ lift (fixpt_sub (p_setpoint p) r) ;;
  tell (AReport (CPid temp TE) e) ,,
  pt <~ lift (fixpt_mul (kp (p_k p)) e) ;;
  tell (AReport (CPid temp TP) pt) ,,
  ie <~ lift (fixpt_mul (ki (p_k p)) e) ;;
  ied <~ lift (fixpt_mul ie dt) ;;
  i <~ lift (fixpt_add (p_integr p) ied) ;;
  let i := cclamp i (p_i_neglim p) (p_i_poslim p) in
  res <~ lift (fixpt_add pt i) ;;
  tell (AReport (CPid temp TI) i) ,,
  de <~ lift (fixpt_sub e (p_prev_e p)) ;;
  d <~ lift (fixpt_mul_div de (kd (p_k p)) dt) ;;
  pe <~ lift (fixpt_div e (d_decay_div (p_k p))) ;;
  res <~ lift (fixpt_add res d) ;;
  tell (AReport (CPid temp TD) d) ,,
  tell (AReport (CPid temp TPe) pe) ,,
  ret (mkPid (p_k p) (p_setpoint p) (p_i_neglim p) (p_i_poslim p) (p_y_neglim p) (p_y_poslim p) pe i,
       cclamp res (p_y_neglim p) (p_y_poslim p)).

(** controller_current.c:46-50 *)
Definition rstate_num (s : rstate) : Z := match s with RDisabled => 0 | RSyncing => 1 | REnabled => 2 end.
(** controller_current.c:83-157 *)
Definition contrcurr_run_t (now : Z) (c : cc) (real_r : Z) : W cc :=
  if negb (cc_enabled c) then ret c
  else if negb (cc_emerg c =? 0) then ret c
  else
    dt <~ lift (dt_seconds now (cc_timer c)) ;;
    let c := cc_set_timer c (timer_set_now now) in
    '(c, r) <~ lift (cc_select_r c real_r) ;;
    tell (AReport (CItem Rs) (s8 (rstate_num (cc_rstate c)))) ,,
    tell (AReport (CItem Cr2) r) ,,
    '(p, y) <~ pid_run_t false (cc_pid c) dt r ;;
    let c := cc_set_pid c p in
    let y := if cc_restricted c then
               if CONTRCURR_RESTRICT_MAXCURR <? y then CONTRCURR_RESTRICT_MAXCURR else y
             else y in
    tell (AReport (CItem Cy) y) ,,
    lift (cc_pwm (cc_set_prev_y c y) y).
(** controller_current.c:159-169 *)
Definition contrcurr_set_feedback_t (now : Z) (c : cc) (r : Z) : W cc :=
  c <~ (if negb (r =? cc_feedback c) then
          tell (AReport (CItem Cr1) r) ,, ret (cc_set_feedback c r)
        else ret c) ;;
  contrcurr_run_t now c r.

(** controller_temp.c:76-91 *)
Definition contrtemp_set_boost_mode_t (C : conf) (y : sys) (new_boost_mode : Z) : W sys :=
  k_set <~ lift (zget (s_k (get_settings y)) new_boost_mode) ;;
  let t := y_ct y in
  let t := set_t_pid t (pid_set_factors (t_pid t) k_set) in
  t <~ (if c_boost C then
          tell (APrint Tb (s16 new_boost_mode)) ,, ret (set_t_boost t new_boost_mode)
        else ret t) ;;
  ret (menu_request_display_update (set_y_ct y t)).
(** controller_temp.c:102-109 *)
Definition contrtemp_update_pid_config_t (C : conf) (y : sys) : W sys :=
  contrtemp_set_boost_mode_t C y (contrtemp_get_boost_mode C y).
(** controller_temp.c:127-169 *)
Definition contrtemp_run_t (y : sys) (r : Z) : W sys :=
  let t := y_ct y in
  if negb (t_enabled t) then ret y
  else if t_emerg t then ret y
  else
    dt <~ lift (dt_seconds (y_now y) (t_dt t)) ;;
    let t := set_t_dt t (timer_set_now (y_now y)) in
    '(p, out) <~ pid_run_t true (t_pid t) dt r ;;
    let t := set_t_pid t p in
    tell (AReport (CItem Ty1) out) ,,
    y_current <~ lift (temp_to_amps out) ;;
    let c := y_cc y in
    let emergency_flags := contrcurr_get_emerg c in
    let '(emergency_flags, y_current) :=
      if CONTRTEMP_POSLIM <? r
      then (Z.lor emergency_flags EMERG_HIGH_TEMP, CONTRCURR_NEGLIM)
      else (Z.land emergency_flags (u8 (Z.lnot EMERG_HIGH_TEMP)), y_current) in
    c <~ lift (contrcurr_set_emerg c emergency_flags) ;;
    tell (AReport (CItem Ty2) y_current) ,,
    let c := contrcurr_set_setpoint c y_current in
    ret (set_y_cc (set_y_ct y t) c).
(** controller_temp.c:171-182 *)
Definition contrtemp_set_feedback_t (y : sys) (r : Z) : W sys :=
  y <~ (if negb (r =? t_feedback (y_ct y)) then
          tell (AReport (CItem Tr) r) ,,
          ret (menu_request_display_update (set_y_ct y (set_t_feedback (y_ct y) r)))
        else ret y) ;;
  contrtemp_run_t y r.
(** controller_temp.c:217-233 *)
Definition do_set_enabled_t (C : conf) (y : sys) (enabled : bool) : W sys :=
  let t := set_t_enabled (y_ct y) enabled in
  let t := set_t_pid t (pid_reset (t_pid t)) in
  let t := set_t_dt t (timer_set_now (y_now y)) in
  y <~ contrtemp_set_boost_mode_t C (set_y_ct y t) 0 ;;
  ret (set_y_cc y (contrcurr_set_setpoint (y_cc y) CONTRCURR_NEGLIM)).
Definition contrtemp_set_enabled_t (C : conf) (y : sys) (enabled : bool) : W sys :=
  if negb (Bool.eqb (t_enabled (y_ct y)) enabled) then do_set_enabled_t C y enabled else ret y.
(** controller_temp.c:263-271 *)
Definition contrtemp_do_next_boost_mode_t (C : conf) (y : sys) : W sys :=
  contrtemp_set_boost_mode_t C y (ring_next (u8 (t_boost (y_ct y))) (NR_BOOST_MODES C - 1)).
(** controller_temp.c:286-308 *)
Definition button_boost_idle_t (C : conf) (y : sys) (button : button) (bs : bstate) : W sys :=
  let idle := t_idle (y_ct y) in
  if negb (is_iron button) then ret y
  else
    y <~ lift (if is_pos bs then
                 tm <- timer_arm (y_now y) CONTRTEMP_BUTTON_BOOST_DELAY ;;
                 Some (set_y_ct y (set_t_bilet (set_t_bitimer (y_ct y) tm) true))
               else Some y) ;;
    if t_bilet (y_ct y) then
      if idle || (is_held bs && timer_expired (y_now y) (t_bitimer (y_ct y))) then
        y <~ lift (contrtemp_do_idle C y (negb idle)) ;;
        ret (set_y_ct y (set_t_bilet (y_ct y) false))
      else if is_neg bs then
        y <~ contrtemp_do_next_boost_mode_t C y ;;
        ret (set_y_ct y (set_t_bilet (y_ct y) false))
      else ret y
    else ret y.
(** controller_temp.c:310-317 *)
Definition button_boost_t (C : conf) (y : sys) (button : button) (bs : bstate) : W sys :=
  if negb (is_iron button) then ret y
  else if is_pos bs then contrtemp_do_next_boost_mode_t C y else ret y.
(** controller_temp.c:285-346 *)
Definition contrtemp_button_handler_t (C : conf) (y : sys) (button : button) (bs : bstate) : W sys :=
  if c_boost C && c_idle C then button_boost_idle_t C y button bs
  else if c_boost C then button_boost_t C y button bs
  else if c_idle C then lift (button_idle C y button bs)
  else ret y.
(** controller_temp.c:348-372 *)
Definition contrtemp_init_t (C : conf) (y : sys) : W sys :=
  k_set <~ lift (zget (s_k (get_settings y)) 0) ;;
  let p := pid_init (t_pid (y_ct y)) k_set CONTRTEMP_NEGLIM_I CONTRTEMP_POSLIM_I
                    CONTRTEMP_NEGLIM CONTRTEMP_POSLIM in
  temp_setpoint <~ lift (presets_get_active_value y) ;;
  let y := set_y_ct y (set_t_pid (y_ct y) (pid_set_setpoint p temp_setpoint)) in
  y <~ do_set_enabled_t C y true ;;
  ret (do_set_emerg y false).

(** measure_current.c:55-73 *)
Definition meascurr_filter_handler_t (y : sys) (raw_adc : Z) : W (sys * Z) :=
  let '(y, filtered) := meascurr_filter_handler y raw_adc in
  tell (AReport (CItem Fc) (s16 filtered)) ,, ret (y, filtered).
(** measure.c:110-120 *)
Definition measure_user_filter_handler_t (y : sys) (chan_id raw_adc : Z) : W (sys * Z) :=
  if chan_id =? MEAS_CHAN_CURRENT then meascurr_filter_handler_t y raw_adc else ret (y, raw_adc).
(** measure_current.c:78-101 *)
Definition meascurr_result_handler_t (y : sys) (v : Z) (p : plaus) : W sys :=
  let c := y_cc y in
  let flags := contrcurr_get_emerg c in
  let flags := match p with
               | MEAS_PLAUSIBLE => Z.land flags (u8 (Z.lnot EMERG_UNPLAUS_FEEDBACK))
               | MEAS_PLAUS_TIMEOUT => Z.lor flags EMERG_UNPLAUS_FEEDBACK
               | MEAS_NOT_PLAUSIBLE => flags
               end in
  c <~ lift (contrcurr_set_emerg c flags) ;;
  let u := y_mc y in
  '(c, u) <~ match p with
             | MEAS_PLAUSIBLE =>
               c <~ contrcurr_set_feedback_t (y_now y) c v ;; ret (c, set_u_prev u v)
             | MEAS_NOT_PLAUSIBLE =>
               c <~ contrcurr_set_feedback_t (y_now y) c (u_prev u) ;; ret (c, u)
             | MEAS_PLAUS_TIMEOUT => ret (c, u)
             end ;;
  ret (set_y_mc (set_y_cc y c) (set_u_init u true)).
(** measure_temp.c:61-81 *)
Definition meastemp_result_handler_t (y : sys) (v : Z) (p : plaus) : W sys :=
  let y := match p with
           | MEAS_PLAUSIBLE => contrtemp_set_emerg y false
           | MEAS_PLAUS_TIMEOUT => contrtemp_set_emerg y true
           | MEAS_NOT_PLAUSIBLE => y
           end in
  match p with
  | MEAS_PLAUSIBLE =>
    let y := set_y_mt y v in
    let y := set_y_cc y (contrcurr_set_restricted (y_cc y) (v <? CONTRCURR_RESTRICT_TOTEMP)) in
    contrtemp_set_feedback_t y v
  | MEAS_NOT_PLAUSIBLE => contrtemp_set_feedback_t y (y_mt y)
  | MEAS_PLAUS_TIMEOUT => ret y
  end.
(** measure.c:127-140 *)
Definition measure_user_result_handler_t (y : sys) (chan_id phys : Z) (p : plaus) : W sys :=
  if chan_id =? MEAS_CHAN_TEMP then meastemp_result_handler_t y phys p
  else meascurr_result_handler_t y phys p.
(** measure_current.c:107, measure_temp.c:87: the names of the channels *)
Definition chan_item (id : Z) : item := if id =? MEAS_CHAN_TEMP then Mt else Mc.
(** measure.c:204-268 *)
Definition measure_handle_result_t (C : conf) (y : sys) : W sys :=
  let m := y_meas y in
  let id := m_chan m in
  ch <~ lift (zget (m_chans m) id) ;;
  config <~ lift (chan_config C id) ;;
  raw_adc <~ lift (raw_average m) ;;
  tell (AReport (CItem (chan_item id)) (s16 raw_adc)) ,,
  '(y, raw_adc) <~ measure_user_filter_handler_t y id raw_adc ;;
  phys <~ lift (scale (s16 raw_adc) (s16 (mc_raw_lo config)) (s16 (mc_raw_hi config))
                      (mc_phys_lo config) (mc_phys_hi config)) ;;
  phys <~ lift (if c_adj C then fixpt_sub phys (ch_adj ch) else Some phys) ;;
  '(ch, phys, plaus) <~ lift (plaus_check config (y_now y) ch phys) ;;
  chans <~ lift (zupd (m_chans m) id ch) ;;
  let y := set_y_meas y (set_m_chans m chans) in
  measure_user_result_handler_t y id phys plaus.
(** measure.c:295-308 *)
Definition measure_work_t (C : conf) (y : sys) : W sys :=
  let result_available := m_avail (y_meas y) in
  let y := set_y_meas y (set_m_avail (y_meas y) false) in
  if result_available then
    y <~ measure_handle_result_t C y ;; lift (adc_trigger_next_chan C y)
  else ret y.

(** debug_uart.c:210-231; without CONF_DEBUG the function is empty *)
Definition debug_enable_t (C : conf) (y : sys) (enable : bool) : W sys :=
  if c_debug C then tell (AEnable enable) ,, lift (debug_enable C y enable) else ret y.
(** debug_uart.c:238-253 *)
Definition debug_uart_init_t (C : conf) (y : sys) : W sys :=
  debug_enable_t C (set_y_hw y (set_h_tx (y_hw y) false)) false.

(** menu.c:368-416 *)
Definition menu_set_state_t (C : conf) (y : sys) (new_state : mstate) : W sys :=
  if mstate_eqb (n_state (y_menu y)) new_state then ret y
  else
    let y := set_y_menu y (set_n_state (y_menu y) new_state) in
    y <~ match new_state with
         | MENU_SELPRESET => lift (arm_menu_timeout y MENU_SELPRESET_TIMEOUT)
         | MENU_CHGPRESET => lift (arm_menu_timeout y MENU_CHGPRESET_TIMEOUT)
         | MENU_IDLETEMP => lift (arm_menu_timeout y MENU_IDLETEMP_TIMEOUT)
         | MENU_ADJ_PRE =>
           if negb (c_adj C) then ret y
           else y <~ lift (arm_menu_timeout y MENU_ADJ_PRE_TIMEOUT) ;; contrtemp_set_enabled_t C y false
         | MENU_ADJ => if negb (c_adj C) then ret y else contrtemp_set_enabled_t C y false
         | MENU_KP_PRE | MENU_KI_PRE | MENU_KD_PRE =>
           if negb (c_kconf C) then ret y
           else y <~ lift (arm_menu_timeout y MENU_KCONF_PRE_TIMEOUT) ;; contrtemp_set_enabled_t C y false
         | MENU_KP | MENU_KI | MENU_KD =>
           if negb (c_kconf C) then ret y else contrtemp_set_enabled_t C y false
         | MENU_CURTEMP => contrtemp_set_enabled_t C y true
         | MENU_DEBUG => ret y
         end ;;
    ret (menu_request_display_update y).
(** menu.c:418-421 *)
Definition menu_set_next_state_t (C : conf) (y : sys) : W sys :=
  menu_set_state_t C y (next_menu_state C (n_state (y_menu y))).
(** menu.c:432-443 *)
Definition settemp_ramp_handler_t (C : conf) (y : sys) (up : bool) : W sys :=
  setpoint <~ lift (presets_get_active_value y) ;;
  setpoint <~ lift (do_ramp_temp setpoint up CONTRTEMP_NEGLIM CONTRTEMP_POSLIM) ;;
  y <~ lift (presets_set_active_value C y setpoint) ;;
  menu_set_state_t C y MENU_CHGPRESET.
(** menu.c:456-462 *)
Definition do_ramp_k_t (C : conf) (y : sys) (get : pid_k -> Z) (put : pid_k -> Z -> pid_k)
  (inc max_val : Z) (up : bool) : W sys :=
  let s := get_settings y in
  let i := contrtemp_get_boost_mode C y in
  k <~ lift (zget (s_k s) i) ;;
  v <~ lift (fixpt_add_limited (get k) (if up then inc else fixpt_neg inc) 0 max_val) ;;
  l <~ lift (zupd (s_k s) i (put k v)) ;;
  y <~ lift (sys_store (put_settings y (set_s_k s l))) ;;
  contrtemp_update_pid_config_t C y.
(** menu.c:475-494, 700 *)
Definition call_ramp_handler_t (C : conf) (y : sys) (h : option rhandler) (up : bool) : W sys :=
  h <~ lift h ;;
  match h with
  | HSettemp => settemp_ramp_handler_t C y up
  | HIdletemp => lift (idletemp_ramp_handler C y up)
  | HAdj => lift (adj_ramp_handler C y up)
  | HKp => do_ramp_k_t C y kp (fun k v => mkK v (ki k) (kd k) (d_decay_div k)) (fxc 3125 100000) (fxc 99 1) up
  | HKi => do_ramp_k_t C y ki (fun k v => mkK (kp k) v (kd k) (d_decay_div k)) (fxc 15625 1000000) (fxc 9 1) up
  | HKd => do_ramp_k_t C y kd (fun k v => mkK (kp k) (ki k) v (d_decay_div k)) (fxc 3125 100000) (fxc 99 1) up
  end.
(** menu.c:537-622 *)
Definition menu_button_switch_t (C : conf) (y : sys) (b : button) (bs : bstate) : W sys :=
  match n_state (y_menu y) with
  | MENU_CURTEMP =>
    y <~ lift (start_ramping_button y b bs true HSettemp) ;;
    if is_neg bs && negb (is_set b) then menu_set_state_t C y MENU_SELPRESET else ret y
  | MENU_DEBUG =>
    if negb (c_debug C) then ret y
    else if is_pos bs then
      if is_plus b then debug_enable_t C y true
      else if is_minus b then
        y <~ debug_enable_t C y false ;; ret (menu_request_display_update y)
      else ret y
    else ret y
  | MENU_SELPRESET | MENU_CHGPRESET | MENU_IDLETEMP | MENU_ADJ | MENU_KP | MENU_KI | MENU_KD
  | MENU_ADJ_PRE | MENU_KP_PRE | MENU_KI_PRE | MENU_KD_PRE => lift (menu_button_switch C y b bs)
  end.
(** menu.c:531-634 *)
Definition menu_button_handler_t (C : conf) (y : sys) (b : button) (bs : bstate) : W sys :=
  if is_iron b then ret y
  else
    y <~ menu_button_switch_t C y b bs ;;
    if is_neg bs then
      let y := stop_ramping y in
      if is_set b then
        if negb (debug_is_enabled C y) then menu_set_next_state_t C y else ret y
      else ret y
    else ret y.
(** menu.c:644-668 *)
Definition menu_timeouts_t (C : conf) (y : sys) : W sys :=
  match n_state (y_menu y) with
  | MENU_CURTEMP | MENU_DEBUG | MENU_ADJ | MENU_KP | MENU_KI | MENU_KD => ret y
  | MENU_ADJ_PRE | MENU_KP_PRE | MENU_KI_PRE | MENU_KD_PRE
  | MENU_SELPRESET | MENU_CHGPRESET | MENU_IDLETEMP =>
    if timer_expired (y_now y) (n_timeout (y_menu y)) then
      y <~ (if mstate_eqb (n_state (y_menu y)) MENU_IDLETEMP then menu_set_state_t C y MENU_CURTEMP
            else menu_set_next_state_t C y) ;;
      ret (stop_ramping y)
    else ret y
  end.
(** menu.c:699-705 *)
Definition ramp_step_t (C : conf) (y : sys) (up : bool) : W sys :=
  if timer_expired (y_now y) (n_rtimer (y_menu y)) then
    y <~ call_ramp_handler_t C y (n_handler (y_menu y)) up ;;
    let y := menu_request_display_update y in
    t <~ lift (timer_add (n_rtimer (y_menu y)) (n_period (y_menu y))) ;;
    let n := set_n_rtimer (y_menu y) t in
    let n := if RAMP_MIN_PERIOD_MS <? n_period n then set_n_period n (n_period n / 2) else n in
    ret (set_y_menu y n)
  else ret y.
(** menu.c:689-707 *)
Definition menu_ramping_t (C : conf) (y : sys) : W sys :=
  let pre up := lift (if timer_expired (y_now y) (n_pretimer (y_menu y))
                      then start_ramping y up false (n_handler (y_menu y)) else Some y) in
  match n_ramp (y_menu y) with
  | RAMP_NONE => ret y
  | RAMP_PRE_UP => pre true
  | RAMP_PRE_DOWN => pre false
  | RAMP_UP => ramp_step_t C y true
  | RAMP_DOWN => ramp_step_t C y false
  end.
(** menu.c:637-716 *)
Definition menu_work_t (C : conf) (y : sys) : W sys :=
  y <~ menu_timeouts_t C y ;;
  y <~ menu_ramping_t C (menu_heating (menu_errors y)) ;;
  if n_upd (y_menu y) then
    lift (menu_update_display C (set_y_menu y (set_n_upd (y_menu y) false)))
  else ret y.
(** buttons.c:89-122 *)
Definition call_button_handlers_t (C : conf) (y : sys) (b : button) (bs : bstate) : W sys :=
  y <~ contrtemp_button_handler_t C y b bs ;; menu_button_handler_t C y b bs.
Fixpoint run_calls_t (C : conf) (y : sys) (l : list (button * bstate)) : W sys :=
  match l with
  | [] => ret y
  | (b, bs) :: r => y <~ call_button_handlers_t C y b bs ;; run_calls_t C y r
  end.
Definition buttons_work_t (C : conf) (y : sys) (pinb : Z) : W sys :=
  let bt := y_btn y in
  if negb (timer_expired (y_now y) (b_timer bt)) then ret y
  else
    t <~ lift (timer_add (b_timer bt) BUTTONS_DEBOUNCE_MS) ;;
    let y := set_y_btn y (mkBtn (buttons_get_raw pinb) t) in
    run_calls_t C y (sample_calls (b_prev bt) pinb).
(** menu.c:718-730 *)
Definition menu_init_t (C : conf) (y : sys) (pinb : Z) : W sys :=
  if c_debug C then
    if button_is_pressed pinb BUTTON_SET then
      y <~ debug_enable_t C y true ;; menu_set_state_t C y MENU_DEBUG
    else menu_set_state_t C y MENU_CURTEMP
  else menu_set_state_t C y MENU_CURTEMP.
(** main.c:99-135 *)
Definition boot_t (C : conf) (ee : Z -> Z) (pinb : Z) : W sys :=
  let y := sys_reset ee in
  let y := buttons_init y in
  y <~ (if c_debug C then debug_uart_init_t C y else ret y) ;;
  x <~ lift (settings_init C ee) ;;
  let y := set_y_set y x in
  '(h, d) <~ lift (display_init (y_now y) (y_hw y) (y_disp y)) ;;
  let y := set_y_hw (set_y_disp y d) h in
  let y := measure_init y in
  let y := meascurr_init y in
  y <~ lift (meastemp_init C y) ;;
  c <~ lift (contrcurr_init (y_now y) (y_cc y)) ;;
  y <~ contrtemp_init_t C (set_y_cc y c) ;;
  let y := sys_pwmcurr_init y in
  y <~ menu_init_t C y pinb ;;
  let y := set_y_hw y (unused_pins_init (y_hw y)) in
  lift (measure_start C y).

(** An event of SpecSys with the calls made by it *)
Definition step_t (C : conf) (y : sys) (e : event) : W sys :=
  match e with
  | EMeasure => measure_work_t C y
  | EMenu => menu_work_t C y
  | EButtons pinb => buttons_work_t C y pinb
  | EPower v pinb => boot_t C (ee_after_crash (y_set y) v) pinb
  | ETick | EAdc _ | EReady | EDone | EDisplay | ESettings => lift (step C y e)
  end.

(** ** Making the calls *)

(** The cells *)
Definition cells : Type := cell -> Z.
Definition set_cell (f : cells) (c : cell) (v : Z) : cells := fun d => if cell_dec d c then v else f d.
(** One call at time [now]: debug_uart.c:111-231.  [en] is [debug_enabled]; returns the flag, the cells and
    the strings sent: for each call at most one. *)
Definition perform1 (now : Z) (en : bool) (f : cells) (a : act) : option (bool * cells * list (list Z)) :=
  let sent s := match s with [] => [] | _ => [s] end in
  match a with
  | AReport c v =>
    '(o, s) <- report en now (Some (prefix0 c)) (prefix1 c) (f c) v ;;
    Some (en, set_cell f c o, sent s)
  | APrint i v =>
    s <- print_int en now (Some (fw_name i)) None v ;; Some (en, f, sent s)
  | AEnable b => Some (b, f, sent (enable_out b))
  end.
Fixpoint perform (now : Z) (en : bool) (f : cells) (l : list act) : option (bool * cells * list (list Z)) :=
  match l with
  | [] => Some (en, f, [])
  | a :: l =>
    '(en, f, s) <- perform1 now en f a ;;
    '(en, f, s') <- perform now en f l ;;
    Some (en, f, s ++ s')
  end.

(** The firmware with its debug output: the state, the cells, and the strings sent during the event.  Without
    CONF_DEBUG the debug functions are empty (debug_uart.h:62-). *)
Definition tout (C : conf) (now : Z) (en : bool) (f : cells) (r : W sys) : option (sys * cells * list (list Z)) :=
  '(y, l) <- r ;;
  if c_debug C then '(_, f, s) <- perform now en f l ;; Some (y, f, s) else Some (y, f, []).
(** Power-up: static storage is zero, so is the time. *)
Definition tboot (C : conf) (ee : Z -> Z) (pinb : Z) : option (sys * cells * list (list Z)) :=
  tout C 0 false (fun _ => 0) (boot_t C ee pinb).
Definition tstep (C : conf) (y : sys) (f : cells) (e : event) : option (sys * cells * list (list Z)) :=
  match e with
  | EPower v pinb => tboot C (ee_after_crash (y_set y) v) pinb
  | _ => tout C (y_now y) (y_dbg y) f (step_t C y e)
  end.
