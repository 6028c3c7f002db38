(** * Model of firmware/menu.c, buttons.c and of the display/UART switch in debug_uart.c *)
From Coq Require Import ZArith List Bool.
From Verif Require Import Base MConf MFixpt MRing MTimer MPid MTempMap MPwm MCurr MSettings MSseg MDisplay
  MText MState MTemp MMeas.
Import ListNotations.
Open Scope Z_scope.

(** menu.c:36-40 *)
Definition MENU_SELPRESET_TIMEOUT : Z := 3000.
Definition MENU_CHGPRESET_TIMEOUT : Z := 3000.
Definition MENU_IDLETEMP_TIMEOUT : Z := 3000.
Definition MENU_KCONF_PRE_TIMEOUT : Z := 1500.
Definition MENU_ADJ_PRE_TIMEOUT : Z := 1500.
(** menu.c:67-69 *)
Definition RAMP_PRE_TIMEOUT_MS : Z := 1000.
Definition RAMP_START_PERIOD_MS : Z := 400.
Definition RAMP_MIN_PERIOD_MS : Z := Z.shiftr RAMP_START_PERIOD_MS 4.

(** debug_uart.c:210-231 (not SIMULATOR): the greeting that is sent is omitted.  Without CONF_DEBUG the
    function is empty (debug_uart.h:62-). *)
Definition debug_enable (C : conf) (y : sys) (enable : bool) : option sys :=
  if c_debug C then
    let y := set_y_dbg y enable in
    '(h, d) <- display_enable (y_now y) (y_hw y) (y_disp y) (negb enable) ;;
    Some (set_y_hw (set_y_disp y d) (set_h_tx h enable))
  else Some y.
(** debug_uart.c:233-236, debug_uart.h *)
Definition debug_is_enabled (C : conf) (y : sys) : bool := if c_debug C then y_dbg y else false.
(** debug_uart.c:238-253 *)
Definition debug_uart_init (C : conf) (y : sys) : option sys :=
  debug_enable C (set_y_hw y (set_h_tx (y_hw y) false)) false.

(** menu.c:172-183 [char disp[6]] with disp[0] written *)
Definition disp_buf : text := [Some 0; None; None; None; None; None].
(** String literals of menu.c: "Err ", "L.", "C.", "b.", "8.", "L", "DBG", "ADJC.", " P", " I", " D" *)
Definition STR_ERR : list Z := [69; 114; 114; 32].
Definition STR_L_DOT : list Z := [76; 46].
Definition STR_C_DOT : list Z := [67; 46].
Definition STR_B_DOT : list Z := [98; 46].
Definition STR_8_DOT : list Z := [56; 46].
Definition STR_L : list Z := [76].
Definition STR_DBG : list Z := [68; 66; 71].
Definition STR_ADJC : list Z := [65; 68; 74; 67; 46].
Definition STR_P : list Z := [32; 80].
Definition STR_I : list Z := [32; 73].
Definition STR_D : list Z := [32; 68].

(** menu.c:185-285: the text that is shown and whether the heating dot may be shown *)
Definition menu_text (C : conf) (y : sys) : option (text * bool) :=
  let boost_mode := contrtemp_get_boost_mode C y in
  let displayed_error := n_err (y_menu y) in
  let buf := disp_buf in
  match n_state (y_menu y) with
  | MENU_CURTEMP =>
    if negb (displayed_error =? 0) then
      b <- menu_putstr buf 0 STR_ERR ;;
      b <- wr_char b 3 (u8 (48 + displayed_error)) ;;
      Some (b, false)
    else
      let symbol := if contrtemp_is_idle C y then STR_L_DOT
                    else if c_boost C && (boost_mode =? 1) then STR_B_DOT
                    else if c_boost C && (boost_mode =? 2) then STR_8_DOT
                    else STR_C_DOT in
      b <- menu_put_temp buf (t_feedback (y_ct y)) symbol ;;
      Some (b, true)
  | MENU_SELPRESET | MENU_CHGPRESET =>
    let active_index := presets_get_active_index y in
    v <- presets_get_active_value y ;;
    b <- menu_put_temp buf v [u8 (49 + active_index); 46] ;;
    Some (b, true)
  | MENU_IDLETEMP =>
    if negb (c_idle C) then Some (buf, true)
    else b <- menu_put_temp buf (s_idle (get_settings y)) STR_L ;; Some (b, true)
  | MENU_DEBUG =>
    if negb (c_debug C) then Some (buf, true)
    else b <- menu_putstr buf 0 STR_DBG ;; Some (b, true)
  | MENU_ADJ_PRE =>
    if negb (c_adj C) then Some (buf, true)
    else b <- menu_putstr buf 0 STR_ADJC ;; Some (b, false)
  | MENU_ADJ =>
    if negb (c_adj C) then Some (buf, true)
    else a <- meastemp_adjust_get C y ;; b <- menu_put_temp buf a STR_C_DOT ;; Some (b, false)
  | MENU_KP_PRE =>
    if negb (c_kconf C) then Some (buf, true)
    else b <- menu_putstr buf 0 STR_P ;; Some (b, false)
  | MENU_KP =>
    if negb (c_kconf C) then Some (buf, true)
    else k <- zget (s_k (get_settings y)) boost_mode ;; b <- menu_put_fixpt buf (kp k) 2 ;; Some (b, false)
  | MENU_KI_PRE =>
    if negb (c_kconf C) then Some (buf, true)
    else b <- menu_putstr buf 0 STR_I ;; Some (b, false)
  | MENU_KI =>
    if negb (c_kconf C) then Some (buf, true)
    else k <- zget (s_k (get_settings y)) boost_mode ;; b <- menu_put_fixpt buf (ki k) 3 ;; Some (b, false)
  | MENU_KD_PRE =>
    if negb (c_kconf C) then Some (buf, true)
    else b <- menu_putstr buf 0 STR_D ;; Some (b, false)
  | MENU_KD =>
    if negb (c_kconf C) then Some (buf, true)
    else k <- zget (s_k (get_settings y)) boost_mode ;; b <- menu_put_fixpt buf (kd k) 2 ;; Some (b, false)
  end.

(** menu.c:170-291 *)
Definition menu_update_display (C : conf) (y : sys) : option sys :=
  '(b, show_heating) <- menu_text C y ;;
  d <- display_force_dp (y_disp y) 2 true (if show_heating : bool then n_heating (y_menu y) else false) ;;
  d <- display_show d b ;;
  Some (set_y_disp y d).

(** menu.c:299-366 *)
Definition next_menu_state (C : conf) (cur : mstate) : mstate :=
  let kconf_or s := if c_kconf C then s else MENU_CURTEMP in
  let adj_or s := if c_adj C then s else kconf_or MENU_KP_PRE in
  let debug_or := if c_debug C then MENU_DEBUG else adj_or MENU_ADJ_PRE in
  match cur with
  | MENU_CURTEMP => if c_idle C then MENU_IDLETEMP else debug_or
  | MENU_SELPRESET | MENU_CHGPRESET => MENU_CURTEMP
  | MENU_IDLETEMP => debug_or
  | MENU_DEBUG => adj_or MENU_ADJ_PRE
  | MENU_ADJ_PRE => adj_or MENU_ADJ
  | MENU_ADJ => kconf_or MENU_KP_PRE
  | MENU_KP_PRE => kconf_or MENU_KP
  | MENU_KP => kconf_or MENU_KI_PRE
  | MENU_KI_PRE => kconf_or MENU_KI
  | MENU_KI => kconf_or MENU_KD_PRE
  | MENU_KD_PRE => kconf_or MENU_KD
  | MENU_KD => kconf_or MENU_CURTEMP
  end.

(** timer_arm(&menu.timeout, ms) *)
Definition arm_menu_timeout (y : sys) (ms : Z) : option sys :=
  t <- timer_arm (y_now y) ms ;; Some (set_y_menu y (set_n_timeout (y_menu y) t)).

(** menu.c:368-416 *)
Definition menu_set_state (C : conf) (y : sys) (new_state : mstate) : option sys :=
  if mstate_eqb (n_state (y_menu y)) new_state then Some y
  else
    let y := set_y_menu y (set_n_state (y_menu y) new_state) in
    y <- match new_state with
         | MENU_SELPRESET => arm_menu_timeout y MENU_SELPRESET_TIMEOUT
         | MENU_CHGPRESET => arm_menu_timeout y MENU_CHGPRESET_TIMEOUT
         | MENU_IDLETEMP => arm_menu_timeout y MENU_IDLETEMP_TIMEOUT
         | MENU_ADJ_PRE =>
           if negb (c_adj C) then Some y
           else y <- arm_menu_timeout y MENU_ADJ_PRE_TIMEOUT ;; contrtemp_set_enabled C y false
         | MENU_ADJ => if negb (c_adj C) then Some y else contrtemp_set_enabled C y false
         | MENU_KP_PRE | MENU_KI_PRE | MENU_KD_PRE =>
           if negb (c_kconf C) then Some y
           else y <- arm_menu_timeout y MENU_KCONF_PRE_TIMEOUT ;; contrtemp_set_enabled C y false
         | MENU_KP | MENU_KI | MENU_KD =>
           if negb (c_kconf C) then Some y else contrtemp_set_enabled C y false
         | MENU_CURTEMP => contrtemp_set_enabled C y true
         | MENU_DEBUG => Some y
         end ;;
    Some (menu_request_display_update y).

(** menu.c:418-421 *)
Definition menu_set_next_state (C : conf) (y : sys) : option sys :=
  menu_set_state C y (next_menu_state C (n_state (y_menu y))).

(** menu.c:423-430 *)
Definition do_ramp_temp (temp : Z) (up : bool) (min_val max_val : Z) : option Z :=
  fixpt_add_limited temp (if up then celsius 1 else celsius (-1)) min_val max_val.

(** menu.c:432-443 *)
Definition settemp_ramp_handler (C : conf) (y : sys) (up : bool) : option sys :=
  setpoint <- presets_get_active_value y ;;
  setpoint <- do_ramp_temp setpoint up CONTRTEMP_NEGLIM CONTRTEMP_POSLIM ;;
  y <- presets_set_active_value C y setpoint ;;
  menu_set_state C y MENU_CHGPRESET.

(** menu.c:445-454 *)
Definition idletemp_ramp_handler (C : conf) (y : sys) (up : bool) : option sys :=
  setpoint <- do_ramp_temp (s_idle (get_settings y)) up CONTRTEMP_NEGLIM CONTRTEMP_POSLIM ;;
  contrtemp_set_idle_setpoint C y setpoint.

(** menu.c:456-462: [get] and [put] select the member of the gain set *)
Definition do_ramp_k (C : conf) (y : sys) (get : pid_k -> Z) (put : pid_k -> Z -> pid_k)
  (inc max_val : Z) (up : bool) : option sys :=
  let s := get_settings y in
  let i := contrtemp_get_boost_mode C y in
  k <- zget (s_k s) i ;;
  v <- fixpt_add_limited (get k) (if up then inc else fixpt_neg inc) 0 max_val ;;
  l <- zupd (s_k s) i (put k v) ;;
  y <- sys_store (put_settings y (set_s_k s l)) ;;
  contrtemp_update_pid_config C y.

(** menu.c:464-473 *)
Definition adj_ramp_handler (C : conf) (y : sys) (up : bool) : option sys :=
  temp_adj <- meastemp_adjust_get C y ;;
  temp_adj <- do_ramp_temp temp_adj up (celsius (-99)) (celsius 99) ;;
  meastemp_adjust_set C y temp_adj.

(** menu.c:475-480: increment 0.03125, maximum 99 *)
Definition kconf_kp_ramp_handler (C : conf) (y : sys) (up : bool) : option sys :=
  do_ramp_k C y kp (fun k v => mkK v (ki k) (kd k) (d_decay_div k)) (fxc 3125 100000) (fxc 99 1) up.
(** menu.c:482-487: increment 0.015625, maximum 9 *)
Definition kconf_ki_ramp_handler (C : conf) (y : sys) (up : bool) : option sys :=
  do_ramp_k C y ki (fun k v => mkK (kp k) v (kd k) (d_decay_div k)) (fxc 15625 1000000) (fxc 9 1) up.
(** menu.c:489-494 *)
Definition kconf_kd_ramp_handler (C : conf) (y : sys) (up : bool) : option sys :=
  do_ramp_k C y kd (fun k v => mkK (kp k) (ki k) v (d_decay_div k)) (fxc 3125 100000) (fxc 99 1) up.

(** menu.c:700: the call through the function pointer; calling NULL is undefined *)
Definition call_ramp_handler (C : conf) (y : sys) (h : option rhandler) (up : bool) : option sys :=
  h <- h ;;
  match h with
  | HSettemp => settemp_ramp_handler C y up
  | HIdletemp => idletemp_ramp_handler C y up
  | HAdj => adj_ramp_handler C y up
  | HKp => kconf_kp_ramp_handler C y up
  | HKi => kconf_ki_ramp_handler C y up
  | HKd => kconf_kd_ramp_handler C y up
  end.

(** menu.c:496-507 *)
Definition start_ramping (y : sys) (up pre_ramp_wait : bool) (handler : option rhandler) : option sys :=
  let n := y_menu y in
  n <- (if pre_ramp_wait then
          t <- timer_arm (y_now y) RAMP_PRE_TIMEOUT_MS ;;
          Some (set_n_pretimer (set_n_ramp n (if up then RAMP_PRE_UP else RAMP_PRE_DOWN)) t)
        else Some (set_n_ramp n (if up then RAMP_UP else RAMP_DOWN))) ;;
  let n := set_n_period (set_n_handler n handler) RAMP_START_PERIOD_MS in
  Some (set_y_menu y (set_n_rtimer n (timer_set_now (y_now y)))).

(** menu.c:509-520 *)
Definition start_ramping_button (y : sys) (b : button) (bs : bstate) (pre_ramp_wait : bool)
  (handler : rhandler) : option sys :=
  if is_pos bs then
    if is_minus b then start_ramping y false pre_ramp_wait (Some handler)
    else if is_plus b then start_ramping y true pre_ramp_wait (Some handler)
    else Some y
  else Some y.

(** menu.c:522-525 *)
Definition stop_ramping (y : sys) : sys := set_y_menu y (set_n_ramp (y_menu y) RAMP_NONE).

(** menu.c:537-622: the switch over the menu state *)
Definition menu_button_switch (C : conf) (y : sys) (b : button) (bs : bstate) : option sys :=
  match n_state (y_menu y) with
  | MENU_CURTEMP =>
    y <- start_ramping_button y b bs true HSettemp ;;
    if is_neg bs && negb (is_set b) then menu_set_state C y MENU_SELPRESET else Some y
  | MENU_SELPRESET =>
    y <- arm_menu_timeout y MENU_SELPRESET_TIMEOUT ;;
    y <- (if is_neg bs then
            if is_plus b then presets_next C y
            else if is_minus b then presets_prev C y
            else Some y
          else Some y) ;;
    start_ramping_button y b bs true HSettemp
  | MENU_CHGPRESET =>
    y <- arm_menu_timeout y MENU_CHGPRESET_TIMEOUT ;;
    start_ramping_button y b bs false HSettemp
  | MENU_IDLETEMP =>
    if negb (c_idle C) then Some y
    else
      y <- arm_menu_timeout y MENU_IDLETEMP_TIMEOUT ;;
      start_ramping_button y b bs false HIdletemp
  | MENU_DEBUG =>
    if negb (c_debug C) then Some y
    else if is_pos bs then
      if is_plus b then debug_enable C y true
      else if is_minus b then
        y <- debug_enable C y false ;; Some (menu_request_display_update y)
      else Some y
    else Some y
  | MENU_ADJ => if negb (c_adj C) then Some y else start_ramping_button y b bs false HAdj
  | MENU_KP => if negb (c_kconf C) then Some y else start_ramping_button y b bs false HKp
  | MENU_KI => if negb (c_kconf C) then Some y else start_ramping_button y b bs false HKi
  | MENU_KD => if negb (c_kconf C) then Some y else start_ramping_button y b bs false HKd
  | MENU_ADJ_PRE | MENU_KP_PRE | MENU_KI_PRE | MENU_KD_PRE => Some y
  end.

(** menu.c:531-634 *)
Definition menu_button_handler (C : conf) (y : sys) (b : button) (bs : bstate) : option sys :=
  if is_iron b then Some y
  else
    y <- menu_button_switch C y b bs ;;
    if is_neg bs then
      let y := stop_ramping y in
      if is_set b then
        if negb (debug_is_enabled C y) then menu_set_next_state C y else Some y
      else Some y
    else Some y.

(** menu.c:644-668 *)
Definition menu_timeouts (C : conf) (y : sys) : option sys :=
  match n_state (y_menu y) with
  | MENU_CURTEMP | MENU_DEBUG | MENU_ADJ | MENU_KP | MENU_KI | MENU_KD => Some y
  | MENU_ADJ_PRE | MENU_KP_PRE | MENU_KI_PRE | MENU_KD_PRE
  | MENU_SELPRESET | MENU_CHGPRESET | MENU_IDLETEMP =>
    if timer_expired (y_now y) (n_timeout (y_menu y)) then
      y <- (if mstate_eqb (n_state (y_menu y)) MENU_IDLETEMP then menu_set_state C y MENU_CURTEMP
            else menu_set_next_state C y) ;;
      Some (stop_ramping y)
    else Some y
  end.

(** menu.c:670-680 *)
Definition menu_errors (y : sys) : sys :=
  let error := 0 in
  let error := if Z.land (contrcurr_get_emerg (y_cc y)) EMERG_UNPLAUS_FEEDBACK =? 0
               then error else Z.lor error 1 in
  let error := if t_emerg (y_ct y) then Z.lor error 2 else error in
  if negb (error =? n_err (y_menu y)) then
    let y := set_y_menu y (set_n_err (y_menu y) error) in
    menu_request_display_update (stop_ramping y)
  else y.

(** menu.c:682-687 *)
Definition menu_heating (y : sys) : sys :=
  let heating := contrtemp_is_heating_up y in
  if negb (Bool.eqb heating (n_heating (y_menu y))) then
    menu_request_display_update (set_y_menu y (set_n_heating (y_menu y) heating))
  else y.

(** menu.c:699-705 *)
Definition ramp_step (C : conf) (y : sys) (up : bool) : option sys :=
  if timer_expired (y_now y) (n_rtimer (y_menu y)) then
    y <- call_ramp_handler C y (n_handler (y_menu y)) up ;;
    let y := menu_request_display_update y in
    t <- timer_add (n_rtimer (y_menu y)) (n_period (y_menu y)) ;;
    let n := set_n_rtimer (y_menu y) t in
    let n := if RAMP_MIN_PERIOD_MS <? n_period n then set_n_period n (n_period n / 2) else n in
    Some (set_y_menu y n)
  else Some y.

(** menu.c:689-707 *)
Definition menu_ramping (C : conf) (y : sys) : option sys :=
  let pre up := if timer_expired (y_now y) (n_pretimer (y_menu y))
                then start_ramping y up false (n_handler (y_menu y)) else Some y in
  match n_ramp (y_menu y) with
  | RAMP_NONE => Some y
  | RAMP_PRE_UP => pre true
  | RAMP_PRE_DOWN => pre false
  | RAMP_UP => ramp_step C y true
  | RAMP_DOWN => ramp_step C y false
  end.

(** menu.c:637-716 *)
Definition menu_work (C : conf) (y : sys) : option sys :=
  y <- menu_timeouts C y ;;
  y <- menu_ramping C (menu_heating (menu_errors y)) ;;
  if n_upd (y_menu y) then
    menu_update_display C (set_y_menu y (set_n_upd (y_menu y) false))
  else Some y.

(** buttons.c:32-40 *)
Definition BUTTONS_MASK : Z := 29.
(** buttons.c:53-58 *)
Definition button_mask (b : button) : Z :=
  match b with BUTTON_SET => 4 | BUTTON_MINUS => 8 | BUTTON_PLUS => 16 | BUTTON_IRON => 1 end.
(** buttons.c:42 *)
Definition BUTTONS_DEBOUNCE_MS : Z := 10.
(** buttons.c:61-72; [pinb] is the register PINB, the buttons are active low *)
Definition buttons_get_raw (pinb : Z) : Z := u8 (Z.land (u8 (Z.lnot pinb)) BUTTONS_MASK).
(** buttons.c:74-82 *)
Definition button_is_pressed (pinb : Z) (b : button) : bool :=
  negb (Z.land (buttons_get_raw pinb) (button_mask b) =? 0).

(** buttons.c:89-93 *)
Definition call_button_handlers (C : conf) (y : sys) (b : button) (bs : bstate) : option sys :=
  y <- contrtemp_button_handler C y b bs ;; menu_button_handler C y b bs.

(** buttons.c:111-120: the handler calls made by the body of the loop for one button *)
Definition button_calls (state pos_edge neg_edge : Z) (b : button) : list (button * bstate) :=
  let mask := button_mask b in
  (if negb (Z.land pos_edge mask =? 0) then [(b, BSTATE_POSEDGE)]
   else if negb (Z.land neg_edge mask =? 0) then [(b, BSTATE_NEGEDGE)]
   else []) ++
  (if negb (Z.land state mask =? 0) then [(b, BSTATE_PRESSED)] else []).
(** buttons.c:99-122 with 61-72: all handler calls made for one sample of PINB, in order; the calls do
    not depend on what the handlers do.  buttons.h:7-14: the loop runs in the order of the enum. *)
Definition sample_calls (prev pinb : Z) : list (button * bstate) :=
  let state := buttons_get_raw pinb in
  let pos_edge := u8 (Z.land (Z.land state (Z.lnot prev)) BUTTONS_MASK) in
  let neg_edge := u8 (Z.land (Z.land (Z.lnot state) prev) BUTTONS_MASK) in
  flat_map (button_calls state pos_edge neg_edge) [BUTTON_SET; BUTTON_MINUS; BUTTON_PLUS; BUTTON_IRON].
(** buttons.c:89-93, 111-120: making the calls *)
Fixpoint run_calls (C : conf) (y : sys) (l : list (button * bstate)) : option sys :=
  match l with
  | [] => Some y
  | (b, bs) :: r => y <- call_button_handlers C y b bs ;; run_calls C y r
  end.

(** buttons.c:95-122 *)
Definition buttons_work (C : conf) (y : sys) (pinb : Z) : option sys :=
  let bt := y_btn y in
  if negb (timer_expired (y_now y) (b_timer bt)) then Some y
  else
    t <- timer_add (b_timer bt) BUTTONS_DEBOUNCE_MS ;;
    let y := set_y_btn y (mkBtn (buttons_get_raw pinb) t) in
    run_calls C y (sample_calls (b_prev bt) pinb).

(** buttons.c:124-131 (the delay is omitted) *)
Definition buttons_init (y : sys) : sys :=
  let h := y_hw y in
  let h := set_h_ddrb h (clr8 (h_ddrb h) BUTTONS_MASK) in
  let h := set_h_portb h (or8 (h_portb h) BUTTONS_MASK) in
  set_y_btn (set_y_hw y h) (set_b_timer (y_btn y) (timer_set_now (y_now y))).

(** menu.c:718-730 *)
Definition menu_init (C : conf) (y : sys) (pinb : Z) : option sys :=
  if c_debug C then
    if button_is_pressed pinb BUTTON_SET then
      y <- debug_enable C y true ;; menu_set_state C y MENU_DEBUG
    else menu_set_state C y MENU_CURTEMP
  else menu_set_state C y MENU_CURTEMP.
