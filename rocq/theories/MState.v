(** * State of the whole firmware: the static variables of all modules and the I/O registers *)
From Coq Require Import ZArith List Bool.
From Verif Require Import Base MConf MPid MCurr MSettings MSseg MDisplay.
Import ListNotations.
Open Scope Z_scope.

(** buttons.c:46-51 *)
Record btn : Type := mkBtn {
  b_prev : Z;
  b_timer : Z
}.
Definition set_b_prev (r : btn) (v : Z) : btn := mkBtn v (b_timer r).
Definition set_b_timer (r : btn) (v : Z) : btn := mkBtn (b_prev r) v.

(** controller_temp.c:38-64 [struct temp_contr_context], without the debug fields
    old_temp_* (lines 59-61).  The members that exist only with CONF_IDLE or CONF_BOOST keep
    their initial value in the model when the option is off. *)
Record ct : Type := mkCt {
  t_enabled : bool;
  t_emerg : bool;
  t_idle : bool;
  t_boost : Z;
  t_bitimer : Z;
  t_bilet : bool;
  t_pid : pid;
  t_feedback : Z;
  t_dt : Z
}.
Definition set_t_enabled (r : ct) (v : bool) : ct := mkCt v (t_emerg r) (t_idle r) (t_boost r) (t_bitimer r) (t_bilet r) (t_pid r) (t_feedback r) (t_dt r).
Definition set_t_emerg (r : ct) (v : bool) : ct := mkCt (t_enabled r) v (t_idle r) (t_boost r) (t_bitimer r) (t_bilet r) (t_pid r) (t_feedback r) (t_dt r).
Definition set_t_idle (r : ct) (v : bool) : ct := mkCt (t_enabled r) (t_emerg r) v (t_boost r) (t_bitimer r) (t_bilet r) (t_pid r) (t_feedback r) (t_dt r).
Definition set_t_boost (r : ct) (v : Z) : ct := mkCt (t_enabled r) (t_emerg r) (t_idle r) v (t_bitimer r) (t_bilet r) (t_pid r) (t_feedback r) (t_dt r).
Definition set_t_bitimer (r : ct) (v : Z) : ct := mkCt (t_enabled r) (t_emerg r) (t_idle r) (t_boost r) v (t_bilet r) (t_pid r) (t_feedback r) (t_dt r).
Definition set_t_bilet (r : ct) (v : bool) : ct := mkCt (t_enabled r) (t_emerg r) (t_idle r) (t_boost r) (t_bitimer r) v (t_pid r) (t_feedback r) (t_dt r).
Definition set_t_pid (r : ct) (v : pid) : ct := mkCt (t_enabled r) (t_emerg r) (t_idle r) (t_boost r) (t_bitimer r) (t_bilet r) v (t_feedback r) (t_dt r).
Definition set_t_feedback (r : ct) (v : Z) : ct := mkCt (t_enabled r) (t_emerg r) (t_idle r) (t_boost r) (t_bitimer r) (t_bilet r) (t_pid r) v (t_dt r).
Definition set_t_dt (r : ct) (v : Z) : ct := mkCt (t_enabled r) (t_emerg r) (t_idle r) (t_boost r) (t_bitimer r) (t_bilet r) (t_pid r) (t_feedback r) v.

(** measure.c:49-61 [struct meas_chan_context], without config (a constant, see [chan_config] in
    MMeas) and old_report_value (debug output only) *)
Record chan : Type := mkChan {
  ch_adj : Z;
  ch_timeout : bool;
  ch_running : bool;
  ch_timer : Z
}.
Definition set_ch_adj (r : chan) (v : Z) : chan := mkChan v (ch_timeout r) (ch_running r) (ch_timer r).
Definition set_ch_timeout (r : chan) (v : bool) : chan := mkChan (ch_adj r) v (ch_running r) (ch_timer r).
Definition set_ch_running (r : chan) (v : bool) : chan := mkChan (ch_adj r) (ch_timeout r) v (ch_timer r).
Definition set_ch_timer (r : chan) (v : Z) : chan := mkChan (ch_adj r) (ch_timeout r) (ch_running r) v.

(** measure.c:63-72 [struct meas_context].  [m_adc] stands for the converter: ADCSRA has ADEN,
    ADSC, ADIE and ADATE set (measure.c:180), that is conversions run and interrupt. *)
Record meas : Type := mkMeas {
  m_chans : list chan;
  m_chan : Z;
  m_count : Z;
  m_sum : Z;
  m_timer : Z;
  m_avail : bool;
  m_adc : bool
}.
Definition set_m_chans (r : meas) (v : list chan) : meas := mkMeas v (m_chan r) (m_count r) (m_sum r) (m_timer r) (m_avail r) (m_adc r).
Definition set_m_chan (r : meas) (v : Z) : meas := mkMeas (m_chans r) v (m_count r) (m_sum r) (m_timer r) (m_avail r) (m_adc r).
Definition set_m_count (r : meas) (v : Z) : meas := mkMeas (m_chans r) (m_chan r) v (m_sum r) (m_timer r) (m_avail r) (m_adc r).
Definition set_m_sum (r : meas) (v : Z) : meas := mkMeas (m_chans r) (m_chan r) (m_count r) v (m_timer r) (m_avail r) (m_adc r).
Definition set_m_timer (r : meas) (v : Z) : meas := mkMeas (m_chans r) (m_chan r) (m_count r) (m_sum r) v (m_avail r) (m_adc r).
Definition set_m_avail (r : meas) (v : bool) : meas := mkMeas (m_chans r) (m_chan r) (m_count r) (m_sum r) (m_timer r) v (m_adc r).
Definition set_m_adc (r : meas) (v : bool) : meas := mkMeas (m_chans r) (m_chan r) (m_count r) (m_sum r) (m_timer r) (m_avail r) v.

(** measure_current.c:37-45, without old_filter_report_value (debug output only) *)
Record mcur : Type := mkMcur {
  u_init : bool;
  u_prev : Z;
  u_filter : Z
}.
Definition set_u_init (r : mcur) (v : bool) : mcur := mkMcur v (u_prev r) (u_filter r).
Definition set_u_prev (r : mcur) (v : Z) : mcur := mkMcur (u_init r) v (u_filter r).
Definition set_u_filter (r : mcur) (v : Z) : mcur := mkMcur (u_init r) (u_prev r) v.

(** menu.c:43-57 *)
Inductive mstate : Type :=
  | MENU_CURTEMP | MENU_SELPRESET | MENU_CHGPRESET | MENU_IDLETEMP | MENU_DEBUG
  | MENU_ADJ_PRE | MENU_ADJ | MENU_KP_PRE | MENU_KP | MENU_KI_PRE | MENU_KI | MENU_KD_PRE | MENU_KD.
Definition mstate_num (s : mstate) : Z :=
  match s with
  | MENU_CURTEMP => 0 | MENU_SELPRESET => 1 | MENU_CHGPRESET => 2 | MENU_IDLETEMP => 3
  | MENU_DEBUG => 4 | MENU_ADJ_PRE => 5 | MENU_ADJ => 6 | MENU_KP_PRE => 7 | MENU_KP => 8
  | MENU_KI_PRE => 9 | MENU_KI => 10 | MENU_KD_PRE => 11 | MENU_KD => 12
  end.
Definition mstate_eqb (a b : mstate) : bool := mstate_num a =? mstate_num b.

(** menu.c:59-65 *)
Inductive ramp : Type := RAMP_NONE | RAMP_UP | RAMP_DOWN | RAMP_PRE_UP | RAMP_PRE_DOWN.

(** menu.c:71, 432-494: the functions that are used as ramp_handler_t *)
Inductive rhandler : Type := HSettemp | HIdletemp | HAdj | HKp | HKi | HKd.

(** menu.c:73-89; [n_handler = None] is the NULL pointer of the zero initialised struct *)
Record menu : Type := mkMenu {
  n_state : mstate;
  n_timeout : Z;
  n_ramp : ramp;
  n_rtimer : Z;
  n_pretimer : Z;
  n_handler : option rhandler;
  n_period : Z;
  n_err : Z;
  n_heating : bool;
  n_upd : bool
}.
Definition set_n_state (r : menu) (v : mstate) : menu := mkMenu v (n_timeout r) (n_ramp r) (n_rtimer r) (n_pretimer r) (n_handler r) (n_period r) (n_err r) (n_heating r) (n_upd r).
Definition set_n_timeout (r : menu) (v : Z) : menu := mkMenu (n_state r) v (n_ramp r) (n_rtimer r) (n_pretimer r) (n_handler r) (n_period r) (n_err r) (n_heating r) (n_upd r).
Definition set_n_ramp (r : menu) (v : ramp) : menu := mkMenu (n_state r) (n_timeout r) v (n_rtimer r) (n_pretimer r) (n_handler r) (n_period r) (n_err r) (n_heating r) (n_upd r).
Definition set_n_rtimer (r : menu) (v : Z) : menu := mkMenu (n_state r) (n_timeout r) (n_ramp r) v (n_pretimer r) (n_handler r) (n_period r) (n_err r) (n_heating r) (n_upd r).
Definition set_n_pretimer (r : menu) (v : Z) : menu := mkMenu (n_state r) (n_timeout r) (n_ramp r) (n_rtimer r) v (n_handler r) (n_period r) (n_err r) (n_heating r) (n_upd r).
Definition set_n_handler (r : menu) (v : option rhandler) : menu := mkMenu (n_state r) (n_timeout r) (n_ramp r) (n_rtimer r) (n_pretimer r) v (n_period r) (n_err r) (n_heating r) (n_upd r).
Definition set_n_period (r : menu) (v : Z) : menu := mkMenu (n_state r) (n_timeout r) (n_ramp r) (n_rtimer r) (n_pretimer r) (n_handler r) v (n_err r) (n_heating r) (n_upd r).
Definition set_n_err (r : menu) (v : Z) : menu := mkMenu (n_state r) (n_timeout r) (n_ramp r) (n_rtimer r) (n_pretimer r) (n_handler r) (n_period r) v (n_heating r) (n_upd r).
Definition set_n_heating (r : menu) (v : bool) : menu := mkMenu (n_state r) (n_timeout r) (n_ramp r) (n_rtimer r) (n_pretimer r) (n_handler r) (n_period r) (n_err r) v (n_upd r).
Definition set_n_upd (r : menu) (v : bool) : menu := mkMenu (n_state r) (n_timeout r) (n_ramp r) (n_rtimer r) (n_pretimer r) (n_handler r) (n_period r) (n_err r) (n_heating r) v.

(** All modules: timer.c:25 [now], buttons.c, controller_current.c, controller_temp.c, measure.c,
    measure_current.c, measure_temp.c:35-40 [prev_feedback], menu.c, settings.c, display.c, the
    port registers, debug_uart.c:30 [debug_enabled]. *)
Record sys : Type := mkSys {
  y_now : Z;
  y_btn : btn;
  y_cc : cc;
  y_ct : ct;
  y_meas : meas;
  y_mc : mcur;
  y_mt : Z;
  y_menu : menu;
  y_set : sst;
  y_disp : disp;
  y_hw : hw;
  y_dbg : bool
}.
Definition set_y_now (r : sys) (v : Z) : sys := mkSys v (y_btn r) (y_cc r) (y_ct r) (y_meas r) (y_mc r) (y_mt r) (y_menu r) (y_set r) (y_disp r) (y_hw r) (y_dbg r).
Definition set_y_btn (r : sys) (v : btn) : sys := mkSys (y_now r) v (y_cc r) (y_ct r) (y_meas r) (y_mc r) (y_mt r) (y_menu r) (y_set r) (y_disp r) (y_hw r) (y_dbg r).
Definition set_y_cc (r : sys) (v : cc) : sys := mkSys (y_now r) (y_btn r) v (y_ct r) (y_meas r) (y_mc r) (y_mt r) (y_menu r) (y_set r) (y_disp r) (y_hw r) (y_dbg r).
Definition set_y_ct (r : sys) (v : ct) : sys := mkSys (y_now r) (y_btn r) (y_cc r) v (y_meas r) (y_mc r) (y_mt r) (y_menu r) (y_set r) (y_disp r) (y_hw r) (y_dbg r).
Definition set_y_meas (r : sys) (v : meas) : sys := mkSys (y_now r) (y_btn r) (y_cc r) (y_ct r) v (y_mc r) (y_mt r) (y_menu r) (y_set r) (y_disp r) (y_hw r) (y_dbg r).
Definition set_y_mc (r : sys) (v : mcur) : sys := mkSys (y_now r) (y_btn r) (y_cc r) (y_ct r) (y_meas r) v (y_mt r) (y_menu r) (y_set r) (y_disp r) (y_hw r) (y_dbg r).
Definition set_y_mt (r : sys) (v : Z) : sys := mkSys (y_now r) (y_btn r) (y_cc r) (y_ct r) (y_meas r) (y_mc r) v (y_menu r) (y_set r) (y_disp r) (y_hw r) (y_dbg r).
Definition set_y_menu (r : sys) (v : menu) : sys := mkSys (y_now r) (y_btn r) (y_cc r) (y_ct r) (y_meas r) (y_mc r) (y_mt r) v (y_set r) (y_disp r) (y_hw r) (y_dbg r).
Definition set_y_set (r : sys) (v : sst) : sys := mkSys (y_now r) (y_btn r) (y_cc r) (y_ct r) (y_meas r) (y_mc r) (y_mt r) (y_menu r) v (y_disp r) (y_hw r) (y_dbg r).
Definition set_y_disp (r : sys) (v : disp) : sys := mkSys (y_now r) (y_btn r) (y_cc r) (y_ct r) (y_meas r) (y_mc r) (y_mt r) (y_menu r) (y_set r) v (y_hw r) (y_dbg r).
Definition set_y_hw (r : sys) (v : hw) : sys := mkSys (y_now r) (y_btn r) (y_cc r) (y_ct r) (y_meas r) (y_mc r) (y_mt r) (y_menu r) (y_set r) (y_disp r) v (y_dbg r).
Definition set_y_dbg (r : sys) (v : bool) : sys := mkSys (y_now r) (y_btn r) (y_cc r) (y_ct r) (y_meas r) (y_mc r) (y_mt r) (y_menu r) (y_set r) (y_disp r) (y_hw r) v.

(** buttons.h:7-20 *)
Inductive button : Type := BUTTON_SET | BUTTON_MINUS | BUTTON_PLUS | BUTTON_IRON.
Inductive bstate : Type := BSTATE_POSEDGE | BSTATE_NEGEDGE | BSTATE_PRESSED.
Definition is_iron (b : button) : bool := match b with BUTTON_IRON => true | _ => false end.
Definition is_set (b : button) : bool := match b with BUTTON_SET => true | _ => false end.
Definition is_minus (b : button) : bool := match b with BUTTON_MINUS => true | _ => false end.
Definition is_plus (b : button) : bool := match b with BUTTON_PLUS => true | _ => false end.
Definition is_pos (b : bstate) : bool := match b with BSTATE_POSEDGE => true | _ => false end.
Definition is_neg (b : bstate) : bool := match b with BSTATE_NEGEDGE => true | _ => false end.
Definition is_held (b : bstate) : bool := match b with BSTATE_PRESSED => true | _ => false end.

(** measure.h:53-57 *)
Inductive plaus : Type := MEAS_PLAUSIBLE | MEAS_NOT_PLAUSIBLE | MEAS_PLAUS_TIMEOUT.
