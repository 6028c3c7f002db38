(** * Specification of the settings access of the simulator *)
From Coq Require Import ZArith List Bool String.
From Verif Require Import Base MConf MPid MSettings MState MTemp MMain SpecSettings SpecSys MSimSet.
Import ListNotations.
Open Scope Z_scope.

(** The build of the simulator, as far as it matters here. *)
Definition sim_conf (C : conf) : Prop := build_conf C /\ c_boost C = true /\ c_idle C = true /\ c_adj C = true.

(** The numbers the settings consist of. *)
Inductive slot : Type :=
  | SKp (i : nat) | SKi (i : nat) | SKd (i : nat) | SDiv (i : nat)
  | SIdle | SPreset (i : nat) | SActive | SAdj | SReserved (i : nat) | SSerial.
Definition holds (s : settings) (l : slot) : option Z :=
  match l with
  | SKp i => option_map kp (nth_error (s_k s) i)
  | SKi i => option_map ki (nth_error (s_k s) i)
  | SKd i => option_map kd (nth_error (s_k s) i)
  | SDiv i => option_map d_decay_div (nth_error (s_k s) i)
  | SIdle => Some (s_idle s)
  | SPreset i => nth_error (s_preset s) i
  | SActive => Some (s_active s)
  | SAdj => Some (s_adj s)
  | SReserved i => nth_error (s_reserved s) i
  | SSerial => Some (s_serial s)
  end.
(** What a name stands for while the settings are [s]; the names of SETTINGS in xytronic_simulator.py. *)
Inductive refers (s : settings) : string -> slot -> Prop :=
  | r_kp0 : refers s "temp_k[0].kp" (SKp 0) | r_ki0 : refers s "temp_k[0].ki" (SKi 0)
  | r_kd0 : refers s "temp_k[0].kd" (SKd 0) | r_div0 : refers s "temp_k[0].d_decay_div" (SDiv 0)
  | r_kp1 : refers s "temp_k[1].kp" (SKp 1) | r_ki1 : refers s "temp_k[1].ki" (SKi 1)
  | r_kd1 : refers s "temp_k[1].kd" (SKd 1) | r_div1 : refers s "temp_k[1].d_decay_div" (SDiv 1)
  | r_kp2 : refers s "temp_k[2].kp" (SKp 2) | r_ki2 : refers s "temp_k[2].ki" (SKi 2)
  | r_kd2 : refers s "temp_k[2].kd" (SKd 2) | r_div2 : refers s "temp_k[2].d_decay_div" (SDiv 2)
  | r_idle : refers s "temp_idle_setpoint" SIdle
  | r_preset : refers s "temp_setpoint" (SPreset (Z.to_nat (s_active s)))
  | r_active : refers s "temp_setpoint_active" SActive
  | r_adj : refers s "temp_adj" SAdj
  | r_serial : refers s "serial" SSerial.
(** The values the menu of the firmware lets the user choose; neither the divisor nor the serial can be
    changed there. *)
Definition legal (l : slot) (v : Z) : Prop :=
  match l with
  | SKp _ | SKd _ => 0 <= v <= 99 * 64
  | SKi _ => 0 <= v <= 9 * 64
  | SDiv _ => v = 2 * 64
  | SIdle | SPreset _ => 0 <= v <= 480 * 64
  | SActive => 0 <= v <= 5
  | SAdj => -99 * 64 <= v <= 99 * 64
  | SReserved _ | SSerial => False
  end.
(** Runs of the simulated firmware with accesses to the settings in between: reads of any name, writes of
    legal values. *)
Inductive sim_reach (C : conf) : sys -> Prop :=
  | sr_boot pinb y : is_u8 pinb -> boot C (factory_ee C) pinb = Some y -> sim_reach C y
  | sr_step y e y' : sim_reach C y -> ev_ok C y e -> is_power e = false -> step C y e = Some y' -> sim_reach C y'
  | sr_read y name v y' r ok : sim_reach C y -> setting_access C y name v false = Some (y', r, ok) -> sim_reach C y'
  | sr_write y name l v y' r ok : sim_reach C y -> refers (get_settings y) name l -> legal l v ->
      setting_access C y name v true = Some (y', r, ok) -> sim_reach C y'.
(** Everything but the settings, the PID of the temperature controller, the adjustment copied to the
    measurement and the display update request is untouched. *)
Definition rest_same (y y' : sys) : Prop :=
  y_now y' = y_now y /\ y_btn y' = y_btn y /\ y_cc y' = y_cc y /\ y_ct y' = set_t_pid (y_ct y) (t_pid (y_ct y')) /\
  y_meas y' = set_m_chans (y_meas y) (m_chans (y_meas y')) /\ y_mc y' = y_mc y /\ y_mt y' = y_mt y /\
  y_menu y' = set_n_upd (y_menu y) (n_upd (y_menu y')) /\ y_disp y' = y_disp y /\ y_hw y' = y_hw y /\ y_dbg y' = y_dbg y.
(** The gains of the selected mode, and the set-point asked for, are those of the temperature controller. *)
Definition in_force (y : sys) : Prop :=
  nth_error (s_k (get_settings y)) (Z.to_nat (t_boost (y_ct y))) = Some (p_k (t_pid (y_ct y))) /\
  exists a, nth_error (s_preset (get_settings y)) (Z.to_nat (s_active (get_settings y))) = Some a /\
    p_setpoint (t_pid (y_ct y)) = if t_idle (y_ct y) then Z.min (s_idle (get_settings y)) a else a.

(** What reading a name does to the machine. *)
Definition after_read (l : slot) (y y' : sys) : Prop :=
  let p := t_pid (y_ct y) in
  match l with
  | SKp _ | SKi _ | SKd _ | SDiv _ =>
      y' = set_y_menu (set_y_ct y (set_t_pid (y_ct y) (mkPid (p_k p) (p_setpoint p) (p_i_neglim p) (p_i_poslim p) (p_y_neglim p) (p_y_poslim p) 0 0)))
                      (set_n_upd (y_menu y) true)
  | SIdle => y' = set_y_set y (set_x_timer (set_x_request (y_set y) true) (u16 (y_now y + 1000)))
  | SPreset _ | SActive => y' = set_y_menu y (set_n_upd (y_menu y) true)
  | SAdj | SReserved _ | SSerial => y' = y
  end.
