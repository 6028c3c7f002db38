(** * Model of the settings access of the simulator: firmware/simulator/simulator.cxx:462-514 and
    firmware/simulator/xytronic_simulator.py:76-85, 66-69 of xytronic_simulator_gui.py

    The simulator runs the firmware built with every CONF_* switch on (firmware/simulator/Makefile:2-9).  The
    debug output that the called functions produce is omitted.  The model of the settings has the three gain
    sets in every build. *)
From Coq Require Import ZArith List Bool String.
From Verif Require Import Base MConf MPid MSettings MState MTemp MMeas MSim.
Import ListNotations.
Open Scope Z_scope.

(** A member of struct settings: how it is read, how it is written.  [None]: an array index outside of the
    array, undefined behaviour. *)
Record member : Type := mkMember { m_get : settings -> option Z; m_put : settings -> Z -> option settings }.
(** [temp_k[i].x]; the value is converted from int to fixpt_t (tests/fake/int24.h, see MInt24: the low 24 bits) *)
Definition k_member (i : Z) (get : pid_k -> Z) (put : pid_k -> Z -> pid_k) : member :=
  mkMember (fun s => k <- zget (s_k s) i ;; Some (get k))
           (fun s v => k <- zget (s_k s) i ;; l <- zupd (s_k s) i (put k (s24 v)) ;; Some (set_s_k s l)).
Definition m_kp i := k_member i kp (fun k v => mkK v (ki k) (kd k) (d_decay_div k)).
Definition m_ki i := k_member i ki (fun k v => mkK (kp k) v (kd k) (d_decay_div k)).
Definition m_kd i := k_member i kd (fun k v => mkK (kp k) (ki k) v (d_decay_div k)).
Definition m_div i := k_member i d_decay_div (fun k v => mkK (kp k) (ki k) (kd k) v).
(** [temp_idle_setpoint] *)
Definition m_idle : member := mkMember (fun s => Some (s_idle s)) (fun s v => Some (set_s_idle s (s24 v))).
(** [temp_setpoint[s->temp_setpoint_active]] *)
Definition m_preset : member :=
  mkMember (fun s => zget (s_preset s) (s_active s))
           (fun s v => l <- zupd (s_preset s) (s_active s) (s24 v) ;; Some (set_s_preset s l)).
(** [temp_setpoint_active] and [serial], uint8_t *)
Definition m_active : member := mkMember (fun s => Some (s_active s)) (fun s v => Some (set_s_active s (u8 v))).
Definition m_serial : member := mkMember (fun s => Some (s_serial s)) (fun s v => Some (set_s_serial s (u8 v))).

(** simulator.cxx:462-473 [SETTINGS_ACCESS]: the state, the variable [value], the result *)
Definition SETTINGS_ACCESS (m : member) (compare_name name : string) (y : sys) (value : Z) (write : bool) : option (sys * Z * bool) :=
  if String.eqb name compare_name then
    if write then
      s <- m_put m (get_settings y) value ;;
      y <- sys_store (put_settings y s) ;;
      Some (y, value, true)
    else
      v <- m_get m (get_settings y) ;;
      Some (y, v, true)
  else Some (y, value, false).
(** [a || b || ...] over a list of such accesses *)
Fixpoint access_any (l : list (member * string)) (name : string) (y : sys) (value : Z) (write : bool) : option (sys * Z * bool) :=
  match l with
  | [] => Some (y, value, false)
  | (m, n) :: l =>
    '(y, value, b) <- SETTINGS_ACCESS m n name y value write ;;
    if b : bool then Some (y, value, true) else access_any l name y value write
  end.
(** simulator.cxx:479-490 *)
Definition k_members : list (member * string) :=
  [(m_kp 0, "temp_k[0].kp"); (m_ki 0, "temp_k[0].ki"); (m_kd 0, "temp_k[0].kd"); (m_div 0, "temp_k[0].d_decay_div");
   (m_kp 1, "temp_k[1].kp"); (m_ki 1, "temp_k[1].ki"); (m_kd 1, "temp_k[1].kd"); (m_div 1, "temp_k[1].d_decay_div");
   (m_kp 2, "temp_k[2].kp"); (m_ki 2, "temp_k[2].ki"); (m_kd 2, "temp_k[2].kd"); (m_div 2, "temp_k[2].d_decay_div")]%string.
(** simulator.cxx:475-514 [simulator_setting_access] *)
Definition setting_access (C : conf) (y : sys) (name : string) (value : Z) (write : bool) : option (sys * Z * bool) :=
  '(y, value, b) <- access_any k_members name y value write ;;
  if b : bool then
    y <- contrtemp_update_pid_config C y ;; Some (y, value, true)
  else
  '(y, value, b) <- access_any [(m_idle, "temp_idle_setpoint"%string)] name y value write ;;
  if b : bool then
    y <- contrtemp_set_idle_setpoint C y (s_idle (get_settings y)) ;; Some (y, value, true)
  else
  '(y, value, b) <- access_any [(m_preset, "temp_setpoint"%string); (m_active, "temp_setpoint_active"%string)] name y value write ;;
  if b : bool then
    y <- contrtemp_update_setpoint C y ;; Some (menu_request_display_update y, value, true)
  else if String.eqb name "temp_adj" then
    if write then
      y <- meastemp_adjust_set C y (s24 value) ;; Some (y, value, true)
    else
      v <- meastemp_adjust_get C y ;; Some (y, v, true)
  else access_any [(m_serial, "serial"%string)] name y value write.

(** xytronic_simulator_gui.py:66-69 [__updateValues] with xytronic_simulator.py:82-85 [setting_set]: the
    temperature is n / d degrees.  An unknown name raises an exception: [None]. *)
Definition gui_update_values (C : conf) (y : sys) (n d : Z) : option sys :=
  '(y, _, ok) <- setting_access C y "temp_setpoint_active" 0 true ;;
  if negb ok then None else
  '(y, _, ok) <- setting_access C y "temp_setpoint" (float_to_fixpt n d) true ;;
  if negb ok then None else Some y.
