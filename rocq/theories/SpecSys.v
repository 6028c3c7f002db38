(** * Executions of the whole firmware, and specification vocabulary for the system properties *)
From Coq Require Import ZArith List Bool.
From Verif Require Import Base SpecNum MConf MTimer MPid MCurr MSettings SpecSettings MSseg MDisplay MState MTemp
  MMeas MMenu MMain SpecDisplay.
Import ListNotations.
Open Scope Z_scope.

(** RUN. What can happen: the 1 ms timer interrupt, the ADC interrupt with conversion result
    [raw], the EEPROM-ready interrupt, the EEPROM hardware finishing a byte, one call of a work
    function of the main loop (the button one reads [pinb] from PINB), and a power failure followed
    by a power-up: [v] is what is left in the EEPROM cell being programmed, [pinb] is read at boot.
    The main loop (main.c:77-91) calls the work functions in a fixed order with interrupts in
    between; all orders and all interleavings are allowed here. *)
Inductive event : Type :=
  | ETick
  | EAdc (raw : Z)
  | EReady
  | EDone
  | EMeasure
  | EMenu
  | EDisplay
  | EButtons (pinb : Z)
  | ESettings
  | EPower (v pinb : Z).

(** An interrupt only happens when it is enabled: the converter is running; EERIE is set and no byte
    is being programmed. *)
Definition step (C : conf) (y : sys) (e : event) : option sys :=
  match e with
  | ETick => Some (sys_tick y)
  | EAdc raw => Some (if m_adc (y_meas y) then adc_isr y raw else y)
  | EReady =>
    if x_eerie (y_set y) then
      match x_busy (y_set y) with
      | None => x <- ee_ready_isr C (y_set y) ;; Some (set_y_set y x)
      | Some _ => Some y
      end
    else Some y
  | EDone => Some (set_y_set y (ee_prog_done (y_set y)))
  | EMeasure => measure_work C y
  | EMenu => menu_work C y
  | EDisplay => sys_display_work y
  | EButtons pinb => buttons_work C y pinb
  | ESettings => Some (sys_settings_work C y)
  | EPower v pinb => boot C (ee_after_crash (y_set y) v) pinb
  end.

Fixpoint run (C : conf) (y : sys) (l : list event) : option sys :=
  match l with
  | [] => Some y
  | e :: r => y' <- step C y e ;; run C y' r
  end.

(** SPEC: assumptions about the environment.  Conversion results have 10 bits and fewer than 65535
    conversions happen in one averaging window (see C32; a window is 5 or 50 ms); pins and torn
    EEPROM cells are bytes; a store of the settings is not started while the previous one is still
    being written (stores start at least 1 s apart, writing takes at most 64 * 3.4 ms; see C53).  In a
    build without the EEPROM ring the power does not fail while a byte is being programmed (if it does
    see C56_noring_refuted). *)
Definition ev_ok (C : conf) (y : sys) (e : event) : Prop :=
  match e with
  | EAdc raw => 0 <= raw <= 1023 /\ m_count (y_meas y) < 65535
  | EButtons pinb => is_u8 pinb
  | EPower v pinb => is_u8 v /\ is_u8 pinb /\ (c_eering C = false -> x_busy (y_set y) = None)
  | ESettings => x_request (y_set y) = true ->
                 timer_expired (y_now y) (x_timer (y_set y)) = true -> quiet (y_set y) = true
  | _ => True
  end.

(** Reachable from the first power-up with the factory EEPROM contents. *)
Inductive reach (C : conf) : sys -> Prop :=
  | reach_boot pinb y : is_u8 pinb -> boot C (factory_ee C) pinb = Some y -> reach C y
  | reach_step y e y' : reach C y -> ev_ok C y e -> step C y e = Some y' -> reach C y'.

(** The same without a second power-up. *)
Definition is_power (e : event) : bool := match e with EPower _ _ => true | _ => false end.
Inductive reach1 (C : conf) : sys -> Prop :=
  | reach1_boot pinb y : is_u8 pinb -> boot C (factory_ee C) pinb = Some y -> reach1 C y
  | reach1_step y e y' : reach1 C y -> ev_ok C y e -> is_power e = false -> step C y e = Some y' -> reach1 C y'.

(** Executable check of the environment assumptions, for concrete executions. *)
Definition ev_okb (C : conf) (y : sys) (e : event) : bool :=
  match e with
  | EAdc raw => (0 <=? raw) && (raw <=? 1023) && (m_count (y_meas y) <? 65535)
  | EButtons pinb => (0 <=? pinb) && (pinb <=? 255)
  | EPower v pinb => (0 <=? v) && (v <=? 255) && (0 <=? pinb) && (pinb <=? 255) &&
      (c_eering C || match x_busy (y_set y) with None => true | Some _ => false end)
  | ESettings => negb (x_request (y_set y) && timer_expired (y_now y) (x_timer (y_set y))) || quiet (y_set y)
  | _ => true
  end.
Fixpoint run_ok (C : conf) (y : sys) (l : list event) : option sys :=
  match l with
  | [] => Some y
  | e :: r => if ev_okb C y e then y' <- step C y e ;; run_ok C y' r else None
  end.

(** SPEC for C25, C28: the compare value at which no heater current flows. *)
Definition pwm_off (y : sys) : Prop := cc_ocr (y_cc y) = 8191.

(** SPEC for C28: this measure_work hands a temperature to the running temperature controller: a
    result of the temperature channel is pending and the controller is enabled and not in emergency
    mode afterwards; the temperature is what contrtemp_get_feedback then shows. *)
Definition temp_processed (y : sys) (e : event) (y' : sys) (r : Z) : Prop :=
  e = EMeasure /\ m_avail (y_meas y) = true /\ m_chan (y_meas y) = 1 /\
  t_enabled (y_ct y) = true /\ t_emerg (y_ct y') = false /\ t_feedback (y_ct y') = r.
(** SPEC: the last temperature processed was above 480 degrees (30720/64). *)
Inductive too_hot (C : conf) : sys -> Prop :=
  | hot_now y e y' r : reach C y -> ev_ok C y e -> step C y e = Some y' ->
      temp_processed y e y' r -> 30720 < r -> too_hot C y'
  | hot_still y e y' : too_hot C y -> ev_ok C y e -> step C y e = Some y' -> is_power e = false ->
      (forall r, temp_processed y e y' r -> 30720 < r) -> too_hot C y'.

(** SPEC for C32: the samples of the current averaging window. *)
Definition starts_window (y : sys) (e : event) : bool :=
  match e with EMeasure => m_avail (y_meas y) | EPower _ _ => true | _ => false end.
Inductive window (C : conf) : sys -> list Z -> Prop :=
  | win_boot pinb y : is_u8 pinb -> boot C (factory_ee C) pinb = Some y -> window C y []
  | win_start y e y' l : window C y l -> ev_ok C y e -> step C y e = Some y' ->
      starts_window y e = true -> window C y' []
  | win_sample y raw y' l : window C y l -> ev_ok C y (EAdc raw) -> step C y (EAdc raw) = Some y' ->
      m_adc (y_meas y) = true -> window C y' (l ++ [raw])
  | win_other y e y' l : window C y l -> ev_ok C y e -> step C y e = Some y' ->
      starts_window y e = false ->
      (forall raw, e = EAdc raw -> m_adc (y_meas y) = false) -> window C y' l.
Definition zsum (l : list Z) : Z := fold_right Z.add 0 l.

(** SPEC: the temperature (64 per degree) that belongs to a mean converter code: the straight line
    through the calibration points (150 and 480 degrees, 201 codes apart), rounded to the nearest
    unit, minus the sensor adjustment of the user.  And the current (640 per ampere): 65 codes are
    1.1 A. *)
Definition temp_of_code (C : conf) (adj code v : Z) : Prop :=
  2 * Z.abs (201 * (v + (if c_adj C then adj else 0) - 150 * 64)
             - (code - (if c_smd C then 210 else 209)) * (330 * 64)) <= 201.
Definition curr_of_code (code v : Z) : Prop := 2 * Z.abs (65 * v - code * 704) <= 65.

(** SPEC for C35: the set-point demanded by the settings. *)
Definition wanted_setpoint (s : settings) (idle : bool) : Z :=
  let preset := nth (Z.to_nat (s_active s)) (s_preset s) 0 in
  if idle then Z.min (s_idle s) preset else preset.

(** SPEC for C36: documented ranges; raw values, 64 per unit. *)
Definition gains_in_range (k : pid_k) : Prop :=
  0 <= kp k <= 99 * 64 /\ 0 <= ki k <= 9 * 64 /\ 0 <= kd k <= 99 * 64.
Definition settings_in_range (s : settings) : Prop :=
  Forall gains_in_range (s_k s) /\ 0 <= s_idle s <= 480 * 64 /\
  Forall (fun t => 0 <= t <= 480 * 64) (s_preset s) /\ 0 <= s_active s <= 5 /\
  -99 * 64 <= s_adj s <= 99 * 64.

(** SPEC for C36: what also holds after power failures that mixed two stores: temperatures below 484,
    P and D gains below 100, I gains below 12, a valid preset number. *)
Definition settings_nearly_in_range (s : settings) : Prop :=
  Forall (fun k => 0 <= kp k < 100 * 64 /\ 0 <= ki k < 12 * 64 /\ 0 <= kd k < 100 * 64) (s_k s) /\
  0 <= s_idle s < 484 * 64 /\ Forall (fun t => 0 <= t < 484 * 64) (s_preset s) /\ 0 <= s_active s <= 5.

(** SPEC for C41: the menus in which the user adjusts the sensor or the gains. *)
Definition adjusting (s : mstate) : bool :=
  match s with
  | MENU_ADJ_PRE | MENU_ADJ | MENU_KP_PRE | MENU_KP | MENU_KI_PRE | MENU_KI | MENU_KD_PRE | MENU_KD => true
  | _ => false
  end.

(** SPEC for C42: the item a ramp handler changes and the menus that show this item. *)
Definition ramp_of_menu (h : rhandler) (s : mstate) : Prop :=
  match h with
  | HSettemp => s = MENU_CURTEMP \/ s = MENU_SELPRESET \/ s = MENU_CHGPRESET
  | HIdletemp => s = MENU_IDLETEMP
  | HAdj => s = MENU_ADJ
  | HKp => s = MENU_KP
  | HKi => s = MENU_KI
  | HKd => s = MENU_KD
  end.

(** SPEC for C46: pin [b] of a port register is high. *)
Definition high (r : Z) (b : Z) : bool := Z.testbit r b.
(** The multiplexer outputs that are driven high: PC3, PC4, PC5, PB7. *)
Definition active_muxes (h : hw) : Z :=
  let on port ddr b := if high port b && high ddr b then 1 else 0 in
  on (h_portc h) (h_ddrc h) 3 + on (h_portc h) (h_ddrc h) 4 + on (h_portc h) (h_ddrc h) 5
  + on (h_portb h) (h_ddrb h) 7.

(** SPEC for C62: the text that belongs to the state of the station, and whether the lamp (the decimal
    point of the third digit) is lit.  Temperatures are raw values, 64 per degree. *)
Definition temp_text (temp : Z) (symbol s : list Z) : Prop :=
  exists n l, nearest_away temp 64 n /\ right_aligned 3 (limit (-99) 999 n) l /\ s = l ++ symbol.
Definition gain2_text (v : Z) (s : list Z) : Prop :=
  exists f l1 l2, 2 * Z.abs (64 * f - 100 * (v mod 64)) <= 64 /\ right_aligned 2 (Z.min 99 (v / 64)) l1 /\
    zero_filled 2 f l2 /\ s = l1 ++ [46] ++ l2.
Definition gain3_text (v : Z) (s : list Z) : Prop :=
  exists f l1 l2, 2 * Z.abs (64 * f - 1000 * (v mod 64)) <= 64 /\ right_aligned 1 (Z.min 9 (v / 64)) l1 /\
    zero_filled 3 f l2 /\ s = l1 ++ [46] ++ l2.
(** The symbol after the current temperature: "L." idle, "b." and "8." the boost modes, else "C.". *)
Definition mode_symbol (C : conf) (t : ct) : list Z :=
  if c_idle C && t_idle t then [76; 46]
  else if c_boost C && (t_boost t =? 1) then [98; 46]
  else if c_boost C && (t_boost t =? 2) then [56; 46]
  else [67; 46].
(** The gain set in use. *)
Definition used_gains (C : conf) (y : sys) : pid_k :=
  nth (Z.to_nat (if c_boost C then t_boost (y_ct y) else 0)) (s_k (x_cache (y_set y))) (mkK 0 0 0 0).
Definition picture (C : conf) (y : sys) (s : list Z) (lamp : bool) : Prop :=
  let cfg := x_cache (y_set y) in
  let heating := n_heating (y_menu y) in
  match n_state (y_menu y) with
  | MENU_CURTEMP =>
    if n_err (y_menu y) =? 0
    then temp_text (t_feedback (y_ct y)) (mode_symbol C (y_ct y)) s /\ lamp = heating
    else s = [69; 114; 114; 48 + n_err (y_menu y)] /\ lamp = false
  | MENU_SELPRESET | MENU_CHGPRESET =>
    temp_text (nth (Z.to_nat (s_active cfg)) (s_preset cfg) 0) [49 + s_active cfg; 46] s /\ lamp = heating
  | MENU_IDLETEMP => temp_text (s_idle cfg) [76] s /\ lamp = heating
  | MENU_DEBUG => s = [68; 66; 71] /\ lamp = heating
  | MENU_ADJ_PRE => s = [65; 68; 74; 67; 46] /\ lamp = false
  | MENU_ADJ => temp_text (s_adj cfg) [67; 46] s /\ lamp = false
  | MENU_KP_PRE => s = [32; 80] /\ lamp = false
  | MENU_KP => gain2_text (kp (used_gains C y)) s /\ lamp = false
  | MENU_KI_PRE => s = [32; 73] /\ lamp = false
  | MENU_KI => gain3_text (ki (used_gains C y)) s /\ lamp = false
  | MENU_KD_PRE => s = [32; 68] /\ lamp = false
  | MENU_KD => gain2_text (kd (used_gains C y)) s /\ lamp = false
  end.
(** The four digits hold the text [s]; the point of the third digit is the lamp. *)
Definition drawn (ds : list digit) (s : list Z) (lamp : bool) : Prop :=
  length ds = 4%nat /\
  forall i g, nth_error ds i = Some g ->
    let '(c, dot) := glyph_at s i (Nat.eqb i 2) lamp in holds (Z.of_nat i) (dd_set (g_sseg g)) c dot.
