(** * Specification of the user interface: an automaton with unbounded clocks

    This file describes, without reference to the firmware's variables, timers or handlers, what the
    four keys and the passing of time do to the menu, to the settings and to the iron (idle, boost).
    It follows the documentation of the menu (README.md, doc/menu.png).  PropMenu.v shows that the firmware
    is in the state that the automaton predicts after every execution. *)
From Coq Require Import ZArith List Bool.
From Verif Require Import Base SpecNum MConf MTimer MPid MCurr SpecCurr MSettings SpecSettings MSseg MDisplay MState MTemp MMeas MMenu
  MMain SpecDisplay SpecSys SpecRun.
Import ListNotations.
Open Scope Z_scope.

(** ** Keys.  PB2 SET, PB3 MINUS, PB4 PLUS, PB0 the contact in the stand of the iron; pressed is low. *)
Definition key_pin (b : button) : Z :=
  match b with BUTTON_SET => 2 | BUTTON_MINUS => 3 | BUTTON_PLUS => 4 | BUTTON_IRON => 0 end.
Definition down (pins : Z) (b : button) : bool := negb (high pins (key_pin b)).
(** What a sample [cur] of the pins says when the previous one was [prev]. *)
Definition key_event (prev cur : Z) (b : button) : list bstate :=
  match down prev b, down cur b with
  | false, true => [BSTATE_POSEDGE; BSTATE_PRESSED]
  | true, true => [BSTATE_PRESSED]
  | true, false => [BSTATE_NEGEDGE]
  | false, false => []
  end.
Definition all_keys : list button := [BUTTON_SET; BUTTON_MINUS; BUTTON_PLUS; BUTTON_IRON].
Definition key_events (prev cur : Z) : list (button * bstate) :=
  flat_map (fun b => map (fun s => (b, s)) (key_event prev cur b)) all_keys.
(** Well formed sequences of the events of one key; [held] is whether it is down before. *)
Inductive alternate : bool -> list bstate -> Prop :=
  | alt_end h : alternate h []
  | alt_press l : alternate true l -> alternate false (BSTATE_POSEDGE :: l)
  | alt_held l : alternate true l -> alternate true (BSTATE_PRESSED :: l)
  | alt_release l : alternate false l -> alternate true (BSTATE_NEGEDGE :: l).

(** ** Menus *)
(** SET walks through the menus of the build in this order, and back to the first. *)
Definition menu_chain (C : conf) : list mstate :=
  [MENU_CURTEMP] ++ (if c_idle C then [MENU_IDLETEMP] else []) ++ (if c_debug C then [MENU_DEBUG] else []) ++
  (if c_adj C then [MENU_ADJ_PRE; MENU_ADJ] else []) ++
  (if c_kconf C then [MENU_KP_PRE; MENU_KP; MENU_KI_PRE; MENU_KI; MENU_KD_PRE; MENU_KD] else []).
Fixpoint after (s : mstate) (l : list mstate) : mstate :=
  match l with
  | a :: ((b :: _) as r) => if mstate_eqb a s then b else after s r
  | _ => MENU_CURTEMP
  end.
(** The two preset menus are not in the chain; SET leaves them to the temperature display. *)
Definition menu_after (C : conf) (s : mstate) : mstate := after s (menu_chain C).
(** Milliseconds without a key after which a menu is left: preset and idle menus, titles. *)
Definition menu_limit (s : mstate) : option Z :=
  match s with
  | MENU_SELPRESET | MENU_CHGPRESET | MENU_IDLETEMP => Some 3000
  | MENU_ADJ_PRE | MENU_KP_PRE | MENU_KI_PRE | MENU_KD_PRE => Some 1500
  | _ => None
  end.
(** The idle menu is left to the temperature display, the others to their successor. *)
Definition menu_expired (C : conf) (s : mstate) : mstate :=
  match s with MENU_IDLETEMP => MENU_CURTEMP | _ => menu_after C s end.
(** In the preset and idle menus every event of SET, MINUS or PLUS restarts the time. *)
Definition restarts (s : mstate) : bool :=
  match s with MENU_SELPRESET | MENU_CHGPRESET | MENU_IDLETEMP => true | _ => false end.

(** ** Ramps: PLUS or MINUS held down.  [Wait]: in the temperature display and in preset selection the
    key must first be held for 1 s.  [Run]: [n] ms since the ramp started, [k] steps made. *)
Inductive rphase : Type := RNone | RWait (up : bool) (n : Z) | RRun (up : bool) (n : Z) (k : nat).
(** When step number [k] is due. *)
Definition step_time (k : nat) : Z :=
  match k with
  | 0%nat => 0 | 1%nat => 400 | 2%nat => 600 | 3%nat => 700
  | S (S (S (S j))) => 750 + 25 * Z.of_nat j
  end.
Definition ramp_start (s : mstate) (up : bool) : option rphase :=
  match s with
  | MENU_CURTEMP | MENU_SELPRESET => Some (RWait up 0)
  | MENU_CHGPRESET | MENU_IDLETEMP | MENU_ADJ | MENU_KP | MENU_KI | MENU_KD => Some (RRun up 0 0)
  | _ => None
  end.
Fixpoint upd_nth {A} (i : nat) (f : A -> A) (l : list A) : list A :=
  match l, i with
  | [], _ => []
  | a :: r, 0%nat => f a :: r
  | a :: r, S j => a :: upd_nth j f r
  end.
(** One step of the item shown by menu [s]: 1 degree for temperatures, 1/32 for kp and kd, 1/64 for ki;
    all values are multiples of 1/64 and limited.  [m] is the boost mode. *)
Definition delta (up : bool) (d : Z) : Z := if up then d else - d.
Definition item_step (s : mstate) (m : Z) (up : bool) (x : settings) : settings :=
  let temp lo hi v := limit (lo * 64) (hi * 64) (v + delta up 64) in
  let gain hi d v := limit 0 (hi * 64) (v + delta up d) in
  match s with
  | MENU_CURTEMP | MENU_SELPRESET | MENU_CHGPRESET =>
    set_s_preset x (upd_nth (Z.to_nat (s_active x)) (temp 0 480) (s_preset x))
  | MENU_IDLETEMP => set_s_idle x (temp 0 480 (s_idle x))
  | MENU_ADJ => set_s_adj x (temp (-99) 99 (s_adj x))
  | MENU_KP => set_s_k x (upd_nth (Z.to_nat m) (fun k => mkK (gain 99 2 (kp k)) (ki k) (kd k) (d_decay_div k)) (s_k x))
  | MENU_KI => set_s_k x (upd_nth (Z.to_nat m) (fun k => mkK (kp k) (gain 9 1 (ki k)) (kd k) (d_decay_div k)) (s_k x))
  | MENU_KD => set_s_k x (upd_nth (Z.to_nat m) (fun k => mkK (kp k) (ki k) (gain 99 2 (kd k)) (d_decay_div k)) (s_k x))
  | _ => x
  end.

(** ** The automaton *)
Record ui : Type := mkUi {
  u_time : Z;              (* ms since power-up *)
  u_count : Z;             (* samples of the keys taken *)
  u_pins : Z;              (* last sample *)
  u_menu : mstate;
  u_age : Z;               (* ms since the menu was entered, or since the time was restarted *)
  u_ramp : rphase;
  u_err : Z;               (* error number shown *)
  u_iron : option Z;       (* [Some n]: iron key pressed [n] ms ago and not decided yet *)
  u_idle : bool;
  u_boost : Z;             (* 0 normal, 1, 2 *)
  u_dbg : bool;
  u_cfg : settings
}.
Definition set_u_menu (u : ui) (v : mstate) := mkUi (u_time u) (u_count u) (u_pins u) v (u_age u) (u_ramp u) (u_err u) (u_iron u) (u_idle u) (u_boost u) (u_dbg u) (u_cfg u).
Definition set_u_age (u : ui) (v : Z) := mkUi (u_time u) (u_count u) (u_pins u) (u_menu u) v (u_ramp u) (u_err u) (u_iron u) (u_idle u) (u_boost u) (u_dbg u) (u_cfg u).
Definition set_u_ramp (u : ui) (v : rphase) := mkUi (u_time u) (u_count u) (u_pins u) (u_menu u) (u_age u) v (u_err u) (u_iron u) (u_idle u) (u_boost u) (u_dbg u) (u_cfg u).
Definition set_u_err (u : ui) (v : Z) := mkUi (u_time u) (u_count u) (u_pins u) (u_menu u) (u_age u) (u_ramp u) v (u_iron u) (u_idle u) (u_boost u) (u_dbg u) (u_cfg u).
Definition set_u_iron (u : ui) (v : option Z) := mkUi (u_time u) (u_count u) (u_pins u) (u_menu u) (u_age u) (u_ramp u) (u_err u) v (u_idle u) (u_boost u) (u_dbg u) (u_cfg u).
Definition set_u_idle (u : ui) (v : bool) := mkUi (u_time u) (u_count u) (u_pins u) (u_menu u) (u_age u) (u_ramp u) (u_err u) (u_iron u) v (u_boost u) (u_dbg u) (u_cfg u).
Definition set_u_boost (u : ui) (v : Z) := mkUi (u_time u) (u_count u) (u_pins u) (u_menu u) (u_age u) (u_ramp u) (u_err u) (u_iron u) (u_idle u) v (u_dbg u) (u_cfg u).
Definition set_u_dbg (u : ui) (v : bool) := mkUi (u_time u) (u_count u) (u_pins u) (u_menu u) (u_age u) (u_ramp u) (u_err u) (u_iron u) (u_idle u) (u_boost u) v (u_cfg u).
Definition set_u_cfg (u : ui) (v : settings) := mkUi (u_time u) (u_count u) (u_pins u) (u_menu u) (u_age u) (u_ramp u) (u_err u) (u_iron u) (u_idle u) (u_boost u) (u_dbg u) v.
Definition set_u_sample (u : ui) (n p : Z) := mkUi (u_time u) n p (u_menu u) (u_age u) (u_ramp u) (u_err u) (u_iron u) (u_idle u) (u_boost u) (u_dbg u) (u_cfg u).

(** Going to another menu.  Entering and leaving the adjustment menus ends the boost. *)
Definition ui_enter (u : ui) (s : mstate) : ui :=
  if mstate_eqb (u_menu u) s then u
  else
    let u' := set_u_age (set_u_menu u s) 0 in
    if Bool.eqb (adjusting (u_menu u)) (adjusting s) then u' else set_u_boost u' 0.
(** The keys SET, MINUS and PLUS. *)
Definition ui_press (u : ui) (b : button) : ui :=
  match b with
  | BUTTON_PLUS | BUTTON_MINUS =>
    let up := match b with BUTTON_PLUS => true | _ => false end in
    match u_menu u with
    | MENU_DEBUG => set_u_dbg u up
    | s => match ramp_start s up with Some r => set_u_ramp u r | None => u end
    end
  | _ => u
  end.
Definition cycle_up (last v : Z) : Z := if v =? last then 0 else v + 1.
Definition cycle_down (last v : Z) : Z := if v =? 0 then last else v - 1.
Definition ui_release (C : conf) (u : ui) (b : button) : ui :=
  let u := set_u_ramp u RNone in
  match b with
  | BUTTON_SET => if u_dbg u then u else ui_enter u (menu_after C (u_menu u))
  | BUTTON_PLUS | BUTTON_MINUS =>
    let cycle := match b with BUTTON_PLUS => cycle_up 5 | _ => cycle_down 5 end in
    match u_menu u with
    | MENU_CURTEMP => ui_enter u MENU_SELPRESET
    | MENU_SELPRESET => set_u_cfg u (set_s_active (u_cfg u) (cycle (s_active (u_cfg u))))
    | _ => u
    end
  | BUTTON_IRON => u
  end.
(** The iron key; with boost and idle mode, with boost mode only, with idle mode only. *)
Definition ui_iron_key (C : conf) (u : ui) (s : bstate) : ui :=
  if c_boost C && c_idle C then
    match s with
    | BSTATE_POSEDGE => if u_idle u then set_u_iron (set_u_idle u false) None else set_u_iron u (Some 0)
    | BSTATE_PRESSED =>
      match u_iron u with
      | Some n => if 1000 <=? n then set_u_iron (set_u_idle u true) None else u
      | None => u
      end
    | BSTATE_NEGEDGE =>
      match u_iron u with
      | Some _ => set_u_iron (set_u_boost u (cycle_up 2 (u_boost u))) None
      | None => u
      end
    end
  else if c_boost C then
    match s with BSTATE_POSEDGE => set_u_boost u (cycle_up 2 (u_boost u)) | _ => u end
  else if c_idle C then
    match s with
    | BSTATE_POSEDGE => set_u_idle u (if c_idletoggle C then negb (u_idle u) else true)
    | BSTATE_NEGEDGE => if c_idletoggle C then u else set_u_idle u false
    | BSTATE_PRESSED => u
    end
  else u.
Definition ui_key (C : conf) (u : ui) (k : button * bstate) : ui :=
  let '(b, s) := k in
  match b with
  | BUTTON_IRON => ui_iron_key C u s
  | _ =>
    let u := if restarts (u_menu u) then set_u_age u 0 else u in
    match s with
    | BSTATE_POSEDGE => ui_press u b
    | BSTATE_NEGEDGE => ui_release C u b
    | BSTATE_PRESSED => u
    end
  end.
(** Sample number [k] of the keys is taken by the first poll after 10 * k ms. *)
Definition sample_due (u : ui) : bool := 10 * u_count u <=? u_time u.
Definition ui_sample (C : conf) (u : ui) (pins : Z) : ui :=
  if sample_due u then fold_left (ui_key C) (key_events (u_pins u) pins) (set_u_sample u (u_count u + 1) pins)
  else u.
(** A poll of the menu, [err] being the error number of the sensors: time limit, change of the error
    number, ramp. *)
Definition ui_limit (C : conf) (u : ui) : ui :=
  match menu_limit (u_menu u) with
  | Some d => if d <=? u_age u then set_u_ramp (ui_enter u (menu_expired C (u_menu u))) RNone else u
  | None => u
  end.
Definition ui_error (u : ui) (err : Z) : ui :=
  if err =? u_err u then u else set_u_ramp (set_u_err u err) RNone.
Definition shows_preset (s : mstate) : bool :=
  match s with MENU_CURTEMP | MENU_SELPRESET | MENU_CHGPRESET => true | _ => false end.
Definition ui_ramp (u : ui) : ui :=
  match u_ramp u with
  | RNone => u
  | RWait up n => if 1000 <=? n then set_u_ramp u (RRun up 0 0) else u
  | RRun up n k =>
    if step_time k <=? n then
      let u' := set_u_ramp (set_u_cfg u (item_step (u_menu u) (u_boost u) up (u_cfg u))) (RRun up n (S k)) in
      if shows_preset (u_menu u) then ui_enter u' MENU_CHGPRESET else u'
    else u
  end.
Definition ui_poll (C : conf) (u : ui) (err : Z) : ui := ui_ramp (ui_error (ui_limit C u) err).
Definition ui_tick (u : ui) : ui :=
  mkUi (u_time u + 1) (u_count u) (u_pins u) (u_menu u) (u_age u + 1)
       match u_ramp u with RNone => RNone | RWait up n => RWait up (n + 1) | RRun up n k => RRun up (n + 1) k end
       (u_err u) match u_iron u with Some n => Some (n + 1) | None => None end
       (u_idle u) (u_boost u) (u_dbg u) (u_cfg u).
Definition ui_next (C : conf) (u : ui) (err : Z) (e : event) : ui :=
  match e with
  | ETick => ui_tick u
  | EButtons pins => ui_sample C u pins
  | EMenu => ui_poll C u err
  | _ => u
  end.
(** At power-up; with debug support, SET held at power-up selects the debug menu and the UART. *)
Definition ui_start (C : conf) (pins : Z) (x : settings) : ui :=
  let dbg := c_debug C && down pins BUTTON_SET in
  mkUi 0 0 255 (if dbg then MENU_DEBUG else MENU_CURTEMP) 0 RNone 0 None false 0 dbg x.
(** Error number: 1 the current sensor failed, 2 the temperature sensor failed, 3 both. *)
Definition sensor_error (y : sys) : Z :=
  (if Z.testbit (cc_emerg (y_cc y)) 0 then 1 else 0) + (if t_emerg (y_ct y) then 2 else 0).

(** ** Executions.  Assumption about the main loop: no clock is polled more than 30 s late (the
    firmware's 16-bit clocks wrap after 65.5 s). *)
Definition in_time (u : ui) (e : event) : Prop :=
  match e with
  | EButtons _ => u_time u - 10 * u_count u < 30000 /\ (forall n, u_iron u = Some n -> n < 30000)
  | EMenu => (forall d, menu_limit (u_menu u) = Some d -> u_age u < 30000) /\
             match u_ramp u with RNone => True | RWait _ n => n < 30000 | RRun _ n k => n - step_time k < 30000 end
  | _ => True
  end.
Inductive ui_run (C : conf) : sys -> ui -> Prop :=
  | ui_boot pinb y : is_u8 pinb -> boot C (factory_ee C) pinb = Some y -> ui_run C y (ui_start C pinb (x_cache (y_set y)))
  | ui_power y v pinb y' : reach C y -> ev_ok C y (EPower v pinb) -> step C y (EPower v pinb) = Some y' ->
      ui_run C y' (ui_start C pinb (x_cache (y_set y')))
  | ui_step y u e y' : ui_run C y u -> ev_ok C y e -> in_time u e -> is_power e = false -> step C y e = Some y' ->
      ui_run C y' (ui_next C u (sensor_error y) e).
(** The same settings; the serial number is counted up by every store (C50). *)
Definition same_settings (a b : settings) : Prop := set_s_serial a 0 = set_s_serial b 0.
(** The ramp that the firmware performs. *)
Definition ramp_phase (r : ramp) : option (bool * bool) :=
  match r with
  | RAMP_NONE => None
  | RAMP_PRE_UP => Some (true, true) | RAMP_PRE_DOWN => Some (true, false)
  | RAMP_UP => Some (false, true) | RAMP_DOWN => Some (false, false)
  end.
Definition rphase_of (r : rphase) : option (bool * bool) :=
  match r with RNone => None | RWait up _ => Some (true, up) | RRun up _ _ => Some (false, up) end.
(** The firmware is in the state of the automaton. *)
Definition shows (C : conf) (y : sys) (u : ui) : Prop :=
  n_state (y_menu y) = u_menu u /\ n_err (y_menu y) = u_err u /\ y_dbg y = u_dbg u /\
  t_idle (y_ct y) = u_idle u /\ (c_boost C = true -> t_boost (y_ct y) = u_boost u) /\
  same_settings (x_cache (y_set y)) (u_cfg u) /\ ramp_phase (n_ramp (y_menu y)) = rphase_of (u_ramp u).

(** ** Histories for the single properties *)
(** C40: in the samples [p], [q] SET, MINUS or PLUS is down; the sample restarts the time of a menu. *)
Definition active_key (p q : Z) (b : button) : bool := down p b || down q b.
Definition touched (p q : Z) : bool := active_key p q BUTTON_SET || active_key p q BUTTON_MINUS || active_key p q BUTTON_PLUS.
Definition menu_touched (u : ui) (e : event) : bool :=
  match e with EButtons pins => sample_due u && touched (u_pins u) pins | _ => false end.
Definition ticks_of (e : event) : Z := match e with ETick => 1 | _ => 0 end.
(** C37: the iron key was pressed in state [y0], [n] ms ago, and was down in all samples since; SET is up. *)
Inductive iron_held (C : conf) : sys -> Z -> sys -> ui -> Prop :=
  | iron_press y u pins y' : ui_run C y u -> is_u8 pins -> in_time u (EButtons pins) -> sample_due u = true ->
      down (u_pins u) BUTTON_IRON = false -> down pins BUTTON_IRON = true ->
      down (u_pins u) BUTTON_SET = false -> down pins BUTTON_SET = false ->
      step C y (EButtons pins) = Some y' -> iron_held C y 0 y' (ui_sample C u pins)
  | iron_on y0 n y u e y' : iron_held C y0 n y u -> ev_ok C y e -> in_time u e -> is_power e = false ->
      (forall pins, e = EButtons pins -> down pins BUTTON_IRON = true /\ down pins BUTTON_SET = false) ->
      step C y e = Some y' -> iron_held C y0 (n + ticks_of e) y' (ui_next C u (sensor_error y) e).
(** The iron key, held as above, is released. *)
Definition iron_up (C : conf) (y0 : sys) (n : Z) (y1 y2 : sys) : Prop :=
  exists u pins, iron_held C y0 n y1 u /\ is_u8 pins /\ in_time u (EButtons pins) /\ sample_due u = true /\
    down pins BUTTON_IRON = false /\ down pins BUTTON_SET = false /\ step C y1 (EButtons pins) = Some y2.
(** A sample in which one key changes, the other keys being up. *)
Definition only_key (k : button) (prev cur : Z) : Prop := forall b, b <> k -> down prev b = false /\ down cur b = false.
Definition sampled (C : conf) (y : sys) (u : ui) (pins : Z) (y' : sys) : Prop :=
  ui_run C y u /\ is_u8 pins /\ in_time u (EButtons pins) /\ sample_due u = true /\ step C y (EButtons pins) = Some y'.
Definition pressed_key (C : conf) (y : sys) (u : ui) (k : button) (y' : sys) : Prop :=
  exists pins, sampled C y u pins y' /\ only_key k (u_pins u) pins /\ down (u_pins u) k = false /\ down pins k = true.
Definition released_key (C : conf) (y : sys) (u : ui) (k : button) (y' : sys) : Prop :=
  exists pins, sampled C y u pins y' /\ only_key k (u_pins u) pins /\ down (u_pins u) k = true /\ down pins k = false.

(** C38: the calls of the button handlers since power-up; [T] ms, [s] samples. *)
Inductive delivered (C : conf) : sys -> ui -> Z -> Z -> list (button * bstate) -> Prop :=
  | dl_boot pinb y : is_u8 pinb -> boot C (factory_ee C) pinb = Some y -> delivered C y (ui_start C pinb (x_cache (y_set y))) 0 0 []
  | dl_power y v pinb y' : reach C y -> ev_ok C y (EPower v pinb) -> step C y (EPower v pinb) = Some y' ->
      delivered C y' (ui_start C pinb (x_cache (y_set y'))) 0 0 []
  | dl_sample y u T s l pins y' : delivered C y u T s l -> is_u8 pins -> in_time u (EButtons pins) ->
      timer_expired (y_now y) (b_timer (y_btn y)) = true -> step C y (EButtons pins) = Some y' ->
      delivered C y' (ui_sample C u pins) T (s + 1) (l ++ sample_calls (b_prev (y_btn y)) pins)
  | dl_early y u T s l pins : delivered C y u T s l -> is_u8 pins -> in_time u (EButtons pins) ->
      timer_expired (y_now y) (b_timer (y_btn y)) = false -> step C y (EButtons pins) = Some y ->
      delivered C y u T s l
  | dl_other y u T s l e y' : delivered C y u T s l -> ev_ok C y e -> in_time u e -> is_power e = false ->
      (forall pins, e <> EButtons pins) -> step C y e = Some y' ->
      delivered C y' (ui_next C u (sensor_error y) e) (T + ticks_of e) s l.
Definition calls_of (k : button) (l : list (button * bstate)) : list bstate :=
  map snd (filter (fun c => key_pin (fst c) =? key_pin k) l).

(** A main loop that polls the menu every 25 ms and the keys every 10 ms; [m], [b]: ms since the last
    poll.  No assumption on the clocks. *)
Inductive prompt (C : conf) : sys -> ui -> Z -> Z -> Prop :=
  | pm_boot pinb y : is_u8 pinb -> boot C (factory_ee C) pinb = Some y -> prompt C y (ui_start C pinb (x_cache (y_set y))) 0 0
  | pm_power y v pinb y' : reach C y -> ev_ok C y (EPower v pinb) -> step C y (EPower v pinb) = Some y' ->
      prompt C y' (ui_start C pinb (x_cache (y_set y'))) 0 0
  | pm_tick y u m b y' : prompt C y u m b -> m < 25 -> b < 10 -> step C y ETick = Some y' ->
      prompt C y' (ui_tick u) (m + 1) (b + 1)
  | pm_menu y u m b y' : prompt C y u m b -> step C y EMenu = Some y' -> prompt C y' (ui_poll C u (sensor_error y)) 0 b
  | pm_keys y u m b pins y' : prompt C y u m b -> is_u8 pins -> step C y (EButtons pins) = Some y' ->
      prompt C y' (ui_sample C u pins) m 0
  | pm_other y u m b e y' : prompt C y u m b -> ev_ok C y e -> is_power e = false -> e <> ETick -> e <> EMenu ->
      (forall pins, e <> EButtons pins) -> step C y e = Some y' -> prompt C y' u m b.

(** C39, C43: PLUS or MINUS was pressed in state [y0], [n] ms ago, and is held down alone; the error number
    does not change and the menu's time limit is not reached (every sample of the key restarts it). *)
Inductive key_held (C : conf) (k : button) : sys -> Z -> sys -> ui -> Prop :=
  | kh_press y u pins y' : sampled C y u pins y' -> only_key k (u_pins u) pins -> down (u_pins u) k = false -> down pins k = true ->
      key_held C k y 0 y' (ui_sample C u pins)
  | kh_on y0 n y u e y' : key_held C k y0 n y u -> ev_ok C y e -> in_time u e -> is_power e = false ->
      (forall pins, e = EButtons pins -> only_key k pins pins /\ down pins k = true) ->
      (e = EMenu -> sensor_error y = n_err (y_menu y) /\ forall d, menu_limit (n_state (y_menu y)) = Some d -> u_age u < d) ->
      step C y e = Some y' -> key_held C k y0 (n + ticks_of e) y' (ui_next C u (sensor_error y) e).
(** Whether the menu makes the user wait for a second before stepping. *)
Definition waits (s : mstate) : bool := match s with MENU_CURTEMP | MENU_SELPRESET => true | _ => false end.
Definition has_item (s : mstate) : bool := match ramp_start s true with Some _ => true | None => false end.
Definition iter_step (j : nat) (s : mstate) (m : Z) (up : bool) (x : settings) : settings := Nat.iter j (item_step s m up) x.
(** The same with the menu polled at least every 25 ms; [m] ms since the last poll. *)
Inductive key_prompt (C : conf) (k : button) : sys -> Z -> Z -> sys -> ui -> Prop :=
  | kp_press y u pins y' m : sampled C y u pins y' -> only_key k (u_pins u) pins -> down (u_pins u) k = false -> down pins k = true ->
      0 <= m <= 25 -> key_prompt C k y 0 m y' (ui_sample C u pins)
  | kp_on y0 n m y u e y' : key_prompt C k y0 n m y u -> ev_ok C y e -> in_time u e -> is_power e = false ->
      (forall pins, e = EButtons pins -> only_key k pins pins /\ down pins k = true) ->
      (e = EMenu -> sensor_error y = n_err (y_menu y) /\ forall d, menu_limit (n_state (y_menu y)) = Some d -> u_age u < d) ->
      (e = ETick -> m < 25) -> step C y e = Some y' ->
      key_prompt C k y0 (n + ticks_of e) match e with EMenu => 0 | _ => m + ticks_of e end y' (ui_next C u (sensor_error y) e).
