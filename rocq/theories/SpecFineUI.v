(** * Specification vocabulary: the user interface with interrupts inside the work functions (C99)

    The automaton of SpecUI, in which time passes only between the polls, with time passing during a poll
    as well: any number of milliseconds before, between and after its actions.  Nothing but these delays is
    left open.  Neither the firmware's variables nor its functions occur here. *)
From Coq Require Import ZArith List Bool.
From Verif Require Import Base SpecNum MConf MTimer MPid MCurr SpecCurr MSettings SpecSettings MSseg MDisplay MState MTemp MMeas MMenu
  MMain SpecDisplay SpecSys SpecRun SpecUI MFine SpecFine SpecFineLive.
Import ListNotations.
Open Scope Z_scope.

(** ** The automaton *)
(** [k] ms pass. *)
Definition ui_wait (k : Z) (u : ui) : ui :=
  mkUi (u_time u + k) (u_count u) (u_pins u) (u_menu u) (u_age u + k)
       match u_ramp u with RNone => RNone | RWait up n => RWait up (n + k) | RRun up n j => RRun up (n + k) j end
       (u_err u) match u_iron u with Some n => Some (n + k) | None => None end
       (u_idle u) (u_boost u) (u_dbg u) (u_cfg u).
Definition later (u u' : ui) : Prop := exists k, 0 <= k /\ u' = ui_wait k u.
(** SpecUI.ui_limit *)
Definition fui_limit (C : conf) (u u' : ui) : Prop :=
  exists u1, later u u1 /\
  match menu_limit (u_menu u1) with
  | Some d =>
    if d <=? u_age u1 then exists u2, later u1 u2 /\ u' = set_u_ramp (ui_enter u2 (menu_expired C (u_menu u2))) RNone
    else u' = u1
  | None => u' = u1
  end.
(** SpecUI.ui_ramp *)
Definition fui_ramp (u u' : ui) : Prop :=
  exists u1, later u u1 /\
  match u_ramp u1 with
  | RNone => u' = u1
  | RWait up n => if 1000 <=? n then exists u2, later u1 u2 /\ u' = set_u_ramp u2 (RRun up 0 0) else u' = u1
  | RRun up n k =>
    if step_time k <=? n then
      exists u2, later (set_u_ramp (set_u_cfg u1 (item_step (u_menu u1) (u_boost u1) up (u_cfg u1))) (RRun up n (S k))) u2 /\
        u' = if shows_preset (u_menu u1) then ui_enter u2 MENU_CHGPRESET else u2
    else u' = u1
  end.
(** SpecUI.ui_poll *)
Definition fui_poll (C : conf) (u : ui) (err : Z) (u' : ui) : Prop :=
  exists u1 u2 u3, fui_limit C u u1 /\ later u1 u2 /\ fui_ramp (ui_error u2 err) u3 /\ later u3 u'.
(** SpecUI.ui_key *)
Definition fui_key (C : conf) (u : ui) (k : button * bstate) (u' : ui) : Prop :=
  let '(b, s) := k in
  match b with
  | BUTTON_IRON => exists u1, later u u1 /\ later (ui_iron_key C u1 s) u'
  | _ =>
    exists u1 u2, later u u1 /\ later (if restarts (u_menu u1) then set_u_age u1 0 else u1) u2 /\
    later match s with
          | BSTATE_POSEDGE => ui_press u2 b
          | BSTATE_NEGEDGE => ui_release C u2 b
          | BSTATE_PRESSED => u2
          end u'
  end.
Fixpoint fui_keys (C : conf) (l : list (button * bstate)) (u u' : ui) : Prop :=
  match l with
  | [] => later u u'
  | k :: r => exists u1, fui_key C u k u1 /\ fui_keys C r u1 u'
  end.
(** SpecUI.ui_sample *)
Definition fui_sample (C : conf) (u : ui) (pins : Z) (u' : ui) : Prop :=
  exists u1, later u u1 /\
  if sample_due u1 then fui_keys C (key_events (u_pins u1) pins) (set_u_sample u1 (u_count u1 + 1) pins) u'
  else u' = u1.
(** SpecUI.ui_next; a measurement takes time as well. *)
Definition fui_next (C : conf) (u : ui) (err : Z) (e : event) (u' : ui) : Prop :=
  match e with
  | ETick => u' = ui_wait 1 u
  | EButtons pins => fui_sample C u pins u'
  | EMenu => fui_poll C u err u'
  | EMeasure => later u u'
  | _ => u' = u
  end.

(** ** Executions *)
(** A history since power-up: the pins at power-up and the state after it, then the events with the
    interrupts inside them and the states after them. *)
Inductive hist : Type :=
  | HStart (pinb : Z) (y : sys)
  | HNext (h : hist) (e : event) (o : plan) (y : sys).
Definition last_state (h : hist) : sys := match h with HStart _ y | HNext _ _ _ y => y end.
Definition is_tick (i : irq) : bool := match i with ITick => true | _ => false end.
(** The ms that pass inside an event. *)
Definition ticks_in (o : plan) : Z := Z.of_nat (length (filter is_tick (concat o))).
(** ms since the beginning of the last call of menu_work, of buttons_work *)
Definition since_menu (m : Z) (e : event) (k : Z) : Z := match e with EMenu => k | _ => m + ticks_of e + k end.
Definition since_keys (b : Z) (e : event) (k : Z) : Z := match e with EButtons _ => k | _ => b + ticks_of e + k end.
(** RUN. A main loop that begins menu_work at least every 25 ms and buttons_work at least every 10 ms; any interrupts
    happen at any points inside the work functions. *)
Inductive fprompt (C : conf) : hist -> Z -> Z -> Prop :=
  | fpm_boot pinb y : is_u8 pinb -> boot C (factory_ee C) pinb = Some y -> fprompt C (HStart pinb y) 0 0
  | fpm_power y v pinb y' : freach C y -> fnext C y (EPower v pinb) y' -> fprompt C (HStart pinb y') 0 0
  | fpm_step h m b e o y' : fprompt C h m b -> ev_ok C (last_state h) e -> is_power e = false ->
      fwork C (last_state h) e o = Some (y', []) ->
      since_menu m e (ticks_in o) <= 25 -> since_keys b e (ticks_in o) <= 10 ->
      fprompt C (HNext h e o y') (since_menu m e (ticks_in o)) (since_keys b e (ticks_in o)).

(** SPEC: an execution of the automaton that agrees with a history of the firmware after every event, the
    same time having passed. *)
Inductive explained (C : conf) : hist -> ui -> Prop :=
  | ex_start pinb y : shows C y (ui_start C pinb (x_cache (y_set y))) ->
      explained C (HStart pinb y) (ui_start C pinb (x_cache (y_set y)))
  | ex_next h e o y' u u' : explained C h u -> fui_next C u (sensor_error (last_state h)) e u' ->
      u_time u' = u_time u + ticks_of e + ticks_in o -> shows C y' u' -> explained C (HNext h e o y') u'.
(** SPEC: nothing is late by more than the time since the poll that is responsible for it: the time limits of the
    menus, the steps of the ramps, the samples of the keys.  A held iron key is handled in the sample after 1 s. *)
Definition punctual (m b : Z) (u : ui) : Prop :=
  (forall d, menu_limit (u_menu u) = Some d -> u_age u < d + m) /\
  match u_ramp u with
  | RNone => True
  | RWait _ n => n < 1000 + m
  | RRun _ n k => n <= step_time k + m
  end /\
  u_time u - 10 * u_count u <= b /\
  (forall n, u_iron u = Some n -> n < 1010 + b).
