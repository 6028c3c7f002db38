(** * Specification vocabulary: the main loop on hardware of known speed (C72, C73) *)
From Coq Require Import ZArith List Bool.
From Verif Require Import Base MConf MTimer MPid MCurr MSettings SpecSettings MState MMeas MMenu MMain SpecSys SpecRun SpecUI SpecLive.
Import ListNotations.
Open Scope Z_scope.

(** SPEC: the next work function that the main loop calls (main.c:77-91); interrupts occur between the
    calls. *)
Inductive place : Type := AtMeasure | AtMenu | AtDisplay | AtButtons | AtSettings.
Definition due (p : place) (e : event) : Prop :=
  match e with
  | EMeasure => p = AtMeasure | EMenu => p = AtMenu | EDisplay => p = AtDisplay
  | EButtons _ => p = AtButtons | ESettings => p = AtSettings
  | _ => True
  end.
Definition place_after (p : place) (e : event) : place :=
  match e with
  | EMeasure => AtMenu | EMenu => AtDisplay | EDisplay => AtButtons | EButtons _ => AtSettings | ESettings => AtMeasure
  | EPower _ _ => AtMeasure
  | _ => p
  end.

(** SPEC: speeds, in ms: an iteration of the main loop takes at most [h_pass]; while the converter is on a
    conversion completes at least every [h_sample], at most [h_rate] per ms; programming a byte of the
    EEPROM takes at most [h_prog] (data sheet: 3.4); the EEPROM interrupt is served within [h_irq]. *)
Record speed : Type := mkSpeed { h_pass : Z; h_sample : Z; h_rate : Z; h_prog : Z; h_irq : Z }.
Definition limits_of (S : speed) : limits := mkLimits (h_sample S) (h_pass S) (h_rate S).
(** Longest time for a store of the 64 bytes of the settings. *)
Definition store_ms (S : speed) : Z := 64 * (h_prog S + h_irq S).
(** A store takes less than the second by which it is delayed; few enough conversions for the sum. *)
Definition speed_ok (S : speed) : Prop := limits_ok (limits_of S) /\ 0 <= h_prog S /\ 0 <= h_irq S /\ store_ms S < 1000.
(** An iteration takes at most 5 ms, so that the keys are polled every 10 ms. *)
Definition quick (S : speed) : Prop := h_pass S <= 5.

(** SPEC: the firmware and an observer: where the main loop is, the stopwatches of SpecLive, the automaton
    of the user interface (SpecUI), the time since the programming of the current byte began, the time for
    which the EEPROM interrupt has been waiting, and the time since the main loop last read PLUS or MINUS
    as pressed (or power-up). *)
Record station : Type := mkStation {
  st_y : sys; st_at : place; st_w : watch; st_u : ui; st_prog : Z; st_irq : Z; st_hands : Z
}.
Definition busy (y : sys) : bool := match x_busy (y_set y) with Some _ => true | None => false end.
Definition waiting (y : sys) : bool := x_eerie (y_set y) && negb (busy y).
Definition adjust_keys (pins : Z) : bool := down pins BUTTON_PLUS || down pins BUTTON_MINUS.

(** SPEC: the event can happen now: it is the turn of the work function; time goes on only if nothing is
    overdue. *)
Definition may (S : speed) (C : conf) (t : station) (e : event) : Prop :=
  due (st_at t) e /\
  match e with
  | ETick => on_time (limits_of S) C (st_y t) (st_w t) ETick /\
             (busy (st_y t) = true -> st_prog t < h_prog S) /\ (waiting (st_y t) = true -> st_irq t < h_irq S)
  | EAdc raw => on_time (limits_of S) C (st_y t) (st_w t) (EAdc raw)
  | EButtons pins => is_u8 pins
  | EPower v pinb => is_u8 v /\ is_u8 pinb /\ (c_eering C = false -> busy (st_y t) = false)
  | _ => True
  end.
Definition start (C : conf) (y : sys) (pinb : Z) : station :=
  mkStation y AtMeasure watch_zero (ui_start C pinb (x_cache (y_set y))) 0 0 0.
Definition advance (lo hi : Z) (C : conf) (t : station) (e : event) (y' : sys) : station :=
  let y := st_y t in
  match e with
  | EPower _ pinb => start C y' pinb
  | _ =>
    mkStation y' (place_after (st_at t) e) (watch_step lo hi y (st_w t) e y') (ui_next C (st_u t) (sensor_error y) e)
      (if busy y && busy y' then st_prog t + ticks_of e else 0)
      (if waiting y && waiting y' && match e with EReady => false | _ => true end then st_irq t + ticks_of e else 0)
      (match e with EButtons pins => if adjust_keys pins then 0 else st_hands t | _ => st_hands t + ticks_of e end)
  end.

(** SPEC: all executions since the first power-up, with power failures (and resets by the watchdog) at any
    time; [lo..hi] is a range of converter codes for [st_w]; only settings meeting [ok] are ever loaded. *)
Inductive loop (S : speed) (lo hi : Z) (C : conf) (ok : settings -> Prop) : station -> Prop :=
  | loop_boot pinb y : is_u8 pinb -> boot C (factory_ee C) pinb = Some y -> loop S lo hi C ok (start C y pinb)
  | loop_step t e y' : loop S lo hi C ok t -> may S C t e -> step C (st_y t) e = Some y' ->
      (is_power e = true -> ok (x_cache (y_set y'))) -> loop S lo hi C ok (advance lo hi C t e y').
Definition any_settings (s : settings) : Prop := True.
Definition adj_99 (s : settings) : Prop := -99 * 64 <= s_adj s <= 99 * 64.

(** SPEC: a sequence of events each of which can happen. *)
Inductive moves (S : speed) (lo hi : Z) (C : conf) : station -> list event -> station -> Prop :=
  | moves_nil t : moves S lo hi C t [] t
  | moves_cons t e l y' t' : may S C t e -> step C (st_y t) e = Some y' ->
      moves S lo hi C (advance lo hi C t e y') l t' -> moves S lo hi C t (e :: l) t'.

(** The longest time from the last press of PLUS or MINUS until the settings are in the EEPROM. *)
Definition safe_ms (S : speed) : Z := 1010 + 4 * h_pass S + store_ms S.
(** Milliseconds in a sequence of events. *)
Definition duration (l : list event) : Z := fold_right (fun e n => ticks_of e + n) 0 l.
(** None of the speeds is zero. *)
Definition finite_speed (S : speed) : Prop := 1 <= h_pass S /\ 1 <= h_sample S /\ 1 <= h_rate S /\ 1 <= h_prog S /\ 1 <= h_irq S.
(** What the watchdog (WDTO_250MS, main.c:79,134) enforces on any main loop, with a margin for its
    oscillator: an iteration takes at most 300 ms, or the station is reset ([EPower]). *)
Definition guarded (S : speed) : Prop := speed_ok S /\ h_pass S <= 300 /\ h_sample S <= 2.
