(** * Specification vocabulary for the system properties, part 2: measurement histories and safety *)
From Coq Require Import ZArith List Bool.
From Verif Require Import Base SpecNum MConf MTimer MPid MCurr SpecCurr MSettings SpecSettings MSseg MDisplay MState MTemp MMeas MMenu
  MMain SpecDisplay SpecSys.
Import ListNotations.
Open Scope Z_scope.

(** SPEC: this event handles a finished averaging window of channel [chan] (0 current, 1 temperature). *)
Definition result (y : sys) (e : event) (chan : Z) : Prop :=
  e = EMeasure /\ m_avail (y_meas y) = true /\ m_chan (y_meas y) = chan.
(** The floored mean of the samples of the window (see C32). *)
Definition mean_code (y : sys) : Z := m_sum (y_meas y) / m_count (y_meas y).
(** The temperature measured by the window is between -20 and 500 degrees. *)
Definition good_temp (C : conf) (y : sys) : Prop :=
  exists v, temp_of_code C (s_adj (x_cache (y_set y))) (mean_code y) v /\ -20 * 64 <= v <= 500 * 64.

(** SPEC: the commanded heater current is at most [a]/[b] of full scale (5 A); 8191 is no current. *)
Definition duty_at_most (y : sys) (a b : Z) : Prop := b * (8191 - cc_ocr (y_cc y)) <= a * 8191.

(** SPEC for C24-C27: the state of the current controller comes from power-up by a sequence of API
    calls with arguments in the documented ranges. *)
Definition cc_driven (now : Z) (c : cc) : Prop :=
  exists c0 ops, Forall op_ok ops /\ Forall no_fixed_current ops /\ cc_boot = Some c0 /\ cc_exec 0 c0 ops = Some (now, c).

(** SPEC for C26: the last plausible temperature since power-up, if any. *)
Inductive last_good (C : conf) : sys -> option Z -> Prop :=
  | lg_boot pinb y : is_u8 pinb -> boot C (factory_ee C) pinb = Some y -> last_good C y None
  | lg_power y v pinb y' : reach C y -> ev_ok C y (EPower v pinb) -> step C y (EPower v pinb) = Some y' -> last_good C y' None
  | lg_good y o e v y' : last_good C y o -> result y e 1 -> step C y e = Some y' ->
      temp_of_code C (s_adj (x_cache (y_set y))) (mean_code y) v -> -20 * 64 <= v <= 500 * 64 -> last_good C y' (Some v)
  | lg_other y o e y' : last_good C y o -> ev_ok C y e -> step C y e = Some y' -> is_power e = false ->
      ~ (result y e 1 /\ good_temp C y) -> last_good C y' o.

(** SPEC for C29: the temperature sensor is in the failed state and a current has been measured since
    it failed. *)
Inductive dead (C : conf) : sys -> Prop :=
  | dead_start y e y' : reach C y -> t_emerg (y_ct y) = true -> ev_ok C y e -> step C y e = Some y' ->
      result y e 0 -> dead C y'
  | dead_step y e y' : dead C y -> ev_ok C y e -> step C y e = Some y' -> is_power e = false ->
      t_emerg (y_ct y') = true -> dead C y'.

(** SPEC for C30: no plausible temperature since the last power-up. *)
Inductive cold (C : conf) : sys -> Prop :=
  | cold_boot pinb y : is_u8 pinb -> boot C (factory_ee C) pinb = Some y -> cold C y
  | cold_power y v pinb y' : reach C y -> ev_ok C y (EPower v pinb) -> step C y (EPower v pinb) = Some y' -> cold C y'
  | cold_step y e y' : cold C y -> ev_ok C y e -> step C y e = Some y' -> is_power e = false ->
      ~ (result y e 1 /\ good_temp C y) -> cold C y'.

(** SPEC for C31: milliseconds since the clock of a PID was last started: at power-up, at each run,
    and for the temperature controller when it is switched on or off. *)
Inductive temp_clock (C : conf) : sys -> Z -> Prop :=
  | tc_boot pinb y : is_u8 pinb -> boot C (factory_ee C) pinb = Some y -> temp_clock C y 0
  | tc_power y v pinb y' : reach C y -> ev_ok C y (EPower v pinb) -> step C y (EPower v pinb) = Some y' -> temp_clock C y' 0
  | tc_tick y n y' : temp_clock C y n -> step C y ETick = Some y' -> temp_clock C y' (n + 1)
  | tc_restart y n e y' : temp_clock C y n -> ev_ok C y e -> step C y e = Some y' -> is_power e = false ->
      (exists r, temp_processed y e y' r) \/ t_enabled (y_ct y') <> t_enabled (y_ct y) -> temp_clock C y' 0
  | tc_other y n e y' : temp_clock C y n -> ev_ok C y e -> step C y e = Some y' -> is_power e = false -> e <> ETick ->
      ~ (exists r, temp_processed y e y' r) -> t_enabled (y_ct y') = t_enabled (y_ct y) -> temp_clock C y' n.
Inductive curr_clock (C : conf) : sys -> Z -> Prop :=
  | uc_boot pinb y : is_u8 pinb -> boot C (factory_ee C) pinb = Some y -> curr_clock C y 0
  | uc_power y v pinb y' : reach C y -> ev_ok C y (EPower v pinb) -> step C y (EPower v pinb) = Some y' -> curr_clock C y' 0
  | uc_tick y n y' : curr_clock C y n -> step C y ETick = Some y' -> curr_clock C y' (n + 1)
  | uc_restart y n e y' : curr_clock C y n -> ev_ok C y e -> step C y e = Some y' -> is_power e = false ->
      result y e 0 /\ cc_emerg (y_cc y') = 0 -> curr_clock C y' 0
  | uc_other y n e y' : curr_clock C y n -> ev_ok C y e -> step C y e = Some y' -> is_power e = false -> e <> ETick ->
      ~ (result y e 0 /\ cc_emerg (y_cc y') = 0) -> curr_clock C y' n.
(** [dt] is [n] milliseconds in seconds (64 per second), rounded to nearest. *)
Definition ms_to_q6 (n dt : Z) : Prop := 2 * Z.abs (1000 * dt - 64 * n) <= 1000.

(** SPEC for C34: the temperature results since power-up with their times in ms, newest first. *)
Inductive temp_log (C : conf) : sys -> Z -> list (Z * Z) -> Prop :=
  | tl_boot pinb y : is_u8 pinb -> boot C (factory_ee C) pinb = Some y -> temp_log C y 0 []
  | tl_power y v pinb y' : reach C y -> ev_ok C y (EPower v pinb) -> step C y (EPower v pinb) = Some y' -> temp_log C y' 0 []
  | tl_tick y T h y' : temp_log C y T h -> step C y ETick = Some y' -> temp_log C y' (T + 1) h
  | tl_result y T h v y' : temp_log C y T h -> result y EMeasure 1 -> step C y EMeasure = Some y' ->
      temp_of_code C (s_adj (x_cache (y_set y))) (mean_code y) v -> temp_log C y' T ((T, v) :: h)
  | tl_other y T h e y' : temp_log C y T h -> ev_ok C y e -> step C y e = Some y' -> is_power e = false -> e <> ETick ->
      ~ result y e 1 -> temp_log C y' T h.
(** The low-pass filter of the current channel: its accumulator ([None] before the first result) and
    the filtered code.  The first mean is passed through; the accumulator starts with that mean, not
    with 16 times the mean (see C13), so that the next filtered codes are too small. *)
Definition lp_acc (f : option Z) (mean : Z) : Z :=
  match f with None => mean | Some b => b - b / 16 + mean end.
Definition lp_code (f : option Z) (mean : Z) : Z :=
  match f with None => mean | Some b => lp_acc (Some b) mean / 16 end.
Inductive curr_log (C : conf) : sys -> Z -> option Z -> list (Z * Z) -> Prop :=
  | ul_boot pinb y : is_u8 pinb -> boot C (factory_ee C) pinb = Some y -> curr_log C y 0 None []
  | ul_power y v pinb y' : reach C y -> ev_ok C y (EPower v pinb) -> step C y (EPower v pinb) = Some y' -> curr_log C y' 0 None []
  | ul_tick y T f h y' : curr_log C y T f h -> step C y ETick = Some y' -> curr_log C y' (T + 1) f h
  | ul_result y T f h v y' : curr_log C y T f h -> result y EMeasure 0 -> step C y EMeasure = Some y' ->
      curr_of_code (lp_code f (mean_code y)) v ->
      curr_log C y' T (Some (lp_acc f (mean_code y))) ((T, v) :: h)
  | ul_other y T f h e y' : curr_log C y T f h -> ev_ok C y e -> step C y e = Some y' -> is_power e = false -> e <> ETick ->
      ~ result y e 0 -> curr_log C y' T f h.
(** All results since some result at least 3000 ms before the newest one were outside lo..hi. *)
Definition timed_out (lo hi : Z) (h : list (Z * Z)) : Prop :=
  exists h1 t0 v0 h2 t v r, h = h1 ++ (t0, v0) :: h2 /\ h = (t, v) :: r /\ 3000 <= t - t0 /\
    Forall (fun x => snd x < lo \/ hi < snd x) (h1 ++ [(t0, v0)]).
(** Consecutive results are less than 29768 ms apart. *)
Fixpoint gaps_ok (h : list (Z * Z)) : Prop :=
  match h with
  | (t, _) :: (((t', _) :: _) as r) => t - t' < 29768 /\ gaps_ok r
  | _ => True
  end.

(** SPEC for C46: the pins that do not belong to the display: PB1 (heater PWM) is an output; PB0,
    PB2-PB4 (buttons), PB5, PB6, PC0 (unused) are inputs with pull-up; PC1, PC2 (analog) are inputs
    without pull-up. *)
Definition pins_fixed (h : hw) : Prop :=
  high (h_ddrb h) 1 = true /\
  (forall b, In b [0; 2; 3; 4; 5; 6] -> high (h_ddrb h) b = false /\ high (h_portb h) b = true) /\
  high (h_ddrc h) 0 = false /\ high (h_portc h) 0 = true /\
  (forall b, In b [1; 2] -> high (h_ddrc h) b = false /\ high (h_portc h) b = false).

(** SPEC for C33: the channels whose results have been handled since power-up, newest first. *)
Inductive handled (C : conf) : sys -> list Z -> Prop :=
  | hd_boot pinb y : is_u8 pinb -> boot C (factory_ee C) pinb = Some y -> handled C y []
  | hd_power y v pinb y' : reach C y -> ev_ok C y (EPower v pinb) -> step C y (EPower v pinb) = Some y' -> handled C y' []
  | hd_result y h chan e y' : handled C y h -> result y e chan -> step C y e = Some y' -> handled C y' (chan :: h)
  | hd_other y h e y' : handled C y h -> ev_ok C y e -> step C y e = Some y' -> is_power e = false ->
      (forall chan, ~ result y e chan) -> handled C y' h.

(** SPEC for C66: milliseconds since the channel was selected (at power-up, and after each result). *)
Inductive window_age (C : conf) : sys -> Z -> Prop :=
  | wa_boot pinb y : is_u8 pinb -> boot C (factory_ee C) pinb = Some y -> window_age C y 0
  | wa_power y v pinb y' : reach C y -> ev_ok C y (EPower v pinb) -> step C y (EPower v pinb) = Some y' -> window_age C y' 0
  | wa_tick y n y' : window_age C y n -> step C y ETick = Some y' -> window_age C y' (n + 1)
  | wa_result y n chan e y' : window_age C y n -> result y e chan -> step C y e = Some y' -> window_age C y' 0
  | wa_other y n e y' : window_age C y n -> ev_ok C y e -> step C y e = Some y' -> is_power e = false -> e <> ETick ->
      (forall chan, ~ result y e chan) -> window_age C y' n.
(** The averaging time of a channel in ms: temperature 50, current 5. *)
Definition averaging_ms (chan : Z) : Z := if chan =? 1 then 50 else 5.
