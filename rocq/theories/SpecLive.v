(** * Specification vocabulary: executions with bounded delays and reaction times (C68-C71) *)
From Coq Require Import ZArith List Bool.
From Verif Require Import Base MConf MTimer MPid MCurr MSettings SpecSettings MState MMeas MMenu MMain SpecSys SpecRun.
Import ListNotations.
Open Scope Z_scope.

(** SPEC: what is known about the speed of the hardware and of the main loop: while the converter is on a
    conversion completes at least every [l_sample] ms, at most [l_rate] per ms; measure_work is called at
    least every [l_poll] ms. *)
Record limits : Type := mkLimits { l_sample : Z; l_poll : Z; l_rate : Z }.
Definition limits_ok (L : limits) : Prop :=
  0 <= l_sample L /\ 0 <= l_poll L /\ 0 <= l_rate L /\ l_rate L * (51 + l_sample L + l_poll L) < 65535 /\
  l_sample L + l_poll L <= 1000.

(** SPEC: stopwatches of an observer, in ms; [lo..hi] is a range of converter codes:
    [v_age] since the running averaging window began, [v_sample] since the last conversion (or the
    beginning of the window), [v_poll] since the last call of measure_work, [v_conv] conversions in this ms,
    [v_temp] and [v_curr] since the last result of the channel (or power-up), [v_last] the last temperature
    result: mean code, [v_steady] since a conversion of the temperature channel gave a code outside of
    lo..hi (or power-up), [v_calm] since the temperature controller was off or the sensor adjustment
    changed, [v_failed] since the temperature sensor was last not considered failed. *)
Record watch : Type := mkWatch {
  v_age : Z; v_sample : Z; v_poll : Z; v_conv : Z; v_temp : Z; v_curr : Z; v_last : option Z;
  v_steady : Z; v_calm : Z; v_failed : Z
}.
Definition watch_zero : watch := mkWatch 0 0 0 0 0 0 None 0 0 0.
Definition watch_tick (w : watch) : watch :=
  mkWatch (v_age w + 1) (v_sample w + 1) (v_poll w + 1) 0 (v_temp w + 1) (v_curr w + 1) (v_last w)
          (v_steady w + 1) (v_calm w + 1) (v_failed w + 1).
Definition watch_adc (lo hi : Z) (y : sys) (w : watch) (raw : Z) : watch :=
  if m_adc (y_meas y) then
    mkWatch (v_age w) 0 (v_poll w) (v_conv w + 1) (v_temp w) (v_curr w) (v_last w)
            (if (m_chan (y_meas y) =? 1) && negb ((lo <=? raw) && (raw <=? hi)) then 0 else v_steady w)
            (v_calm w) (v_failed w)
  else w.
Definition watch_poll (y : sys) (w : watch) : watch :=
  if m_avail (y_meas y) then
    if m_chan (y_meas y) =? 1
    then mkWatch 0 0 0 (v_conv w) 0 (v_curr w) (Some (mean_code y)) (v_steady w) (v_calm w) (v_failed w)
    else mkWatch 0 0 0 (v_conv w) (v_temp w) 0 (v_last w) (v_steady w) (v_calm w) (v_failed w)
  else mkWatch (v_age w) (v_sample w) 0 (v_conv w) (v_temp w) (v_curr w) (v_last w) (v_steady w) (v_calm w) (v_failed w).
(** The last two stopwatches, from the states before and after an event. *)
Definition watch_state (y y' : sys) (w : watch) : watch :=
  mkWatch (v_age w) (v_sample w) (v_poll w) (v_conv w) (v_temp w) (v_curr w) (v_last w) (v_steady w)
          (if t_enabled (y_ct y) && t_enabled (y_ct y') && (s_adj (x_cache (y_set y)) =? s_adj (x_cache (y_set y'))) then v_calm w else 0)
          (if t_emerg (y_ct y) && t_emerg (y_ct y') then v_failed w else 0).
Definition watch_step (lo hi : Z) (y : sys) (w : watch) (e : event) (y' : sys) : watch :=
  watch_state y y'
    (match e with
     | ETick => watch_tick w
     | EAdc raw => watch_adc lo hi y w raw
     | EMeasure => watch_poll y w
     | _ => w
     end).

(** SPEC: the event respects the speeds: time goes on only if neither a conversion nor measure_work is
    overdue.  (Nothing is assumed about the other parts of the main loop.) *)
Definition on_time (L : limits) (C : conf) (y : sys) (w : watch) (e : event) : Prop :=
  match e with
  | ETick => (m_adc (y_meas y) = true -> v_sample w < l_sample L) /\ v_poll w < l_poll L
  | EAdc raw => 0 <= raw <= 1023 /\ (m_adc (y_meas y) = true -> v_conv w < l_rate L)
  | EPower _ _ => False
  | _ => ev_ok C y e
  end.

(** SPEC: executions since a power-up with a sensor adjustment of at most 99 degrees, together with the
    stopwatches. *)
Inductive served (L : limits) (lo hi : Z) (C : conf) : sys -> watch -> Prop :=
  | srv_boot pinb y : is_u8 pinb -> boot C (factory_ee C) pinb = Some y -> served L lo hi C y watch_zero
  | srv_power y v pinb y' : reach C y -> ev_ok C y (EPower v pinb) -> step C y (EPower v pinb) = Some y' ->
      -99 * 64 <= s_adj (x_cache (y_set y')) <= 99 * 64 -> served L lo hi C y' watch_zero
  | srv_step y w e y' : served L lo hi C y w -> on_time L C y w e -> step C y e = Some y' ->
      served L lo hi C y' (watch_step lo hi y w e y').

(** The slowest window and the slowest cycle of two windows. *)
Definition slow_window (L : limits) : Z := 50 + l_sample L + l_poll L.
Definition slow_cycle (L : limits) : Z := 55 + 2 * l_sample L + 2 * l_poll L.

(** SPEC: the events [l], each on time, lead from [y], [w] to [y'], [w']. *)
Inductive path (L : limits) (lo hi : Z) (C : conf) : sys -> watch -> list event -> sys -> watch -> Prop :=
  | path_nil y w : path L lo hi C y w [] y w
  | path_cons y w e l y1 y' w' : on_time L C y w e -> step C y e = Some y1 ->
      path L lo hi C y1 (watch_step lo hi y w e y1) l y' w' -> path L lo hi C y w (e :: l) y' w'.
