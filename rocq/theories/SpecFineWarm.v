(** * Specification vocabulary: an iron hotter than its set-point, with interrupts inside the work functions (C110) *)
From Coq Require Import ZArith List Bool.
From Verif Require Import Base MConf MTimer MPid MCurr MSettings SpecSettings MState MMeas MMenu MMain SpecSys SpecRun SpecLive MFine SpecFine SpecFineLive SpecWarm.
Import ListNotations.
Open Scope Z_scope.

(** SPEC: the time in ms for which [eager] of SpecWarm has been true, after one more event. *)
Definition eager_step (C : conf) (W : Z) (y : sys) (n : Z) (e : event) (y' : sys) : Z :=
  if eager C W y && eager C W y' then n + match e with ETick => 1 | _ => 0 end else 0.
(** SPEC: the interrupts inside a work function, each on time, with the stopwatches of SpecLive and that of
    [eager_step]; no code of the current channel is above [chi]. *)
Inductive wpath (L : limits) (lo hi chi : Z) (C : conf) (W : Z) : sys -> watch -> Z -> list event -> sys -> watch -> Z -> Prop :=
  | wpath_nil y w n : wpath L lo hi chi C W y w n [] y w n
  | wpath_cons y w n e l y1 y' w' n' : on_time L C y w e -> step C y e = Some y1 ->
      (forall raw, e = EAdc raw -> m_chan (y_meas y) = 0 -> raw <= chi) ->
      wpath L lo hi chi C W y1 (watch_step lo hi y w e y1) (eager_step C W y n e y1) l y' w' n' -> wpath L lo hi chi C W y w n (e :: l) y' w' n'.
(** SPEC: executions since a power-up as in SpecFineLive.fserved (interrupts inside measure_work, menu_work
    and buttons_work); [n]: the time for which [eager] has been true.  [y1], [w1], [n1]: what the interrupts
    inside alone would have led to.  As in SpecWarm.wanting no code of the current channel was above [chi]. *)
Inductive fwanting (L : limits) (lo hi chi : Z) (C : conf) (W : Z) : sys -> watch -> Z -> Prop :=
  | fwnt_boot pinb y : is_u8 pinb -> boot C (factory_ee C) pinb = Some y -> fwanting L lo hi chi C W y watch_zero 0
  | fwnt_power y v pinb y' : freach C y -> fnext C y (EPower v pinb) y' ->
      -99 * 64 <= s_adj (x_cache (y_set y')) <= 99 * 64 -> fwanting L lo hi chi C W y' watch_zero 0
  | fwnt_step y w n e o y1 w1 n1 y' : fwanting L lo hi chi C W y w n -> wpath L lo hi chi C W y w n (map irq_event (concat o)) y1 w1 n1 ->
      on_time L C y1 w1 e -> fwork C y e o = Some (y', []) ->
      (forall raw, e = EAdc raw -> m_chan (y_meas y1) = 0 -> raw <= chi) ->
      fwanting L lo hi chi C W y' (watch_step lo hi y1 w1 e y') (eager_step C W y1 n1 e y').
