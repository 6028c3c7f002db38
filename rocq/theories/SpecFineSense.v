(** * Specification vocabulary: the current sensor, with interrupts inside the work functions (C109) *)
From Coq Require Import ZArith List Bool.
From Verif Require Import Base MConf MTimer MPid MCurr MSettings SpecSettings MState MMeas MMenu MMain SpecSys SpecRun SpecLive MFine SpecFine SpecFineLive SpecSense.
Import ListNotations.
Open Scope Z_scope.

(** SPEC: the interrupts inside a work function, each on time, with the stopwatches of SpecLive and the
    stopwatch of SpecSense. *)
Inductive spath (L : limits) (lo hi : Z) (C : conf) : sys -> watch -> Z -> list event -> sys -> watch -> Z -> Prop :=
  | spath_nil y w s : spath L lo hi C y w s [] y w s
  | spath_cons y w s e l y1 y' w' s' : on_time L C y w e -> step C y e = Some y1 ->
      spath L lo hi C y1 (watch_step 0 1023 y w e y1) (sense_step lo hi y s e) l y' w' s' -> spath L lo hi C y w s (e :: l) y' w' s'.
(** SPEC: executions since a power-up as in SpecFineLive.fserved (interrupts inside measure_work, menu_work
    and buttons_work); [s]: the time for which all codes of the current channel have been in lo..hi. *)
Inductive fsensed (L : limits) (lo hi : Z) (C : conf) : sys -> watch -> Z -> Prop :=
  | fsns_boot pinb y : is_u8 pinb -> boot C (factory_ee C) pinb = Some y -> fsensed L lo hi C y watch_zero 0
  | fsns_power y v pinb y' : freach C y -> fnext C y (EPower v pinb) y' ->
      -99 * 64 <= s_adj (x_cache (y_set y')) <= 99 * 64 -> fsensed L lo hi C y' watch_zero 0
  | fsns_step y w s e o y1 w1 s1 y' : fsensed L lo hi C y w s -> spath L lo hi C y w s (map irq_event (concat o)) y1 w1 s1 ->
      on_time L C y1 w1 e -> fwork C y e o = Some (y', []) ->
      fsensed L lo hi C y' (watch_step 0 1023 y1 w1 e y') (sense_step lo hi y1 s1 e).
