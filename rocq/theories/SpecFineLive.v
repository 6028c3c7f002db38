(** * Specification vocabulary: reaction times with interrupts inside the work functions (C97) *)
From Coq Require Import ZArith List Bool.
From Verif Require Import Base MConf MTimer MPid MCurr MSettings SpecSettings MState MMeas MMenu MMain SpecSys SpecRun SpecLive MFine SpecFine.
Import ListNotations.
Open Scope Z_scope.

(** RUN. One event of SpecSys with interrupts inside, as in MFine.fstep; the lists of interrupts that are
    left over are part of the result. *)
Definition fwork (C : conf) (y : sys) (e : event) : F sys :=
  match e with
  | EMeasure => measure_work_f C y
  | EMenu => menu_work_f C y
  | EButtons pinb => buttons_work_f C y pinb
  | _ => lift (step C y e)
  end.

(** SPEC: executions since a power-up with a sensor adjustment of at most 99 degrees, together with the
    stopwatches of SpecLive; see SpecLive.served.  During a work function any interrupts [concat o] happen,
    which also have to be on time; [y1], [w1]: what they alone would have led to.  A result counts as handled,
    and measure_work as called, when measure_work returns: the time spent inside is part of [l_poll]. *)
Inductive fserved (L : limits) (lo hi : Z) (C : conf) : sys -> watch -> Prop :=
  | fsrv_boot pinb y : is_u8 pinb -> boot C (factory_ee C) pinb = Some y -> fserved L lo hi C y watch_zero
  | fsrv_power y v pinb y' : freach C y -> fnext C y (EPower v pinb) y' ->
      -99 * 64 <= s_adj (x_cache (y_set y')) <= 99 * 64 -> fserved L lo hi C y' watch_zero
  | fsrv_step y w e o y1 w1 y' : fserved L lo hi C y w -> path L lo hi C y w (map irq_event (concat o)) y1 w1 ->
      on_time L C y1 w1 e -> fwork C y e o = Some (y', []) -> fserved L lo hi C y' (watch_step lo hi y1 w1 e y').
