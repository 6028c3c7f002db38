(** * Specification vocabulary: executions in which the tip stays on one side of the set-point (C96) *)
From Coq Require Import ZArith List Bool.
From Verif Require Import Base MConf MTimer MPid MCurr MSettings SpecSettings MState MMeas MMenu MMain SpecSys SpecRun SpecLive.
Import ListNotations.
Open Scope Z_scope.

(** SPEC: the set-point of C35 is [W], the boost mode is [b], and the gains in use are not smaller than the
    factory gains kp = 1.5 (raw 96), ki = 0.3 (raw 19) and not negative. *)
Definition keen (C : conf) (W b : Z) (y : sys) : bool :=
  (wanted_setpoint (x_cache (y_set y)) (c_idle C && t_idle (y_ct y)) =? W) && (t_boost (y_ct y) =? b) &&
  (96 <=? kp (used_gains C y)) && (19 <=? ki (used_gains C y)) && (0 <=? kd (used_gains C y)).

(** SPEC: executions of [served]; the last number is the time in ms for which [keen] has been true. *)
Inductive tracking (L : limits) (lo hi : Z) (C : conf) (W b : Z) : sys -> watch -> Z -> Prop :=
  | trk_boot pinb y : is_u8 pinb -> boot C (factory_ee C) pinb = Some y -> tracking L lo hi C W b y watch_zero 0
  | trk_power y v pinb y' : reach C y -> ev_ok C y (EPower v pinb) -> step C y (EPower v pinb) = Some y' ->
      -99 * 64 <= s_adj (x_cache (y_set y')) <= 99 * 64 -> tracking L lo hi C W b y' watch_zero 0
  | trk_step y w n e y' : tracking L lo hi C W b y w n -> on_time L C y w e -> step C y e = Some y' ->
      tracking L lo hi C W b y' (watch_step lo hi y w e y')
        (if keen C W b y && keen C W b y' then n + match e with ETick => 1 | _ => 0 end else 0).
