(** * Specification vocabulary: executions in which the tip is cold and hot tip is wanted (C86) *)
From Coq Require Import ZArith List Bool.
From Verif Require Import Base MConf MTimer MPid MCurr MSettings SpecSettings MState MMeas MMenu MMain SpecSys SpecRun SpecLive.
Import ListNotations.
Open Scope Z_scope.

(** SPEC: the set-point of C35 is [W] and the gains in use are not smaller than the factory gain
    kp = 1.5 (raw 96), and not negative. *)
Definition eager (C : conf) (W : Z) (y : sys) : bool :=
  (wanted_setpoint (x_cache (y_set y)) (c_idle C && t_idle (y_ct y)) =? W) &&
  (96 <=? kp (used_gains C y)) && (0 <=? ki (used_gains C y)) && (0 <=? kd (used_gains C y)).

(** SPEC: executions of [served] in which the codes of the current channel have never been above [chi] since
    power-up; the last number is the time in ms for which [eager] has been true. *)
Inductive wanting (L : limits) (lo hi chi : Z) (C : conf) (W : Z) : sys -> watch -> Z -> Prop :=
  | want_boot pinb y : is_u8 pinb -> boot C (factory_ee C) pinb = Some y -> wanting L lo hi chi C W y watch_zero 0
  | want_power y v pinb y' : reach C y -> ev_ok C y (EPower v pinb) -> step C y (EPower v pinb) = Some y' ->
      -99 * 64 <= s_adj (x_cache (y_set y')) <= 99 * 64 -> wanting L lo hi chi C W y' watch_zero 0
  | want_step y w n e y' : wanting L lo hi chi C W y w n -> on_time L C y w e -> step C y e = Some y' ->
      (forall raw, e = EAdc raw -> m_chan (y_meas y) = 0 -> raw <= chi) ->
      wanting L lo hi chi C W y' (watch_step lo hi y w e y')
        (if eager C W y && eager C W y' then n + match e with ETick => 1 | _ => 0 end else 0).
