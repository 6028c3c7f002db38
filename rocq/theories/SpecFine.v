(** * Executions with interrupts inside the work functions, and specification vocabulary for them *)
From Coq Require Import ZArith List Bool.
From Verif Require Import Base SpecNum MConf MTimer MPid MCurr MSettings SpecSettings MSseg MDisplay MState MTemp
  MMeas MMenu MMain SpecDisplay SpecSys SpecRun MFine.
Import ListNotations.
Open Scope Z_scope.

(** RUN. One event of SpecSys; during measure_work, menu_work and buttons_work any interrupts happen at
    any points. *)
Definition fnext (C : conf) (y : sys) (e : event) (y' : sys) : Prop :=
  ev_ok C y e /\ exists o : plan, fstep C y e o = Some y'.

(** Reachable from the first power-up with the factory EEPROM contents. *)
Inductive freach (C : conf) : sys -> Prop :=
  | freach_boot pinb y : is_u8 pinb -> boot C (factory_ee C) pinb = Some y -> freach C y
  | freach_step y e y' : freach C y -> fnext C y e y' -> freach C y'.
(** The same without a second power-up. *)
Inductive freach1 (C : conf) : sys -> Prop :=
  | freach1_boot pinb y : is_u8 pinb -> boot C (factory_ee C) pinb = Some y -> freach1 C y
  | freach1_step y e y' : freach1 C y -> is_power e = false -> fnext C y e y' -> freach1 C y'.

(** SPEC: the last temperature handed to the running temperature controller was above 480 degrees; see
    SpecSys.too_hot. *)
Inductive ftoo_hot (C : conf) : sys -> Prop :=
  | fhot_now y e y' r : freach C y -> fnext C y e y' -> temp_processed y e y' r -> 480 * 64 < r -> ftoo_hot C y'
  | fhot_still y e y' : ftoo_hot C y -> fnext C y e y' -> is_power e = false ->
      (forall r, temp_processed y e y' r -> 480 * 64 < r) -> ftoo_hot C y'.

(** SPEC: the last plausible temperature since power-up, if any; see SpecRun.last_good. *)
Inductive flast_good (C : conf) : sys -> option Z -> Prop :=
  | flg_boot pinb y : is_u8 pinb -> boot C (factory_ee C) pinb = Some y -> flast_good C y None
  | flg_power y v pinb y' : freach C y -> fnext C y (EPower v pinb) y' -> flast_good C y' None
  | flg_good y o e v y' : flast_good C y o -> result y e 1 -> fnext C y e y' ->
      temp_of_code C (s_adj (x_cache (y_set y))) (mean_code y) v -> -20 * 64 <= v <= 500 * 64 -> flast_good C y' (Some v)
  | flg_other y o e y' : flast_good C y o -> fnext C y e y' -> is_power e = false ->
      ~ (result y e 1 /\ good_temp C y) -> flast_good C y' o.

(** SPEC: the temperature sensor is in the failed state and a current has been measured since it failed;
    see SpecRun.dead. *)
Inductive fdead (C : conf) : sys -> Prop :=
  | fdead_start y e y' : freach C y -> t_emerg (y_ct y) = true -> fnext C y e y' -> result y e 0 -> fdead C y'
  | fdead_step y e y' : fdead C y -> fnext C y e y' -> is_power e = false -> t_emerg (y_ct y') = true -> fdead C y'.

(** SPEC: no plausible temperature since the last power-up; see SpecRun.cold. *)
Inductive fcold (C : conf) : sys -> Prop :=
  | fcold_boot pinb y : is_u8 pinb -> boot C (factory_ee C) pinb = Some y -> fcold C y
  | fcold_power y v pinb y' : freach C y -> fnext C y (EPower v pinb) y' -> fcold C y'
  | fcold_step y e y' : fcold C y -> fnext C y e y' -> is_power e = false ->
      ~ (result y e 1 /\ good_temp C y) -> fcold C y'.
