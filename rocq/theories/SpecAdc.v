(** * Specification vocabulary: the firmware together with the converter (C87) *)
From Coq Require Import ZArith List Bool.
From Verif Require Import Base MConf MTimer MCurr MSettings SpecSettings MState MMeas MMenu MMain SpecSys SpecRun MAdc.
Import ListNotations.
Open Scope Z_scope.

(** SPEC: a conversion that the program has read: the input (ADMUX), the number of times the converter had been
    switched on when it started, the code. *)
Definition sample : Type := (Z * Z * Z)%type.

(** SPEC: executions of the firmware with the converter.  [metered C y a l]: the program is in state [y] and the
    converter in state [a]; [l] lists the conversions whose interrupt was served since the last result was
    handled (or power-up).  The interrupt is served between the other events, not necessarily soon; further
    conversions may complete while its handler runs.  As in [ev_ok], a window has less than 65535 conversions. *)
Inductive metered (C : conf) : sys -> adc -> list sample -> Prop :=
  | met_boot pinb y codes a : is_u8 pinb -> boot C (factory_ee C) pinb = Some y -> boot_r y codes = Some a -> metered C y a []
  | met_convert y a l code a' : metered C y a l -> 0 <= code <= 1023 -> adc_complete a code = Some a' -> metered C y a' l
  | met_irq y a l late a1 y' a' : metered C y a l -> adc_enter a = Some a1 -> adc_isr_r y a1 late = Some (y', a') ->
      Forall (fun c => 0 <= c <= 1023) late -> m_count (y_meas y) < 65535 ->
      metered C y' a' ((a_from a, a_data a) :: l)
  | met_measure y a l y' a' : metered C y a l -> measure_work_r C y a = Some (y', a') ->
      metered C y' a' (if m_avail (y_meas y) then [] else l)
  | met_other y a l e y' : metered C y a l -> ev_ok C y e -> step C y e = Some y' -> is_power e = false ->
      e <> EMeasure -> (forall raw, e <> EAdc raw) -> metered C y' a l
  | met_power y a l v pinb y' codes a' : metered C y a l -> ev_ok C y (EPower v pinb) -> step C y (EPower v pinb) = Some y' ->
      boot_r y' codes = Some a' -> metered C y' a' [].

(** SPEC: the input of a channel with the reference voltage at AREF: the current (0) is at ADC2, the temperature
    (1) at ADC1. *)
Definition input_of (chan : Z) : Z := if chan =? 0 then 2 else 1.
(** SPEC: the converter is running freely with the interrupt enabled, its clock the CPU clock divided by 64 and
    the digital input of the pin disabled; the conversion in progress is of the input [i]. *)
Definition converting (i : Z) (a : adc) : Prop :=
  a_en a = true /\ a_ate a = true /\ a_srb a = 0 /\ a_ie a = true /\ a_ps a = 6 /\ a_mux a = i /\ Z.testbit (a_did a) i = true /\
  a_run a = Some (i, a_nr a).
(** SPEC: the converter is off and will not interrupt the program. *)
Definition silent (a : adc) : Prop := a_en a = false /\ a_run a = None /\ a_if a = false /\ a_ie a = false.
Definition codes_of (l : list sample) : list Z := map snd l.
