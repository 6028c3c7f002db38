(** * The analog-to-digital converter (C87)

    [metered C y a l]: the firmware is in state [y] and the converter in state [a] (registers and conversion in
    progress, see MAdc); [l] lists the conversions read by the interrupt handler since the last result was
    handled: the input, the number of the switching on of the converter, the code. *)
From Coq Require Import ZArith List Bool Lia.
From Verif Require Import Base MConf MTimer MCurr MSettings SpecSettings MState MMeas MMenu MMain SpecSys SpecRun MAdc SpecAdc
  PSettingsEx PAdc PAdcEx.
Import ListNotations.
Open Scope Z_scope.

(** Every conversion in an average is one of the input of the channel, against AREF, and was started after the
    converter was last switched on, which is at the beginning of the window. *)
Theorem C87_samples : forall C y a l, build_conf C -> metered C y a l ->
  m_sum (y_meas y) = zsum (codes_of l) /\ m_count (y_meas y) = Z.of_nat (length l) /\
  Forall (fun s => fst s = (input_of (m_chan (y_meas y)), a_nr a) /\ 0 <= snd s <= 1023) l.
Proof. exact adc_samples. Qed.
Print Assumptions C87_samples.
Example C87_ex :
  (exists y a l, metered conf_m88p y a l /\ m_avail (y_meas y) = true /\ l = [((1, 2), 220); ((1, 2), 210); ((1, 2), 200)] /\ a_data a = 230) /\
  exists y a l, metered conf_m88p y a l /\ m_avail (y_meas y) = false /\ m_chan (y_meas y) = 0 /\ l = [((2, 3), 7)].
Proof. exact case87. Qed.

(** The converter is off with no interrupt pending while a result waits to be handled, and otherwise converts
    the input of the channel without a stop, at CPU clock / 64, with its interrupt enabled. *)
Theorem C87_state : forall C y a l, build_conf C -> metered C y a l ->
  if m_avail (y_meas y) then silent a
  else converting (input_of (m_chan (y_meas y))) a /\ (a_if a = true -> a_from a = (input_of (m_chan (y_meas y)), a_nr a)).
Proof. exact adc_state. Qed.
Print Assumptions C87_state.

(** The registers refine the flag of the model: all states are reachable ones, the interrupt and measure_work
    act as the events of [step]; and every reachable state occurs. *)
Theorem C87_refines : forall C y a l, build_conf C -> metered C y a l -> reach C y /\
  (forall late a1 y' a', adc_enter a = Some a1 -> adc_isr_r y a1 late = Some (y', a') -> Forall (fun c => 0 <= c <= 1023) late ->
     m_count (y_meas y) < 65535 -> m_avail (y_meas y) = false /\ step C y (EAdc (a_data a)) = Some y') /\
  (forall y' a', measure_work_r C y a = Some (y', a') -> step C y EMeasure = Some y').
Proof. exact adc_refines. Qed.
Print Assumptions C87_refines.
Theorem C87_every : forall C y, build_conf C -> reach C y -> exists a l, metered C y a l /\ a_if a = false.
Proof. exact adc_every. Qed.
Print Assumptions C87_every.
