(** * Model of the converter at the level of its registers (measure.c, data sheet of the ATmega88)

    The converter as hardware and the functions of measure.c that program it.  MMeas has only a flag
    [m_adc] instead of the registers; the functions here call those of MMeas for the variables of the
    program and do the register accesses beside them. *)
From Coq Require Import ZArith List Bool.
From Verif Require Import Base MConf MTimer MState MSens MMeas MMenu MMain SpecSys.
Import ListNotations.
Open Scope Z_scope.

(** Data sheet ATmega88, section "Analog-to-Digital Converter": bits of ADCSRA *)
Definition ADEN : Z := 128.
Definition ADSC : Z := 64.
Definition ADATE : Z := 32.
Definition ADIF : Z := 16.
Definition ADIE : Z := 8.

(** The converter.  ADCSRA is kept bit by bit: ADEN, ADATE, ADIF, ADIE and ADPS; ADSC reads 1 while a
    conversion is running.  [a_run] is the conversion in progress, identified by the input selected when it
    started (ADMUX) and the number of times the converter had been switched on ([a_nr]); [a_from] identifies
    the conversion whose result is in the data register.  [a_nr] and [a_from] cannot be read by the program. *)
Record adc : Type := mkAdc {
  a_mux : Z; a_srb : Z; a_did : Z;
  a_en : bool; a_ate : bool; a_if : bool; a_ie : bool; a_ps : Z;
  a_run : option (Z * Z); a_data : Z; a_from : Z * Z; a_nr : Z
}.
(** Reset values *)
Definition adc_reset : adc := mkAdc 0 0 0 false false false false 0 None 0 (0, 0) 0.
(** Reading ADCSRA *)
Definition adcsra (a : adc) : Z :=
  (if a_en a then ADEN else 0) + (match a_run a with Some _ => ADSC | None => 0 end) + (if a_ate a then ADATE else 0) +
  (if a_if a then ADIF else 0) + (if a_ie a then ADIE else 0) + a_ps a.
(** Writing ADCSRA: ADIF is cleared by a one and left alone by a zero; without ADEN a running conversion is
    terminated; a one in ADSC starts a conversion if none is running, a zero has no effect. *)
Definition write_adcsra (a : adc) (v : Z) : adc :=
  let en := negb (Z.land v ADEN =? 0) in
  let nr := if en && negb (a_en a) then a_nr a + 1 else a_nr a in
  mkAdc (a_mux a) (a_srb a) (a_did a) en (negb (Z.land v ADATE =? 0))
    (a_if a && (Z.land v ADIF =? 0)) (negb (Z.land v ADIE =? 0)) (Z.land v 7)
    (if en then
       match a_run a with
       | Some c => Some c
       | None => if Z.land v ADSC =? 0 then None else Some (a_mux a, nr)
       end
     else None)
    (a_data a) (a_from a) nr.
Definition write_admux (a : adc) (v : Z) : adc :=
  mkAdc v (a_srb a) (a_did a) (a_en a) (a_ate a) (a_if a) (a_ie a) (a_ps a) (a_run a) (a_data a) (a_from a) (a_nr a).
Definition write_adcsrb (a : adc) (v : Z) : adc :=
  mkAdc (a_mux a) v (a_did a) (a_en a) (a_ate a) (a_if a) (a_ie a) (a_ps a) (a_run a) (a_data a) (a_from a) (a_nr a).
Definition write_didr0 (a : adc) (v : Z) : adc :=
  mkAdc (a_mux a) (a_srb a) v (a_en a) (a_ate a) (a_if a) (a_ie a) (a_ps a) (a_run a) (a_data a) (a_from a) (a_nr a).
(** The running conversion completes with the result [code]; in free running mode (ADATE, ADTS = 0) the next
    one starts, of the input now selected.  (Other trigger sources are not modelled.) *)
Definition adc_complete (a : adc) (code : Z) : option adc :=
  match a_run a with
  | None => None
  | Some c =>
      Some (mkAdc (a_mux a) (a_srb a) (a_did a) (a_en a) (a_ate a) true (a_ie a) (a_ps a)
              (if a_ate a && (Z.land (a_srb a) 7 =? 0) then Some (a_mux a, a_nr a) else None) code c (a_nr a))
  end.
Fixpoint adc_completes (a : adc) (codes : list Z) : option adc :=
  match codes with
  | [] => Some a
  | c :: r => a <- adc_complete a c ;; adc_completes a r
  end.
(** The processor enters ADC_vect: possible with ADIF and ADIE set, clears ADIF. *)
Definition adc_enter (a : adc) : option adc :=
  if a_if a && a_ie a then
    Some (mkAdc (a_mux a) (a_srb a) (a_did a) (a_en a) (a_ate a) false (a_ie a) (a_ps a) (a_run a) (a_data a) (a_from a) (a_nr a))
  else None.

(** measure.h:9-43: the constants in use *)
Definition MEAS_MUX_ADC1 : Z := 1.
Definition MEAS_MUX_ADC2 : Z := 2.
Definition MEAS_MUX_GND : Z := 15.
Definition MEAS_DID_NONE : Z := 0.
Definition MEAS_DID_ADC1 : Z := 2.
Definition MEAS_DID_ADC2 : Z := 4.
Definition MEAS_PS_64 : Z := 6.
Definition MEAS_REF_AREF : Z := 0.
(** measure.h:67-74: the fields of struct measure_config that MSens.mconfig does not have *)
Record mux_config : Type := mkMux { mx_mux : Z; mx_did : Z; mx_ps : Z; mx_ref : Z }.
(** measure_current.c:107-110 *)
Definition meascurr_mux : mux_config := mkMux MEAS_MUX_ADC2 MEAS_DID_ADC2 MEAS_PS_64 MEAS_REF_AREF.
(** measure_temp.c:88-91 *)
Definition meastemp_mux : mux_config := mkMux MEAS_MUX_ADC1 MEAS_DID_ADC1 MEAS_PS_64 MEAS_REF_AREF.
(** measure.c:78-104: the configuration of a channel *)
Definition chan_mux (id : Z) : option mux_config :=
  if id =? MEAS_CHAN_CURRENT then Some meascurr_mux else if id =? MEAS_CHAN_TEMP then Some meastemp_mux else None.

(** measure.c:142-148 *)
Definition adc_disable (a : adc) : adc :=
  let a := write_adcsra a 0 in
  write_adcsra a (Z.lor (adcsra a) ADIF).
(** measure.c:150-153: the loop ends when ADSC reads 0; the conversions that complete meanwhile are [codes]
    ([None]: it has not ended yet) *)
Fixpoint adc_busywait (a : adc) (codes : list Z) : option adc :=
  if Z.land (adcsra a) ADSC =? 0 then match codes with [] => Some a | _ => None end
  else match codes with [] => None | c :: r => a <- adc_complete a c ;; adc_busywait a r end.
(** measure.c:155-181 *)
Definition adc_trigger (a : adc) (mux ps ref did : Z) (irq freerunning : bool) : adc :=
  let trig := if freerunning then ADATE else 0 in
  let ie := if irq then ADIE else 0 in
  let a := write_didr0 a (Z.lor (a_did a) did) in
  let a := write_admux a (Z.lor ref mux) in
  let a := write_adcsrb a 0 in
  write_adcsra a (Z.lor (Z.lor (Z.lor (Z.lor ADEN ADSC) ps) ie) trig).
(** measure.c:183-202 *)
Definition adc_trigger_next_chan_r (C : conf) (y : sys) (a : adc) : option (sys * adc) :=
  y <- adc_trigger_next_chan C y ;;
  m <- chan_mux (m_chan (y_meas y)) ;;
  Some (y, adc_trigger a (mx_mux m) (mx_ps m) (mx_ref m) (mx_did m) true true).
(** measure.c:270-288: entered with the register state [a]; the conversions [late] complete after the data
    register has been read and before the end of the function (or before the converter is disabled) *)
Definition adc_isr_r (y : sys) (a : adc) (late : list Z) : option (sys * adc) :=
  let raw_adc := a_data a in
  a <- adc_completes a late ;;
  Some (adc_isr y raw_adc, if timer_expired (y_now y) (m_timer (y_meas y)) then adc_disable a else a).
(** measure.c:295-308 *)
Definition measure_work_r (C : conf) (y : sys) (a : adc) : option (sys * adc) :=
  let result_available := m_avail (y_meas y) in
  let y := set_y_meas y (set_m_avail (y_meas y) false) in
  if result_available then
    y <- measure_handle_result C y ;; adc_trigger_next_chan_r C y a
  else Some (y, a).
(** measure.c:327-334: interrupts are disabled; [codes] is what the ground input gives *)
Definition measure_init_r (a : adc) (codes : list Z) : option adc :=
  let a := adc_trigger a MEAS_MUX_GND MEAS_PS_64 MEAS_REF_AREF MEAS_DID_NONE true false in
  a <- adc_busywait a codes ;;
  Some (adc_disable a).
(** main.c:99-135 beside MMain.boot: measure_init (113) and, at the end, measure_start (132, measure.c:290-293) *)
Definition boot_r (y : sys) (codes : list Z) : option adc :=
  a <- measure_init_r adc_reset codes ;;
  m <- chan_mux (m_chan (y_meas y)) ;;
  Some (adc_trigger a (mx_mux m) (mx_ps m) (mx_ref m) (mx_did m) true true).
