(** * Model of the simulated timer and converter (simulator.cxx:277-421)

    The I/O thread of the simulator reads the system time, advances the simulated hardware and runs the pending interrupt
    handlers.  Of the firmware: TIMER0_COMPA_vect, ADC_vect and the switching of the channels in measure.c. *)
From Coq Require Import ZArith List Bool.
From Verif Require Import Base MAdc.
Import ListNotations.
Open Scope Z_scope.

(** ** The timer *)

(** simulator.cxx:76-77; [t_on]: the clock select bits of TCCR0B are not 0; [t_ticks]: how often the handler
    TIMER0_COMPA_vect (timer.c:28-32) ran, [_timer_count_now] without its wrap-around *)
Record simtim : Type := mkTim { t_on : bool; t_prev : Z; t_pend : bool; t_ticks : Z }.
(** simulator.cxx:278-290.  TIMERCPS is 1000 (timer.h:7-11): [count_per_ms] is 1.0 and [call_count >= 1.0] is
    [diff_ms >= 1]; the difference is one of uint64_t. *)
Definition simulate_timer0 (sys : Z) (t : simtim) : simtim :=
  if t_on t then
    if 1 <=? (sys - t_prev t) mod 2 ^ 64 then mkTim true sys true (t_ticks t) else t
  else t.
(** simulator.cxx:268-275 for TIMER0_COMPA_vect *)
Definition run_timer_irq (t : simtim) : simtim :=
  if t_pend t then mkTim (t_on t) (t_prev t) false (t_ticks t + 1) else t.
(** simulator.cxx:402-419, the timer's part of one iteration: the system time and whether interrupts are suspended *)
Definition tim_iter (i : Z * bool) (t : simtim) : simtim :=
  let t := simulate_timer0 (fst i) t in if snd i then t else run_timer_irq t.
Fixpoint tim_iters (is : list (Z * bool)) (t : simtim) : simtim :=
  match is with [] => t | i :: is => tim_iters is (tim_iter i t) end.

(** ** The converter *)

(** simulator.cxx:300-327: the prescaler of the bits ADPS *)
Definition adc_ps (bits : Z) : Z := if (1 <=? bits) && (bits <=? 7) then 2 ^ bits else 1.
(** simulator.cxx:326-327: the duration of a conversion in milliseconds, rounded up *)
Definition conv_runtime_ms (bits : Z) : Z :=
  let hz := 8000000 / adc_ps bits in (1000 * 13 + hz - 1) / hz.

(** Where the I/O thread is: before simulate_adc (simulator.cxx:294-330), after having selected the value of the
    converter of input [m] (370), after simulate_adc *)
Inductive iphase : Type := IBegin | IValue (m : Z) | IEnd.
(** Where the main thread is: outside of adc_trigger_next_chan, before the write to ADMUX (measure.c:178), before the
    write to ADCSRA (measure.c:180) *)
Inductive mphase : Type := MOut | MMux | MSra.
(** ADCSRA: its bits ADSC, ADIE and ADATE are set together by adc_trigger (measure.c:160-181 with irq and freerun) and
    cleared together by adc_disable: [x_sc].  [x_chan]: the input of meas.active_chan.  [x_data]: the input the value in
    the register ADC is of. *)
Record simadc : Type := mkX {
  x_sc : bool; x_mux : Z; x_run : bool; x_start : Z; x_pend : bool; x_data : Z;
  x_chan : Z; x_avail : bool; x_io : iphase; x_m : mphase
}.
(** After measure_start with the input [m] *)
Definition simadc_start (m : Z) : simadc := mkX true m false 0 false 0 m false IBegin MOut.

(** A step of the main thread.  measure_work (measure.c:296-308): takes the result if there is one, then
    adc_trigger_next_chan with the input [next] (183-203), the register writes one by one. *)
Definition xmain (next : Z) (x : simadc) : simadc :=
  match x_m x with
  | MOut =>
      if x_avail x then mkX (x_sc x) (x_mux x) (x_run x) (x_start x) (x_pend x) (x_data x) next false (x_io x) MMux else x
  | MMux => mkX (x_sc x) (x_chan x) (x_run x) (x_start x) (x_pend x) (x_data x) (x_chan x) (x_avail x) (x_io x) MSra
  | MSra => mkX true (x_mux x) (x_run x) (x_start x) (x_pend x) (x_data x) (x_chan x) (x_avail x) (x_io x) MOut
  end.
(** simulator.cxx:372-391: the second part of simulate_adc, ADATE being set with ADSC *)
Definition xconvert (sys m : Z) (x : simadc) : simadc :=
  if x_run x then
    if x_sc x then
      if conv_runtime_ms MEAS_PS_64 <=? (sys - x_start x) mod 2 ^ 64 then
        mkX (x_sc x) (x_mux x) false (x_start x) true m (x_chan x) (x_avail x) IEnd (x_m x)
      else mkX (x_sc x) (x_mux x) (x_run x) (x_start x) (x_pend x) (x_data x) (x_chan x) (x_avail x) IEnd (x_m x)
    else mkX (x_sc x) (x_mux x) false (x_start x) (x_pend x) (x_data x) (x_chan x) (x_avail x) IEnd (x_m x)
  else if x_sc x then mkX (x_sc x) (x_mux x) true sys (x_pend x) (x_data x) (x_chan x) (x_avail x) IEnd (x_m x)
  else mkX (x_sc x) (x_mux x) (x_run x) (x_start x) (x_pend x) (x_data x) (x_chan x) (x_avail x) IEnd (x_m x).
(** What the handler ADC_vect adds to the sum: a value of the input [rd_data]; the sum is taken for that of [rd_chan]. *)
Record rd : Type := mkRd { rd_data : Z; rd_chan : Z }.
(** A step of the I/O thread: [sys] the time, [susp] whether interrupts are suspended, [last] whether the averaging time
    has expired (measure.c:270-288: then the result is available and the converter is switched off).  The handler is one
    step: the main thread does not look at its variables before [x_avail]. *)
Definition xio (sys : Z) (susp last : bool) (x : simadc) : simadc * list rd :=
  match x_io x with
  | IBegin => (mkX (x_sc x) (x_mux x) (x_run x) (x_start x) (x_pend x) (x_data x) (x_chan x) (x_avail x) (IValue (x_mux x)) (x_m x), [])
  | IValue m => (xconvert sys m x, [])
  | IEnd =>
      if negb susp && x_pend x then
        (mkX (if last then false else x_sc x) (x_mux x) (x_run x) (x_start x) false (x_data x) (x_chan x) (x_avail x || last) IBegin (x_m x),
         [mkRd (x_data x) (x_chan x)])
      else (mkX (x_sc x) (x_mux x) (x_run x) (x_start x) (x_pend x) (x_data x) (x_chan x) (x_avail x) IBegin (x_m x), [])
  end.
Inductive xturn : Type := XMain (next : Z) | XIo (sys : Z) (susp last : bool).
Fixpoint xrun (ts : list xturn) (x : simadc) : simadc * list rd :=
  match ts with
  | [] => (x, [])
  | XMain n :: ts => xrun ts (xmain n x)
  | XIo sys susp last :: ts => let '(x, r) := xio sys susp last x in let '(x, rs) := xrun ts x in (x, r ++ rs)
  end.
