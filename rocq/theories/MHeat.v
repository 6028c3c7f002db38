(** * Model of timer 1 and its output pin OC1A (PB1), as programmed by pwm_current.c

    pwm_current.c:63-72: mode 14 (fast PWM, TOP = ICR1 = 0x1FFF), prescaler 256, COM1A = 2: the pin is set at
    BOTTOM and cleared at the compare match; it is active low (the heater draws current while it is low,
    pwm_current.c:40-44).  In this mode OCR1A is double buffered: what the program writes (pwm_current.c:51,
    [cc_ocr]) becomes effective at BOTTOM (ATmega88 data sheet, 16.9.3).  OCR1A = TOP gives a constant high
    level, OCR1A = 0 a spike of one timer clock.

    The unit of time is 64 CPU cycles = 8 us (8 MHz).  The prescaler of timer 1 counts 4 of these.  Not
    modelled: the time between reset and pwmcurr_init, in which the pin is an input; the program writes
    OCR1A before it selects the mode (pwm_current.c:62-64), so that the first value is effective at once. *)
From Coq Require Import ZArith List Bool.
From Verif Require Import Base MPwm.
Import ListNotations.
Open Scope Z_scope.

(** Prescaler, TCNT1, the effective compare value, the level of the pin (true: high, no current) *)
Record t1 : Type := mkT1 { w_pre : Z; w_tcnt : Z; w_cmp : Z; w_pin : bool }.
(** pwm_current.c:54-73 some time ago; the level of the pin before the first BOTTOM depends on the output
    latch, which the program does not set: it is left open here, as is the time since pwmcurr_init *)
Definition t1_started (h : t1) : Prop :=
  0 <= w_pre h <= 3 /\ 0 <= w_tcnt h <= PWMCURR_MAX_DUTY /\ w_cmp h = PWMCURR_MAX_DUTY.
(** One clock of the timer; [ocr] is the register OCR1A *)
Definition t1_clock (ocr : Z) (h : t1) : t1 :=
  if w_tcnt h =? PWMCURR_MAX_DUTY then mkT1 0 0 ocr true
  else mkT1 0 (w_tcnt h + 1) (w_cmp h) (if w_tcnt h =? w_cmp h then false else w_pin h).
(** 64 CPU cycles *)
Definition t1_unit (ocr : Z) (h : t1) : t1 :=
  if w_pre h =? 3 then t1_clock ocr h else mkT1 (w_pre h + 1) (w_tcnt h) (w_cmp h) (w_pin h).

(** timer.c:96-100: timer 0 counts 0..125 at CPU clock / 64, that is one tick in 126 units *)
Definition UNITS_PER_TICK : Z := 126.
