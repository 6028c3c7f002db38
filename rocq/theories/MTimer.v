(** * Model of firmware/timer.c (TIMER_CPS 1000, TIMER_BITLEN 16: timer.h:7-19)

    The tick counter [_timer_count_now] is passed as [now] (a 16-bit value); a
    [struct timer] is its [count] field. *)
From Coq Require Import ZArith List Bool.
From Verif Require Import Base MUtil.
Open Scope Z_scope.

(** timer.h:8 *)
Definition TIMER_CPS : Z := 1000.

(** timer.c:29-33: TIMER0_COMPA interrupt *)
Definition timer_isr (now : Z) : Z := u16 (now + 1).

(** timer.c:47-51 *)
Definition timer_ms_to_count (millisec : Z) : option Z :=
  p <- chk32 (TIMER_CPS * millisec) ;;
  q <- sdiv_round_up p 1000 ;;
  Some (s16 q).

(** timer.c:53-57 *)
Definition timer_count_to_ms (count : Z) : option Z :=
  p <- chk32 (count * 1000) ;; sdiv_round p TIMER_CPS.

(** timer.c:59-62 (unsigned 16-bit subtraction, converted to signed) *)
Definition timer_count_since (now timer : Z) : Z := s16 (u16 (now - timer)).

(** timer.c:64-67 *)
Definition timer_expired (now timer : Z) : bool := 0 <=? timer_count_since now timer.

(** timer.c:69-72 *)
Definition timer_ms_since (now timer : Z) : option Z :=
  timer_count_to_ms (timer_count_since now timer).

(** timer.c:74-78 *)
Definition timer_arm (now millisec : Z) : option Z :=
  c <- timer_ms_to_count millisec ;; Some (u16 (now + u16 c)).

(** timer.c:80-83 *)
Definition timer_set_now (now : Z) : Z := now.

(** timer.c:85-89 *)
Definition timer_add (timer millisec : Z) : option Z :=
  c <- timer_ms_to_count millisec ;; Some (u16 (timer + u16 c)).

(** timer.c:91-104: hardware configuration of timer 0: CTC mode with OCR0A = 125,
    prescaler 64, CPU clock 8 MHz.  In CTC mode the counter runs 0..OCR0A, i.e. the
    compare interrupt period is (OCR0A + 1) prescaled cycles (ATmega88 data sheet). *)
Definition F_CPU : Z := 8000000.
Definition OCR0A : Z := 125.
Definition T0_PRESCALER : Z := 64.
Definition tick_cpu_cycles : Z := (OCR0A + 1) * T0_PRESCALER.
