(** * Model of firmware/main.c: initialisation, main loop, interrupts *)
From Coq Require Import ZArith List Bool.
From Verif Require Import Base MConf MTimer MPid MCurr MSettings MSseg MDisplay MState MTemp MMeas MMenu.
Import ListNotations.
Open Scope Z_scope.

(** The zero initialised static variables at the start of main() with EEPROM contents [ee].
    (The settings context is overwritten by settings_init.) *)
Definition sys_reset (ee : Z -> Z) : sys :=
  mkSys 0 (mkBtn 0 0) cc_zero (mkCt false false false 0 0 false pid_zero 0 0) meas_zero
        (mkMcur false 0 0) 0
        (mkMenu MENU_CURTEMP 0 RAMP_NONE 0 0 None 0 0 false false)
        (mkSst 0 false (mkSettings [] 0 [] 0 0 [] 0) 0 0 ee false None)
        disp_zero hw_reset false.

(** pwm_current.c:54-73: OC1A pin as output, high level, and OCR1A *)
Definition sys_pwmcurr_init (y : sys) : sys :=
  let h := y_hw y in
  let h := set_h_portb h (or8 (h_portb h) 2) in
  let h := set_h_ddrb h (or8 (h_ddrb h) 2) in
  set_y_cc (set_y_hw y h) (pwmcurr_init (y_cc y)).

(** main.c:43-60: PB5, PB6, PC0 as inputs with pull up *)
Definition unused_pins_init (h : hw) : hw :=
  let h := set_h_ddrb h (clr8 (h_ddrb h) 32) in
  let h := set_h_portb h (or8 (h_portb h) 32) in
  let h := set_h_ddrb h (clr8 (h_ddrb h) 64) in
  let h := set_h_portb h (or8 (h_portb h) 64) in
  let h := set_h_ddrc h (clr8 (h_ddrc h) 1) in
  set_h_portc h (or8 (h_portc h) 1).

(** main.c:99-135: the part of main() before the loop, with EEPROM contents [ee]; [pinb] is PINB as read by menu_init.
    Interrupts are disabled throughout, so the tick counter stays 0.  timer_init (timer.c:91-104)
    only programs timer 0; the watchdog is not modelled. *)
Definition boot (C : conf) (ee : Z -> Z) (pinb : Z) : option sys :=
  let y := sys_reset ee in
  let y := buttons_init y in
  y <- (if c_debug C then debug_uart_init C y else Some y) ;;
  x <- settings_init C ee ;;
  let y := set_y_set y x in
  '(h, d) <- display_init (y_now y) (y_hw y) (y_disp y) ;;
  let y := set_y_hw (set_y_disp y d) h in
  let y := measure_init y in
  let y := meascurr_init y in
  y <- meastemp_init C y ;;
  c <- contrcurr_init (y_now y) (y_cc y) ;;
  y <- contrtemp_init C (set_y_cc y c) ;;
  let y := sys_pwmcurr_init y in
  y <- menu_init C y pinb ;;
  let y := set_y_hw y (unused_pins_init (y_hw y)) in
  measure_start C y.

(** timer.c:29-33 on the whole state *)
Definition sys_tick (y : sys) : sys := set_y_now y (timer_isr (y_now y)).

(** display.c:149-166 on the whole state *)
Definition sys_display_work (y : sys) : option sys :=
  '(h, d) <- display_work (y_now y) (y_hw y) (y_disp y) ;;
  Some (set_y_disp (set_y_hw y h) d).

(** settings.c:180-209 on the whole state *)
Definition sys_settings_work (C : conf) (y : sys) : sys :=
  set_y_set y (settings_work C (y_now y) (y_set y)).

(** main.c:77-91, one iteration of the main loop in which no interrupt occurs; PINB reads [pinb] *)
Definition main_loop_once (C : conf) (y : sys) (pinb : Z) : option sys :=
  y <- measure_work C y ;;
  y <- menu_work C y ;;
  y <- sys_display_work y ;;
  y <- buttons_work C y pinb ;;
  Some (sys_settings_work C y).
