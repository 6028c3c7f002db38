(** * Model of firmware/pwm_current.c and the constants of controller_current.h *)
From Coq Require Import ZArith List Bool.
From Verif Require Import Base MUtil MFixpt MScale.
Open Scope Z_scope.

(** controller_current.h:10 [AMPERE(n/d)] as raw fixpt: currents are in 1/10 A. *)
Definition amp (n d : Z) : Z := fxc (10 * n) d.

(** controller_current.h:20-21 *)
Definition CONTRCURR_NEGLIM : Z := amp 0 1.
Definition CONTRCURR_POSLIM : Z := amp 5 1.

(** pwm_current.c:33 *)
Definition PWMCURR_MAX_DUTY : Z := 8191.

(** pwm_current.c:36-52: the value written to OCR1A *)
Definition pwmcurr_set (current_amps : Z) : option Z :=
  d <- unscale current_amps CONTRCURR_NEGLIM CONTRCURR_POSLIM (s16 PWMCURR_MAX_DUTY) 0 ;;
  Some (u16 d).
