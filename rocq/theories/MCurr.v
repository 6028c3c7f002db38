(** * Model of firmware/controller_current.c

    The state is [struct current_contr_context] (controller_current.c:52-71, without its
    debug fields) plus the PWM compare register OCR1A that [pwmcurr_set] writes. *)
From Coq Require Import ZArith List Bool.
From Verif Require Import Base MUtil MFixpt MScale MFilter MTimer MPid MPwm.
Open Scope Z_scope.

(** controller_current.c:46-50 *)
Inductive rstate : Type := RDisabled | RSyncing | REnabled.

(** controller_current.c:52-64 *)
Record cc : Type := mkCc {
  cc_enabled : bool;
  cc_restricted : bool;
  cc_emerg : Z;              (* uint8_t emergency_flags *)
  cc_pid : pid;
  cc_rstate : rstate;
  cc_feedback : Z;
  cc_prev_y : Z;
  cc_timer : Z;
  cc_model : Z;              (* lp_filter_fixpt buffer *)
  cc_ocr : Z                 (* OCR1A *)
}.

(** Field updates. *)
Definition cc_set_enabled c v := mkCc v (cc_restricted c) (cc_emerg c) (cc_pid c) (cc_rstate c) (cc_feedback c) (cc_prev_y c) (cc_timer c) (cc_model c) (cc_ocr c).
Definition cc_set_restricted c v := mkCc (cc_enabled c) v (cc_emerg c) (cc_pid c) (cc_rstate c) (cc_feedback c) (cc_prev_y c) (cc_timer c) (cc_model c) (cc_ocr c).
Definition cc_set_emerg c v := mkCc (cc_enabled c) (cc_restricted c) v (cc_pid c) (cc_rstate c) (cc_feedback c) (cc_prev_y c) (cc_timer c) (cc_model c) (cc_ocr c).
Definition cc_set_pid c v := mkCc (cc_enabled c) (cc_restricted c) (cc_emerg c) v (cc_rstate c) (cc_feedback c) (cc_prev_y c) (cc_timer c) (cc_model c) (cc_ocr c).
Definition cc_set_rstate c v := mkCc (cc_enabled c) (cc_restricted c) (cc_emerg c) (cc_pid c) v (cc_feedback c) (cc_prev_y c) (cc_timer c) (cc_model c) (cc_ocr c).
Definition cc_set_feedback c v := mkCc (cc_enabled c) (cc_restricted c) (cc_emerg c) (cc_pid c) (cc_rstate c) v (cc_prev_y c) (cc_timer c) (cc_model c) (cc_ocr c).
Definition cc_set_prev_y c v := mkCc (cc_enabled c) (cc_restricted c) (cc_emerg c) (cc_pid c) (cc_rstate c) (cc_feedback c) v (cc_timer c) (cc_model c) (cc_ocr c).
Definition cc_set_timer c v := mkCc (cc_enabled c) (cc_restricted c) (cc_emerg c) (cc_pid c) (cc_rstate c) (cc_feedback c) (cc_prev_y c) v (cc_model c) (cc_ocr c).
Definition cc_set_model c v := mkCc (cc_enabled c) (cc_restricted c) (cc_emerg c) (cc_pid c) (cc_rstate c) (cc_feedback c) (cc_prev_y c) (cc_timer c) v (cc_ocr c).
Definition cc_set_ocr c v := mkCc (cc_enabled c) (cc_restricted c) (cc_emerg c) (cc_pid c) (cc_rstate c) (cc_feedback c) (cc_prev_y c) (cc_timer c) (cc_model c) v.

(** Static storage is zero: [r_state] is then RSTATE_DISABLED (= 0).  The reset value of
    OCR1A is 0 (ATmega88 data sheet). *)
Definition cc_zero : cc := mkCc false false 0 pid_zero RDisabled 0 0 0 0 0.

(** controller_current.h:11-14, controller_current.c:75-80 *)
Definition contrcurr_factors : pid_k := mkK (fxc 18 10) (fxc 2 1) (fxc 0 1) (fxc 2 1).
(** controller_current.h:17-18 *)
Definition CONTRCURR_NEGLIM_I : Z := amp (-5) 10.
Definition CONTRCURR_POSLIM_I : Z := amp 5 10.
(** controller_current.h:24-25 *)
Definition CONTRCURR_RESTRICT_TOTEMP : Z := fxc 100 1.
Definition CONTRCURR_RESTRICT_MAXCURR : Z := amp 2 1.
(** controller_current.h:28-30 with the Makefile defaults CONF_CURRCUTOFF=1.8, CONF_CURRCUTOFFHYST=0.1 *)
Definition CONTRCURR_PID_CUTOFF_HI : Z := amp 18 10.
Definition CONTRCURR_PID_CUTOFF_LO : Z := amp 17 10.
(** controller_current.h:40-43 *)
Definition EMERG_UNPLAUS_FEEDBACK : Z := 1.
Definition EMERG_HIGH_TEMP : Z := 2.

(** controller_current.c:93-95 and controller_temp.c:138-140: the time step in seconds. *)
Definition dt_seconds (now timer : Z) : option Z :=
  ms <- timer_ms_since now timer ;;
  a <- int_to_fixpt ms ;;
  b <- int_to_fixpt 1000 ;;
  fixpt_div a b.

(** pwm_current.c:36-52 on the register state *)
Definition cc_pwm (c : cc) (amps : Z) : option cc :=
  d <- pwmcurr_set amps ;; Some (cc_set_ocr c d).

(** controller_current.c:115-123: case RSTATE_SYNCING; returns the context and [r] *)
Definition cc_syncing (c : cc) (real_r : Z) : option (cc * Z) :=
  d24 <- int_to_fixpt 24 ;;
  '(b, r) <- lp_filter_fixpt_run (cc_model c) real_r d24 ;;
  let c := cc_set_model c b in
  diff <- fixpt_sub r real_r ;;
  Some (if fixpt_abs diff <? amp 1 10 then cc_set_rstate c REnabled else c, r).

(** controller_current.c:97-133: selection of the feedback value *)
Definition cc_select_r (c : cc) (real_r : Z) : option (cc * Z) :=
  match cc_rstate c with
  | RDisabled =>
    if real_r <=? CONTRCURR_PID_CUTOFF_LO then
      cc_syncing (cc_set_rstate c RSyncing) real_r
    else
      d16 <- int_to_fixpt 16 ;;
      '(b, r) <- lp_filter_fixpt_run (cc_model c) (cc_prev_y c) d16 ;;
      Some (cc_set_model c b, r)
  | RSyncing => cc_syncing c real_r
  | REnabled =>
    if CONTRCURR_PID_CUTOFF_HI <=? real_r then
      Some (cc_set_model (cc_set_rstate c RDisabled) (lp_filter_fixpt_set real_r), real_r)
    else Some (c, real_r)
  end.

(** controller_current.c:83-157 (debug reports omitted) *)
Definition contrcurr_run (now : Z) (c : cc) (real_r : Z) : option cc :=
  if negb (cc_enabled c) then Some c
  else if negb (cc_emerg c =? 0) then Some c
  else
    dt <- dt_seconds now (cc_timer c) ;;
    let c := cc_set_timer c (timer_set_now now) in
    '(c, r) <- cc_select_r c real_r ;;
    '(p, y) <- pid_run (cc_pid c) dt r ;;
    let c := cc_set_pid c p in
    let y := if cc_restricted c then
               if CONTRCURR_RESTRICT_MAXCURR <? y then CONTRCURR_RESTRICT_MAXCURR else y
             else y in
    cc_pwm (cc_set_prev_y c y) y.

(** controller_current.c:159-169 *)
Definition contrcurr_set_feedback (now : Z) (c : cc) (r : Z) : option cc :=
  let c := if negb (r =? cc_feedback c) then cc_set_feedback c r else c in
  contrcurr_run now c r.

(** controller_current.c:171-174 *)
Definition contrcurr_set_setpoint (c : cc) (w : Z) : cc :=
  cc_set_pid c (pid_set_setpoint (cc_pid c) w).

(** controller_current.c:176-179 *)
Definition contrcurr_set_restricted (c : cc) (restricted : bool) : cc :=
  cc_set_restricted c restricted.

(** controller_current.c:181-207 *)
Definition contrcurr_set_enabled (now : Z) (c : cc) (enable : bool) (percent : Z) : option cc :=
  c <- (if negb (Bool.eqb enable (cc_enabled c)) then
          let c := cc_set_enabled c enable in
          z <- int_to_fixpt 0 ;;
          c <- cc_pwm c z ;;
          let c := cc_set_pid c (pid_reset (cc_pid c)) in
          let c := cc_set_rstate c REnabled in
          let c := cc_set_prev_y c z in
          Some (cc_set_timer c (timer_set_now now))
        else Some c) ;;
  if negb enable then
    y <- scale percent 0 100 CONTRCURR_NEGLIM CONTRCURR_POSLIM ;;
    cc_pwm c y
  else Some c.

(** controller_current.c:209-220 *)
Definition contrcurr_set_emerg (c : cc) (flags : Z) : option cc :=
  if negb (flags =? cc_emerg c) then
    let c := cc_set_emerg c flags in
    if negb (flags =? 0) then cc_pwm c CONTRCURR_NEGLIM else Some c
  else Some c.

(** controller_current.c:222-225 *)
Definition contrcurr_get_emerg (c : cc) : Z := cc_emerg c.

(** controller_current.c:227-249 *)
Definition contrcurr_init (now : Z) (c : cc) : option cc :=
  let c := cc_set_pid c (pid_init (cc_pid c) contrcurr_factors CONTRCURR_NEGLIM_I CONTRCURR_POSLIM_I
                                  CONTRCURR_NEGLIM CONTRCURR_POSLIM) in
  c <- contrcurr_set_enabled now c true 0 ;;
  c <- contrcurr_set_emerg c 0 ;;
  Some (contrcurr_set_restricted c true).

(** pwm_current.c:54-73: only OCR1A is state here; the pin set-up is in MSys. *)
Definition pwmcurr_init (c : cc) : cc := cc_set_ocr c (u16 PWMCURR_MAX_DUTY).
