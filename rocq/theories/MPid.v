(** * Model of firmware/pid.h, pid.c *)
From Coq Require Import ZArith List Bool.
From Verif Require Import Base MUtil MFixpt.
Import ListNotations.
Open Scope Z_scope.

(** pid.h:7-12 [struct pid_k_set] *)
Record pid_k : Type := mkK { kp : Z; ki : Z; kd : Z; d_decay_div : Z }.

(** pid.h:14-26 [struct pid] (the debug fields pid.h:28-35 only affect the debug
    output and are not modelled) *)
Record pid : Type := mkPid {
  p_k : pid_k;
  p_setpoint : Z;
  p_i_neglim : Z;
  p_i_poslim : Z;
  p_y_neglim : Z;
  p_y_poslim : Z;
  p_prev_e : Z;
  p_integr : Z
}.

(** Zero-initialised static storage. *)
Definition pid_zero : pid := mkPid (mkK 0 0 0 0) 0 0 0 0 0 0 0.

(** pid.c:28-32 *)
Definition pid_reset (p : pid) : pid :=
  mkPid (p_k p) (p_setpoint p) (p_i_neglim p) (p_i_poslim p) (p_y_neglim p) (p_y_poslim p) 0 0.

(** pid.c:34-38 *)
Definition pid_set_factors (p : pid) (k : pid_k) : pid :=
  pid_reset (mkPid k (p_setpoint p) (p_i_neglim p) (p_i_poslim p)
                   (p_y_neglim p) (p_y_poslim p) (p_prev_e p) (p_integr p)).

(** pid.h:50-53 *)
Definition pid_set_setpoint (p : pid) (w : Z) : pid :=
  mkPid (p_k p) w (p_i_neglim p) (p_i_poslim p) (p_y_neglim p) (p_y_poslim p)
        (p_prev_e p) (p_integr p).

(** pid.h:55-58 *)
Definition pid_get_setpoint (p : pid) : Z := p_setpoint p.

(** pid.c:96-112 *)
Definition pid_init (p : pid) (k : pid_k) (i_neglim i_poslim y_neglim y_poslim : Z) : pid :=
  pid_set_factors
    (mkPid (p_k p) (p_setpoint p) i_neglim i_poslim y_neglim y_poslim (p_prev_e p) (p_integr p)) k.

(** pid.c:40-94: returns the new state and the result *)
Definition pid_run (p : pid) (dt r : Z) : option (pid * Z) :=
  e <- fixpt_sub (p_setpoint p) r ;;
  (* P term *)
  pt <- fixpt_mul (kp (p_k p)) e ;;
  (* I term *)
  ie <- fixpt_mul (ki (p_k p)) e ;;
  ied <- fixpt_mul ie dt ;;
  i <- fixpt_add (p_integr p) ied ;;
  let i := cclamp i (p_i_neglim p) (p_i_poslim p) in
  res <- fixpt_add pt i ;;
  (* D term *)
  de <- fixpt_sub e (p_prev_e p) ;;
  d <- fixpt_mul_div de (kd (p_k p)) dt ;;
  pe <- fixpt_div e (d_decay_div (p_k p)) ;;
  res <- fixpt_add res d ;;
  Some (mkPid (p_k p) (p_setpoint p) (p_i_neglim p) (p_i_poslim p)
              (p_y_neglim p) (p_y_poslim p) pe i,
        cclamp res (p_y_neglim p) (p_y_poslim p)).
