(** * Model of the temperature constants and the temperature-to-current map of controller_temp.c *)
From Coq Require Import ZArith List Bool.
From Verif Require Import Base MUtil MFixpt MScale MPwm.
Open Scope Z_scope.

(** controller_temp.h:8 [CELSIUS(n)] as raw fixpt. *)
Definition celsius (n : Z) : Z := fxc n 1.

(** controller_temp.h:33-37 *)
Definition CONTRTEMP_NEGLIM_I : Z := celsius (-30).
Definition CONTRTEMP_POSLIM_I : Z := celsius 80.
Definition CONTRTEMP_NEGLIM : Z := celsius 0.
Definition CONTRTEMP_POSLIM : Z := celsius 480.

(** controller_temp.h:40-43 *)
Definition CONTRTEMP_MAP_TEMPLO : Z := celsius 0.
Definition CONTRTEMP_MAP_CURRLO : Z := amp 0 1.
Definition CONTRTEMP_MAP_TEMPHI : Z := celsius 250.
Definition CONTRTEMP_MAP_CURRHI : Z := amp 5 1.

(** controller_temp.h:46 *)
Definition CONTRTEMP_DEF_IDLE_SETPOINT : Z := celsius 150.

(** controller_temp.c:111-125 *)
Definition temp_to_amps (temp : Z) : option Z :=
  current <- rescale temp CONTRTEMP_MAP_TEMPLO CONTRTEMP_MAP_TEMPHI
                     CONTRTEMP_MAP_CURRLO CONTRTEMP_MAP_CURRHI ;;
  Some (fixpt_clamp current CONTRCURR_NEGLIM CONTRCURR_POSLIM).
