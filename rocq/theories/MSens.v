(** * Model of the measurement channel configurations (measure.h, measure_current.c, measure_temp.c) *)
From Coq Require Import ZArith List Bool.
From Verif Require Import Base MFixpt MPwm MTempMap.
Open Scope Z_scope.

(** measure.h:63-93 [struct measure_config]: the fields used by the arithmetic
    (name, mux, did, ps, ref only configure the converter and the debug output). *)
Record mconfig : Type := mkMC {
  mc_avg_ms : Z;
  mc_raw_lo : Z; mc_raw_hi : Z;
  mc_phys_lo : Z; mc_phys_hi : Z;
  mc_plaus_neg : Z; mc_plaus_pos : Z;
  mc_plaus_ms : Z
}.

(** measure_current.c:105-119 *)
Definition meascurr_config : mconfig :=
  mkMC 5 0 65 (amp 0 1) (amp 11 10) CONTRCURR_NEGLIM CONTRCURR_POSLIM 3000.

(** measure_temp.c:85-111; [smd] selects HW_SMD (true) or HW_LEGACY (false). *)
Definition meastemp_config (smd : bool) : mconfig :=
  mkMC 50 (if smd then 210 else 209) (if smd then 411 else 410) (celsius 150) (celsius 480)
       (celsius (-20)) (celsius 500) 3000.

(** measure.h:45 *)
Definition MEASURE_MAX_RESULT : Z := 1023.
(** measure_current.c:34 *)
Definition MEASCURR_FILTER_SHIFT : Z := 4.
