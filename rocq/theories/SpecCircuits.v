(** * Specification vocabulary: the circuits of the simulator (C103) *)
From Coq Require Import QArith List Bool.
Import ListNotations.
Open Scope Q_scope.

(** The sum of the time steps *)
Fixpoint total (dts : list Q) : Q := match dts with [] => 0 | dt :: dts => dt + total dts end.
(** SPEC: [c] is the time since the begin of the cycle at the time [t]. *)
Definition phase (dur t c : Q) : Prop := 0 <= c /\ c < dur /\ exists n : Z, t == inject_Z n * dur + c.
(** SPEC: in a cycle the output is off for the first (1 - duty) of it, then on. *)
Definition pwm_wave (dur duty t : Q) (out : bool) : Prop := exists c, phase dur t c /\ (out = true <-> dur * (1 - duty) <= c).
(** Between two values, whichever is the smaller *)
Definition between (a b x : Q) : Prop := (a <= x /\ x <= b) \/ (b <= x /\ x <= a).
