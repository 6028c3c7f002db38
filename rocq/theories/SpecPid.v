(** * Independent specification of the PID law (no model definitions are used here) *)
From Coq Require Import ZArith List.
From Verif Require Import SpecNum.
Open Scope Z_scope.

(** c is the product of the Q.6 numbers a and b, rounded to nearest and saturated. *)
Definition qmul (a b c : Z) : Prop := exists q, nearest_up (a * b) 64 q /\ c = sat24 q.
(** c is the quotient of the Q.6 numbers a and b <> 0, rounded to nearest and saturated. *)
Definition qdiv (a b c : Z) : Prop := exists q, nearest_away (64 * a) b q /\ c = sat24 q.
(** c is a * b / d, the intermediate product being rounded but not saturated. *)
Definition qmuldiv (a b d c : Z) : Prop :=
  exists m q, nearest_up (a * b) 64 m /\ nearest_away (64 * m) d q /\ c = sat24 q.
(** clamp x into [lo,hi] *)
Definition limit (lo hi x : Z) : Z := Z.max lo (Z.min hi x).

(** One step of the discrete PID controller with error decay: set-point [w], measured
    value [r], time step [dt]; integrator [I0] -> [I1], remembered error [E0] -> [E1],
    output [y]:
      e = w - r,  I1 = lim(I0 + ki*e*dt),  y = lim(kp*e + I1 + kd*(e - E0)/dt),  E1 = e/decay. *)
Definition pid_law (kp ki kd decay ilo ihi ylo yhi w I0 E0 dt r y I1 E1 : Z) : Prop :=
  exists P KE A D,
    let e := sat24 (w - r) in
    qmul kp e P /\
    qmul ki e KE /\ qmul KE dt A /\ I1 = limit ilo ihi (sat24 (I0 + A)) /\
    qmuldiv (sat24 (e - E0)) kd dt D /\
    y = limit ylo yhi (sat24 (sat24 (P + I1) + D)) /\
    qdiv e decay E1.
