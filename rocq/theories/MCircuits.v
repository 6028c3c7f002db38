(** * Model of firmware/simulator/circuits: pwm.py, rcnet.py, voltagedivider.py

    Python floats are rational numbers here: rounding is omitted.  sine.py is not modelled. *)
From Coq Require Import QArith Qminmax List Bool.
Import ListNotations.
Open Scope Q_scope.

(** ** pwm.py *)

(** [a < b] and [a >= b] *)
Definition qlt (a b : Q) : bool := negb (Qle_bool b a).
Definition qge (a b : Q) : bool := Qle_bool b a.

(** pwm.py:27-33.  [g_lost]: how often steps were lost (the message of pwm.py:66-70 is printed for the first ten). *)
Record pwmgen : Type := mkGen { g_f : Q; g_duty : Q; g_t : Q; g_out : bool; g_lost : Z }.
(** pwm.py:35-40 *)
Definition pwm_new (f duty : Q) : pwmgen := mkGen (Qmax f 0) (Qmax (Qmin duty 1) 0) 0 false 0.
(** pwm.py:42-44 *)
Definition cycle_dur (g : pwmgen) : Q := 1 / g_f g.
(** pwm.py:46-72 [calc]: the new state; the result is its [g_out] *)
Definition pwm_calc (dt : Q) (g : pwmgen) : pwmgen :=
  if Qeq_bool (g_f g) 0 then g
  else
    let t := g_t g + dt in
    let dur := cycle_dur g in
    let '(out, wrap) :=
      if g_out g then
        if qge t dur then (if qlt (g_duty g) 1 then false else true, true) else (true, false)
      else
        if qge t (dur * (1 - g_duty g)) then
          if qlt 0 (g_duty g) then (true, false) else (false, true)
        else (false, false) in
    if wrap then
      let t := t - dur in
      if qge t dur then mkGen (g_f g) (g_duty g) 0 out (g_lost g + 1)
      else mkGen (g_f g) (g_duty g) t out (g_lost g)
    else mkGen (g_f g) (g_duty g) t out (g_lost g).
Fixpoint pwm_calcs (dts : list Q) (g : pwmgen) : pwmgen :=
  match dts with [] => g | dt :: dts => pwm_calcs dts (pwm_calc dt g) end.

(** ** rcnet.py *)

(** rcnet.py:33-38, without the constants r and c *)
Record rcnet : Type := mkRc { rc_v : Q; rc_i : Q }.
(** rcnet.py:60-69 [calc]; [fact] is the value of math.exp((-1.0 / (r * c)) * dt) *)
Definition rc_calc (r fact vin : Q) (s : rcnet) : rcnet :=
  let dv := vin - rc_v s in
  mkRc (rc_v s + dv * (1 - fact)) ((dv / r) * fact).

(** ** voltagedivider.py *)

(** voltagedivider.py:37-47 [calc]: the current and the result [u2]; u1 is [i * r1] *)
Definition vd_calc (r1 r2 uin : Q) : Q * Q :=
  let i := uin / (r1 + r2) in (i, i * r2).
