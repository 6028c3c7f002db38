(** * Call sequences of the current controller API and specifications for C24-C27 *)
From Coq Require Import ZArith List Bool.
From Verif Require Import Base MCurr.
Import ListNotations.
Open Scope Z_scope.

(** RUN. The calls of controller_current.h; [OTime t] lets time pass until the tick
    counter shows [t]. *)
Inductive cc_op : Type :=
| OTime (t : Z)
| OFeedback (r : Z)
| OSetpoint (w : Z)
| ORestricted (b : bool)
| OEnabled (b : bool) (percent : Z)
| OEmerg (flags : Z).

Definition cc_step (now : Z) (c : cc) (o : cc_op) : option (Z * cc) :=
  match o with
  | OTime t => Some (t, c)
  | OFeedback r => c' <- contrcurr_set_feedback now c r ;; Some (now, c')
  | OSetpoint w => Some (now, contrcurr_set_setpoint c w)
  | ORestricted b => Some (now, contrcurr_set_restricted c b)
  | OEnabled b p => c' <- contrcurr_set_enabled now c b p ;; Some (now, c')
  | OEmerg f => c' <- contrcurr_set_emerg c f ;; Some (now, c')
  end.

Fixpoint cc_exec (now : Z) (c : cc) (ops : list cc_op) : option (Z * cc) :=
  match ops with
  | [] => Some (now, c)
  | o :: t => '(n, c') <- cc_step now c o ;; cc_exec n c' t
  end.

(** The state after power-up: zeroed memory, [contrcurr_init], [pwmcurr_init]
    (main.c:113-124). *)
Definition cc_boot : option cc := c <- contrcurr_init 0 cc_zero ;; Some (pwmcurr_init c).

(** SPEC: arguments of the calls the firmware makes: currents in 0..5 A (raw 0..3200),
    percentages 0..100. *)
Definition op_ok (o : cc_op) : Prop :=
  match o with
  | OTime t => is_u16 t
  | OFeedback r => 0 <= r <= 3200
  | OSetpoint w => 0 <= w <= 3200
  | OEnabled _ p => 0 <= p <= 100
  | OEmerg f => is_u8 f
  | ORestricted _ => True
  end.

(** SPEC: the call does not ask for a fixed current while the controller is off. *)
Definition no_fixed_current (o : cc_op) : Prop :=
  match o with OEnabled false p => p = 0 | _ => True end.

(** SPEC: the source of the PID's feedback as an automaton over what can be observed from
    outside: the real feedback [r] and the value [used] by the PID. *)
Inductive src : Type := Real | Model | Resync.
Definition src_next (s : src) (r used : Z) : src :=
  match s with
  | Real => if 1152 <=? r then Model else Real
  | Model => if 1088 <? r then Model
             else if Z.abs (used - r) <? 64 then Real else Resync
  | Resync => if Z.abs (used - r) <? 64 then Real else Resync
  end.
Definition src_of (s : rstate) : src :=
  match s with REnabled => Real | RDisabled => Model | RSyncing => Resync end.

(** RUN: a list of (time, feedback) pairs fed to the controller. *)
Fixpoint cc_feed (c : cc) (l : list (Z * Z)) : option cc :=
  match l with
  | [] => Some c
  | (t, r) :: l' => c' <- contrcurr_set_feedback t c r ;; cc_feed c' l'
  end.

(** SPEC: states reachable from power-up by API calls with admissible arguments. *)
Definition cc_reachable (now : Z) (c : cc) : Prop :=
  exists c0 ops, Forall op_ok ops /\ cc_boot = Some c0 /\ cc_exec 0 c0 ops = Some (now, c).
