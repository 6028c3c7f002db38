(** * Specification vocabulary for the control laws of the running firmware (C28, C75, C76) *)
From Coq Require Import ZArith List Bool.
From Verif Require Import Base SpecNum SpecPid SpecCurr MConf MTimer MPid MCurr MSettings MSseg MDisplay MState MTemp MMeas MMenu MMain
  SpecDisplay SpecSys SpecRun.
Import ListNotations.
Open Scope Z_scope.

(** SPEC: one step of the PID law [pid_law]; if no time has passed (the step is rounded to 1/64 s) the
    derivative term is left out, up to one unit (1/64). *)
Definition pid_step (kp ki kd decay ilo ihi ylo yhi w I0 E0 dt r y I1 E1 : Z) : Prop :=
  exists P KE A D,
    let e := sat24 (w - r) in
    qmul kp e P /\
    qmul ki e KE /\ qmul KE dt A /\ I1 = limit ilo ihi (sat24 (I0 + A)) /\
    (dt <> 0 /\ qmuldiv (sat24 (e - E0)) kd dt D \/ dt = 0 /\ Z.abs D <= 1) /\
    y = limit ylo yhi (sat24 (sat24 (P + I1) + D)) /\
    qdiv e decay E1.

(** The memory of a PID: integrator and decayed error. *)
Definition memory (p : pid) : Z * Z := (p_integr p, p_prev_e p).

(** SPEC for C76: the newest plausible current (0 to 5 A, 640 per A) of a history. *)
Definition last_current (h : list (Z * Z)) : Z :=
  match find (fun x => (0 <=? snd x) && (snd x <=? 5 * 640)) h with Some x => snd x | None => 0 end.

(** SPEC for C76: a first-order low-pass filter with divisor [d]: accumulator [M] to [M'], input [x]. *)
Definition lowpass_step (d M x M' out : Z) : Prop :=
  exists q, nearest_away M d q /\ M' = M - q + x /\ nearest_away M' d out.
(** SPEC for C76: the current the PID is told.  Up to 1.8 A the measured current [r]; then the current
    commanded last, low-pass filtered, until the measured current is down to 1.7 A; then the measured
    current, low-pass filtered.  The accumulator starts with the measured current, not with 16 times the
    measured current. *)
Definition source_step (s : src) (M cmd r M' used : Z) : Prop :=
  match s with
  | Real => used = r /\ M' = (if 1152 <=? r then r else M)
  | Model => if 1088 <? r then lowpass_step 16 M cmd M' used else lowpass_step 24 M r M' used
  | Resync => lowpass_step 24 M r M' used
  end.
(** SPEC: the compare value of the heater PWM for a commanded current: 8191 is off, 0 is full scale. *)
Definition pwm_of (amps ocr : Z) : Prop := 0 <= ocr <= 8191 /\ Z.abs (3200 * ocr - 8191 * (3200 - amps)) < 3200.
(** SPEC: below 100 degrees, and before the first plausible temperature, the current is limited to 2 A. *)
Definition cold_limited (o : option Z) : bool := match o with None => true | Some v => v <? 100 * 64 end.
