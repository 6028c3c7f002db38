(** * C103: The circuits of the simulator *)
From Coq Require Import QArith List Bool.
From Verif Require Import MCircuits SpecCircuits PCircuits.
Import ListNotations.
Open Scope Q_scope.

(** The time in the cycle is determined by the time alone, so is the wave. *)
Theorem C103_phase : forall dur t c c', phase dur t c -> phase dur t c' -> c == c'.
Proof. exact phase_unique. Qed.
Print Assumptions C103_phase.

(** Time steps of any lengths, none longer than the on or the off part of a cycle: the output of the generator is the
    pulse width modulated wave of the frequency and the duty cycle, at every step, and no cycle is lost. *)
Theorem C103_pwm : forall f duty dts, 0 < f -> 0 < duty -> duty < 1 ->
  Forall (fun dt => 0 <= dt /\ dt <= 1 / f * duty /\ dt <= 1 / f * (1 - duty)) dts ->
  pwm_wave (1 / f) duty (total dts) (g_out (pwm_calcs dts (pwm_new f duty))) /\ g_lost (pwm_calcs dts (pwm_new f duty)) = 0%Z.
Proof. exact pwm_follows. Qed.
Print Assumptions C103_pwm.

(** Not so for steps that are only shorter than a cycle. *)
Theorem C103_coarse_refuted : exists f duty dt, 0 < f /\ 0 < duty /\ duty < 1 /\ 0 <= dt /\ dt <= 1 / f /\
  ~ pwm_wave (1 / f) duty (total [dt; dt]) (g_out (pwm_calcs [dt; dt] (pwm_new f duty))).
Proof. exact pwm_coarse. Qed.
Print Assumptions C103_coarse_refuted.

(** Duty cycle 0: never on. *)
Theorem C103_off : forall f duty dts, duty <= 0 -> Forall (fun dt => 0 <= dt) dts -> g_out (pwm_calcs dts (pwm_new f duty)) = false.
Proof. exact pwm_off. Qed.
Print Assumptions C103_off.

(** Duty cycle 1: on from the first step on. *)
Theorem C103_on : forall f duty dt dts, 0 < f -> 1 <= duty -> 0 <= dt -> Forall (fun dt => 0 <= dt) dts ->
  g_out (pwm_calcs (dt :: dts) (pwm_new f duty)) = true.
Proof. exact pwm_on. Qed.
Print Assumptions C103_on.

(** The RC element: the voltage of the capacitor never overshoots the input. *)
Theorem C103_rc_between : forall r fact vin s, 0 <= fact -> fact <= 1 -> between (rc_v s) vin (rc_v (rc_calc r fact vin s)).
Proof. exact rc_between. Qed.
Print Assumptions C103_rc_between.

(** A step cut into two gives the same result (the decay factors of the parts multiply to the one of the whole). *)
Theorem C103_rc_cut : forall r f1 f2 vin s,
  rc_v (rc_calc r f2 vin (rc_calc r f1 vin s)) == rc_v (rc_calc r (f1 * f2) vin s) /\
  rc_i (rc_calc r f2 vin (rc_calc r f1 vin s)) == rc_i (rc_calc r (f1 * f2) vin s).
Proof. exact rc_compose. Qed.
Print Assumptions C103_rc_cut.

(** The current is that of the resistor at the difference of the voltages. *)
Theorem C103_rc_ohm : forall r fact vin s, ~ r == 0 -> rc_i (rc_calc r fact vin s) * r == vin - rc_v (rc_calc r fact vin s).
Proof. exact rc_ohm. Qed.
Print Assumptions C103_rc_ohm.

(** The voltage divider: the voltages add up to the input and are to each other as the resistors. *)
Theorem C103_divider : forall r1 r2 uin, 0 < r1 -> 0 < r2 -> let '(i, u2) := vd_calc r1 r2 uin in
  i * r1 + u2 == uin /\ u2 * r1 == (i * r1) * r2 /\ between 0 uin u2.
Proof. exact vd_ok. Qed.
Print Assumptions C103_divider.

Example C103_ex : let dts := [1 # 10; 1 # 5; 1 # 4; 3 # 10; 2 # 5; 1 # 2; 1 # 2] in
  Forall (fun dt => 0 <= dt /\ dt <= 1 / (1 # 2) * (3 # 10) /\ dt <= 1 / (1 # 2) * (1 - (3 # 10))) dts /\
  map (fun n => g_out (pwm_calcs (firstn n dts) (pwm_new (1 # 2) (3 # 10)))) [0; 1; 2; 3; 4; 5; 6; 7]%nat = [false; false; false; false; false; false; true; false].
Proof. exact case103. Qed.
