(** * C105: The simulated timer and converter *)
From Coq Require Import ZArith List Bool.
From Verif Require Import Base MAdc MSimHw SpecSimHw PSimHw.
Import ListNotations.
Open Scope Z_scope.

(** The clock of the simulated firmware never runs faster than the system time, whatever the times of the iterations of
    the I/O thread and whenever interrupts are suspended. *)
Theorem C105_not_fast : forall is t0, 0 <= t0 -> forward t0 is ->
  t_ticks (tim_iters is (mkTim true t0 false 0)) <= last_time t0 is - t0.
Proof. exact tim_not_fast. Qed.
Print Assumptions C105_not_fast.

(** It is slower at most by the factor of the longest distance of two iterations, if interrupts are not suspended. *)
Theorem C105_not_slow : forall d is t0, 1 <= d < 2 ^ 64 -> 0 <= t0 -> steady d t0 is -> unsuspended is ->
  last_time t0 is - t0 <= d * t_ticks (tim_iters is (mkTim true t0 false 0)).
Proof. exact tim_not_slow. Qed.
Print Assumptions C105_not_slow.

(** It is exact with at least one iteration in each millisecond. *)
Theorem C105_exact : forall is t0, 0 <= t0 -> steady 1 t0 is -> last_time t0 is < 2 ^ 64 -> unsuspended is ->
  t_ticks (tim_iters is (mkTim true t0 false 0)) = last_time t0 is - t0.
Proof. exact tim_exact. Qed.
Print Assumptions C105_exact.

(** If the system time is set back (it is that of gettimeofday) the clock runs ahead. *)
Theorem C105_back_refuted : exists t0 is, 0 <= t0 /\ unsuspended is /\ last_time t0 is = t0 /\
  t_ticks (tim_iters is (mkTim true t0 false 0)) = 2.
Proof. exact tim_back. Qed.
Print Assumptions C105_back_refuted.

(** A conversion takes one millisecond for each of the prescalers. *)
Theorem C105_duration : forall bits, 0 <= bits <= 7 -> conv_runtime_ms bits = 1.
Proof. exact conv_ms. Qed.
Print Assumptions C105_duration.

(** Any interleaving, any times and suspensions: if the main thread does nothing between the two halves of simulate_adc,
    the firmware takes each value for that of the input it was converted from. *)
Theorem C105_channel : forall m ts, halves_together ts (simadc_start m) -> Forall right (snd (xrun ts (simadc_start m))).
Proof. exact adc_right. Qed.
Print Assumptions C105_channel.

(** Not so otherwise: a value of input 1 is taken for one of input 2. *)
Theorem C105_race_refuted : exists ts, snd (xrun ts (simadc_start 1)) = [mkRd 1 1; mkRd 1 2].
Proof. exact adc_race. Qed.
Print Assumptions C105_race_refuted.

Example C105_ex : halves_together good (simadc_start 1) /\ snd (xrun good (simadc_start 1)) = [mkRd 1 1; mkRd 2 2] /\
  steady 1 5 [(5, false); (6, false); (6, false); (7, false)] /\ t_ticks (tim_iters [(5, false); (6, false); (6, false); (7, false)] (mkTim true 5 false 0)) = 2.
Proof. exact case105. Qed.
