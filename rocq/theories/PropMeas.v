(** * Measurement properties (C32, C33, C34, C66) *)
From Coq Require Import ZArith List Bool Lia.
From Verif Require Import Base MConf MTimer MPid MCurr SpecNum MSettings SpecSettings MSseg MDisplay MState MTemp MMeas
  MMenu MMain SpecSys SpecRun PSysWin PSysLog PSysTrace2.
Import ListNotations.
Open Scope Z_scope.

(** C32: the mean handed to scaling ([window C y l]: [l] are the samples since the channel was started). *)
Theorem C32_floored_mean : forall C y l e chan, build_conf C -> window C y l -> result y e chan ->
  l <> [] /\ raw_average (y_meas y) = Some (zsum l / Z.of_nat (length l)) /\
  (forall a b, Forall (fun x => a <= x <= b) l -> a <= zsum l / Z.of_nat (length l) <= b).
Proof. exact sys_average. Qed.
Print Assumptions C32_floored_mean.
(** The mean in the other statements on measured values. *)
Theorem C32_mean_code : forall C y l e chan, build_conf C -> window C y l -> result y e chan ->
  mean_code y = zsum l / Z.of_nat (length l).
Proof. exact sys_mean. Qed.
Print Assumptions C32_mean_code.
Example C32_ex : exists y l, window conf_m88p y l /\ result y EMeasure 1 /\ l = [250; 251; 253].
Proof. exact case32. Qed.

(** C33: the converter runs exactly while no result waits. *)
Theorem C33_handover : forall C y, build_conf C -> reach C y ->
  m_adc (y_meas y) = negb (m_avail (y_meas y)) /\ (m_avail (y_meas y) = true -> 0 < m_count (y_meas y)) /\
  (m_chan (y_meas y) = 0 \/ m_chan (y_meas y) = 1).
Proof. exact sys_handover. Qed.
Print Assumptions C33_handover.
(** A result is consumed when it is handled, and nothing is handled without a result. *)
Theorem C33_consumed : forall C y e y' chan, build_conf C -> reach C y -> result y e chan -> step C y e = Some y' ->
  m_avail (y_meas y') = false /\ m_count (y_meas y') = 0 /\ m_sum (y_meas y') = 0 /\ m_chan (y_meas y') = 1 - chan.
Proof. exact sys_once. Qed.
Print Assumptions C33_consumed.
Theorem C33_not_twice : forall C y, build_conf C -> reach C y -> m_avail (y_meas y) = false -> step C y EMeasure = Some y.
Proof. exact sys_not_twice. Qed.
Print Assumptions C33_not_twice.
(** The channels handled since power-up ([h], newest first): temperature, current, temperature, ... *)
Theorem C33_alternate : forall C y h, build_conf C -> handled C y h ->
  forall i c, nth_error (rev h) i = Some c -> c = if Nat.even i then 1 else 0.
Proof. exact sys_alternate. Qed.
Print Assumptions C33_alternate.
Example C33_ex : exists y, handled conf_m88p y [0; 1; 0; 1].
Proof. exact case33. Qed.

(** C34: the sensors are reported as failed exactly when they have been implausible for 3 s. *)
Theorem C34_temperature : forall C y T h, build_conf C -> temp_log C y T h -> gaps_ok h ->
  (t_emerg (y_ct y) = true <-> timed_out (-20 * 64) (500 * 64) h).
Proof. exact sys_temp_timeout. Qed.
Print Assumptions C34_temperature.
Theorem C34_current : forall C y T f h, build_conf C -> curr_log C y T f h -> gaps_ok h ->
  (Z.testbit (cc_emerg (y_cc y)) 0 = true <-> timed_out 0 (5 * 640) h).
Proof. exact sys_curr_timeout. Qed.
Print Assumptions C34_current.
Theorem C34_values : forall C y, build_conf C -> reach C y ->
  -20 * 64 <= t_feedback (y_ct y) <= 500 * 64 /\ -20 * 64 <= y_mt y <= 500 * 64 /\ 0 <= u_prev (y_mc y) <= 5 * 640.
Proof. exact sys_feedback_range. Qed.
Print Assumptions C34_values.
Example C34_temp_ex : exists y T h, temp_log conf_m88p y T h /\ gaps_ok h /\ t_emerg (y_ct y) = true.
Proof. exact case34_temp. Qed.
Example C34_curr_ex : exists y T f h, curr_log conf_m88p y T f h /\ gaps_ok h /\ Z.testbit (cc_emerg (y_cc y)) 0 = true.
Proof. exact case34_curr. Qed.

(** C66: averaging windows.  A sample closes the window if and only if the averaging time of the
    channel has passed ([n]: ms since the channel was selected), and nothing else closes it. *)
Theorem C66_window_closes : forall C y n raw y', build_conf C -> window_age C y n -> ev_ok C y (EAdc raw) ->
  m_adc (y_meas y) = true -> step C y (EAdc raw) = Some y' -> n < averaging_ms (m_chan (y_meas y)) + 32768 ->
  m_avail (y_meas y') = (averaging_ms (m_chan (y_meas y)) <=? n) /\
  m_adc (y_meas y') = negb (averaging_ms (m_chan (y_meas y)) <=? n).
Proof. exact sys_window_end. Qed.
Print Assumptions C66_window_closes.
Theorem C66_only_samples : forall C y e y', build_conf C -> reach C y -> ev_ok C y e -> is_power e = false -> step C y e = Some y' ->
  m_avail (y_meas y) = false -> m_avail (y_meas y') = true -> exists raw, e = EAdc raw.
Proof. exact sys_window_only. Qed.
Print Assumptions C66_only_samples.
Example C66_ex : exists y, window_age conf_m88p y 50 /\ m_chan (y_meas y) = 1 /\ m_adc (y_meas y) = true.
Proof. exact case66. Qed.
