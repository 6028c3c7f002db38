(** * Properties of the debug output of the running firmware *)
From Coq Require Import ZArith List Bool.
From Verif Require Import Base MConf MPid MCurr MSettings MState MTemp MMeas MMain MDebug SpecSettings SpecSys SpecRun MTele SpecTele PTele7 PTeleEx.
Import ListNotations.
Open Scope Z_scope.

(** C78: with the debug output the firmware does the same as without, and never runs into undefined behaviour.
    Every execution has exactly one with debug output. *)
Theorem C78_transparent : forall C y f b g e, build_conf C -> tlog C y f b g -> ev_ok C y e ->
  exists y' f' s, tstep C y f e = Some (y', f', s) /\ step C y e = Some y'.
Proof. exact tele_transparent. Qed.
Print Assumptions C78_transparent.
Theorem C78_executions : forall C y, build_conf C -> (reach C y <-> exists f b g, tlog C y f b g).
Proof. exact tele_executions. Qed.
Print Assumptions C78_executions.
(** Nothing is sent by builds without CONF_DEBUG, nor while the debug mode is off, up to the greeting. *)
Theorem C78_silent : forall C y f b g e y' f' s, build_conf C -> tlog C y f b g -> ev_ok C y e -> tstep C y f e = Some (y', f', s) -> s <> [] ->
  c_debug C = true /\ (y_dbg y = true /\ is_power e = false \/ exists r, s = greeting :: r).
Proof. exact tele_silent. Qed.
Print Assumptions C78_silent.
Example C78_ex : exists y f b g y' f' s, tlog conf_m328p y f b g /\ m_avail (y_meas y) = true /\ m_chan (y_meas y) = 0 /\ mean_code y = 100 /\
  tstep conf_m328p y f EMeasure = Some (y', f', s) /\ length (concat s) = 146%nat /\ length s = 10%nat.
Proof. exact case80. Qed.

(** C79: whatever the receiver got before the firmware was switched on, in the debug mode it shows the last
    value reported of every item (but tb, which is printed and not reported) or, until the value changes,
    the 0 of its own reset at the greeting. *)
Theorem C79_shown : forall C y f b g n i, build_conf C -> tlog C y f b g -> y_dbg y = true -> i <> Tb -> seen n b g i (f (CItem i)).
Proof. exact tele_shown. Qed.
Print Assumptions C79_shown.
(** These are the temperature, the current, the output of the current controller and its source of feedback. *)
Theorem C79_controllers : forall C y f b g n, build_conf C -> tlog C y f b g -> y_dbg y = true ->
  seen n b g Tr (t_feedback (y_ct y)) /\ seen n b g Cr1 (cc_feedback (y_cc y)) /\ seen n b g Cy (cc_prev_y (y_cc y)) /\
  (seen n b g Rs (rstate_num (cc_rstate (y_cc y))) \/ seen n b g Rs 0 /\ cc_rstate (y_cc y) = REnabled).
Proof. exact tele_controllers. Qed.
Print Assumptions C79_controllers.
Example C79_ex : exists y f b g, tlog conf_m328p y f b g /\ y_dbg y = true /\ t_feedback (y_ct y) = 20107 /\ shows b Tr 20107 /\ shows b Cr1 130 /\ shows b Cy 2690 /\
  shows b Mt 310 /\ shows b Mc 100 /\ shows b Fc 12 /\ shows b Ty2 1449 /\ length b = 479%nat.
Proof. exact case79. Qed.
(** A measurement reports the mean of its window, the filtered current code, and the set values computed. *)
Theorem C79_measured : forall C y f b g y' f' s, build_conf C -> c_debug C = true -> tlog C y f b g -> m_avail (y_meas y) = true ->
  tstep C y f EMeasure = Some (y', f', s) ->
  f' (CItem (chan_item (m_chan (y_meas y)))) = mean_code y /\
  (m_chan (y_meas y) = 0 -> forall T fo h, curr_log C y T fo h -> f' (CItem Fc) = lp_code fo (mean_code y)) /\
  (m_chan (y_meas y) = 1 -> t_enabled (y_ct y) = true -> t_emerg (y_ct y') = false ->
     f' (CItem Ty2) = p_setpoint (cc_pid (y_cc y')) /\ 0 <= f' (CItem Ty1) <= 30720).
Proof. exact tele_measured. Qed.
Print Assumptions C79_measured.
Example C79_temp_ex : exists y f b g y' f' s, tlog conf_m328p y f b g /\ m_avail (y_meas y) = true /\ m_chan (y_meas y) = 1 /\ t_enabled (y_ct y) = true /\
  tstep conf_m328p y f EMeasure = Some (y', f', s) /\ t_emerg (y_ct y') = false /\ f' (CItem Ty2) = 1449.
Proof. exact case79_temp. Qed.
(** The exception happens: after a second greeting the receiver shows 0 for 314 degrees. *)
Theorem C79_stale_refuted : exists y f b g, tlog conf_m328p y f b g /\ y_dbg y = true /\ t_feedback (y_ct y) = 20107 /\ shows b Tr 0.
Proof. exact stale79. Qed.
Print Assumptions C79_stale_refuted.

(** C80: an event sends at most [bytes] bytes, in lines of at most 25. *)
Theorem C80_bytes : forall C y f b g e y' f' s, build_conf C -> tlog C y f b g -> ev_ok C y e -> tstep C y f e = Some (y', f', s) ->
  (length (concat s) <= bytes e)%nat /\ Forall (fun x => x = greeting \/ (9 <= length x <= 25)%nat) s.
Proof. exact tele_bytes. Qed.
Print Assumptions C80_bytes.
