(** * Concrete executions for the control laws; the histories exist for every reachable state *)
From Coq Require Import ZArith List Bool Lia ZifyBool.
From Verif Require Import Base PBase MConf MTimer MPid MCurr SpecNum SpecPid SpecCurr MSettings SpecSettings MSseg MDisplay MState MTemp MMeas
  MMenu MMain SpecDisplay SpecSys SpecRun SpecControl PSysSafe PSysProp Trace PSysTrace PSysWin PSettingsEx PSysTrace2 PSysLog PControl PMem.
Import ListNotations.
Open Scope Z_scope.
Ltac Zify.zify_post_hook ::= Z.div_mod_to_equations.

Lemma good_dec C y e : (exists v, result y e 1 /\ temp_of_code C (s_adj (x_cache (y_set y))) (mean_code y) v /\ -20 * 64 <= v <= 500 * 64) \/
  ~ (result y e 1 /\ good_temp C y).
Proof.
  destruct (result_dec y e 1) as [X|X]; [|right; intros (Y & _); contradiction].
  set (g := temp_guess C (s_adj (x_cache (y_set y))) (mean_code y)).
  pose proof (temp_guess_ok C (s_adj (x_cache (y_set y))) (mean_code y)) as G. fold g in G.
  destruct (Z_le_dec (-20 * 64) g) as [L1|L1]; [destruct (Z_le_dec g (500 * 64)) as [L2|L2]|].
  - left. exists g. auto.
  - right. intros (_ & v & V & B). rewrite (temp_code_unique _ _ _ _ _ V G) in B. lia.
  - right. intros (_ & v & V & B). rewrite (temp_code_unique _ _ _ _ _ V G) in B. lia.
Qed.
Lemma processed_dec y e y' : (exists r, temp_processed y e y' r) \/ ~ (exists r, temp_processed y e y' r).
Proof.
  unfold temp_processed. destruct e; try (right; intros (r & X & _); discriminate X).
  destruct (m_avail (y_meas y)); [|right; intros (r & _ & X & _); discriminate X].
  destruct (Z.eq_dec (m_chan (y_meas y)) 1); [|right; intros (r & _ & _ & X & _); contradiction].
  destruct (t_enabled (y_ct y)); [|right; intros (r & _ & _ & _ & X & _); discriminate X].
  destruct (t_emerg (y_ct y')); [right; intros (r & _ & _ & _ & _ & X & _); discriminate X|].
  left. exists (t_feedback (y_ct y')). repeat split. assumption.
Qed.
Lemma logs_exist C y : build_conf C -> reach C y ->
  (exists o, last_good C y o) /\ (exists n, temp_clock C y n) /\ (exists n, curr_clock C y n) /\ (exists T f h, curr_log C y T f h).
Proof.
  intros HC R. induction R as [pinb y Hp E|y e y' R ((o & I1) & (n & I2) & (m & I3) & (T & f & h & I4)) O E].
  - repeat split; repeat eexists; econstructor; eassumption.
  - destruct (is_power e) eqn:P.
    + destruct e; try discriminate P. split; [|split; [|split]].
      * eexists. eapply lg_power; eassumption.
      * eexists. eapply tc_power; eassumption.
      * eexists. eapply uc_power; eassumption.
      * do 3 eexists. eapply ul_power; eassumption.
    + split; [|split; [|split]].
      * destruct (good_dec C y e) as [(v & X1 & X2 & X3)|X]; eexists; [eapply lg_good|eapply lg_other]; eassumption.
      * assert (D : e = ETick \/ e <> ETick) by (destruct e; auto; right; discriminate). destruct D as [->|D]; [eexists; eapply tc_tick; eassumption|].
        destruct (processed_dec y e y') as [X|X]; [eexists; eapply tc_restart; eauto|].
        destruct (Bool.bool_dec (t_enabled (y_ct y')) (t_enabled (y_ct y))) as [B|B]; eexists; [eapply tc_other|eapply tc_restart]; eauto.
      * assert (D : e = ETick \/ e <> ETick) by (destruct e; auto; right; discriminate). destruct D as [->|D]; [eexists; eapply uc_tick; eassumption|].
        destruct (result_dec y e 0) as [X|X]; [|eexists; eapply uc_other; try eassumption; intros (Y & _); contradiction].
        destruct (Z.eq_dec (cc_emerg (y_cc y')) 0) as [Z0|Z0]; eexists; [eapply uc_restart|eapply uc_other]; eauto. intros (_ & Y). contradiction.
      * assert (D : e = ETick \/ e <> ETick) by (destruct e; auto; right; discriminate). destruct D as [->|D]; [do 3 eexists; eapply ul_tick; eassumption|].
        destruct (result_dec y e 0) as [X|X]; [|do 3 eexists; eapply ul_other; eassumption].
        destruct X as (-> & X). assert (X' : result y EMeasure 0) by (split; [reflexivity|exact X]).
        do 3 eexists. eapply ul_result; try eassumption. apply curr_guess_ok.
Qed.
(** C75: 314 degrees measured while heating to 350 degrees: the integrator rises from 849/64 to 892/64. *)
Lemma case75 : exists y y', reach conf_m88p y /\ step conf_m88p y EMeasure = Some y' /\ temp_processed y EMeasure y' 20107 /\
  p_integr (t_pid (y_ct y)) = 849 /\ p_prev_e (t_pid (y_ct y)) = 1147 /\ p_integr (t_pid (y_ct y')) = 892 /\ p_setpoint (cc_pid (y_cc y')) = 1612.
Proof.
  assert (K : then_b conf_m88p (cycles 20 310 100 ++ ticks 51 ++ [EAdc 310]) EMeasure
    (fun y y' => result_b y 1 && (t_enabled (y_ct y) && (negb (t_emerg (y_ct y')) && ((t_feedback (y_ct y') =? 20107) &&
      ((p_integr (t_pid (y_ct y)) =? 849) && ((p_prev_e (t_pid (y_ct y)) =? 1147) && ((p_integr (t_pid (y_ct y')) =? 892) &&
       (p_setpoint (cc_pid (y_cc y')) =? 1612)))))))) = true) by (vm_compute; reflexivity).
  destruct (then_ok _ _ _ _ K) as (y & y' & R & O & E & P). exists y, y'. split; [exact R|]. split; [exact E|]. andbs.
  match goal with H : result _ _ _ |- _ => destruct H as (_ & ? & ?) end. unfold temp_processed. repeat split; assumption.
Qed.
(** C75: a tap on the iron key selects boost mode 1 and clears the memory. *)
Lemma case75_boost : exists y y', reach conf_m88p y /\ ev_ok conf_m88p y (EButtons NO_KEYS) /\ step conf_m88p y (EButtons NO_KEYS) = Some y' /\
  memory (t_pid (y_ct y)) = (225, 1147) /\ memory (t_pid (y_ct y')) = (0, 0) /\ t_boost (y_ct y) = 0 /\ t_boost (y_ct y') = 1.
Proof.
  assert (K : then_b conf_m88p (hold 20 NO_KEYS ++ cycles 5 310 100 ++ hold 20 NO_KEYS ++ hold 20 IRON_KEY ++ hold 4 NO_KEYS ++ [ETick]) (EButtons NO_KEYS)
    (fun y y' => (p_integr (t_pid (y_ct y)) =? 225) && ((p_prev_e (t_pid (y_ct y)) =? 1147) && ((p_integr (t_pid (y_ct y')) =? 0) &&
      ((p_prev_e (t_pid (y_ct y')) =? 0) && ((t_boost (y_ct y) =? 0) && (t_boost (y_ct y') =? 1)))))) = true) by (vm_compute; reflexivity).
  destruct (then_ok _ _ _ _ K) as (y & y' & R & O & E & P). exists y, y'. split; [exact R|]. split; [exact O|]. split; [exact E|]. andbs.
  unfold memory. repeat split; congruence.
Qed.
(** C76: heating to 350 degrees at 314 degrees, the current sensor showing 2 A: the filtered feedback is in use. *)
Lemma case76 : exists y T f h o n v y', curr_log conf_m88p y T f h /\ last_good conf_m88p y o /\ cold_limited o = false /\ curr_clock conf_m88p y n /\
  result y EMeasure 0 /\ step conf_m88p y EMeasure = Some y' /\ curr_of_code (lp_code f (mean_code y)) v /\
  cc_emerg (y_cc y') = 0 /\ src_of (cc_rstate (y_cc y)) = Resync /\
  memory (cc_pid (y_cc y)) = (320, 289) /\ memory (cc_pid (y_cc y')) = (320, 270) /\ cc_prev_y (y_cc y') = 1289 /\ cc_ocr (y_cc y') = 4892.
Proof.
  assert (K : then_b conf_m88p (cycles 25 310 250 ++ temp_cycle 310 ++ ticks 6 ++ [EAdc 250]) EMeasure
    (fun y y' => result_b y 0 && (negb (cc_restricted (y_cc y)) && ((cc_emerg (y_cc y') =? 0) && (match cc_rstate (y_cc y) with RSyncing => true | _ => false end &&
      ((p_integr (cc_pid (y_cc y)) =? 320) && ((p_prev_e (cc_pid (y_cc y)) =? 289) && ((p_integr (cc_pid (y_cc y')) =? 320) &&
       ((p_prev_e (cc_pid (y_cc y')) =? 270) && ((cc_prev_y (y_cc y') =? 1289) && (cc_ocr (y_cc y') =? 4892)))))))))) = true) by (vm_compute; reflexivity).
  destruct (then_ok _ _ _ _ K) as (y & y' & R & O & E & P). destruct (logs_exist conf_m88p y build_m88p R) as ((o & L1) & _ & (n & L3) & (T & f & h & L4)).
  exists y, T, f, h, o, n, (curr_guess (lp_code f (mean_code y))), y'. andbs. destruct (last_good_inv _ _ _ build_m88p L1) as (_ & Q).
  split; [exact L4|]. split; [exact L1|]. split; [unfold cold_limited; change (100 * 64) with 6400; congruence|]. split; [exact L3|].
  split; [assumption|]. split; [exact E|]. split; [apply curr_guess_ok|]. split; [assumption|].
  split; [destruct (cc_rstate (y_cc y)); first [reflexivity|discriminate]|]. unfold memory. repeat split; congruence.
Qed.
(** C28: the flag is set at 486 degrees and cleared again by the next temperature below 480 degrees. *)
Lemma case28_clear : exists y y', reach conf_m88p y /\ step conf_m88p y EMeasure = Some y' /\ reach conf_m88p y' /\
  Z.testbit (cc_emerg (y_cc y)) 1 = true /\ Z.testbit (cc_emerg (y_cc y')) 1 = false /\ too_hot conf_m88p y.
Proof.
  assert (K : then_b conf_m88p (cycles 3 250 0 ++ cycles 1 415 0 ++ ticks 51 ++ [EAdc 400]) EMeasure
    (fun y y' => Z.testbit (cc_emerg (y_cc y)) 1 && negb (Z.testbit (cc_emerg (y_cc y')) 1)) = true) by (vm_compute; reflexivity).
  destruct (then_ok _ _ _ _ K) as (y & y' & R & O & E & P). exists y, y'. andbs. split; [exact R|]. split; [exact E|]. split; [econstructor; eassumption|].
  split; [assumption|]. split; [assumption|]. apply (proj1 (hot_exact conf_m88p y build_m88p R)). assumption.
Qed.
