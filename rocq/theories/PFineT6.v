(** * Interrupts inside the work functions, part 14: the statements of PropFineLive and concrete executions *)
From Coq Require Import ZArith List Bool Lia ZifyBool.
From Verif Require Import Base PBase MConf MTimer MPid MPwm MCurr SpecNum SpecCurr MSettings SpecSettings MSseg MDisplay MState MTemp MMeas
  MMenu MMain SpecDisplay SpecSys SpecRun SpecLive Trace TraceLive PSettingsEx PSys PSysSet PSysRun PSysStep PSysCC PSysSafe PLive PLive2 PLiveEx
  MFine SpecFine SpecFineLive PFine PFine7 PFine8 PFineT PFineT2 PFineT3 PFineT4 PFineT5 PFineEx.
Import ListNotations.
Open Scope Z_scope.

Lemma fwork_nil C y e y' : step C y e = Some y' -> fwork C y e [] = Some (y', []).
Proof.
  intros E. assert (K : forall (m : F sys) v, fnil m v -> v = Some y' -> m [] = Some (y', [])) by (intros m v Q Ev; rewrite Q, Ev; reflexivity).
  destruct e; cbn [fwork]; (eapply K; [first [exact (fnil_lift _)|apply measure_work_nil|apply menu_work_nil|apply buttons_work_nil]|exact E]).
Qed.
Lemma live_fine_includes L lo hi C y w : served L lo hi C y w -> fserved L lo hi C y w.
Proof.
  intros D. induction D as [pinb y Hp E|y v pinb y' R O E Ad|y w e y' D IH O E].
  - eapply fsrv_boot; eassumption.
  - eapply fsrv_power; [apply reach_freach; exact R|apply next_fnext; eassumption|exact Ad].
  - eapply (fsrv_step L lo hi C y w e [] y w); [exact IH|constructor|exact O|apply fwork_nil; exact E].
Qed.
Lemma live_fine_cadence L lo hi C y w : build_conf C -> limits_ok L -> fserved L lo hi C y w ->
  freach C y /\ v_age w <= averaging_ms (m_chan (y_meas y)) + l_sample L + l_poll L /\ v_temp w <= slow_cycle L /\ v_curr w <= slow_cycle L.
Proof.
  intros HC HL D. pose proof (fserved_fprog L lo hi C HC HL y w D) as Pg. split; [apply (fserved_reach L lo hi C HC HL y w D)|].
  split; [exact (fcore_age _ _ _ _ (fp_core _ _ _ _ _ _ Pg))|]. split; [apply (fprog_temp L lo hi C HC HL y w Pg)|apply (fprog_curr L lo hi C HC HL y w Pg)].
Qed.
Lemma live_fine_progress L lo hi C y w e o y1 w1 : build_conf C -> limits_ok L -> fserved L lo hi C y w ->
  path L lo hi C y w (map irq_event (concat o)) y1 w1 -> on_time L C y1 w1 e -> o = [] \/ e = EMeasure \/ e = EMenu \/ (exists pinb, e = EButtons pinb) ->
  exists y' o', fwork C y e o = Some (y', o').
Proof.
  intros HC HL D P O K. pose proof (fserved_fprog L lo hi C HC HL y w D) as Pg. destruct (irq_events L lo hi C HC HL y w _ y1 w1 Pg P) as (Pg1 & _).
  destruct (fcore_ev L C HL y1 w1 e (fp_core _ _ _ _ _ _ Pg1) O) as (Oe & _). pose proof (fserved_reach L lo hi C HC HL y w D) as R.
  assert (Oy : ev_ok C y e).
  { destruct K as [->|[->|[->|(pinb & ->)]]]; [cbn in P; inversion P; subst; exact Oe|exact I|exact I|exact Oe]. }
  pose proof (ftotal C HC y e o R Oy) as T. unfold fstep in T. change (('(z, _) <- fwork C y e o ;; Some z) <> None) in T.
  destruct (fwork C y e o) as [(y', o')|]; [exists y', o'; reflexivity|]. destruct T. reflexivity.
Qed.
Lemma live_fine_last L lo hi C y w : build_conf C -> limits_ok L -> fserved L lo hi C y w ->
  slow_cycle L + slow_window L < v_steady w -> exists c, v_last w = Some c /\ lo <= c <= hi.
Proof. intros HC HL. exact (fserved_last L lo hi C HC HL y w). Qed.
Lemma live_fine_over_temp L lo hi C y w : build_conf C -> limits_ok L -> fserved L lo hi C y w ->
  slow_cycle L + slow_window L < v_steady w -> slow_cycle L < v_calm w ->
  (forall c v, lo <= c <= hi -> temp_of_code C (s_adj (x_cache (y_set y))) c v -> 480 * 64 < v <= 500 * 64) -> pwm_off y.
Proof. intros HC HL. exact (fserved_over_temp L lo hi C HC HL y w). Qed.
Lemma live_fine_overheat L lo hi C y w : build_conf C -> limits_ok L -> fserved L lo hi C y w ->
  (forall c v, lo <= c <= hi -> temp_of_code C (s_adj (x_cache (y_set y))) c v -> 480 * 64 < v) ->
  3001 + l_poll L + slow_window L + 3 * slow_cycle L < v_steady w -> 3001 + l_poll L + slow_window L + 3 * slow_cycle L < v_calm w ->
  pwm_off y \/ t_emerg (y_ct y) = true /\ p_setpoint (cc_pid (y_cc y)) = 0 /\ duty_at_most y 1 10.
Proof. intros HC HL D H. exact (fserved_overheat L lo hi C HC HL _ H y w D eq_refl). Qed.
Lemma live_fine_dead L lo hi C y w : build_conf C -> limits_ok L -> fserved L lo hi C y w ->
  (forall adj c v, -99 * 64 <= adj <= 99 * 64 -> lo <= c <= hi -> temp_of_code C adj c v -> v < -20 * 64 \/ 500 * 64 < v) ->
  3001 + l_poll L + slow_window L + 3 * slow_cycle L < v_steady w ->
  t_emerg (y_ct y) = true /\ p_setpoint (cc_pid (y_cc y)) = 0 /\ duty_at_most y 1 10.
Proof. intros HC HL. exact (fserved_dead L lo hi C HC HL y w). Qed.
Lemma live_fine_fine L lo hi C y w : build_conf C -> limits_ok L -> fserved L lo hi C y w ->
  (forall adj c v, -99 * 64 <= adj <= 99 * 64 -> lo <= c <= hi -> temp_of_code C adj c v -> -20 * 64 <= v <= 500 * 64) ->
  slow_cycle L + slow_window L < v_steady w -> t_emerg (y_ct y) = false.
Proof. intros HC HL. exact (fserved_fine L lo hi C HC HL y w). Qed.

(** ** Concrete executions *)
Lemma wrun_path L lo hi C l : forall y w y' w', wrun L lo hi C y w l = Some (y', w') -> path L lo hi C y w l y' w'.
Proof.
  induction l as [|e r IH]; intros y w y' w' E; cbn [wrun] in E; [injection E as <- <-; constructor|].
  destruct (on_timeb L C y w e) eqn:O; [|discriminate E]. destruct (step C y e) as [y1|] eqn:S; [|discriminate E]. cbn [bind] in E.
  econstructor; [apply on_timeb_ok; exact O|exact S|apply IH; exact E].
Qed.
Fixpoint fwrun (L : limits) (lo hi : Z) (C : conf) (y : sys) (w : watch) (l : list (event * plan)) : option (sys * watch) :=
  match l with
  | [] => Some (y, w)
  | (e, o) :: r =>
    '(y1, w1) <- wrun L lo hi C y w (map irq_event (concat o)) ;;
    if on_timeb L C y1 w1 e then
      '(y', o') <- fwork C y e o ;;
      match o' with [] => fwrun L lo hi C y' (watch_step lo hi y1 w1 e y') r | _ => None end
    else None
  end.
Lemma fwrun_served L lo hi C l : forall y w y' w', fserved L lo hi C y w -> fwrun L lo hi C y w l = Some (y', w') -> fserved L lo hi C y' w'.
Proof.
  induction l as [|(e, o) r IH]; intros y w y' w' D E; cbn [fwrun] in E; [injection E as <- <-; exact D|].
  destruct (wrun L lo hi C y w (map irq_event (concat o))) as [(y1, w1)|] eqn:P; [|discriminate E]. cbn [bind] in E. apply wrun_path in P.
  destruct (on_timeb L C y1 w1 e) eqn:O; [|discriminate E]. destruct (fwork C y e o) as [(y2, o')|] eqn:S; [|discriminate E]. cbn [bind] in E.
  destruct o'; [|discriminate E]. eapply IH; [|exact E]. eapply fsrv_step; [exact D|exact P|apply on_timeb_ok; exact O|exact S].
Qed.
Definition fwcheck (L : limits) (lo hi : Z) (C : conf) (l : list (event * plan)) (P : sys -> watch -> bool) : bool :=
  match boot C (factory_ee C) NO_KEYS with
  | Some y => match fwrun L lo hi C y watch_zero l with Some (y, w) => P y w | None => false end
  | None => false
  end.
Lemma fwcheck_served L lo hi C l P : fwcheck L lo hi C l P = true -> exists y w, fserved L lo hi C y w /\ P y w = true.
Proof.
  unfold fwcheck. destruct (boot C (factory_ee C) NO_KEYS) as [y0|] eqn:B; [|discriminate].
  destruct (fwrun L lo hi C y0 watch_zero l) as [(y, w)|] eqn:E; [|discriminate]. intros H. exists y, w. split; [|exact H].
  eapply fwrun_served; [|exact E]. eapply fsrv_boot; [|exact B]. unfold is_u8, NO_KEYS. lia.
Qed.
(** [n] averaging cycles with two timer interrupts inside the handling of every result *)
Definition flive (n : nat) (t u : Z) : list (event * plan) :=
  concat (repeat (plainly (ms_of t 49 ++ [ETick; EAdc t]) ++ [(EMeasure, busy 2)] ++ plainly (ms_of u 4 ++ [ETick; EAdc u]) ++ [(EMeasure, busy 2)]) n).
Lemma flive_hot : exists y w, fserved brisk 412 422 conf_m88p y w /\ slow_cycle brisk + slow_window brisk < v_steady w /\ slow_cycle brisk < v_calm w /\ y_now y = 59 * 6 /\
  forall c v, 412 <= c <= 422 -> temp_of_code conf_m88p (s_adj (x_cache (y_set y))) c v -> 480 * 64 < v <= 500 * 64.
Proof.
  destruct (fwcheck_served brisk 412 422 conf_m88p (flive 3 60 0 ++ flive 3 415 0)
      (fun y w => (141 <? v_steady w) && (79 <? v_calm w) && (s_adj (x_cache (y_set y)) =? 0) && (y_now y =? 59 * 6))) as (y & w & D & H); [vm_compute; reflexivity|].
  exists y, w. split; [exact D|]. change (slow_cycle brisk) with 79. change (slow_window brisk) with 62. split; [lia|]. split; [lia|]. split; [lia|].
  intros c v Bc Tc. unfold temp_of_code in Tc. replace (s_adj (x_cache (y_set y))) with 0 in Tc by lia. change (c_adj conf_m88p) with true in Tc. change (c_smd conf_m88p) with true in Tc. cbv iota in Tc. clear - Bc Tc. lia.
Qed.
Lemma flive_lost : exists y w, fserved brisk 484 1023 conf_m88p y w /\ 3001 + l_poll brisk + slow_window brisk + 3 * slow_cycle brisk < v_steady w.
Proof.
  destruct (fwcheck_served brisk 484 1023 conf_m88p (flive 3 150 0 ++ flive 60 1023 0) (fun y w => 3311 <? v_steady w)) as (y & w & D & H); [vm_compute; reflexivity|].
  exists y, w. split; [exact D|]. change (slow_cycle brisk) with 79. change (slow_window brisk) with 62. change (l_poll brisk) with 10. lia.
Qed.
Lemma flive_lost_codes adj c v : -99 * 64 <= adj <= 99 * 64 -> 484 <= c <= 1023 -> temp_of_code conf_m88p adj c v -> v < -20 * 64 \/ 500 * 64 < v.
Proof. intros A B T. apply (lost_codes conf_m88p adj c v A); [right; apply B|exact T]. Qed.
