(** * Interrupts inside the work functions: the statements of PropFineWarm and a concrete execution *)
From Coq Require Import ZArith List Bool Lia ZifyBool.
From Verif Require Import Base PBase MConf MTimer MPid MPwm MCurr SpecNum SpecCurr MSettings SpecSettings MSseg MDisplay MState MTemp
  MMeas MMenu MMain SpecDisplay SpecSys SpecRun SpecLive Trace TraceLive PSettingsEx SpecWarm
  MFine SpecFine SpecFineLive SpecFineWarm PFine8 PFineEx PFineT6 PFineW2.
Import ListNotations.
Open Scope Z_scope.
Ltac Zify.zify_post_hook ::= Z.div_mod_to_equations.

Lemma fwarm_includes L lo hi chi C W y w n : wanting L lo hi chi C W y w n -> fwanting L lo hi chi C W y w n.
Proof.
  intros D. induction D as [pinb y Hp E|y v pinb y' R O E Ad|y w n e y' D IH O E Hc].
  - eapply fwnt_boot; eassumption.
  - eapply fwnt_power; [apply reach_freach; exact R|apply next_fnext; eassumption|exact Ad].
  - apply (fwnt_step L lo hi chi C W y w n e [] y w n y'); [exact IH|constructor|exact O|apply fwork_nil; exact E|exact Hc].
Qed.
Lemma fwarm_served L lo hi chi C W y w n : fwanting L lo hi chi C W y w n -> fserved L lo hi C y w.
Proof. exact (fwanting_fserved L lo hi chi C W y w n). Qed.
Lemma fhot_demand L lo hi chi C W vlo vhi y w n : build_conf C -> limits_ok L ->
  -20 * 64 <= vlo <= vhi -> vhi <= 500 * 64 -> 54 * 64 <= vlo - W -> vhi - W < 2 * (vlo - W) ->
  fwanting L lo hi chi C W y w n ->
  (forall c x, lo <= c <= hi -> temp_of_code C (s_adj (x_cache (y_set y))) c x -> vlo <= x <= vhi) ->
  2 * slow_cycle L < n -> 2 * slow_cycle L < v_calm w -> 2 * slow_cycle L + slow_window L < v_steady w ->
  p_setpoint (cc_pid (y_cc y)) = 0.
Proof. intros HC HL V1 V2 V3 V4 D Rg. apply (fcool L lo hi chi C W HC HL vlo vhi (conj V1 (conj V2 (conj V3 V4))) y w n D Rg). Qed.
Lemma fhot_rests L lo hi chi C W vlo vhi y w n : build_conf C -> limits_ok L ->
  -20 * 64 <= vlo <= vhi -> vhi <= 500 * 64 -> 54 * 64 <= vlo - W -> vhi - W < 2 * (vlo - W) ->
  fwanting L lo hi chi C W y w n ->
  (forall c x, lo <= c <= hi -> temp_of_code C (s_adj (x_cache (y_set y))) c x -> vlo <= x <= vhi) ->
  3 * slow_cycle L < n -> 3 * slow_cycle L < v_calm w -> 3 * slow_cycle L + slow_window L < v_steady w ->
  duty_at_most y 1 10.
Proof.
  intros HC HL V1 V2 V3 V4 D Rg H1 H2 H3. destruct (fcool L lo hi chi C W HC HL vlo vhi (conj V1 (conj V2 (conj V3 V4))) y w n D Rg) as (_ & K).
  specialize (K H1 H2 H3). unfold duty_at_most. lia.
Qed.

(** Concrete executions *)
Definition below (chi : Z) (y : sys) (e : event) : bool := match e with EAdc raw => negb (m_chan (y_meas y) =? 0) || (raw <=? chi) | _ => true end.
Lemma below_ok chi y e : below chi y e = true -> forall raw, e = EAdc raw -> m_chan (y_meas y) = 0 -> raw <= chi.
Proof. intros H raw -> Z. cbn [below] in H. rewrite Z in H. cbn [Z.eqb negb orb] in H. lia. Qed.
Fixpoint eagrun (L : limits) (lo hi chi : Z) (C : conf) (W : Z) (y : sys) (w : watch) (n : Z) (l : list event) : option (sys * watch * Z) :=
  match l with
  | [] => Some (y, w, n)
  | e :: r => if on_timeb L C y w e && below chi y e then y' <- step C y e ;; eagrun L lo hi chi C W y' (watch_step lo hi y w e y') (eager_step C W y n e y') r else None
  end.
Lemma eagrun_wpath L lo hi chi C W l : forall y w n y' w' n', eagrun L lo hi chi C W y w n l = Some (y', w', n') -> wpath L lo hi chi C W y w n l y' w' n'.
Proof.
  induction l as [|e r IH]; intros y w n y' w' n' E; cbn [eagrun] in E; [injection E as <- <- <-; constructor|].
  destruct (on_timeb L C y w e && below chi y e) eqn:O; [|discriminate E]. apply andb_true_iff in O. destruct O as (O & Ob). destruct (step C y e) as [y1|] eqn:S; [|discriminate E]. cbn [bind] in E.
  econstructor; [apply on_timeb_ok; exact O|exact S|exact (below_ok _ _ _ Ob)|apply IH; exact E].
Qed.
Fixpoint fgrun (L : limits) (lo hi chi : Z) (C : conf) (W : Z) (y : sys) (w : watch) (n : Z) (l : list (event * plan)) : option (sys * watch * Z) :=
  match l with
  | [] => Some (y, w, n)
  | (e, o) :: r =>
    '(y1, w1, n1) <- eagrun L lo hi chi C W y w n (map irq_event (concat o)) ;;
    if on_timeb L C y1 w1 e && below chi y1 e then
      '(y', o') <- fwork C y e o ;;
      match o' with [] => fgrun L lo hi chi C W y' (watch_step lo hi y1 w1 e y') (eager_step C W y1 n1 e y') r | _ => None end
    else None
  end.
Lemma fgrun_wanting L lo hi chi C W l : forall y w n y' w' n', fwanting L lo hi chi C W y w n -> fgrun L lo hi chi C W y w n l = Some (y', w', n') -> fwanting L lo hi chi C W y' w' n'.
Proof.
  induction l as [|(e, o) r IH]; intros y w n y' w' n' D E; cbn [fgrun] in E; [injection E as <- <- <-; exact D|].
  destruct (eagrun L lo hi chi C W y w n (map irq_event (concat o))) as [((y1, w1), n1)|] eqn:P; [|discriminate E]. cbn [bind] in E. apply eagrun_wpath in P.
  destruct (on_timeb L C y1 w1 e && below chi y1 e) eqn:O; [|discriminate E]. apply andb_true_iff in O. destruct O as (O & Ob). destruct (fwork C y e o) as [(y2, o')|] eqn:S; [|discriminate E]. cbn [bind] in E.
  destruct o'; [|discriminate E]. eapply IH; [|exact E]. eapply fwnt_step; [exact D|exact P|apply on_timeb_ok; exact O|exact S|exact (below_ok _ _ _ Ob)].
Qed.
Definition fgcheck (L : limits) (lo hi chi : Z) (C : conf) (W : Z) (l : list (event * plan)) (P : sys -> watch -> Z -> bool) : bool :=
  match (y <- boot C (factory_ee C) NO_KEYS ;; fgrun L lo hi chi C W y watch_zero 0 l) with Some (y, w, n) => P y w n | None => false end.
Lemma fgcheck_wanting L lo hi chi C W l P : fgcheck L lo hi chi C W l P = true -> exists y w n, fwanting L lo hi chi C W y w n /\ P y w n = true.
Proof.
  unfold fgcheck. destruct (boot C (factory_ee C) NO_KEYS) as [y0|] eqn:B; [|discriminate]. cbn [bind].
  destruct (fgrun L lo hi chi C W y0 watch_zero 0 l) as [((y, w), n)|] eqn:E; [|discriminate]. intros H. exists y, w, n. split; [|exact H].
  eapply fgrun_wanting; [|exact E]. eapply fwnt_boot; [|exact B]. unfold is_u8, NO_KEYS. lia.
Qed.
(** The iron is cold and heated at first, then hotter than the set-point; two timer interrupts inside the
    handling of every result. *)
Lemma case110 : (exists y w n, fwanting brisk 372 378 1023 conf_m88p (350 * 64) y w n /\ v_steady w = 9 /\ p_setpoint (cc_pid (y_cc y)) = 5 * 640 /\ cc_ocr (y_cc y) = 4915) /\
  exists y w n, fwanting brisk 372 378 1023 conf_m88p (350 * 64) y w n /\
  3 * slow_cycle brisk < n /\ 3 * slow_cycle brisk < v_calm w /\ 3 * slow_cycle brisk + slow_window brisk < v_steady w /\
  (forall c x, 372 <= c <= 378 -> temp_of_code conf_m88p (s_adj (x_cache (y_set y))) c x -> 410 * 64 <= x <= 430 * 64).
Proof.
  split.
  - destruct (fgcheck_wanting brisk 372 378 1023 conf_m88p (350 * 64) (flive 3 134 100)
      (fun y w n => (v_steady w =? 9) && (p_setpoint (cc_pid (y_cc y)) =? 3200) && (cc_ocr (y_cc y) =? 4915))) as (y & w & n & D & H); [vm_compute; reflexivity|].
    exists y, w, n. split; [exact D|]. lia.
  - destruct (fgcheck_wanting brisk 372 378 1023 conf_m88p (350 * 64) (flive 3 134 100 ++ flive 6 375 100)
      (fun y w n => (237 <? n) && (237 <? v_calm w) && (299 <? v_steady w) && (s_adj (x_cache (y_set y)) =? 0))) as (y & w & n & D & H); [vm_compute; reflexivity|].
    exists y, w, n. split; [exact D|]. change (slow_cycle brisk) with 79. change (slow_window brisk) with 62. split; [lia|]. split; [lia|]. split; [lia|].
    intros c v Bc Tc. unfold temp_of_code in Tc. replace (s_adj (x_cache (y_set y))) with 0 in Tc by lia. change (c_adj conf_m88p) with true in Tc. change (c_smd conf_m88p) with true in Tc. cbv iota in Tc. clear - Bc Tc. lia.
Qed.
