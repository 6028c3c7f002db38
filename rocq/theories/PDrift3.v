(** * The heater rests above the set-point, the dead band of the integrator, concrete executions *)
From Coq Require Import ZArith List Bool Lia ZifyBool.
From Verif Require Import Base PBase MConf MUtil MFixpt MScale MRing MFilter MTimer MPid MPwm MTempMap MCurr MSens
  SpecNum SpecPid SpecSmall PNum PSmall PScale PPid SpecCurr PCurr MSettings SpecSettings PSettings PSysSet
  MSseg MDisplay MText MState MTemp MMeas MMenu MMain SpecDisplay SpecSys SpecRun SpecLive PSys PSysMeas PSysMenu PSysDisp PSysBtn
  PSysStep PSysRun PSysCC PSysSafe PSysProp PSysLog PSysWin PLive PLive2 SpecControl PControl PMem PControlEx PDemand PWarm PCool SpecDrift PDrift PDrift2
  Trace TraceLive PSysTrace PSettingsEx.
Import ListNotations.
Open Scope Z_scope.
Ltac Zify.zify_post_hook ::= Z.div_mod_to_equations.

Section Rest.
Variables (L : limits) (lo hi : Z) (C : conf) (W b vlo vhi j k : Z).
Hypothesis HC : build_conf C.
Hypothesis HL : limits_ok L.
Hypothesis V1 : -20 * 64 <= vlo <= vhi.
Hypothesis V2 : vhi <= 500 * 64.
Hypothesis V3 : 1 <= vlo - W.
Hypothesis V4 : vhi - W < 2 * (vlo - W).
Hypothesis Hj : 0 <= j.
Hypothesis V5 : 1024 * j - 480 < 19 * (vlo - W).
Hypothesis Hk : 1 <= k.
Hypothesis V6 : 80 * 64 - k * j <= 3 * (vlo - W) / 2.
Lemma drift_zero y w n : tracking L lo hi C W b y w n ->
  (forall c x, lo <= c <= hi -> temp_of_code C (s_adj (x_cache (y_set y))) c x -> vlo <= x <= vhi) ->
  (k + 1) * slow_cycle L < n -> (k + 1) * slow_cycle L < v_calm w -> (k + 1) * slow_cycle L + slow_window L < v_steady w ->
  p_setpoint (cc_pid (y_cc y)) = 0.
Proof.
  intros D Rg H1 H2 H3. pose proof (drift_down L lo hi C W b vlo vhi j k y w n HC HL V1 V2 V3 V4 Hj V5 Hk D Rg H1 H2 H3) as B.
  pose proof (served_reach L lo hi C HC HL y w (track_served L lo hi C W b y w n D)) as R.
  pose proof (i_cc _ _ _ (s4_inv _ _ _ (reach_s4 C y HC R))) as ((Ci & _) & _). destruct Ci as (_ & _ & _ & _ & _ & W0 & _).
  clear - B W0 V6 V3. lia.
Qed.
Lemma drift_ocr y w n : tracking L lo hi C W b y w n ->
  v_curr w + (k + 1) * slow_cycle L < n -> v_curr w + (k + 1) * slow_cycle L < v_calm w -> v_curr w + (k + 1) * slow_cycle L + slow_window L < v_steady w ->
  (forall c x, lo <= c <= hi -> temp_of_code C (s_adj (x_cache (y_set y))) c x -> vlo <= x <= vhi) ->
  7372 <= cc_ocr (y_cc y).
Proof.
  pose proof (slow_pos L HL) as Sp. assert (Bk : 0 <= (k + 1) * slow_cycle L) by (apply Z.mul_nonneg_nonneg; lia).
  intros D. induction D as [pinb y Hp E|y v pinb y' R O E Ad|y w n e y' D IH O E].
  - cbn [v_curr watch_zero]. lia.
  - cbn [v_curr watch_zero]. lia.
  - pose proof (track_served L lo hi C W b y w n D) as S. pose proof (served_reach L lo hi C HC HL y w S) as R. destruct (served_ev L lo hi C HC HL y w e S O) as (Oe & P).
    pose proof (drift_zero y w n D) as Wd.
    pose proof (served_prog L lo hi C HC HL y w S) as Pg. pose proof (p_steady _ _ _ _ _ _ Pg) as Sb. destruct (p_curr _ _ _ _ _ _ Pg) as ((Cb & _) & _).
    set (n' := if keen C W b y && keen C W b y' then n + match e with ETick => 1 | _ => 0 end else 0) in *.
    assert (Hn : 0 < n' -> n' = n + match e with ETick => 1 | _ => 0 end).
    { unfold n'. destruct (keen C W b y); [|cbn; lia]. destruct (keen C W b y'); cbn [andb]; [auto|lia]. }
    clearbody n'. pose proof (calm_move lo hi y w e y') as Cm.
    assert (Rr : in_range lo hi C vlo vhi y' -> s_adj (x_cache (y_set y')) = s_adj (x_cache (y_set y)) -> in_range lo hi C vlo vhi y) by (intros Rg Ea c x Bc Tx; apply (Rg c x Bc); rewrite Ea; exact Tx).
    pose proof (moves L lo hi C HC HL y w e y' S O E) as M. cbv zeta in M. set (w' := watch_step lo hi y w e y') in *. clearbody w'.
    set (kk := (k + 1) * slow_cycle L) in *. clearbody kk.
    intros H1 H2 H3 Rg.
    assert (Pc' : 0 <= v_curr w') by (destruct M as [(_ & _ & _ & M3 & _)|[(_ & _ & _ & M3 & _)|[(_ & _ & _ & M3 & _)|(_ & _ & _ & _ & M3 & _)]]]; lia).
    specialize (Hn ltac:(lia)). destruct (Cm ltac:(lia)) as (On & Ea & Ec). pose proof (Rr Rg Ea) as Rg0.
    destruct (result_dec y e 0) as [X|X].
    + assert (e = EMeasure) by apply X. subst e. destruct (result_cc C y EMeasure y' HC R X E) as (_ & _ & K).
      destruct M as [((_ & _ & X0) & _)|[(_ & _ & M2 & M3 & M4)|[(Q & _)|(Q & _)]]]; [destruct X as (_ & _ & X); congruence| |discriminate Q|destruct (Q 0 X)].
      apply K. apply (Wd Rg0); lia.
    + rewrite (ocr_kept C y e y' HC R Oe P X E). destruct (cc_emerg (y_cc y') =? 0); [|lia]. apply IH; [| | |exact Rg0];
        (destruct M as [((-> & _) & _ & _ & M3 & M4)|[(Q & _)|[(-> & _ & _ & M3 & M4)|(_ & Ne & _ & _ & M3 & M4)]]]; [lia|destruct (X Q)|lia|destruct e; try congruence; lia]).
Qed.
Lemma drift_rests y w n : tracking L lo hi C W b y w n ->
  (forall c x, lo <= c <= hi -> temp_of_code C (s_adj (x_cache (y_set y))) c x -> vlo <= x <= vhi) ->
  (k + 2) * slow_cycle L < n -> (k + 2) * slow_cycle L < v_calm w -> (k + 2) * slow_cycle L + slow_window L < v_steady w ->
  duty_at_most y 1 10.
Proof.
  intros D Rg H1 H2 H3. pose proof (prog_curr L lo hi C HC HL y w (served_prog L lo hi C HC HL y w (track_served L lo hi C W b y w n D))).
  assert (7372 <= cc_ocr (y_cc y)) by (apply (drift_ocr y w n D); try assumption; lia). unfold duty_at_most. lia.
Qed.
End Rest.

(** ** The dead band *)
Lemma dead_band C y e y' n r : build_conf C -> temp_clock C y n -> n <= 70 -> temp_processed y e y' r -> step C y e = Some y' ->
  ki (used_gains C y) = 19 -> -28 <= wanted_setpoint (x_cache (y_set y)) (c_idle C && t_idle (y_ct y)) - r <= 25 ->
  p_integr (t_pid (y_ct y')) = p_integr (t_pid (y_ct y)).
Proof.
  intros HC T Bn Tp E Ki Be. destruct (temp_clock_exact C y n HC T) as (R & B0 & _).
  destruct (temp_law_dt C y e y' r HC R Tp E) as (dt & out & a & (P & KE & A & D & QP & QK & QA & QI & QD & Qy & QE) & Ed & _).
  pose proof Tp as (_ & _ & _ & En & _). destruct (temp_clock_dt C y n dt HC T ltac:(lia) En Ed) as (Mq & Bd). unfold ms_to_q6 in Mq. cbv zeta in *.
  destruct (pid_range C HC y R) as (_ & Bi). rewrite Ki in QK.
  set (d := wanted_setpoint _ _ - r) in *. clearbody d. assert (Se : sat24 d = d) by (unfold sat24; lia). rewrite Se in *.
  destruct QK as (q & N & ->). destruct QA as (q2 & N2 & ->). unfold nearest_up in *. assert (Bq : -8 <= q <= 7) by lia.
  replace (sat24 q) with q in N2 by (unfold sat24; lia). assert (Bd' : dt <= 4) by lia. assert (q2 = 0).
  { assert (Ds : dt = 0 \/ dt = 1 \/ dt = 2 \/ dt = 3 \/ dt = 4) by lia. destruct Ds as [->|[->|[->|[->| ->]]]]; lia. }
  subst q2. rewrite QI. clear - Bi. unfold limit, sat24. lia.
Qed.

(** ** Concrete executions *)
Fixpoint krun (L : limits) (lo hi : Z) (C : conf) (W b : Z) (y : sys) (w : watch) (n : Z) (l : list event) : option (sys * watch * Z) :=
  match l with
  | [] => Some (y, w, n)
  | e :: r =>
      if on_timeb L C y w e then
        y' <- step C y e ;;
        krun L lo hi C W b y' (watch_step lo hi y w e y')
          (if keen C W b y && keen C W b y' then n + match e with ETick => 1 | _ => 0 end else 0) r
      else None
  end.
Lemma krun_tracking L lo hi C W b l : forall y w n y' w' n', tracking L lo hi C W b y w n ->
  krun L lo hi C W b y w n l = Some (y', w', n') -> tracking L lo hi C W b y' w' n'.
Proof.
  induction l as [|e r IH]; intros y w n y' w' n' D E; cbn [krun] in E; [injection E as <- <- <-; exact D|].
  destruct (on_timeb L C y w e) eqn:O in E; [|discriminate E].
  destruct (step C y e) as [y1|] eqn:S; [|discriminate E]. cbn [bind] in E. eapply IH; [|exact E].
  econstructor; [exact D|apply on_timeb_ok; exact O|exact S].
Qed.
Definition kcheck (L : limits) (lo hi : Z) (C : conf) (W b : Z) (l : list event) (P : sys -> watch -> Z -> bool) : bool :=
  match (y <- boot C (factory_ee C) NO_KEYS ;; krun L lo hi C W b y watch_zero 0 l) with Some (y, w, n) => P y w n | None => false end.
Lemma kcheck_tracking L lo hi C W b l P : kcheck L lo hi C W b l P = true -> exists y w n, tracking L lo hi C W b y w n /\ P y w n = true.
Proof.
  unfold kcheck. destruct (boot C (factory_ee C) NO_KEYS) as [y0|] eqn:B; [|discriminate]. cbn [bind].
  destruct (krun L lo hi C W b y0 watch_zero 0 l) as [((y, w), n)|] eqn:E; [|discriminate]. intros H. exists y, w, n. split; [|exact H].
  eapply krun_tracking; [|exact E]. eapply trk_boot; [|exact B]. unfold is_u8, NO_KEYS. lia.
Qed.
(** The tip stays between 201 and 205 degrees, 350 are wanted; 1.2 s after power-up. *)
Lemma case96_up : exists y w n, tracking brisk 241 243 conf_m88p (350 * 64) 0 y w n /\
  (12 + 1) * slow_cycle brisk < n /\ (12 + 1) * slow_cycle brisk < v_calm w /\ (12 + 1) * slow_cycle brisk + slow_window brisk < v_steady w /\
  (forall c x, 241 <= c <= 243 -> temp_of_code conf_m88p (s_adj (x_cache (y_set y))) c x -> 200 * 64 <= x <= 205 * 64).
Proof.
  destruct (kcheck_tracking brisk 241 243 conf_m88p (350 * 64) 0 (live 21 242 100)
    (fun y w n => (1027 <? n) && (1027 <? v_calm w) && (1089 <? v_steady w) && (s_adj (x_cache (y_set y)) =? 0))) as (y & w & n & D & H); [vm_compute; reflexivity|].
  exists y, w, n. split; [exact D|]. change (slow_cycle brisk) with 79. change (slow_window brisk) with 62. split; [lia|]. split; [lia|]. split; [lia|].
  intros c v Bc Tc. unfold temp_of_code in Tc. replace (s_adj (x_cache (y_set y))) with 0 in Tc by lia. change (c_adj conf_m88p) with true in Tc. change (c_smd conf_m88p) with true in Tc. cbv iota in Tc. clear - Bc Tc. lia.
Qed.
(** The tip stays at about 400 degrees, 50 above the set-point: 0.9 s after power-up. *)
Lemma case96_down : exists y w n, tracking brisk 362 363 conf_m88p (350 * 64) 0 y w n /\
  (8 + 2) * slow_cycle brisk < n /\ (8 + 2) * slow_cycle brisk < v_calm w /\ (8 + 2) * slow_cycle brisk + slow_window brisk < v_steady w /\
  (forall c x, 362 <= c <= 363 -> temp_of_code conf_m88p (s_adj (x_cache (y_set y))) c x -> 399 * 64 <= x <= 402 * 64).
Proof.
  destruct (kcheck_tracking brisk 362 363 conf_m88p (350 * 64) 0 (live 17 362 100)
    (fun y w n => (790 <? n) && (790 <? v_calm w) && (852 <? v_steady w) && (s_adj (x_cache (y_set y)) =? 0))) as (y & w & n & D & H); [vm_compute; reflexivity|].
  exists y, w, n. split; [exact D|]. change (slow_cycle brisk) with 79. change (slow_window brisk) with 62. split; [lia|]. split; [lia|]. split; [lia|].
  intros c v Bc Tc. unfold temp_of_code in Tc. replace (s_adj (x_cache (y_set y))) with 0 in Tc by lia. change (c_adj conf_m88p) with true in Tc. change (c_smd conf_m88p) with true in Tc. cbv iota in Tc. clear - Bc Tc. lia.
Qed.
(** 350 degrees wanted; the code 332 is 350.3 degrees. *)
Lemma case96_band : exists y y' r, temp_clock conf_m88p y 57 /\ step conf_m88p y EMeasure = Some y' /\ temp_processed y EMeasure y' r /\
  ki (used_gains conf_m88p y) = 19 /\ wanted_setpoint (x_cache (y_set y)) (c_idle conf_m88p && t_idle (y_ct y)) - r = -19 /\
  p_integr (t_pid (y_ct y)) = 849 /\ p_integr (t_pid (y_ct y')) = 849.
Proof.
  assert (K : match boot conf_m88p (factory_ee conf_m88p) NO_KEYS with
              | Some y => match clock_b conf_m88p y 0 0 (cycles 20 310 100 ++ ticks 51 ++ [EAdc 332]) with
                          | Some (y, n, m) =>
                            match step conf_m88p y EMeasure with
                            | Some y' => (n =? 57) && result_b y 1 && t_enabled (y_ct y) && negb (t_emerg (y_ct y')) &&
                                (ki (used_gains conf_m88p y) =? 19) &&
                                (wanted_setpoint (x_cache (y_set y)) (c_idle conf_m88p && t_idle (y_ct y)) - t_feedback (y_ct y') =? -19) &&
                                (p_integr (t_pid (y_ct y)) =? 849) && (p_integr (t_pid (y_ct y')) =? 849)
                            | None => false end
                          | None => false end
              | None => false end = true) by (vm_compute; reflexivity).
  destruct (boot conf_m88p (factory_ee conf_m88p) NO_KEYS) as [y0|] eqn:B; [|discriminate K].
  destruct (clock_b conf_m88p y0 0 0 _) as [[[y n] m]|] eqn:E; [|discriminate K].
  destruct (step conf_m88p y EMeasure) as [y'|] eqn:S; [|discriminate K].
  assert (N : is_u8 NO_KEYS) by (unfold NO_KEYS, is_u8; lia).
  destruct (clock_b_ok _ _ _ _ _ _ _ _ (tc_boot _ _ _ N B) (uc_boot _ _ _ N B) E) as (T & U).
  exists y, y', (t_feedback (y_ct y')). andbs. subst n.
  match goal with H : result _ _ _ |- _ => destruct H as (_ & ? & ?) end. unfold temp_processed. auto 15.
Qed.
Lemma rate96_up : 1024 * 172 - 544 <= 19 * (350 * 64 - 205 * 64) /\
  Z.min (5 * 640) ((Z.min (80 * 64) (12 * 172 - 30 * 64) + 3 * (350 * 64 - 205 * 64) / 2) / 5) = 2812.
Proof. split; [lia|reflexivity]. Qed.
Lemma rate96_down : 1024 * 58 - 480 < 19 * (399 * 64 - 350 * 64) /\ 80 * 64 - 8 * 58 <= 3 * (399 * 64 - 350 * 64) / 2.
Proof. split; lia. Qed.
