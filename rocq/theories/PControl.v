(** * Proofs of the control laws of the running firmware *)
From Coq Require Import ZArith List Bool Lia ZifyBool.
From Verif Require Import Base PBase MConf MUtil MFixpt MScale MRing MFilter MTimer MPid MPwm MTempMap MCurr MSens
  SpecNum SpecPid SpecSmall PNum PSmall PScale PPid SpecCurr PCurr MSettings SpecSettings PSettings PSysSet
  MSseg MDisplay MText MState MTemp MMeas MMenu MMain SpecDisplay PDisplay SpecSys PSys PSysMeas PSysMenu PSysDisp PSysBtn
  PSysStep PSysRun PSysCC SpecRun PSysSafe PSysProp PSysWin PSysLog SpecControl.
Import ListNotations.
Open Scope Z_scope.
Ltac Zify.zify_post_hook ::= Z.div_mod_to_equations.

(** ** The PID law for every time step *)
Lemma muldiv_zero a b d : fixpt_mul_div a b 0 = Some d -> Z.abs d <= 1.
Proof.
  unfold fixpt_mul_div, fixpt_big_mul_div. intros H. apply bind_inv in H. destruct H as (x & H & E).
  apply bind_inv in H. destruct H as (m & _ & H). unfold fixpt_big_div in H. change (fixpt_inflate 0 =? 0) with true in H. cbv iota in H.
  apply Some_inj in H. apply Some_inj in E. subst x d.
  destruct (m <? 0); vm_compute; discriminate.
Qed.
Lemma muldiv_law de k dt d : dt <> 0 -> fixpt_mul_div de k dt = Some d -> qmuldiv de k dt d.
Proof.
  intros Nd HD. unfold fixpt_mul_div, fixpt_big_mul_div, fixpt_inflate in HD.
  apply bind_inv in HD. destruct HD as (x & HX & HD). apply Some_inj in HD. subst d.
  apply bind_inv in HX. destruct HX as (m & HM & HX).
  unfold fixpt_big_mul in HM. apply bind_inv in HM. destruct HM as (m1 & HM1 & HM).
  apply chk32_inv in HM1. destruct HM1 as [-> _].
  apply bind_inv in HM. destruct HM as (m2 & HM2 & HM).
  apply chk32_inv in HM2. destruct HM2 as [-> _]. apply Some_inj in HM. rewrite shiftr6 in HM. subst m.
  unfold fixpt_big_div in HX.
  destruct (dt =? 0) eqn:Z0; [lia|]. apply bind_inv in HX. destruct HX as (t & T & HX).
  apply chk32_inv in T. destruct T as [-> T].
  unfold qmuldiv. eexists; eexists. split; [apply nearest_up_64|].
  split; [apply divaway_spec; exact Nd|]. rewrite deflate_sat. f_equal.
  apply bind_inv in HX. destruct HX as (h & Hh & HX).
  unfold div32 in Hh. change (2 =? 0) with false in Hh. apply chk32_inv in Hh. destruct Hh as [-> _].
  apply bind_inv in HX. destruct HX as (n2 & Hn2 & HX).
  unfold div32 in HX. rewrite Z0 in HX. apply chk32_inv in HX. destruct HX as [-> _].
  unfold divaway. rewrite (Z.mul_comm 64).
  destruct (_ || _) in Hn2 |- *; apply chk32_inv in Hn2; destruct Hn2 as [-> _]; reflexivity.
Qed.
Lemma muldiv_s24 de k dt d : fixpt_mul_div de k dt = Some d -> is_s24 d.
Proof.
  unfold fixpt_mul_div. intros H. apply bind_inv in H. destruct H as (x & _ & E). apply Some_inj in E. subst d.
  rewrite deflate_sat. apply sat24_s24.
Qed.
Lemma pid_run_step p dt r p' y :
  is_s24 (p_setpoint p) -> is_s24 r -> is_s24 (p_prev_e p) -> is_s24 (p_integr p) -> d_decay_div (p_k p) = 128 ->
  is_s24 (p_i_neglim p) -> is_s24 (p_i_poslim p) -> pid_lims_ok p ->
  pid_run p dt r = Some (p', y) ->
  pid_step (kp (p_k p)) (ki (p_k p)) (kd (p_k p)) 128
          (p_i_neglim p) (p_i_poslim p) (p_y_neglim p) (p_y_poslim p)
          (p_setpoint p) (p_integr p) (p_prev_e p) dt r
          y (p_integr p') (p_prev_e p').
Proof.
  intros Sw Sr Se Si Dd Sl1 Sl2 [L1 L2] H. unfold pid_run in H.
  rewrite fixpt_sub_eq in H by easy. cbn [bind] in H.
  apply bind_inv in H. destruct H as (pt & HP & H).
  apply bind_inv in H. destruct H as (ie & HI & H).
  apply bind_inv in H. destruct H as (ied & HA & H).
  set (e := sat24 (p_setpoint p - r)) in *.
  assert (SA : is_s24 ied).
  { apply mul_inv in HA. destruct HA as (q & _ & ->). apply sat24_s24. }
  assert (SP : is_s24 pt).
  { apply mul_inv in HP. destruct HP as (q & _ & ->). apply sat24_s24. }
  rewrite fixpt_add_eq in H by easy. cbn [bind] in H.
  rewrite cclamp_eq in H by easy. fold (limit (p_i_neglim p) (p_i_poslim p) (sat24 (p_integr p + ied))) in H.
  set (i := limit _ _ _) in *.
  assert (SI : is_s24 i).
  { unfold i, limit, is_s24 in *. lia. }
  rewrite fixpt_add_eq in H by easy. cbn [bind] in H.
  rewrite fixpt_sub_eq in H by (try assumption; apply sat24_s24). cbn [bind] in H.
  apply bind_inv in H. destruct H as (d & HD & H).
  rewrite Dd in H. rewrite fixpt_div_eq in H by (try apply sat24_s24; unfold is_s24; lia). cbn [bind] in H.
  pose proof (muldiv_s24 _ _ _ _ HD) as SD.
  rewrite fixpt_add_eq in H by (try assumption; apply sat24_s24). cbn [bind] in H.
  apply Some_inj in H. injection H as <- <-. cbn [p_integr p_prev_e].
  exists pt, ie, ied, d. cbn zeta. fold e.
  split; [now apply mul_inv|]. split; [now apply mul_inv|]. split; [now apply mul_inv|]. split; [reflexivity|].
  split.
  { destruct (Z.eq_dec dt 0) as [->|N]; [right; split; [reflexivity|exact (muldiv_zero _ _ _ HD)]|left; split; [exact N|exact (muldiv_law _ _ _ _ N HD)]]. }
  split; [rewrite cclamp_eq by easy; reflexivity|].
  exists (divaway (e * 64) 128). split; [|reflexivity]. rewrite (Z.mul_comm 64). apply divaway_spec. discriminate.
Qed.

(** ** C28: the over-temperature flag *)
Lemma hot_exact C y : build_conf C -> reach C y -> (Z.testbit (cc_emerg (y_cc y)) 1 = true <-> too_hot C y).
Proof.
  intros HC R. split; [|intros H; exact (proj2 (too_hot_reach C y HC H))].
  change (Z.testbit (cc_emerg (y_cc y)) 1) with (hot y).
  induction R as [pinb y Hp E|y e y' R IH O E]; intros Hh.
  - destruct (fresh_cc C y (boot_fresh C pinb y HC E)) as (_ & _ & A & _). unfold hot in Hh. rewrite A in Hh. discriminate.
  - destruct (is_power e) eqn:P.
    + destruct e; try discriminate P. destruct (fresh_cc C y' (power_fresh C y v pinb y' HC R O E)) as (_ & _ & A & _).
      unfold hot in Hh. rewrite A in Hh. discriminate.
    + destruct (step_hot C y e y' HC R O P E) as [(r & T & X)|(N & X)].
      * apply (hot_now C y e y' r R O E T). rewrite X in Hh. lia.
      * apply (hot_still C y e y'); [apply IH; congruence|exact O|exact E|exact P|]. intros r T. destruct (N r T).
Qed.

(** ** C75: the law of the temperature controller *)
Lemma gains_used C y : build_conf C -> reach C y ->
  used_gains C y = p_k (t_pid (y_ct y)) /\ d_decay_div (p_k (t_pid (y_ct y))) = 128.
Proof.
  intros HC R. pose proof (s4_inv _ _ _ (reach_s4 C y HC R)) as I. destruct (i_ct _ _ _ I) as (G & _).
  split; [unfold used_gains; exact (zget_nth _ _ _ _ G)|].
  destruct (i_set _ _ _ I) as (_ & Rg & _). destruct (rng_gain_get relaxed C _ _ Rg (bm_valid _ _ _ I)) as (k & Ek & (_ & _ & _ & _ & D)).
  rewrite G in Ek. apply Some_inj in Ek. subst k. apply D. reflexivity.
Qed.
Lemma temp_law_dt C y e y' r : build_conf C -> reach C y -> temp_processed y e y' r -> step C y e = Some y' ->
  let k := used_gains C y in
  exists dt out a,
    pid_step (kp k) (ki k) (kd k) 128 (-30 * 64) (80 * 64) 0 (480 * 64)
      (wanted_setpoint (x_cache (y_set y)) (c_idle C && t_idle (y_ct y)))
      (p_integr (t_pid (y_ct y))) (p_prev_e (t_pid (y_ct y))) dt r out
      (p_integr (t_pid (y_ct y'))) (p_prev_e (t_pid (y_ct y'))) /\
    dt_seconds (y_now y) (t_dt (y_ct y)) = Some dt /\
    (out <= 250 * 64 -> nearest_away out 5 a) /\ (250 * 64 <= out -> a = 5 * 640) /\
    p_setpoint (cc_pid (y_cc y')) = (if 480 * 64 <? r then 0 else a).
Proof.
  intros HC R T E k. destruct (gains_used C y HC R) as (Gk & Gd). pose proof (sys_setpoint C y HC R) as Sp. unfold pid_get_setpoint in Sp.
  pose proof T as (-> & X2 & X3 & X4 & X5 & X6). pose proof (reach_s4 C y HC R) as S4. pose proof (s4_inv _ _ _ S4) as I.
  pose proof (i_now _ _ _ I) as B.
  destruct (sys_feedback_range C y' HC (reach_step C y EMeasure y' R Logic.I E)) as (Br & _). rewrite X6 in Br.
  destruct (step_pending relaxed C y EMeasure y' HC bok_relaxed S4 X2 E) as (c0 & c1 & raw & _ & _ & _ & _ & _ & _ & _ & _ & Ht & _).
  destruct (Ht X3) as (c1' & w & v' & p & _ & _ & _ & (_ & _ & _ & _ & _ & _ & _ & _ & _ & _ & Q) & _).
  destruct (Q X4 X5) as (dt & out & a & Ed & Ep & Ea & Es & Bo). rewrite X6 in *. exists dt, out, a.
  destruct (temp_to_amps_spec out Bo) as (a' & Ea' & _ & A1 & A2). rewrite Ea in Ea'. apply Some_inj in Ea'. subst a'.
  destruct (i_ct _ _ _ I) as (_ & _ & (L1 & L2 & L3 & L4) & Be & Bi & (ap & Eap & Esp) & _).
  split.
  - unfold k. rewrite Gk. rewrite <- Sp.
    destruct (i_set _ _ _ I) as (_ & Rg & _). pose proof Rg as (_ & Bid & _). destruct (rng_preset_get relaxed C _ Rg) as (a2 & Ea2 & Ba2).
    rewrite Eap in Ea2. apply Some_inj in Ea2. subst a2. cbn in Ba2, Bid.
    assert (Bs : 0 <= p_setpoint (t_pid (y_ct y)) <= 30975) by (clear - Esp Ba2 Bid; rewrite Esp; destruct (c_idle C && t_idle (y_ct y) && _); assumption).
    assert (K := pid_run_step (t_pid (y_ct y)) dt r (t_pid (y_ct y')) out).
    rewrite L1, L2, L3, L4 in K. unfold pid_lims_ok in K. rewrite L1, L2, L3, L4 in K.
    apply K; try (unfold is_s24; clear - Bs Br Be Bi; lia); [exact Gd|exact Ep].
  - auto.
Qed.

(** ** C76: the law of the current controller *)
Lemma lowpass_run d buf x b o : 1 <= d <= 64 -> 0 <= buf <= d * 3200 -> 0 <= x <= 3200 ->
  lp_filter_fixpt_run buf x (d * 64) = Some (b, o) -> lowpass_step d buf x b o.
Proof.
  intros Hd Hb Hx E. unfold lp_filter_fixpt_run in E.
  assert (Q : forall a, 0 <= a <= 204800 + 3200 -> is_s24 (divaway a d) /\ fixpt_div a (d * 64) = Some (divaway a d)).
  { intros a Ha. assert (0 <= divaway a d <= 208000).
    { split; [rewrite <- (divaway_0 d) by lia; apply divaway_mono; lia|]. rewrite divaway_pos by lia.
      apply Z.lt_succ_r. apply Z.div_lt_upper_bound; [lia|]. assert (d / 2 <= d - 1) by lia. nia. }
    split; [unfold is_s24; lia|]. rewrite fixpt_div_eq by (unfold is_s24; lia). rewrite divaway_scale by lia. rewrite sat24_id by lia. reflexivity. }
  assert (Bb : 0 <= buf <= 204800) by lia.
  destruct (Q buf ltac:(lia)) as (S1 & E1). rewrite E1 in E. cbn [bind] in E.
  assert (P1 : 0 <= divaway buf d <= buf).
  { split; [rewrite <- (divaway_0 d) by lia; apply divaway_mono; lia|]. clear - Hd Bb. rewrite divaway_pos by lia.
    apply Z.lt_succ_r. apply Z.div_lt_upper_bound; [lia|]. assert (d / 2 <= d - 1) by lia. nia. }
  rewrite fixpt_sub_eq in E by (unfold is_s24; lia). rewrite sat24_id in E by lia. cbn [bind] in E.
  rewrite fixpt_add_eq in E by (unfold is_s24; lia). rewrite sat24_id in E by lia. cbn [bind] in E.
  destruct (Q (buf - divaway buf d + x) ltac:(lia)) as (S2 & E2). rewrite E2 in E. cbn [bind] in E.
  apply Some_inj in E. injection E as <- <-. exists (divaway buf d). split; [apply divaway_spec; lia|]. split; [reflexivity|]. apply divaway_spec. lia.
Qed.
Lemma select_source c r c' used : model_ok (cc_rstate c) (cc_model c) -> 0 <= cc_prev_y c <= 3200 -> 0 <= r <= 3200 ->
  cc_select_r c r = Some (c', used) ->
  source_step (src_of (cc_rstate c)) (cc_model c) (cc_prev_y c) r (cc_model c') used.
Proof.
  intros M Y R E. pose proof M as (M1 & M2). destruct (cc_select_ok c r M Y R) as (c1 & u & E1 & _ & _ & _ & _ & F1 & F2 & F3).
  rewrite E in E1. apply Some_inj in E1. injection E1 as <- <-. unfold source_step.
  destruct (cc_rstate c) eqn:S; cbn [src_of] in *.
  - destruct (1088 <? r) eqn:L.
    + apply lowpass_run; [lia|specialize (M2 eq_refl); lia|exact Y|apply F2; [reflexivity|lia]].
    + apply lowpass_run; [lia|lia|exact R|apply F3; right; split; [reflexivity|lia]].
  - apply lowpass_run; [lia|lia|exact R|apply F3; left; reflexivity].
  - unfold cc_select_r in E. rewrite S in E. change CONTRCURR_PID_CUTOFF_HI with 1152 in E.
    destruct (1152 <=? r); apply Some_inj in E; injection E as <- <-; split; reflexivity.
Qed.
Lemma run_source now c r c' : cc_inv c -> 0 <= r <= 3200 -> cc_enabled c = true -> cc_emerg c = 0 ->
  contrcurr_run now c r = Some c' ->
  exists used dt out,
    source_step (src_of (cc_rstate c)) (cc_model c) (cc_prev_y c) r (cc_model c') used /\
    src_of (cc_rstate c') = src_next (src_of (cc_rstate c)) r used /\
    dt_seconds now (cc_timer c) = Some dt /\
    pid_step 115 128 0 128 (-320) 320 0 3200 (p_setpoint (cc_pid c)) (p_integr (cc_pid c)) (p_prev_e (cc_pid c)) dt used
      out (p_integr (cc_pid c')) (p_prev_e (cc_pid c')) /\
    cc_prev_y c' = (if cc_restricted c then Z.min out 1280 else out) /\ pwm_of (cc_prev_y c') (cc_ocr c').
Proof.
  intros I R En Em E. pose proof I as (P & M & Y & O). unfold contrcurr_run in E. rewrite En, Em in E. cbn [negb Z.eqb] in E.
  apply bind_inv in E. destruct E as (dt & Ed & E). apply bind_inv in E. destruct E as ((c1 & u) & Es & E).
  pose proof (select_source (cc_set_timer c (timer_set_now now)) r c1 u M Y R Es) as S.
  destruct (cc_select_ok (cc_set_timer c (timer_set_now now)) r M Y R) as (c2 & u2 & Es2 & K & M1 & U & A1 & _).
  rewrite Es in Es2. apply Some_inj in Es2. injection Es2 as <- <-. destruct K as (K1 & K2 & K3 & K4 & K5 & K6 & K7 & K8). cbn in K1, K2, K3, K4, K5, K6.
  rewrite K4 in E. apply bind_inv in E. destruct E as ((p' & out) & Ep & E).
  change (cc_restricted (cc_set_pid c1 p')) with (cc_restricted c1) in E. rewrite K2 in E. change CONTRCURR_RESTRICT_MAXCURR with 1280 in E.
  pose proof P as (Pk & L1 & L2 & L3 & L4 & W & Pe & Pi).
  destruct (pid_run_ok (cc_pid c) dt u) as (p2 & y2 & Ep2 & _ & B1 & _).
  { exact (cpid_region _ P). } { destruct (dt_bound now (cc_timer c)) as (dt2 & Ed2 & Bd2). rewrite Ed in Ed2. apply Some_inj in Ed2. subst dt2. exact Bd2. }
  { clear - W U; lia. } { unfold is_s24; clear - W; lia. } { unfold is_s24; clear - U; lia. }
  rewrite Ep in Ep2. apply Some_inj in Ep2. injection Ep2 as <- <-. rewrite L3, L4 in B1.
  assert (Ey : (if cc_restricted c then if 1280 <? out then 1280 else out else out) = (if cc_restricted c then Z.min out 1280 else out)).
  { destruct (cc_restricted c); [|reflexivity]. destruct (1280 <? out) eqn:?; lia. }
  rewrite Ey in E. set (cmd := if cc_restricted c then Z.min out 1280 else out) in *.
  assert (Bc : 0 <= cmd <= 3200) by (subst cmd; clear - B1; destruct (cc_restricted c); lia).
  destruct (pwmcurr_spec cmd Bc) as (v & Ev & Bv & Lv). unfold cc_pwm in E. rewrite Ev in E. cbn [bind] in E. apply Some_inj in E. subst c'. cbn.
  exists u, dt, out. split; [exact S|]. split; [exact A1|]. split; [exact Ed|]. split; [|split; [reflexivity|split; assumption]].
  assert (K := pid_run_step (cc_pid c) dt u p' out). rewrite Pk in K. unfold pid_lims_ok in K. rewrite L1, L2, L3, L4 in K.
  change (kp contrcurr_factors) with 115 in K. change (ki contrcurr_factors) with 128 in K. change (kd contrcurr_factors) with 0 in K.
  apply K; try (unfold is_s24; clear - W U Pe Pi; lia); [reflexivity|exact Ep].
Qed.
Lemma emerg_keeps c f c' : contrcurr_set_emerg c f = Some c' ->
  cc_pid c' = cc_pid c /\ cc_rstate c' = cc_rstate c /\ cc_model c' = cc_model c /\ cc_prev_y c' = cc_prev_y c /\ cc_timer c' = cc_timer c /\
  cc_restricted c' = cc_restricted c /\ cc_enabled c' = cc_enabled c.
Proof.
  unfold contrcurr_set_emerg, cc_pwm. destruct (negb (f =? cc_emerg c)); [|intros H; apply Some_inj in H; subst; auto 10].
  destruct (negb (f =? 0)); [|intros H; apply Some_inj in H; subst; auto 10].
  destruct (pwmcurr_set _); [|discriminate]. cbn [bind]. intros H; apply Some_inj in H; subst; auto 10.
Qed.
Lemma prev_log C y T f h : build_conf C -> curr_log C y T f h -> u_prev (y_mc y) = last_current h.
Proof.
  intros HC D. induction D as [pinb y Hp E|y v pinb y' R O E|y T f h y' D IH E|y T f h v y' D IH X E Tv|y T f h e y' D IH O E P NT N].
  - destruct (boot_fresh C pinb y HC E) as (x & k & a & p & -> & _). reflexivity.
  - destruct (power_fresh C y v pinb y' HC R O E) as (x & k & a & p & -> & _). reflexivity.
  - cbn [step] in E. apply Some_inj in E. subst y'. exact IH.
  - destruct (curr_log_inv C y T f h HC D) as (R & _ & _ & Qf & _). destruct X as (_ & X2 & X3). pose proof (reach_s4 C y HC R) as S4.
    destruct (step_pending relaxed C y EMeasure y' HC bok_relaxed S4 X2 E) as (e0 & e1 & raw & _ & Er & Br & _ & _ & _ & _ & _ & _ & Hc).
    destruct (Hc X3) as (c0' & w & v' & p & _ & Ck & (_ & _ & _ & _ & _ & _ & c & _ & Ef) & Tw & _).
    destruct (PSysLog.lp_step _ _ f Br Qf y eq_refl) as (L1 & _). rewrite L1 in Tw.
    rewrite (raw_mean _ _ _ _ S4 X2 Er) in *. pose proof (curr_code_unique _ _ _ Tv Tw) as <-.
    destruct Ck as (Cv & _ & Ec & Ep). change (mc_plaus_neg meascurr_config) with 0 in *. change (mc_plaus_pos meascurr_config) with 3200 in *.
    unfold last_current. cbn [find snd]. change (5 * 640) with 3200. destruct ((0 <=? v) && (v <=? 3200)) eqn:B; cbn [snd].
    + subst c0'. cbn [ch_timeout] in Ep. subst p. destruct Ef as (_ & ->). lia.
    + assert (K : u_prev (y_mc y') = u_prev (y_mc y)) by (destruct (ch_timeout c0'); subst p; apply Ef). rewrite K. exact IH.
  - rewrite <- IH. destruct (curr_log_inv C y T f h HC D) as (R & _). pose proof (reach_s4 C y HC R) as S4. destruct (pending y e) eqn:Pn.
    + destruct (step_pending relaxed C y e y' HC bok_relaxed S4 Pn E) as (e0 & e1 & raw & _ & _ & _ & _ & _ & _ & _ & _ & Ht & _).
      destruct (pending_cases _ _ _ _ (s4_inv _ _ _ S4) Pn) as [X|(X1 & X2 & X3)]; [destruct (N X)|].
      destruct (Ht X3) as (c1' & v & v' & p & _ & B4 & _). rewrite B4. reflexivity.
    + destruct (step_calm relaxed C y e y' HC bok_relaxed S4 O P Pn E) as (_ & A1 & _). rewrite A1. reflexivity.
Qed.
Lemma curr_law C y T f h o v y' : build_conf C -> curr_log C y T f h -> last_good C y o ->
  result y EMeasure 0 -> step C y EMeasure = Some y' -> curr_of_code (lp_code f (mean_code y)) v ->
  let c := y_cc y in let c' := y_cc y' in let r := last_current ((T, v) :: h) in
  (cc_emerg c' = 0 -> exists used dt out,
     source_step (src_of (cc_rstate c)) (cc_model c) (cc_prev_y c) r (cc_model c') used /\
     src_of (cc_rstate c') = src_next (src_of (cc_rstate c)) r used /\
     (forall n, curr_clock C y n -> n <= 32767 -> ms_to_q6 n dt) /\
     pid_step 115 128 0 128 (-320) 320 0 3200 (p_setpoint (cc_pid c)) (p_integr (cc_pid c)) (p_prev_e (cc_pid c)) dt used
       out (p_integr (cc_pid c')) (p_prev_e (cc_pid c')) /\
     cc_prev_y c' = (if cold_limited o then Z.min out 1280 else out) /\ pwm_of (cc_prev_y c') (cc_ocr c')) /\
  (cc_emerg c' <> 0 -> memory (cc_pid c') = memory (cc_pid c) /\ cc_rstate c' = cc_rstate c /\ cc_model c' = cc_model c /\
     cc_prev_y c' = cc_prev_y c).
Proof.
  intros HC D Lg X E Tv c c' r. destruct (curr_log_inv C y T f h HC D) as (R & _ & _ & Qf & _).
  destruct (last_good_inv C y o HC Lg) as (_ & Rs).
  assert (D' : curr_log C y' T (Some (lp_acc f (mean_code y))) ((T, v) :: h)) by (econstructor; eassumption).
  pose proof (prev_log _ _ _ _ _ HC D') as Pl. fold r in Pl. pose proof (prev_log _ _ _ _ _ HC D) as Pl0.
  destruct X as (_ & X2 & X3). pose proof (reach_s4 C y HC R) as S4. pose proof (s4_inv _ _ _ S4) as I.
  destruct (step_pending relaxed C y EMeasure y' HC bok_relaxed S4 X2 E) as (e0 & e1 & raw & _ & _ & _ & _ & _ & _ & _ & _ & _ & Hc).
  destruct (Hc X3) as (c0' & w & v' & p & _ & Ck & (_ & _ & _ & _ & _ & Ee & d & Em & Ef) & _).
  destruct (emerg_keeps _ _ _ Em) as (G1 & G2 & G3 & G4 & G5 & G6 & G7). destruct (i_cc _ _ _ I) as (Ic & En & _).
  destruct (set_emerg_ok (y_cc y) (cc_emerg (y_cc y')) Ic) as (d2 & Ed2 & Id & Md & _). rewrite Em in Ed2. apply Some_inj in Ed2. subst d2.
  assert (Br : 0 <= r <= 3200).
  { rewrite <- Pl. destruct (sys_feedback_range C y' HC (reach_step C y EMeasure y' R Logic.I E)) as (_ & _ & B). exact B. }
  assert (F : p <> MEAS_PLAUS_TIMEOUT -> contrcurr_set_feedback (y_now y) d r = Some c').
  { intros N. destruct p; [destruct Ef as (Ef & Eu); rewrite <- Eu, Pl in Ef; exact Ef|destruct Ef as (Ef & Eu); rewrite <- Eu, Pl in Ef; exact Ef|congruence]. }
  split.
  - intros Z0. assert (Np : p <> MEAS_PLAUS_TIMEOUT).
    { intros ->. change EMERG_UNPLAUS_FEEDBACK with 1 in Ee. unfold c' in Z0. rewrite Z0 in Ee. symmetry in Ee. apply Z.lor_eq_0_iff in Ee. destruct Ee as (_ & Ee). discriminate Ee. }
    specialize (F Np). unfold contrcurr_set_feedback in F.
    set (d1 := if negb (r =? cc_feedback d) then cc_set_feedback d r else d) in *.
    assert (K : cc_pid d1 = cc_pid d /\ cc_rstate d1 = cc_rstate d /\ cc_model d1 = cc_model d /\ cc_prev_y d1 = cc_prev_y d /\ cc_timer d1 = cc_timer d /\
      cc_restricted d1 = cc_restricted d /\ cc_enabled d1 = cc_enabled d /\ cc_emerg d1 = cc_emerg d /\ cc_ocr d1 = cc_ocr d).
    { subst d1. destruct (negb _); cbn; auto 10. }
    destruct K as (K1 & K2 & K3 & K4 & K5 & K6 & K7 & K8 & K9).
    destruct (run_source (y_now y) d1 r c') as (used & dt & out & S1 & S2 & S3 & S4' & S5 & S6).
    { unfold cc_inv in *. rewrite K1, K2, K3, K4, K9. exact Id. } { exact Br. } { congruence. } { unfold c' in Z0. congruence. } { exact F. }
    rewrite K1, K2, K3, K4, K5, K6, G1, G2, G3, G4, G5, G6 in *. exists used, dt, out.
    split; [exact S1|]. split; [exact S2|]. split; [|split; [exact S4'|split; [|exact S6]]].
    + intros n Cl Bn. destruct (curr_clock_inv C y n HC Cl) as (_ & B0 & Q). rewrite Q in S3.
      destruct (clock_dt (y_now y) n (i_now _ _ _ I) ltac:(lia)) as (dt' & Ed' & A & _). rewrite S3 in Ed'. apply Some_inj in Ed'. subst dt'. exact A.
    + rewrite S5, Rs. unfold cold_limited. destruct o; reflexivity.
  - intros Z0. assert (K : cc_pid c' = cc_pid d /\ cc_rstate c' = cc_rstate d /\ cc_model c' = cc_model d /\ cc_prev_y c' = cc_prev_y d).
    { destruct p.
      3:{ destruct Ef as (Ef & _). unfold c'. rewrite Ef. auto. }
      all: specialize (F ltac:(discriminate)); destruct (set_feedback_ok (y_now y) d r Id Br) as (d3 & E3 & _ & _ & _ & M3 & _ & _ & F1 & _);
        rewrite F in E3; apply Some_inj in E3; subst d3; rewrite F1 by (right; rewrite Md; exact Z0); auto. }
    destruct K as (K1 & K2 & K3 & K4). unfold memory. rewrite K1, K2, K3, K4, G1, G2, G3, G4. auto.
Qed.
