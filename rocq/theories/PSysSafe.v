(** * Lemmas for the safety properties of the whole firmware: C24-C31, C63 *)
From Coq Require Import ZArith List Bool Lia ZifyBool.
From Verif Require Import Base PBase MConf MUtil MFixpt MScale MRing MFilter MTimer MPid MPwm MTempMap MCurr MSens
  SpecNum SpecPid SpecSmall PNum PSmall PScale PPid SpecCurr PCurr MSettings SpecSettings PSettings PSysSet
  MSseg MDisplay MText MState MTemp MMeas MMenu MMain SpecDisplay SpecSys SpecRun PSys PSysMeas PSysMenu PSysDisp PSysBtn
  PSysStep PSysRun PSysCC.
Import ListNotations.
Open Scope Z_scope.
Ltac Zify.zify_post_hook ::= Z.div_mod_to_equations.

(** ** Power-up *)
Definition fresh (C : conf) (y : sys) : Prop := exists x k a p, y = booted C x k a p /\ set_inv C relaxed x.
Lemma boot_fresh C pinb y : build_conf C -> boot C (factory_ee C) pinb = Some y -> fresh C y.
Proof.
  intros HC E. destruct (set_factory C HC) as (x & Ex & Sx & _).
  destruct (boot_s4 strict C _ x pinb bok_strict Ex Sx) as (y1 & E1 & _ & k & a & p & Ey & _).
  rewrite E in E1. apply Some_inj in E1. subst y1. exists x, k, a, p. split; [exact Ey|].
  destruct Sx as (S1 & S2 & S3). split; [exact S1|]. split; [eapply rng_le; [exact strict_relaxed|exact S2]|exact S3].
Qed.
Lemma power_fresh C y v pinb y' : build_conf C -> reach C y -> ev_ok C y (EPower v pinb) ->
  step C y (EPower v pinb) = Some y' -> fresh C y'.
Proof.
  intros HC R O E. pose proof (reach_s4 C y HC R) as [I _ _ _]. cbn [step ev_ok] in *.
  destruct (set_power C HC relaxed (y_set y) v (i_set _ _ _ I) (proj1 O) (proj2 (proj2 O))) as (x & Ex & Sx & _).
  destruct (boot_s4 relaxed C _ x pinb bok_relaxed Ex Sx) as (y1 & E1 & _ & k & a & p & Ey & _).
  rewrite E in E1. apply Some_inj in E1. subst y1. exists x, k, a, p. split; [exact Ey|exact Sx].
Qed.
(** Induction over the events since the last power-up. *)
Lemma reach_fresh (C : conf) (P : sys -> Prop) : build_conf C ->
  (forall y, fresh C y -> P y) ->
  (forall y e y', reach C y -> P y -> ev_ok C y e -> is_power e = false -> step C y e = Some y' -> P y') ->
  forall y, reach C y -> P y.
Proof.
  intros HC P0 PS y R. induction R as [pinb y Hp E|y e y' R IH O E].
  - apply P0. eapply boot_fresh; eassumption.
  - destruct (is_power e) eqn:Pw; [|eapply PS; eassumption]. destruct e; try discriminate Pw. apply P0. eapply power_fresh; eassumption.
Qed.

(** ** The current controller sees only admissible calls *)
Lemma fresh_driven C y : fresh C y -> cc_driven (y_now y) (y_cc y).
Proof.
  intros (x & k & a & p & -> & _). destruct cc_boot_ok as (c0 & E0 & _). exists c0, [OSetpoint 0].
  split; [repeat constructor; lia|]. split; [repeat constructor|]. split; [exact E0|].
  cbn [cc_exec cc_step bind]. unfold booted. cbn [y_now y_cc]. vm_compute in E0. apply Some_inj in E0. subst c0. vm_compute. reflexivity.
Qed.
Lemma sys_driven C y : build_conf C -> reach C y -> cc_driven (y_now y) (y_cc y).
Proof.
  intros HC. revert y. apply (reach_fresh C (fun y => cc_driven (y_now y) (y_cc y)) HC); [apply fresh_driven|].
  intros y e y' R (c0 & ops & D1 & D2 & D3 & D4) O P E.
  destruct (step_cc relaxed C y e y' HC bok_relaxed (reach_s4 C y HC R) O P E) as (ops' & A1 & A2 & A3 & _).
  exists c0, (ops ++ ops'). split; [apply Forall_app; auto|]. split; [apply Forall_app; auto|]. split; [exact D3|].
  rewrite cc_exec_app, D4. exact A3.
Qed.

(** ** C25 *)
Lemma sys_emerg_off C y : build_conf C -> reach C y -> cc_emerg (y_cc y) <> 0 -> pwm_off y.
Proof. intros HC R N. pose proof (reach_s4 C y HC R) as [I _ _ _]. destruct (i_cc _ _ _ I) as (_ & _ & _ & O). exact (O N). Qed.

(** ** C63: only a current result changes the PWM, except for switching it off *)
Lemma quiet_ocr ops : forall now c n c', cc_inv c -> Forall op_ok ops -> (forall r, ~ In (OFeedback r) ops) -> Forall no_fixed_current ops ->
  (forall b p, ~ In (OEnabled b p) ops) ->
  cc_exec now c ops = Some (n, c') -> cc_ocr c' = cc_ocr c \/ cc_ocr c' = 8191.
Proof.
  induction ops as [|o t IH]; intros now c n c' I F Nf Nc Ne E; cbn [cc_exec] in E.
  - apply Some_inj in E. injection E as <- <-. left; reflexivity.
  - inversion F; subst. inversion Nc; subst. destruct (cc_step_ok now c o I ltac:(assumption)) as (n1 & c1 & E1 & I1). rewrite E1 in E. cbn [bind] in E.
    assert (K : cc_ocr c1 = cc_ocr c \/ cc_ocr c1 = 8191).
    { destruct o; cbn [cc_step] in E1.
      - apply Some_inj in E1. injection E1 as <- <-. left; reflexivity.
      - destruct (Nf r). left; reflexivity.
      - apply Some_inj in E1. injection E1 as <- <-. left; reflexivity.
      - apply Some_inj in E1. injection E1 as <- <-. left; reflexivity.
      - destruct (Ne b percent). left; reflexivity.
      - destruct (set_emerg_ok c flags I) as (c2 & E2 & _ & _ & _ & _ & _ & _ & Eo). rewrite E2 in E1. cbn [bind] in E1.
        apply Some_inj in E1. injection E1 as <- <-. rewrite Eo. destruct ((flags =? cc_emerg c) || (flags =? 0)); auto. }
    destruct (IH n1 c1 n c' I1 ltac:(assumption) ltac:(intros r X; apply (Nf r); right; exact X) ltac:(assumption)
                 ltac:(intros b p X; apply (Ne b p); right; exact X) E) as [Q|Q]; [rewrite Q; exact K|right; exact Q].
Qed.
Lemma quiet_exec_ocr now c c' : cc_inv c -> cc_quiet now c c' -> cc_ocr c' = cc_ocr c \/ cc_ocr c' = 8191.
Proof.
  intros I (ops & A1 & A2 & A3 & _). eapply quiet_ocr; try eassumption.
  - intros r. apply quiet_not_feedback. exact A1.
  - apply quiet_no_fixed. exact A1.
  - intros b p H. rewrite Forall_forall in A1. exact (A1 _ H).
Qed.
Lemma step_ocr C y e y' : build_conf C -> reach C y -> ev_ok C y e -> is_power e = false -> ~ result y e 0 -> step C y e = Some y' ->
  cc_ocr (y_cc y') = cc_ocr (y_cc y) \/ cc_ocr (y_cc y') = 8191.
Proof.
  intros HC R O P N E. pose proof (reach_s4 C y HC R) as S4. destruct (i_cc _ _ _ (s4_inv _ _ _ S4)) as (Ic & _).
  destruct (pending y e) eqn:Pn.
  - destruct (pending_cases _ _ _ _ (s4_inv _ _ _ S4) Pn) as [X|(X1 & X2 & X3)]; [destruct (N X)|].
    destruct (step_pending relaxed C y e y' HC bok_relaxed S4 Pn E) as (c0 & c1 & raw & _ & _ & _ & _ & _ & _ & _ & _ & Ht & _).
    destruct (Ht X3) as (c1' & v & v' & p & _ & _ & _ & (_ & _ & _ & _ & _ & _ & _ & Q & _) & _).
    exact (quiet_exec_ocr _ _ _ Ic Q).
  - destruct (step_calm relaxed C y e y' HC bok_relaxed S4 O P Pn E) as (_ & _ & _ & _ & _ & _ & _ & [(A2 & _)|(A2 & _)]); rewrite A2; left; reflexivity.
Qed.

(** ** C28 *)
Lemma step_hot C y e y' : build_conf C -> reach C y -> ev_ok C y e -> is_power e = false -> step C y e = Some y' ->
  (exists r, temp_processed y e y' r /\ hot y' = (30720 <? r)) \/ ((forall r, ~ temp_processed y e y' r) /\ hot y' = hot y).
Proof.
  intros HC R O P E. pose proof (reach_s4 C y HC R) as S4. destruct (pending y e) eqn:Pn.
  - pose proof (s4_inv _ _ _ S4) as I.
    destruct (step_pending relaxed C y e y' HC bok_relaxed S4 Pn E) as (c0 & c1 & raw & _ & _ & _ & _ & _ & _ & _ & _ & Ht & Hc).
    destruct (pending_cases _ _ _ _ I Pn) as [(X1 & X2 & X3)|(X1 & X2 & X3)].
    + destruct (Hc X3) as (c0' & v & v' & p & _ & _ & (_ & _ & _ & Hh & _) & _). right. split; [|exact Hh].
      intros r (_ & _ & Q & _). rewrite X3 in Q. discriminate.
    + destruct (Ht X3) as (c1' & v & v' & p & _ & _ & _ & (T1 & T2 & _) & _).
      destruct (t_enabled (y_ct y)) eqn:En; [destruct (t_emerg (y_ct y')) eqn:Em|].
      * right. split; [|apply T2; right; reflexivity]. intros r (_ & _ & _ & _ & Q & _). congruence.
      * left. exists (t_feedback (y_ct y')). split; [repeat split; assumption|]. apply T1; reflexivity.
      * right. split; [|apply T2; left; reflexivity]. intros r (_ & _ & _ & Q & _). congruence.
  - right. split.
    + intros r (-> & Q & _). cbn in Pn. congruence.
    + destruct (step_calm relaxed C y e y' HC bok_relaxed S4 O P Pn E) as (_ & _ & _ & _ & _ & _ & _ & [(A2 & _)|(A2 & _)]); unfold hot; rewrite A2; reflexivity.
Qed.
Lemma too_hot_reach C y : build_conf C -> too_hot C y -> reach C y /\ hot y = true.
Proof.
  intros HC H. induction H as [y e y' r R O E T G|y e y' H (R & Hh) O E P G].
  - split; [econstructor; eassumption|]. assert (P : is_power e = false) by (destruct T as (-> & _); reflexivity).
    destruct (step_hot C y e y' HC R O P E) as [(r' & T' & X)|(X & _)]; [|destruct (X r T)].
    assert (r' = r) as -> by (destruct T as (_&_&_&_&_&<-), T' as (_&_&_&_&_&<-); reflexivity). rewrite X. lia.
  - split; [econstructor; eassumption|]. destruct (step_hot C y e y' HC R O P E) as [(r' & T' & X)|(_ & X)]; [|congruence].
    pose proof (G r' T'). rewrite X. lia.
Qed.
Lemma sys_too_hot C y : build_conf C -> too_hot C y -> pwm_off y.
Proof.
  intros HC H. destruct (too_hot_reach C y HC H) as (R & Hh). apply (sys_emerg_off C y HC R).
  intros Z. unfold hot in Hh. rewrite Z in Hh. discriminate.
Qed.

(** ** C29: with set-point 0 only the integrator can ask for current *)
Lemma zero_setpoint_out p dt r p' y : cpid_inv p -> p_setpoint p = 0 -> 0 <= r <= 3200 -> Z.abs dt <= 2100 ->
  pid_run p dt r = Some (p', y) -> 0 <= y <= 320.
Proof.
  intros (K & A & B & Cc & D & W & E & I) Hs Hr Hdt. unfold pid_run.
  rewrite fixpt_sub_eq by (rewrite ?Hs; unfold is_s24; lia). cbn [bind]. rewrite Hs. rewrite (sat24_id (0 - r)) by lia.
  set (e := 0 - r). assert (He : -3200 <= e <= 0) by (unfold e; lia). clearbody e. clear Hs W.
  rewrite K. change (kp contrcurr_factors) with 115. change (ki contrcurr_factors) with 128. change (kd contrcurr_factors) with 0.
  change (d_decay_div contrcurr_factors) with 128.
  rewrite (fixpt_mul_eq 115 e) by lia. cbn [bind]. rewrite (fixpt_mul_eq 128 e) by lia. cbn [bind].
  assert (Hp : -6000 <= sat24 ((115 * e + 32) / 64) <= 0) by (rewrite sat24_id; lia). set (pt := sat24 ((115 * e + 32) / 64)) in *. clearbody pt.
  assert (Hie : -6500 <= sat24 ((128 * e + 32) / 64) <= 0) by (rewrite sat24_id; lia). set (ie := sat24 ((128 * e + 32) / 64)) in *. clearbody ie.
  assert (M : Z.abs (ie * dt) <= 6500 * 2100) by (apply abs_mul_le; [clear - Hie; lia|exact Hdt]).
  rewrite fixpt_mul_eq by (clear - M; lia). cbn [bind].
  rewrite fixpt_add_eq by (try apply sat24_s24; unfold is_s24; clear - I; lia). cbn [bind].
  rewrite A, B. rewrite cclamp_eq by lia. set (i := Z.max _ _). assert (Hi : -320 <= i <= 320) by (unfold i; clear; lia). clearbody i. clear M.
  rewrite fixpt_add_eq by (unfold is_s24; clear - Hp Hi; lia). cbn [bind].
  rewrite fixpt_sub_eq by (unfold is_s24; clear - He E; lia). cbn [bind]. rewrite (sat24_id (e - p_prev_e p)) by (clear - He E; lia).
  set (de := e - p_prev_e p). 
  assert (Dv : exists d, fixpt_mul_div de 0 dt = Some d /\ -1 <= d <= 0).
  { unfold fixpt_mul_div, fixpt_big_mul_div, fixpt_inflate. rewrite fixpt_big_mul_eq by (rewrite Z.mul_0_r; lia).
    rewrite Z.mul_0_r. change ((0 + 32) / 64) with 0. cbn [bind].
    destruct (Z.eq_dec dt 0) as [->|N]; [exists (-1); split; [reflexivity|lia]|].
    rewrite fixpt_big_div_eq; [|exact N|unfold is_s32; clear - Hdt; lia|lia|lia]. cbn [bind].
    rewrite Z.mul_0_l, divaway_0 by exact N. rewrite deflate_sat. exists 0. split; [reflexivity|lia]. }
  destruct Dv as (d & -> & Hd). cbn [bind].
  destruct (fixpt_div e 128); [|discriminate]. cbn [bind].
  rewrite (sat24_id (pt + i)) by (clear - Hp Hi; lia).
  rewrite fixpt_add_eq by (unfold is_s24; clear - Hp Hi Hd; lia). cbn [bind].
  rewrite Cc, D. rewrite cclamp_eq by lia. rewrite sat24_id by (clear - Hp Hi Hd; lia).
  intros H. apply Some_inj in H. injection H as _ <-. clear - Hp Hi Hd. lia.
Qed.

(** A current result with set-point 0. *)
Lemma zero_run now c r c' : cc_sys c -> 0 <= r <= 3200 -> p_setpoint (cc_pid c) = 0 ->
  contrcurr_set_feedback now c r = Some c' -> 7372 <= cc_ocr c'.
Proof.
  intros (I & En & If & Io) Hr Hs E. destruct (set_feedback_ok now c r I Hr) as (c1 & X & _ & _ & _ & _ & _ & _ & F1 & F2).
  rewrite X in E. apply Some_inj in E. subst c1. destruct (Z.eq_dec (cc_emerg c) 0) as [Z0|Nz].
  - destruct (F2 En Z0) as (u & dt & y & _ & Bu & _ & _ & _ & Edt & Ep & By & Ey & Eo & _).
    destruct (dt_bound now (cc_timer c)) as (dt' & Edt' & Bdt). rewrite Edt in Edt'. apply Some_inj in Edt'. subst dt'.
    destruct I as (Ip & _). pose proof (zero_setpoint_out _ _ _ _ _ Ip Hs Bu Bdt Ep) as Hy.
    assert (Hq : 0 <= cc_prev_y c' <= 320) by (rewrite Ey; destruct (cc_restricted c); clear - Hy; lia).
    eapply (pwmcurr_antitone (cc_prev_y c') 320); [lia|lia|lia|exact Eo|reflexivity].
  - rewrite (F1 (or_intror Nz)). change (cc_ocr (cc_set_feedback c r)) with (cc_ocr c). rewrite (Io Nz). lia.
Qed.
Lemma result_cc C y e y' : build_conf C -> reach C y -> result y e 0 -> step C y e = Some y' ->
  t_emerg (y_ct y') = t_emerg (y_ct y) /\ p_setpoint (cc_pid (y_cc y')) = p_setpoint (cc_pid (y_cc y)) /\
  (p_setpoint (cc_pid (y_cc y)) = 0 -> 7372 <= cc_ocr (y_cc y')).
Proof.
  intros HC R (X1 & X2 & X3) E. pose proof (reach_s4 C y HC R) as S4. pose proof (s4_inv _ _ _ S4) as I.
  assert (Pn : pending y e = true) by (subst e; exact X2).
  destruct (step_pending relaxed C y e y' HC bok_relaxed S4 Pn E) as (c0 & c1 & raw & _ & _ & _ & _ & _ & _ & _ & _ & _ & Hc).
  destruct (Hc X3) as (c0' & v & v' & p & _ & Ck & (Ect & _ & _ & _ & Es & Ee & c & Em & Ef) & _).
  split; [rewrite Ect; reflexivity|]. split; [exact Es|]. intros Hs.
  assert (Bv : 0 <= v' <= 3200) by (destruct Ck as (-> & _); change (mc_plaus_neg meascurr_config) with 0; change (mc_plaus_pos meascurr_config) with 3200; lia).
  destruct (i_mc _ _ _ I) as (Bu & _). pose proof (i_cc _ _ _ I) as Sc. assert (Sc' := Sc). destruct Sc' as (_ & _ & If & _).
  destruct (flag_ops _ If) as (_ & _ & (F3 & _) & (F4 & _)).
  assert (Bf : 0 <= cc_emerg (y_cc y') <= 3) by (rewrite Ee; change EMERG_UNPLAUS_FEEDBACK with 1; destruct p; assumption).
  destruct (cc_set_emerg_sys (y_cc y) _ Sc Bf) as (c2 & E2 & S2 & _ & P2 & _). rewrite Em in E2. apply Some_inj in E2. subst c2.
  assert (Hs2 : p_setpoint (cc_pid c) = 0) by congruence.
  destruct p; destruct Ef as (Ef & _).
  - exact (zero_run _ _ _ _ S2 Bv Hs2 Ef).
  - exact (zero_run _ _ _ _ S2 Bu Hs2 Ef).
  - rewrite Ef. destruct S2 as (_ & _ & _ & O2). rewrite O2; [lia|]. rewrite <- Ef, Ee. change EMERG_UNPLAUS_FEEDBACK with 1.
    clear - If. intros Z. apply Z.lor_eq_0_iff in Z. destruct Z as (_ & Z). discriminate.
Qed.
Lemma dead_inv C y : build_conf C -> dead C y -> reach C y /\ t_emerg (y_ct y) = true /\ 7372 <= cc_ocr (y_cc y).
Proof.
  intros HC D. assert (Hz : forall y, reach C y -> t_emerg (y_ct y) = true -> p_setpoint (cc_pid (y_cc y)) = 0).
  { intros z R T. pose proof (reach_s4 C z HC R) as [I _ _ _]. apply (i_link _ _ _ I). right. exact T. }
  induction D as [y e y' R T O E X|y e y' D (R & T & Q) O E P T'].
  - destruct (result_cc C y e y' HC R X E) as (A1 & A2 & A3). split; [econstructor; eassumption|]. split; [congruence|]. apply A3. apply Hz; assumption.
  - split; [econstructor; eassumption|]. split; [exact T'|].
    destruct (pending y e) eqn:Pn.
    + pose proof (reach_s4 C y HC R) as S4. destruct (pending_cases _ _ _ _ (s4_inv _ _ _ S4) Pn) as [X|X].
      * destruct (result_cc C y e y' HC R X E) as (A1 & A2 & A3). apply A3. apply Hz; assumption.
      * destruct (step_ocr C y e y' HC R O P) as [Z|Z]; [destruct X as (X1 & X2 & X3); intros (_ & _ & Q3); rewrite X3 in Q3; discriminate|exact E|lia|lia].
    + destruct (step_ocr C y e y' HC R O P) as [Z|Z]; [intros (Q1 & Q2 & _); subst e; cbn in Pn; congruence|exact E|lia|lia].
Qed.
Lemma sys_dead C y : build_conf C -> dead C y -> p_setpoint (cc_pid (y_cc y)) = 0 /\ duty_at_most y 1 10.
Proof.
  intros HC D. destruct (dead_inv C y HC D) as (R & T & Q). pose proof (reach_s4 C y HC R) as [I _ _ _]. split.
  - apply (i_link _ _ _ I). right. exact T.
  - unfold duty_at_most. lia.
Qed.

(** ** C30 *)
Lemma raw_mean B C y raw : sinv4 B C y -> m_avail (y_meas y) = true -> raw_average (y_meas y) = Some raw -> raw = mean_code y.
Proof.
  intros [I _ (_ & H) _] Ha E. destruct (average_ok C (y_meas y) _ (i_meas _ _ _ I) (H Ha)) as (r & Er & Em & _).
  rewrite Er in E. apply Some_inj in E. subst r. exact Em.
Qed.
Lemma fresh_cc C y : fresh C y -> cc_restricted (y_cc y) = true /\ cc_ocr (y_cc y) = 8191 /\ cc_emerg (y_cc y) = 0 /\
  t_emerg (y_ct y) = false /\ y_now y = 0 /\ cc_timer (y_cc y) = 0 /\ t_dt (y_ct y) = 0.
Proof. intros (x & k & a & p & -> & _). unfold booted. cbn [y_cc y_ct y_now t_emerg t_dt]. vm_compute. repeat split. Qed.

Lemma restricted_result C y e y' : build_conf C -> reach C y -> result y e 0 -> step C y e = Some y' ->
  cc_restricted (y_cc y') = cc_restricted (y_cc y) /\
  (cc_restricted (y_cc y) = true -> 4915 <= cc_ocr (y_cc y) -> 4915 <= cc_ocr (y_cc y')).
Proof.
  intros HC R (X1 & X2 & X3) E. pose proof (reach_s4 C y HC R) as S4. pose proof (s4_inv _ _ _ S4) as I.
  assert (Pn : pending y e = true) by (subst e; exact X2).
  destruct (step_pending relaxed C y e y' HC bok_relaxed S4 Pn E) as (c0 & c1 & raw & _ & _ & _ & _ & _ & _ & _ & _ & _ & Hc).
  destruct (Hc X3) as (c0' & v & v' & p & _ & Ck & (_ & _ & _ & _ & Es & Ee & c & Em & Ef) & _).
  assert (Bv : 0 <= v' <= 3200) by (destruct Ck as (-> & _); change (mc_plaus_neg meascurr_config) with 0; change (mc_plaus_pos meascurr_config) with 3200; lia).
  destruct (i_mc _ _ _ I) as (Bu & _). pose proof (i_cc _ _ _ I) as (Ic & En & _).
  destruct (set_emerg_ok (y_cc y) (cc_emerg (y_cc y')) Ic) as (c2 & E2 & I2 & M2 & N2 & R2 & _ & _ & O2). rewrite Em in E2. apply Some_inj in E2. subst c2.
  assert (F : forall r, 0 <= r <= 3200 -> contrcurr_set_feedback (y_now y) c r = Some (y_cc y') ->
    cc_restricted (y_cc y') = cc_restricted (y_cc y) /\
    (cc_restricted (y_cc y) = true -> 4915 <= cc_ocr (y_cc y) -> 4915 <= cc_ocr (y_cc y'))).
  { intros r Br Er. destruct (set_feedback_ok (y_now y) c r I2 Br) as (c3 & E3 & _ & _ & R3 & M3 & _ & _ & F1 & _).
    rewrite Er in E3. apply Some_inj in E3. subst c3. split; [congruence|]. intros Re Ho.
    destruct (Z.eq_dec (cc_emerg c) 0) as [Z0|Z0].
    - eapply (restricted_run (y_now y) c r (y_cc y')); try eassumption; [congruence|congruence|reflexivity].
    - rewrite (F1 (or_intror Z0)). change (cc_ocr (cc_set_feedback c r)) with (cc_ocr c). rewrite O2. destruct (_ || _); lia. }
  destruct p; destruct Ef as (Ef & _); [apply (F _ Bv Ef)|apply (F _ Bu Ef)|]. rewrite Ef. split; [exact R2|]. intros _ Ho. rewrite O2. destruct (_ || _); lia.
Qed.

Lemma step_restricted C y e y' : build_conf C -> reach C y -> ev_ok C y e -> is_power e = false -> ~ (result y e 1 /\ good_temp C y) ->
  step C y e = Some y' -> cc_restricted (y_cc y') = cc_restricted (y_cc y).
Proof.
  intros HC R O P N E. pose proof (reach_s4 C y HC R) as S4. destruct (pending y e) eqn:Pn.
  - pose proof (s4_inv _ _ _ S4) as I.
    destruct (pending_cases _ _ _ _ I Pn) as [X|X]; [exact (proj1 (restricted_result C y e y' HC R X E))|].
    destruct (step_pending relaxed C y e y' HC bok_relaxed S4 Pn E) as (c0 & c1 & raw & _ & Er & _ & _ & _ & _ & _ & _ & Ht & _).
    destruct X as (X1 & X2 & X3). destruct (Ht X3) as (c1' & v & v' & p & _ & _ & Ck & (_ & _ & _ & _ & _ & _ & _ & _ & Q & _) & Tv).
    rewrite Q. rewrite (raw_mean _ _ _ _ S4 X2 Er) in Tv. destruct p; try reflexivity. destruct N. split; [repeat split; assumption|].
    exists v. split; [exact Tv|]. destruct Ck as (_ & _ & Ec & Ep). clear - Ec Ep.
    change (mc_plaus_neg (meastemp_config (c_smd C))) with (-1280) in *. change (mc_plaus_pos (meastemp_config (c_smd C))) with 32000 in *.
    destruct (ch_timeout c1'); [discriminate|]. destruct ((_ <=? v) && _) eqn:G; [lia|discriminate].
  - destruct (step_calm relaxed C y e y' HC bok_relaxed S4 O P Pn E) as (_ & _ & _ & _ & _ & _ & _ & [(A2 & _)|(A2 & _)]); rewrite A2; reflexivity.
Qed.
Lemma result_dec y e chan : result y e chan \/ ~ result y e chan.
Proof.
  unfold result. destruct e; try (right; intros (X & _); discriminate X). destruct (m_avail (y_meas y)); [|right; intros (_ & X & _); discriminate X].
  destruct (Z.eq_dec (m_chan (y_meas y)) chan); [left|right; intros (_ & _ & X); contradiction]. repeat split. assumption.
Qed.
Lemma cold_inv C y : build_conf C -> cold C y -> reach C y /\ cc_restricted (y_cc y) = true /\ 4915 <= cc_ocr (y_cc y).
Proof.
  intros HC D. induction D as [pinb y Hp E|y v pinb y' R O E|y e y' D (R & Q1 & Q2) O E P N].
  - destruct (fresh_cc C y (boot_fresh C pinb y HC E)) as (A1 & A2 & _). split; [econstructor; eassumption|]. split; [exact A1|lia].
  - destruct (fresh_cc C y' (power_fresh C y v pinb y' HC R O E)) as (A1 & A2 & _). split; [econstructor; eassumption|]. split; [exact A1|lia].
  - split; [econstructor; eassumption|]. split; [rewrite (step_restricted C y e y' HC R O P N E); exact Q1|].
    destruct (result_dec y e 0) as [X|X]; [apply (restricted_result C y e y' HC R X E); assumption|].
    destruct (step_ocr C y e y' HC R O P X E); lia.
Qed.
Lemma sys_cold C y : build_conf C -> cold C y -> duty_at_most y 2 5.
Proof. intros HC D. destruct (cold_inv C y HC D) as (_ & _ & Q). unfold duty_at_most. lia. Qed.

(** ** C26 on the whole firmware *)
Lemma temp_code_unique C adj code v w : temp_of_code C adj code v -> temp_of_code C adj code w -> v = w.
Proof.
  unfold temp_of_code. set (a := if c_adj C then adj else 0). set (b := code - _). intros H1 H2. clearbody a b. clear - H1 H2. lia.
Qed.
Lemma curr_code_unique code v w : curr_of_code code v -> curr_of_code code w -> v = w.
Proof. unfold curr_of_code. intros H1 H2. lia. Qed.
Lemma last_good_inv C y o : build_conf C -> last_good C y o -> reach C y /\
  cc_restricted (y_cc y) = match o with None => true | Some v => v <? 6400 end.
Proof.
  intros HC D. induction D as [pinb y Hp E|y v pinb y' R O E|y o e v y' D (R & Q) X E Tv Bv|y o e y' D (R & Q) O E P N].
  - destruct (fresh_cc C y (boot_fresh C pinb y HC E)) as (A1 & A2 & _). split; [econstructor; eassumption|exact A1].
  - destruct (fresh_cc C y' (power_fresh C y v pinb y' HC R O E)) as (A1 & A2 & _). split; [econstructor; eassumption|exact A1].
  - destruct X as (-> & X2 & X3). split; [econstructor; [exact R| |exact E]; exact Logic.I|]. pose proof (reach_s4 C y HC R) as S4.
    destruct (step_pending relaxed C y EMeasure y' HC bok_relaxed S4 X2 E) as (c0 & c1 & raw & _ & Er & _ & _ & _ & _ & _ & _ & Ht & _).
    destruct (Ht X3) as (c1' & w & v' & p & _ & _ & Ck & (_ & _ & _ & _ & _ & _ & _ & _ & Q' & _) & Tw).
    rewrite (raw_mean _ _ _ _ S4 X2 Er) in Tw. pose proof (temp_code_unique _ _ _ _ _ Tv Tw) as <-.
    rewrite Q'. destruct Ck as (Cv & _ & Ec & Ep).
    change (mc_plaus_neg (meastemp_config (c_smd C))) with (-1280) in *. change (mc_plaus_pos (meastemp_config (c_smd C))) with 32000 in *.
    replace ((-1280 <=? v) && (v <=? 32000)) with true in * by lia. subst c1'. cbn [ch_timeout] in Ep. subst p. f_equal. lia.
  - split; [econstructor; eassumption|]. rewrite (step_restricted C y e y' HC R O P N E). exact Q.
Qed.
Lemma sys_restricted C y o e y' : build_conf C -> last_good C y o -> (o = None \/ exists v, o = Some v /\ v < 100 * 64) ->
  result y e 0 -> step C y e = Some y' -> duty_at_most y' 2 5.
Proof.
  intros HC D H X E. destruct (last_good_inv C y o HC D) as (R & Q).
  assert (Re : cc_restricted (y_cc y) = true) by (rewrite Q; destruct H as [->|(v & -> & H)]; lia). clear H Q D.
  destruct X as (-> & X2 & X3). pose proof (reach_s4 C y HC R) as S4. pose proof (s4_inv _ _ _ S4) as I.
  destruct (step_pending relaxed C y EMeasure y' HC bok_relaxed S4 X2 E) as (c0 & c1 & raw & _ & _ & _ & _ & _ & _ & _ & _ & _ & Hc).
  destruct (Hc X3) as (c0' & v & v' & p & _ & Ck & (_ & _ & _ & _ & Es & Ee & c & Em & Ef) & _).
  assert (Bv : 0 <= v' <= 3200) by (destruct Ck as (-> & _); change (mc_plaus_neg meascurr_config) with 0; change (mc_plaus_pos meascurr_config) with 3200; lia).
  destruct (i_mc _ _ _ I) as (Bu & _). pose proof (i_cc _ _ _ I) as Sc. assert (Sc' := Sc). destruct Sc' as (Ic & En & If & _).
  destruct (flag_ops _ If) as (_ & _ & (F3 & _) & (F4 & _)).
  assert (Bf : 0 <= cc_emerg (y_cc y') <= 3) by (rewrite Ee; change EMERG_UNPLAUS_FEEDBACK with 1; destruct p; assumption).
  destruct (cc_set_emerg_sys (y_cc y) _ Sc Bf) as (c2 & E2 & (I2 & N2 & _ & O2) & M2 & _ & R2 & _). rewrite Em in E2. apply Some_inj in E2. subst c2.
  assert (F : forall r, 0 <= r <= 3200 -> contrcurr_set_feedback (y_now y) c r = Some (y_cc y') -> 4915 <= cc_ocr (y_cc y')).
  { intros r Br Er. destruct (Z.eq_dec (cc_emerg c) 0) as [Z0|Z0].
    - eapply (restricted_run (y_now y) c r (y_cc y')); try eassumption; [congruence|reflexivity].
    - destruct (set_feedback_ok (y_now y) c r I2 Br) as (c3 & E3 & _ & _ & R3 & M3 & _ & _ & F1 & _).
      rewrite Er in E3. apply Some_inj in E3. subst c3. rewrite (F1 (or_intror Z0)). change (cc_ocr (cc_set_feedback c r)) with (cc_ocr c). rewrite (O2 Z0). lia. }
  assert (K : 4915 <= cc_ocr (y_cc y')).
  { destruct p; destruct Ef as (Ef & _); [apply (F _ Bv Ef)|apply (F _ Bu Ef)|]. rewrite Ef. rewrite O2; [lia|]. rewrite M2, Ee. change EMERG_UNPLAUS_FEEDBACK with 1.
    intros Z. apply Z.lor_eq_0_iff in Z. destruct Z as (_ & Z). discriminate. }
  unfold duty_at_most. lia.
Qed.

(** ** C31 *)
Lemma set_emerg_timer c f c' : contrcurr_set_emerg c f = Some c' -> cc_timer c' = cc_timer c.
Proof.
  unfold contrcurr_set_emerg, cc_pwm. destruct (negb (f =? cc_emerg c)); [|intros H; apply Some_inj in H; subst; reflexivity].
  destruct (negb (f =? 0)); [|intros H; apply Some_inj in H; subst; reflexivity].
  destruct (pwmcurr_set _); [|discriminate]. cbn [bind]. intros H; apply Some_inj in H; subst; reflexivity.
Qed.
Lemma quiet_timer ops : forall now c n c', Forall quiet_op ops -> cc_exec now c ops = Some (n, c') -> cc_timer c' = cc_timer c.
Proof.
  induction ops as [|o t IH]; intros now c n c' F E; cbn [cc_exec] in E.
  - apply Some_inj in E. injection E as <- <-. reflexivity.
  - inversion F; subst. destruct (cc_step now c o) as [[n1 c1]|] eqn:E1; [|discriminate E]. cbn [bind] in E.
    rewrite (IH n1 c1 n c' ltac:(assumption) E). destruct o; cbn [quiet_op] in *; try contradiction; cbn [cc_step] in E1.
    + apply Some_inj in E1. injection E1 as <- <-. reflexivity.
    + apply Some_inj in E1. injection E1 as <- <-. reflexivity.
    + destruct (contrcurr_set_emerg c flags) as [c2|] eqn:E2; [|discriminate E1]. cbn [bind] in E1. apply Some_inj in E1. injection E1 as <- <-.
      exact (set_emerg_timer _ _ _ E2).
Qed.
(** A run of the current controller, or none in an emergency. *)
Definition cc_ran (y y' : sys) : Prop :=
  if cc_emerg (y_cc y') =? 0 then
    cc_timer (y_cc y') = y_now y /\
    exists dt used out, dt_seconds (y_now y) (cc_timer (y_cc y)) = Some dt /\ pid_run (cc_pid (y_cc y)) dt used = Some (cc_pid (y_cc y'), out) /\
      0 <= used <= 3200 /\ 0 <= out <= 3200 /\
      pwmcurr_set (if cc_restricted (y_cc y) then Z.min out 1280 else out) = Some (cc_ocr (y_cc y'))
  else cc_timer (y_cc y') = cc_timer (y_cc y) /\ cc_pid (y_cc y') = cc_pid (y_cc y).
Lemma result_ran C y e y' : build_conf C -> reach C y -> result y e 0 -> step C y e = Some y' -> cc_ran y y' /\ y_now y' = y_now y /\ y_ct y' = y_ct y.
Proof.
  intros HC R (-> & X2 & X3) E. pose proof (reach_s4 C y HC R) as S4. pose proof (s4_inv _ _ _ S4) as I.
  destruct (step_pending relaxed C y EMeasure y' HC bok_relaxed S4 X2 E) as (c0 & c1 & raw & _ & _ & _ & (Fn & _) & _ & _ & _ & _ & _ & Hc).
  destruct (Hc X3) as (c0' & v & v' & p & _ & Ck & (Ect & _ & _ & _ & Es & Ee & c & Em & Ef) & _). split; [|split; [exact Fn|exact Ect]].
  assert (Bv : 0 <= v' <= 3200) by (destruct Ck as (-> & _); change (mc_plaus_neg meascurr_config) with 0; change (mc_plaus_pos meascurr_config) with 3200; lia).
  destruct (i_mc _ _ _ I) as (Bu & _). pose proof (i_cc _ _ _ I) as (Ic & En & If & _).
  destruct (set_emerg_ok (y_cc y) (cc_emerg (y_cc y')) Ic) as (c2 & E2 & I2 & M2 & N2 & R2 & _ & P2 & O2). rewrite Em in E2. apply Some_inj in E2. subst c2.
  pose proof (set_emerg_timer _ _ _ Em) as T2.
  assert (F : forall r, 0 <= r <= 3200 -> contrcurr_set_feedback (y_now y) c r = Some (y_cc y') -> cc_ran y y').
  { intros r Br Er. destruct (set_feedback_ok (y_now y) c r I2 Br) as (c3 & E3 & _ & _ & R3 & M3 & _ & _ & F1 & F2).
    rewrite Er in E3. apply Some_inj in E3. subst c3. unfold cc_ran. rewrite M3. destruct (Z.eqb_spec (cc_emerg c) 0) as [Z0|Z0].
    - destruct (F2 ltac:(congruence) Z0) as (u & dt & out & _ & Bu' & _ & _ & _ & Edt & Ep & By & Ey & Eo & Et).
      split; [exact Et|]. rewrite T2 in Edt. rewrite P2 in Ep. exists dt, u, out. split; [exact Edt|]. split; [exact Ep|]. split; [exact Bu'|]. split; [exact By|].
      rewrite <- R2, <- Ey. exact Eo.
    - rewrite (F1 (or_intror Z0)). cbn. split; congruence. }
  destruct p; destruct Ef as (Ef & _); [apply (F _ Bv Ef)|apply (F _ Bu Ef)|]. unfold cc_ran.
  assert (N : cc_emerg (y_cc y') <> 0).
  { rewrite Ee. change EMERG_UNPLAUS_FEEDBACK with 1. intros Z. apply Z.lor_eq_0_iff in Z. destruct Z as (_ & Z). discriminate. }
  destruct (Z.eqb_spec (cc_emerg (y_cc y')) 0); [contradiction|]. rewrite Ef. split; congruence.
Qed.
Lemma u16_add1 a m : u16 (u16 (a + 1) - (m + 1)) = u16 (a - m).
Proof. unfold u16. lia. Qed.
Lemma temp_clock_inv C y n : build_conf C -> temp_clock C y n -> reach C y /\ exists m, 0 <= m <= n /\ t_dt (y_ct y) = u16 (y_now y - m).
Proof.
  intros HC D. induction D as [pinb y Hp E|y v pinb y' R O E|y n y' D (R & m & Bm & Q) E|y n e y' D (R & m & Bm & Q) O E P H|y n e y' D (R & m & Bm & Q) O E P N1 N2 N3].
  - destruct (fresh_cc C y (boot_fresh C pinb y HC E)) as (_ & _ & _ & _ & A1 & _ & A2). split; [econstructor; eassumption|].
    exists 0. rewrite A1, A2. split; [lia|reflexivity].
  - destruct (fresh_cc C y' (power_fresh C y v pinb y' HC R O E)) as (_ & _ & _ & _ & A1 & _ & A2). split; [econstructor; eassumption|].
    exists 0. rewrite A1, A2. split; [lia|reflexivity].
  - split; [exact (reach_step C y ETick y' R Logic.I E)|]. pose proof E as E'. cbn [step] in E'. apply Some_inj in E'. subst y'.
    exists (m + 1). split; [lia|]. unfold sys_tick, timer_isr. sy. rewrite u16_add1. exact Q.
  - split; [econstructor; eassumption|]. pose proof (reach_s4 C y HC R) as S4. pose proof (s4_inv _ _ _ S4) as I. exists 0. split; [lia|].
    rewrite Z.sub_0_r. destruct (pending y e) eqn:Pn.
    + destruct (step_pending relaxed C y e y' HC bok_relaxed S4 Pn E) as (c0 & c1 & raw & _ & _ & _ & F & _ & _ & _ & _ & Ht & Hc).
      pose proof F as (Fn & _ & _ & _ & _ & _ & _ & (Fe & _)). rewrite Fn.
      destruct H as [(r & -> & X2 & X3 & X4 & X5 & X6)|H]; [|congruence].
      destruct (Ht X3) as (c1' & v & v' & p & _ & _ & _ & T & _). destruct T as (_ & _ & _ & _ & _ & _ & _ & _ & _ & Td & _).
      rewrite Td, X4, X5. cbn. pose proof (i_now _ _ _ I) as B. unfold is_u16 in B. rewrite u16_id by lia. reflexivity.
    + destruct H as [(r & -> & X2 & _)|H]; [cbn in Pn; congruence|].
      destruct (step_calm relaxed C y e y' HC bok_relaxed S4 O P Pn E) as (A1 & _ & _ & _ & _ & _ & _ & [(_ & _ & A2)|(_ & A2)]); [congruence|].
      rewrite A2, A1. pose proof (i_now _ _ _ I) as B. unfold is_u16 in B. destruct e; try (rewrite u16_id by lia; reflexivity).
      cbn [step] in E. apply Some_inj in E. subst y'. destruct H. reflexivity.
  - split; [econstructor; eassumption|]. pose proof (reach_s4 C y HC R) as S4. pose proof (s4_inv _ _ _ S4) as I. pose proof (i_now _ _ _ I) as B. unfold is_u16 in B.
    destruct (pending y e) eqn:Pn.
    + destruct (step_pending relaxed C y e y' HC bok_relaxed S4 Pn E) as (c0 & c1 & raw & _ & _ & _ & F & _ & _ & _ & _ & Ht & Hc).
      pose proof F as (Fn & _ & _ & _ & _ & _ & _ & (Fe & _)). rewrite Fn.
      destruct (pending_cases _ _ _ _ I Pn) as [(X1 & X2 & X3)|(X1 & X2 & X3)].
      * destruct (Hc X3) as (c0' & v & v' & p & _ & _ & (Ec & _) & _). rewrite Ec. exists m. split; [lia|exact Q].
      * destruct (Ht X3) as (c1' & v & v' & p & _ & _ & _ & T & _). destruct T as (_ & _ & _ & _ & _ & _ & _ & _ & _ & Td & _).
        exists m. split; [lia|]. rewrite Td. destruct (t_enabled (y_ct y)) eqn:En; [|exact Q]. destruct (t_emerg (y_ct y')) eqn:Eg; [exact Q|].
        destruct N2. exists (t_feedback (y_ct y')). repeat split; assumption.
    + destruct (step_calm relaxed C y e y' HC bok_relaxed S4 O P Pn E) as (A1 & _ & _ & _ & _ & _ & _ & A2).
      assert (A1' : y_now y' = y_now y) by (rewrite A1; destruct e; congruence). rewrite A1'.
      destruct A2 as [(_ & A2 & _)|(_ & A2)]; rewrite A2; [exists m; split; [lia|exact Q]|exists 0; split; [lia|]]. rewrite Z.sub_0_r, u16_id by lia. reflexivity.
Qed.
Lemma curr_clock_inv C y n : build_conf C -> curr_clock C y n -> reach C y /\ 0 <= n /\ cc_timer (y_cc y) = u16 (y_now y - n).
Proof.
  intros HC D. induction D as [pinb y Hp E|y v pinb y' R O E|y n y' D (R & Bn & Q) E|y n e y' D (R & Bn & Q) O E P (H & He)|y n e y' D (R & Bn & Q) O E P N1 N2].
  - destruct (fresh_cc C y (boot_fresh C pinb y HC E)) as (_ & _ & _ & _ & A1 & A2 & _). split; [econstructor; eassumption|].
    rewrite A1, A2. split; [lia|reflexivity].
  - destruct (fresh_cc C y' (power_fresh C y v pinb y' HC R O E)) as (_ & _ & _ & _ & A1 & A2 & _). split; [econstructor; eassumption|].
    rewrite A1, A2. split; [lia|reflexivity].
  - split; [exact (reach_step C y ETick y' R Logic.I E)|]. pose proof E as E'. cbn [step] in E'. apply Some_inj in E'. subst y'.
    split; [lia|]. unfold sys_tick, timer_isr. sy. rewrite u16_add1. exact Q.
  - split; [econstructor; eassumption|]. split; [lia|]. pose proof (s4_inv _ _ _ (reach_s4 C y HC R)) as I. pose proof (i_now _ _ _ I) as B. unfold is_u16 in B.
    destruct (result_ran C y e y' HC R H E) as (K & Kn & _). unfold cc_ran in K. rewrite He in K. cbn in K. destruct K as (K & _).
    rewrite K, Kn, Z.sub_0_r, u16_id by lia. reflexivity.
  - split; [econstructor; eassumption|]. split; [lia|]. pose proof (reach_s4 C y HC R) as S4. pose proof (s4_inv _ _ _ S4) as I.
    destruct (result_dec y e 0) as [X|X].
    + destruct (result_ran C y e y' HC R X E) as (K & Kn & _). unfold cc_ran in K. rewrite Kn. destruct (Z.eqb_spec (cc_emerg (y_cc y')) 0) as [Z0|Z0].
      * destruct N2. split; assumption.
      * destruct K as (K & _). congruence.
    + destruct (pending y e) eqn:Pn.
      * destruct (pending_cases _ _ _ _ I Pn) as [X'|(X1 & X2 & X3)]; [destruct (X X')|].
        destruct (step_pending relaxed C y e y' HC bok_relaxed S4 Pn E) as (c0 & c1 & raw & _ & _ & _ & (Fn & _) & _ & _ & _ & _ & Ht & _).
        destruct (Ht X3) as (c1' & v & v' & p & _ & _ & _ & (_ & _ & _ & _ & _ & _ & _ & (ops & Q1 & _ & Q3) & _) & _).
        rewrite (quiet_timer _ _ _ _ _ Q1 (proj1 Q3)), Fn. exact Q.
      * destruct (step_calm relaxed C y e y' HC bok_relaxed S4 O P Pn E) as (A1 & _ & _ & _ & _ & _ & _ & A2).
        assert (A1' : y_now y' = y_now y) by (rewrite A1; destruct e; congruence). rewrite A1'.
        destruct A2 as [(A2 & _)|(A2 & _)]; rewrite A2; exact Q.
Qed.
Lemma clock_dt now n : is_u16 now -> 0 <= n <= 32767 -> exists dt, dt_seconds now (u16 (now - n)) = Some dt /\ ms_to_q6 n dt /\ 0 <= dt.
Proof.
  intros B Bn. rewrite dt_eq. replace (s16 (u16 (now - u16 (now - n)))) with n by (unfold is_u16 in B; unfold s16, u16; lia).
  eexists. split; [reflexivity|]. rewrite divaway_pos by lia. unfold ms_to_q6. lia.
Qed.
Lemma sys_temp_dt C y e y' n r : build_conf C -> temp_clock C y n -> n <= 32767 -> temp_processed y e y' r -> step C y e = Some y' ->
  exists m dt out, 0 <= m <= n /\ ms_to_q6 m dt /\ 0 <= dt /\ pid_run (t_pid (y_ct y)) dt r = Some (t_pid (y_ct y'), out).
Proof.
  intros HC D Bn (-> & X2 & X3 & X4 & X5 & <-) E. destruct (temp_clock_inv C y n HC D) as (R & m & Bm & Q).
  pose proof (reach_s4 C y HC R) as S4. pose proof (i_now _ _ _ (s4_inv _ _ _ S4)) as B.
  destruct (step_pending relaxed C y EMeasure y' HC bok_relaxed S4 X2 E) as (c0 & c1 & raw & _ & _ & _ & _ & _ & _ & _ & _ & Ht & _).
  destruct (Ht X3) as (c1' & v & v' & p & _ & _ & _ & T & _). destruct T as (_ & _ & _ & _ & _ & _ & _ & _ & _ & _ & Td).
  destruct (Td X4 X5) as (dt & out & a & E1 & E2 & _). rewrite Q in E1.
  destruct (clock_dt (y_now y) m B ltac:(lia)) as (dt' & E1' & A & A'). rewrite E1 in E1'. apply Some_inj in E1'. subst dt'.
  exists m, dt, out. split; [exact Bm|]. split; [exact A|]. split; [exact A'|exact E2].
Qed.
Lemma sys_curr_dt C y e y' n : build_conf C -> curr_clock C y n -> n <= 32767 -> result y e 0 -> step C y e = Some y' -> cc_emerg (y_cc y') = 0 ->
  exists dt used out, ms_to_q6 n dt /\ 0 <= dt /\ pid_run (cc_pid (y_cc y)) dt used = Some (cc_pid (y_cc y'), out).
Proof.
  intros HC D Bn X E He. destruct (curr_clock_inv C y n HC D) as (R & Bm & Q).
  pose proof (reach_s4 C y HC R) as S4. pose proof (i_now _ _ _ (s4_inv _ _ _ S4)) as B.
  destruct (result_ran C y e y' HC R X E) as (K & Kn & _). unfold cc_ran in K. rewrite He in K. cbn in K.
  destruct K as (_ & dt & used & out & E1 & E2 & _). rewrite Q in E1.
  destruct (clock_dt (y_now y) n B ltac:(lia)) as (dt' & E1' & A & A'). rewrite E1 in E1'. apply Some_inj in E1'. subst dt'.
  exists dt, used, out. split; [exact A|]. split; [exact A'|exact E2].
Qed.

(** ** C64, C65: the temperature in use and the cascade *)
Lemma fresh_temp C y : fresh C y -> y_mt y = 0 /\ t_feedback (y_ct y) = 0.
Proof. intros (x & k & a & p & -> & _). unfold booted. cbn [y_mt y_ct t_feedback]. split; reflexivity. Qed.
Lemma last_good_temp C y o : build_conf C -> last_good C y o ->
  y_mt y = match o with None => 0 | Some v => v end /\ t_feedback (y_ct y) = match o with None => 0 | Some v => v end.
Proof.
  intros HC D. induction D as [pinb y Hp E|y v pinb y' R O E|y o e v y' D Q X E Tv Bv|y o e y' D (Q1 & Q2) O E P N].
  - exact (fresh_temp C y (boot_fresh C pinb y HC E)).
  - exact (fresh_temp C y' (power_fresh C y v pinb y' HC R O E)).
  - destruct (last_good_inv C y o HC D) as (R & _). destruct X as (-> & X2 & X3). pose proof (reach_s4 C y HC R) as S4.
    destruct (step_pending relaxed C y EMeasure y' HC bok_relaxed S4 X2 E) as (c0 & c1 & raw & _ & Er & _ & _ & _ & _ & _ & _ & Ht & _).
    destruct (Ht X3) as (c1' & w & v' & p & _ & _ & Ck & (_ & _ & M1 & _ & M2 & _) & Tw).
    rewrite (raw_mean _ _ _ _ S4 X2 Er) in Tw. pose proof (temp_code_unique _ _ _ _ _ Tv Tw) as <-.
    destruct Ck as (Cv & _ & Ec & Ep).
    change (mc_plaus_neg (meastemp_config (c_smd C))) with (-1280) in *. change (mc_plaus_pos (meastemp_config (c_smd C))) with 32000 in *.
    replace ((-1280 <=? v) && (v <=? 32000)) with true in * by lia. subst c1'. cbn [ch_timeout] in Ep. subst p. rewrite M1, M2. clear - Cv Bv. lia.
  - destruct (last_good_inv C y o HC D) as (R & _). pose proof (reach_s4 C y HC R) as S4. destruct (pending y e) eqn:Pn.
    + pose proof (s4_inv _ _ _ S4) as I.
      destruct (step_pending relaxed C y e y' HC bok_relaxed S4 Pn E) as (c0 & c1 & raw & _ & Er & _ & F & _ & _ & _ & _ & Ht & Hc).
      destruct (pending_cases _ _ _ _ I Pn) as [(X1 & X2 & X3)|(X1 & X2 & X3)].
      * destruct (Hc X3) as (c0' & v & v' & p & _ & _ & (M1 & M2 & _) & _). rewrite M1, M2. auto.
      * destruct (Ht X3) as (c1' & v & v' & p & _ & _ & Ck & (_ & _ & M1 & _ & M2 & _) & Tv).
        rewrite (raw_mean _ _ _ _ S4 X2 Er) in Tv.
        assert (K : p <> MEAS_PLAUSIBLE).
        { intros ->. destruct N. split; [repeat split; assumption|]. exists v. split; [exact Tv|]. destruct Ck as (_ & _ & Ec & Ep). clear - Ec Ep.
          change (mc_plaus_neg (meastemp_config (c_smd C))) with (-1280) in *. change (mc_plaus_pos (meastemp_config (c_smd C))) with 32000 in *.
          destruct (ch_timeout c1'); [discriminate|]. destruct ((_ <=? v) && _) eqn:G; [lia|discriminate]. }
        destruct p; [contradiction| |]; rewrite M1, M2, ?Q1, ?Q2; auto.
    + destruct (step_calm relaxed C y e y' HC bok_relaxed S4 O P Pn E) as (_ & _ & A1 & _ & _ & _ & A2 & _). rewrite A1, A2. auto.
Qed.
Lemma sys_cascade C y e y' r : build_conf C -> reach C y -> temp_processed y e y' r -> step C y e = Some y' ->
  exists dt out a, pid_run (t_pid (y_ct y)) dt r = Some (t_pid (y_ct y'), out) /\ 0 <= out <= 480 * 64 /\
    (out <= 250 * 64 -> nearest_away out 5 a) /\ (250 * 64 <= out -> a = 5 * 640) /\
    p_setpoint (cc_pid (y_cc y')) = (if 480 * 64 <? r then 0 else a).
Proof.
  intros HC R (-> & X2 & X3 & X4 & X5 & X6) E. pose proof (reach_s4 C y HC R) as S4.
  destruct (step_pending relaxed C y EMeasure y' HC bok_relaxed S4 X2 E) as (c0 & c1 & raw & _ & _ & _ & _ & _ & _ & _ & _ & Ht & _).
  destruct (Ht X3) as (c1' & w & v' & p & _ & _ & _ & (_ & _ & _ & _ & _ & _ & _ & _ & _ & _ & Q) & _).
  destruct (Q X4 X5) as (dt & out & a & _ & Ep & Ea & Es & Bo). rewrite X6 in *. exists dt, out, a.
  destruct (temp_to_amps_spec out Bo) as (a' & Ea' & _ & A1 & A2). rewrite Ea in Ea'. apply Some_inj in Ea'. subst a'. auto 10.
Qed.
Lemma sys_cascade_idle C y e y' : build_conf C -> reach C y -> ev_ok C y e -> is_power e = false -> step C y e = Some y' ->
  ~ (exists r, temp_processed y e y' r) ->
  p_setpoint (cc_pid (y_cc y')) = p_setpoint (cc_pid (y_cc y)) \/ p_setpoint (cc_pid (y_cc y')) = 0.
Proof.
  intros HC R O P E N. pose proof (reach_s4 C y HC R) as S4. destruct (pending y e) eqn:Pn.
  - pose proof (s4_inv _ _ _ S4) as I.
    destruct (step_pending relaxed C y e y' HC bok_relaxed S4 Pn E) as (c0 & c1 & raw & _ & Er & _ & F & _ & _ & _ & _ & Ht & Hc).
    destruct (pending_cases _ _ _ _ I Pn) as [(X1 & X2 & X3)|(X1 & X2 & X3)].
    + destruct (Hc X3) as (c0' & v & v' & p & _ & _ & (_ & _ & _ & _ & M & _) & _). auto.
    + destruct (t_enabled (y_ct y)) eqn:En; [destruct (t_emerg (y_ct y')) eqn:Em|].
      * right. apply (i_link _ _ _ (s4_inv _ _ _ (reach_s4 C y' HC (reach_step C y e y' R O E)))). auto.
      * destruct N. exists (t_feedback (y_ct y')). unfold temp_processed. auto 10.
      * right. apply (i_link _ _ _ (s4_inv _ _ _ (reach_s4 C y' HC (reach_step C y e y' R O E)))). left.
        destruct F as (_ & _ & _ & _ & _ & _ & _ & F & _). congruence.
  - destruct (step_calm relaxed C y e y' HC bok_relaxed S4 O P Pn E) as (_ & _ & _ & _ & _ & _ & _ & [(A2 & _)|(A2 & _)]); rewrite A2; auto.
Qed.
Lemma good_processed C y e y' v : build_conf C -> reach C y -> result y e 1 -> t_enabled (y_ct y) = true -> step C y e = Some y' ->
  temp_of_code C (s_adj (x_cache (y_set y))) (mean_code y) v -> -20 * 64 <= v <= 500 * 64 -> temp_processed y e y' v.
Proof.
  intros HC R (-> & X2 & X3) En E Tv Bv. pose proof (reach_s4 C y HC R) as S4.
  destruct (step_pending relaxed C y EMeasure y' HC bok_relaxed S4 X2 E) as (c0 & c1 & raw & _ & Er & _ & _ & _ & _ & _ & _ & Ht & _).
  destruct (Ht X3) as (c1' & w & v' & p & _ & _ & Ck & (_ & _ & _ & M1 & M2 & _) & Tw).
  rewrite (raw_mean _ _ _ _ S4 X2 Er) in Tw. pose proof (temp_code_unique _ _ _ _ _ Tv Tw) as <-.
  destruct Ck as (Cv & _ & Ec & Ep).
  change (mc_plaus_neg (meastemp_config (c_smd C))) with (-1280) in *. change (mc_plaus_pos (meastemp_config (c_smd C))) with 32000 in *.
  replace ((-1280 <=? v) && (v <=? 32000)) with true in * by lia. subst c1'. cbn [ch_timeout] in Ep. subst p.
  unfold temp_processed. repeat (split; [assumption || reflexivity|]). rewrite M2. clear - Cv Bv. lia.
Qed.
Lemma sys_over_temp C y e y' v : build_conf C -> reach C y -> result y e 1 -> t_enabled (y_ct y) = true -> step C y e = Some y' ->
  temp_of_code C (s_adj (x_cache (y_set y))) (mean_code y) v -> 480 * 64 < v <= 500 * 64 -> too_hot C y' /\ pwm_off y'.
Proof.
  intros HC R X En E Tv Bv. assert (H : too_hot C y').
  { assert (O : ev_ok C y e) by (destruct X as (-> & _); exact Logic.I). eapply hot_now; [exact R|exact O|exact E| |].
    - eapply good_processed; try eassumption. lia.
    - lia. }
  split; [exact H|]. apply (sys_too_hot C y' HC H).
Qed.
