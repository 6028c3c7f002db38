(** * Proofs about the current controller (C24-C27) *)
From Coq Require Import ZArith List Bool Lia.
From Verif Require Import Base SpecNum SpecSmall SpecCurr MUtil MFixpt MScale MFilter MTimer MPid MPwm MCurr
  PBase PNum PSmall PScale PPid.
Import ListNotations.
Open Scope Z_scope.
Ltac Zify.zify_post_hook ::= Z.div_mod_to_equations.

Lemma dt_eq now t : dt_seconds now t = Some (divaway (64 * s16 (u16 (now - t))) 1000).
Proof.
  unfold dt_seconds, timer_ms_since, timer_count_since.
  pose proof (s16_range (u16 (now - t))) as R. set (x := s16 _) in *. clearbody x.
  rewrite count_to_ms_eq by exact R. cbn [bind].
  rewrite int_to_fixpt_eq by lia. cbn [bind]. rewrite (sat24_id (x * 64)) by lia.
  change (int_to_fixpt 1000) with (Some (1000 * 64)). cbn [bind].
  rewrite fixpt_div_eq by (unfold is_s24; lia).
  rewrite divaway_scale by lia. rewrite (Z.mul_comm x).
  pose proof (divaway_err (64 * x) 1000 ltac:(lia)) as E. set (q := divaway _ _) in *. clearbody q.
  rewrite sat24_id by (clear - E R; lia). reflexivity.
Qed.

Lemma dt_bound now t : exists dt, dt_seconds now t = Some dt /\ Z.abs dt <= 2100.
Proof.
  rewrite dt_eq. eexists. split; [reflexivity|].
  pose proof (s16_range (u16 (now - t))) as R. set (x := s16 _) in *. clearbody x.
  pose proof (divaway_err (64 * x) 1000 ltac:(lia)) as E. set (q := divaway _ _) in *. clearbody q.
  clear - E R; lia.
Qed.

(** The invariant of the current controller. *)
Definition cpid_inv (p : pid) : Prop :=
  p_k p = contrcurr_factors /\ p_i_neglim p = -320 /\ p_i_poslim p = 320 /\
  p_y_neglim p = 0 /\ p_y_poslim p = 3200 /\ 0 <= p_setpoint p <= 3200 /\
  Z.abs (p_prev_e p) <= 32768 /\ -320 <= p_integr p <= 320.

Definition model_ok (s : rstate) (m : Z) : Prop :=
  0 <= m <= 24 * 3200 /\ (s = RDisabled -> m <= 16 * 3200).

Definition cc_inv (c : cc) : Prop :=
  cpid_inv (cc_pid c) /\ model_ok (cc_rstate c) (cc_model c) /\
  0 <= cc_prev_y c <= 3200 /\ 0 <= cc_ocr c <= 8191.

Lemma cpid_region p : cpid_inv p -> pid_region p.
Proof.
  intros (K & A & B & C & D & W & E & I). unfold pid_region, pid_lims_ok.
  rewrite K, A, B, C, D. 
  change (kp contrcurr_factors) with 115. change (ki contrcurr_factors) with 128.
  change (kd contrcurr_factors) with 0. change (d_decay_div contrcurr_factors) with 128.
  clear - E I. lia.
Qed.

Lemma cc_pwm_ok c y : 0 <= y <= 3200 ->
  exists v, cc_pwm c y = Some (cc_set_ocr c v) /\ pwmcurr_set y = Some v /\ 0 <= v <= 8191.
Proof.
  intros H. destruct (pwmcurr_spec y H) as (v & E & B & _). exists v.
  unfold cc_pwm. rewrite E. auto.
Qed.

(** Selection of the feedback: definedness, bounds and the source automaton. *)
Lemma cc_syncing_ok c r : 0 <= cc_model c <= 24 * 3200 -> 0 <= r <= 3200 ->
  exists m used, cc_syncing c r =
      Some (if Z.abs (used - r) <? 64 then cc_set_rstate (cc_set_model c m) REnabled else cc_set_model c m, used) /\
    lp_filter_fixpt_run (cc_model c) r (24 * 64) = Some (m, used) /\
    0 <= m <= 24 * 3200 /\ 0 <= used <= 3200.
Proof.
  intros M R. unfold cc_syncing. change (int_to_fixpt 24) with (Some (24 * 64)). cbn [bind].
  destruct (lpf_step 24 0 3200 r (cc_model c)) as (m & u & E & B & U); [lia|lia|lia|lia|lia|].
  exists m, u. rewrite E. cbn [bind]. rewrite fixpt_sub_eq by (unfold is_s24; lia). cbn [bind].
  rewrite sat24_id by lia. rewrite abs_eq by (unfold is_s24; lia). rewrite sat24_id by lia.
  change (amp 1 10) with 64. repeat split; try reflexivity; lia.
Qed.

Definition same_but_model (c c' : cc) : Prop :=
  cc_enabled c' = cc_enabled c /\ cc_restricted c' = cc_restricted c /\ cc_emerg c' = cc_emerg c /\
  cc_pid c' = cc_pid c /\ cc_feedback c' = cc_feedback c /\ cc_prev_y c' = cc_prev_y c /\
  cc_timer c' = cc_timer c /\ cc_ocr c' = cc_ocr c.

Lemma cc_select_ok c r : model_ok (cc_rstate c) (cc_model c) -> 0 <= cc_prev_y c <= 3200 -> 0 <= r <= 3200 ->
  exists c' used, cc_select_r c r = Some (c', used) /\ same_but_model c c' /\
    model_ok (cc_rstate c') (cc_model c') /\ 0 <= used <= 3200 /\
    src_of (cc_rstate c') = src_next (src_of (cc_rstate c)) r used /\
    (src_of (cc_rstate c) = Real -> used = r) /\
    (src_of (cc_rstate c) = Model -> 1088 < r ->
       lp_filter_fixpt_run (cc_model c) (cc_prev_y c) (16 * 64) = Some (cc_model c', used)) /\
    (src_of (cc_rstate c) = Resync \/ src_of (cc_rstate c) = Model /\ r <= 1088 ->
       lp_filter_fixpt_run (cc_model c) r (24 * 64) = Some (cc_model c', used)).
Proof.
  intros [M1 M2] Y R. unfold cc_select_r, same_but_model, model_ok.
  change CONTRCURR_PID_CUTOFF_LO with 1088. change CONTRCURR_PID_CUTOFF_HI with 1152.
  destruct (cc_rstate c) eqn:S.
  - destruct (r <=? 1088) eqn:L.
    + destruct (cc_syncing_ok (cc_set_rstate c RSyncing) r) as (m & u & E & F & B & U); [easy|easy|].
      rewrite E. eexists; exists u. split; [reflexivity|].
      destruct (Z.abs (u - r) <? 64) eqn:D; cbn -[Z.mul]; rewrite ?D, ?S;
        replace (1088 <? r) with false by lia; repeat split; auto; try lia; try discriminate.
      all: intros; discriminate || lia.
    + change (int_to_fixpt 16) with (Some (16 * 64)). cbn [bind].
      destruct (lpf_step 16 0 3200 (cc_prev_y c) (cc_model c)) as (m & u & E & B & U); [lia|lia|lia|specialize (M2 eq_refl); lia|lia|].
      rewrite E. cbn [bind]. eexists; exists u. split; [reflexivity|]. cbn -[Z.mul]. rewrite S.
      replace (1088 <? r) with true by lia. cbn. repeat split; auto; try lia; try discriminate.
      intros [|[]]; [discriminate|lia].
  - destruct (cc_syncing_ok c r) as (m & u & E & F & B & U); [easy|easy|].
    rewrite E. eexists; exists u. split; [reflexivity|].
    destruct (Z.abs (u - r) <? 64) eqn:D; cbn -[Z.mul]; rewrite ?D, ?S; cbn; repeat split; auto; try lia; try discriminate.
  - destruct (1152 <=? r) eqn:L; eexists; exists r; (split; [reflexivity|]); cbn -[Z.mul]; rewrite ?L, ?S; cbn -[Z.mul];
      unfold lp_filter_fixpt_set; repeat split; auto; try lia; try discriminate.
    all: intros [|[]]; discriminate.
Qed.

Definition run_facts (now : Z) (c : cc) (r : Z) (c' : cc) : Prop :=
  exists used dt y0,
    src_of (cc_rstate c') = src_next (src_of (cc_rstate c)) r used /\ 0 <= used <= 3200 /\
    (src_of (cc_rstate c) = Real -> used = r) /\
    (src_of (cc_rstate c) = Model -> 1088 < r ->
       lp_filter_fixpt_run (cc_model c) (cc_prev_y c) (16 * 64) = Some (cc_model c', used)) /\
    (src_of (cc_rstate c) = Resync \/ src_of (cc_rstate c) = Model /\ r <= 1088 ->
       lp_filter_fixpt_run (cc_model c) r (24 * 64) = Some (cc_model c', used)) /\
    dt_seconds now (cc_timer c) = Some dt /\
    pid_run (cc_pid c) dt used = Some (cc_pid c', y0) /\ 0 <= y0 <= 3200 /\
    cc_prev_y c' = (if cc_restricted c then Z.min y0 1280 else y0) /\
    pwmcurr_set (cc_prev_y c') = Some (cc_ocr c') /\ cc_timer c' = now.

Definition same_conf (c c' : cc) : Prop :=
  cc_enabled c' = cc_enabled c /\ cc_restricted c' = cc_restricted c /\ cc_emerg c' = cc_emerg c /\
  cc_feedback c' = cc_feedback c /\ p_setpoint (cc_pid c') = p_setpoint (cc_pid c).

Lemma contrcurr_run_ok now c r : cc_inv c -> 0 <= r <= 3200 ->
  exists c', contrcurr_run now c r = Some c' /\ cc_inv c' /\ same_conf c c' /\
    (cc_enabled c = false \/ cc_emerg c <> 0 -> c' = c) /\
    (cc_enabled c = true -> cc_emerg c = 0 -> run_facts now c r c').
Proof.
  intros I R. pose proof I as (P & M & Y & O). unfold contrcurr_run.
  destruct (cc_enabled c) eqn:En; cbn [negb].
  2:{ exists c. split; [reflexivity|]. split; [exact I|]. unfold same_conf. repeat split; auto; try discriminate; congruence. }
  destruct (Z.eqb_spec (cc_emerg c) 0) as [Em|Em]; cbn [negb].
  2:{ exists c. split; [reflexivity|]. split; [exact I|]. split; [unfold same_conf; auto|]. split; [auto|congruence]. }
  destruct (dt_bound now (cc_timer c)) as (dt & Edt & Bdt). rewrite Edt. cbn [bind].
  destruct (cc_select_ok (cc_set_timer c (timer_set_now now)) r) as (c1 & u & Es & S & M1 & U & A1 & A2 & A3 & A4); [easy|easy|easy|].
  rewrite Es. cbn [bind]. destruct S as (S1 & S2 & S3 & S4 & S5 & S6 & S7 & S8). cbn in S1, S2, S3, S4, S5, S6, S7, S8.
  rewrite S4. pose proof P as P0. destruct P as (K & L1 & L2 & L3 & L4 & W & E & G).
  destruct (pid_run_ok (cc_pid c) dt u) as (p' & y & Ep & Rg & B1 & B2 & K' & W' & L1' & L2' & L3' & L4').
  1: { exact (cpid_region _ P0). } 1: { exact Bdt. } 1: { clear - W U; lia. }
  1: { unfold is_s24; clear - W; lia. } 1: { unfold is_s24; clear - U; lia. }
  rewrite Ep. cbn [bind].
  change (cc_restricted (cc_set_pid c1 p')) with (cc_restricted c1). rewrite S2.
  change CONTRCURR_RESTRICT_MAXCURR with 1280.
  rewrite L3, L4 in B1.
  set (y' := if cc_restricted c then if 1280 <? y then 1280 else y else y).
  assert (Ey : y' = if cc_restricted c then Z.min y 1280 else y)
    by (subst y'; destruct (cc_restricted c); [destruct (1280 <? y) eqn:?; lia|reflexivity]).
  assert (By : 0 <= y' <= 3200) by (clear - Ey B1; destruct (cc_restricted c); lia).
  destruct (cc_pwm_ok (cc_set_prev_y (cc_set_pid c1 p') y') y' By) as (v & Ev & Ev' & Bv).
  rewrite Ev. eexists. split; [reflexivity|].
  assert (Ip : cpid_inv p').
  { unfold cpid_inv. rewrite K', L1', L2', L3', L4', W'.
    destruct Rg as (_ & _ & _ & _ & _ & Q & _). rewrite L1, L2 in B2. repeat (split; [assumption|]). assumption. }
  split; [|split; [|split]].
  - unfold cc_inv. cbn. auto.
  - unfold same_conf. cbn. auto.
  - intros [|]; congruence.
  - intros _ _. exists u, dt, y. cbn in *. repeat (split; [assumption|]).
    rewrite S7. unfold timer_set_now. auto.
Qed.

Lemma set_feedback_ok now c r : cc_inv c -> 0 <= r <= 3200 ->
  exists c', contrcurr_set_feedback now c r = Some c' /\ cc_inv c' /\
    cc_enabled c' = cc_enabled c /\ cc_restricted c' = cc_restricted c /\ cc_emerg c' = cc_emerg c /\
    cc_feedback c' = r /\ p_setpoint (cc_pid c') = p_setpoint (cc_pid c) /\
    (cc_enabled c = false \/ cc_emerg c <> 0 -> c' = cc_set_feedback c r) /\
    (cc_enabled c = true -> cc_emerg c = 0 -> run_facts now c r c').
Proof.
  intros I R. unfold contrcurr_set_feedback.
  assert (F : (if negb (r =? cc_feedback c) then cc_set_feedback c r else c) = cc_set_feedback c r).
  { destruct (Z.eqb_spec r (cc_feedback c)) as [->|]; cbn [negb]; [destruct c|]; reflexivity. }
  rewrite F. destruct (contrcurr_run_ok now (cc_set_feedback c r) r) as (c' & E & I' & (A & B & C & D & D') & X & Y); [exact I|exact R|].
  rewrite E. exists c'. cbn in *. repeat (split; [auto; fail|]). auto.
Qed.

Lemma scale_percent p : 0 <= p <= 100 ->
  exists y, scale p 0 100 CONTRCURR_NEGLIM CONTRCURR_POSLIM = Some y /\ 0 <= y <= 3200 /\ (p = 0 -> y = 0).
Proof.
  intros H. change CONTRCURR_NEGLIM with 0. change CONTRCURR_POSLIM with 3200.
  rewrite scale_eq by (unfold is_s16, is_s24; lia).
  eexists. split; [reflexivity|].
  replace (0 + divaway ((3200 - 0) * (p - 0)) (100 - 0)) with (32 * p).
  2:{ replace ((3200 - 0) * (p - 0)) with ((32 * p) * 100) by lia. change (100 - 0) with 100. rewrite divaway_mul by lia. lia. }
  rewrite sat24_id by lia. lia.
Qed.

Lemma set_enabled_ok now c b p : cc_inv c -> 0 <= p <= 100 ->
  exists c', contrcurr_set_enabled now c b p = Some c' /\ cc_inv c' /\ cc_enabled c' = b /\
    cc_restricted c' = cc_restricted c /\ cc_emerg c' = cc_emerg c /\ cc_feedback c' = cc_feedback c /\
    p_setpoint (cc_pid c') = p_setpoint (cc_pid c) /\
    (cc_ocr c' = cc_ocr c \/ cc_ocr c' = 8191 \/ b = false /\ p <> 0).
Proof.
  intros I Hp. unfold contrcurr_set_enabled.
  set (m := if negb (Bool.eqb b (cc_enabled c)) then _ else _).
  assert (X : exists c1, m = Some c1 /\ cc_inv c1 /\ cc_enabled c1 = b /\
    cc_restricted c1 = cc_restricted c /\ cc_emerg c1 = cc_emerg c /\ cc_feedback c1 = cc_feedback c /\
    p_setpoint (cc_pid c1) = p_setpoint (cc_pid c) /\ (cc_ocr c1 = cc_ocr c \/ cc_ocr c1 = 8191)).
  { subst m. destruct (Bool.eqb_spec b (cc_enabled c)) as [->|N]; cbn [negb].
    - exists c. repeat split; auto; apply I.
    - change (int_to_fixpt 0) with (Some 0). cbn [bind].
      unfold cc_pwm. change (pwmcurr_set 0) with (Some 8191). cbn [bind].
      eexists. split; [reflexivity|]. destruct I as (P & M & Y & O).
      unfold cc_inv, cpid_inv, model_ok in *. cbn. repeat split; try apply P; try apply M; auto; try lia; discriminate. }
  destruct X as (c1 & -> & I1 & A & B & C & D & E & O). cbn [bind].
  destruct b; cbn [negb].
  - exists c1. repeat split; auto; try apply I1. tauto.
  - destruct (scale_percent p Hp) as (y & -> & By & Z0). cbn [bind].
    destruct (cc_pwm_ok c1 y By) as (v & -> & Ev & Bv).
    eexists. split; [reflexivity|]. destruct I1 as (P & M & Y & O1).
    unfold cc_inv. cbn. repeat split; auto; try apply P; try apply M; try lia.
    destruct (Z.eq_dec p 0) as [->|]; [|auto]. rewrite (Z0 eq_refl) in Ev.
    change (pwmcurr_set 0) with (Some 8191) in Ev. apply Some_inj in Ev. subst. auto.
Qed.

Lemma set_emerg_ok c f : cc_inv c ->
  exists c', contrcurr_set_emerg c f = Some c' /\ cc_inv c' /\ cc_emerg c' = f /\
    cc_enabled c' = cc_enabled c /\ cc_restricted c' = cc_restricted c /\ cc_feedback c' = cc_feedback c /\
    cc_pid c' = cc_pid c /\
    cc_ocr c' = (if (f =? cc_emerg c) || (f =? 0) then cc_ocr c else 8191).
Proof.
  intros I. unfold contrcurr_set_emerg. destruct (Z.eqb_spec f (cc_emerg c)) as [->|N]; cbn [negb orb].
  - exists c. auto 10.
  - destruct (Z.eqb_spec f 0) as [->|N0]; cbn [negb].
    + eexists. split; [reflexivity|]. cbn. auto 10.
    + unfold cc_pwm. change (pwmcurr_set CONTRCURR_NEGLIM) with (Some 8191). cbn [bind].
      eexists. split; [reflexivity|]. destruct I as (P & M & Y & O). unfold cc_inv. cbn. auto 10 with zarith.
Qed.

Lemma set_setpoint_ok c w : cc_inv c -> 0 <= w <= 3200 -> cc_inv (contrcurr_set_setpoint c w).
Proof.
  intros (P & M & Y & O) H. unfold cc_inv, cpid_inv in *. cbn. repeat split; try apply P; try apply M; auto; lia.
Qed.

Lemma cc_boot_ok : exists c, cc_boot = Some c /\ cc_inv c /\ cc_ocr c = 8191 /\ cc_emerg c = 0 /\
  cc_enabled c = true /\ cc_restricted c = true.
Proof.
  eexists. split; [vm_compute; reflexivity|]. unfold cc_inv, cpid_inv, model_ok. cbn.
  repeat split; try lia; try discriminate.
Qed.

(** C24 *)
Lemma cc_step_ok now c o : cc_inv c -> op_ok o ->
  exists n c', cc_step now c o = Some (n, c') /\ cc_inv c'.
Proof.
  intros I O. destruct o; cbn [cc_step op_ok] in *.
  - eauto.
  - destruct (set_feedback_ok now c r I O) as (c' & -> & H & _). cbn. eauto.
  - eexists; eexists; split; [reflexivity|]. now apply set_setpoint_ok.
  - eexists; eexists; split; [reflexivity|]. exact I.
  - destruct (set_enabled_ok now c b percent I O) as (c' & -> & H & _). cbn. eauto.
  - destruct (set_emerg_ok c flags I) as (c' & -> & H & _). cbn. eauto.
Qed.

Lemma cc_exec_ok ops : forall now c, cc_inv c -> Forall op_ok ops ->
  exists n c', cc_exec now c ops = Some (n, c') /\ cc_inv c'.
Proof.
  induction ops as [|o t IH]; intros now c I F; [cbn; eauto|]. inversion F; subst.
  destruct (cc_step_ok now c o I H1) as (n & c1 & E & I1). cbn [cc_exec]. rewrite E. cbn [bind]. eauto.
Qed.

Lemma curr_safe ops : Forall op_ok ops ->
  exists c0 n c, cc_boot = Some c0 /\ cc_exec 0 c0 ops = Some (n, c) /\
    0 <= cc_prev_y c <= 3200 /\ 0 <= cc_ocr c <= 8191.
Proof.
  intros F. destruct cc_boot_ok as (c0 & E & I & _). destruct (cc_exec_ok ops 0 c0 I F) as (n & c & X & _ & _ & Y).
  exists c0, n, c. auto.
Qed.

(** C25 at the level of the controller API *)
Lemma cc_step_off now c o n c' : cc_inv c -> op_ok o -> no_fixed_current o -> cc_step now c o = Some (n, c') ->
  (cc_emerg c <> 0 -> cc_ocr c = 8191) -> (cc_emerg c' <> 0 -> cc_ocr c' = 8191).
Proof.
  intros I O N E H Em. destruct o; cbn [cc_step op_ok no_fixed_current] in *.
  - apply Some_inj in E. injection E as <- <-. auto.
  - destruct (set_feedback_ok now c r I O) as (c1 & X & H1 & _ & _ & A & _ & _ & B & _).
    rewrite X in E. apply Some_inj in E. injection E as <- <-. rewrite A in Em. rewrite B by auto. exact (H Em).
  - apply Some_inj in E. injection E as <- <-. exact (H Em).
  - apply Some_inj in E. injection E as <- <-. exact (H Em).
  - destruct (set_enabled_ok now c b percent I O) as (c1 & X & H1 & _ & _ & A & _ & _ & B).
    rewrite X in E. apply Some_inj in E. injection E as <- <-. rewrite A in Em.
    destruct B as [B|[B|[B1 B2]]]; [rewrite B; auto|auto|subst b; contradiction].
  - destruct (set_emerg_ok c flags I) as (c1 & X & H1 & A & _ & _ & _ & _ & B).
    rewrite X in E. apply Some_inj in E. injection E as <- <-. rewrite B. rewrite A in Em.
    destruct (Z.eqb_spec flags (cc_emerg c)) as [->|]; cbn [orb]; [auto|].
    destruct (Z.eqb_spec flags 0); [contradiction|reflexivity].
Qed.

Lemma cc_exec_off ops : forall now c n c', cc_inv c -> Forall op_ok ops -> Forall no_fixed_current ops ->
  cc_exec now c ops = Some (n, c') ->
  (cc_emerg c <> 0 -> cc_ocr c = 8191) -> (cc_emerg c' <> 0 -> cc_ocr c' = 8191).
Proof.
  induction ops as [|o t IH]; intros now c n c' I F G E H.
  - apply Some_inj in E. injection E as <- <-. exact H.
  - inversion F; inversion G; subst. cbn [cc_exec] in E.
    destruct (cc_step_ok now c o I H2) as (n1 & c1 & E1 & I1). rewrite E1 in E. cbn [bind] in E.
    eapply IH; eauto. eapply (cc_step_off now c o); eauto.
Qed.

Lemma curr_emerg_off ops c0 n c : Forall op_ok ops -> Forall no_fixed_current ops ->
  cc_boot = Some c0 -> cc_exec 0 c0 ops = Some (n, c) -> cc_emerg c <> 0 -> cc_ocr c = 8191.
Proof.
  intros F G E0 E. destruct cc_boot_ok as (c1 & E1 & I & _ & Em & _). rewrite E1 in E0. apply Some_inj in E0. subst c1.
  eapply cc_exec_off; eauto. congruence.
Qed.

(** C26 *)
Lemma restricted_run now c r c' v : cc_inv c -> 0 <= r <= 3200 -> cc_restricted c = true ->
  cc_enabled c = true -> cc_emerg c = 0 ->
  contrcurr_set_feedback now c r = Some c' -> pwmcurr_set 1280 = Some v ->
  0 <= cc_prev_y c' <= 1280 /\ pwmcurr_set (cc_prev_y c') = Some (cc_ocr c') /\ v <= cc_ocr c'.
Proof.
  intros I R Re En Em E V. destruct (set_feedback_ok now c r I R) as (c1 & X & _ & _ & _ & _ & _ & _ & _ & F).
  rewrite X in E. apply Some_inj in E. subst c1.
  destruct (F En Em) as (u & dt & y & _ & _ & _ & _ & _ & _ & _ & By & Ey & Ep & _).
  rewrite Re in Ey. assert (0 <= cc_prev_y c' <= 1280) by (clear - By Ey; lia).
  split; [assumption|]. split; [assumption|]. eapply (pwmcurr_antitone (cc_prev_y c') 1280); eauto; lia.
Qed.

(** While restricted all the time since power-up the current never exceeds 2 A. *)
Definition stays_restricted (o : cc_op) : Prop :=
  match o with ORestricted b => b = true | _ => True end.

Lemma cc_step_restricted now c o n c' v : cc_inv c -> op_ok o -> no_fixed_current o -> stays_restricted o ->
  pwmcurr_set 1280 = Some v -> v <= 8191 ->
  cc_step now c o = Some (n, c') -> cc_restricted c = true -> v <= cc_ocr c ->
  cc_restricted c' = true /\ v <= cc_ocr c'.
Proof.
  intros I O N S V V' E Re H. destruct o; cbn [cc_step op_ok no_fixed_current stays_restricted] in *.
  - apply Some_inj in E. injection E as <- <-. auto.
  - destruct (set_feedback_ok now c r I O) as (c1 & X & _ & _ & A & _ & _ & _ & B & _).
    rewrite X in E. apply Some_inj in E. injection E as <- <-. split; [congruence|].
    destruct (cc_enabled c) eqn:En; [|rewrite B by auto; exact H].
    destruct (Z.eq_dec (cc_emerg c) 0) as [Em|Em]; [|rewrite B by auto; exact H].
    eapply restricted_run; eauto.
  - apply Some_inj in E. injection E as <- <-. auto.
  - apply Some_inj in E. injection E as <- <-. auto.
  - destruct (set_enabled_ok now c b percent I O) as (c1 & X & _ & _ & A & _ & _ & _ & B).
    rewrite X in E. apply Some_inj in E. injection E as <- <-. split; [congruence|].
    destruct B as [B|[B|[B1 B2]]]; [rewrite B; auto|lia|subst b; contradiction].
  - destruct (set_emerg_ok c flags I) as (c1 & X & _ & _ & _ & A & _ & _ & B).
    rewrite X in E. apply Some_inj in E. injection E as <- <-. split; [congruence|].
    rewrite B. destruct (_ || _); lia.
Qed.

Lemma curr_cold_start ops c0 n c v : Forall op_ok ops -> Forall no_fixed_current ops ->
  Forall stays_restricted ops -> pwmcurr_set 1280 = Some v ->
  cc_boot = Some c0 -> cc_exec 0 c0 ops = Some (n, c) -> v <= cc_ocr c.
Proof.
  intros F G S V E0 E. destruct cc_boot_ok as (c1 & E1 & I & O & _ & _ & Re).
  rewrite E1 in E0. apply Some_inj in E0. subst c1.
  assert (V' : v <= 8191) by (destruct (pwmcurr_spec 1280 ltac:(lia)) as (w & W & B & _); rewrite V in W; apply Some_inj in W; lia).
  assert (H : v <= cc_ocr c0) by lia. clear O E1. revert E. generalize 0 as now.
  revert c0 I Re H. induction ops as [|o t IH]; intros c0 I Re H now E.
  - apply Some_inj in E. injection E as <- <-. exact H.
  - inversion F; inversion G; inversion S; subst. cbn [cc_exec] in E.
    destruct (cc_step_ok now c0 o I ltac:(assumption)) as (n1 & c1 & E1 & I1). rewrite E1 in E. cbn [bind] in E.
    destruct (cc_step_restricted now c0 o n1 c1 v) as [R1 H1]; auto.
    eapply (IH ltac:(assumption) ltac:(assumption) ltac:(assumption) c1); eauto.
Qed.

(** C27 *)
Lemma curr_source now c r c' : cc_inv c -> 0 <= r <= 3200 -> cc_enabled c = true -> cc_emerg c = 0 ->
  contrcurr_set_feedback now c r = Some c' -> run_facts now c r c'.
Proof.
  intros I R En Em E. destruct (set_feedback_ok now c r I R) as (c1 & X & _ & _ & _ & _ & _ & _ & _ & F).
  rewrite X in E. apply Some_inj in E. subst c1. auto.
Qed.

Lemma lpf24_eq buf x b o : 0 <= buf <= 76800 -> 0 <= x <= 3200 ->
  lp_filter_fixpt_run buf x (24 * 64) = Some (b, o) ->
  b = buf - (buf + 12) / 24 + x /\ o = (b + 12) / 24.
Proof.
  intros Hb Hx E. unfold lp_filter_fixpt_run in E.
  rewrite fixpt_div_eq in E by (unfold is_s24; lia). rewrite divaway_scale in E by lia.
  rewrite divaway_pos in E by lia. change (24 / 2) with 12 in E. cbn [bind] in E.
  rewrite (sat24_id ((buf + 12) / 24)) in E by lia.
  rewrite fixpt_sub_eq in E by (unfold is_s24; lia). cbn [bind] in E. rewrite sat24_id in E by lia.
  rewrite fixpt_add_eq in E by (unfold is_s24; lia). cbn [bind] in E. rewrite sat24_id in E by lia.
  set (b2 := buf - (buf + 12) / 24 + x) in *.
  assert (B2 : 0 <= b2 <= 80000) by (subst b2; lia). clearbody b2.
  rewrite fixpt_div_eq in E by (unfold is_s24; lia). rewrite divaway_scale in E by lia.
  rewrite divaway_pos in E by lia. change (24 / 2) with 12 in E. cbn [bind] in E.
  rewrite (sat24_id ((b2 + 12) / 24)) in E by lia.
  apply Some_inj in E. injection E as <- <-. auto.
Qed.

Lemma resync_progress buf x b o : 0 <= buf <= 76800 -> 0 <= x <= 3200 ->
  lp_filter_fixpt_run buf x (24 * 64) = Some (b, o) -> 64 <= Z.abs (o - x) ->
  Z.abs (b - 24 * x) <= Z.abs (buf - 24 * x) - 63.
Proof.
  intros Hb Hx E H. destruct (lpf24_eq _ _ _ _ Hb Hx E) as [-> ->]. clear E.
  lia.
Qed.

(** Whatever the state, with a steady low feedback the real feedback is used again after at
    most 1221 runs. *)
Lemma resync_done r : 0 <= r <= 1088 -> forall l c c' k,
  cc_inv c -> cc_enabled c = true -> cc_emerg c = 0 ->
  (forall t x, In (t, x) l -> x = r) ->
  (cc_rstate c <> REnabled -> Z.abs (cc_model c - 24 * r) <= 63 * k) ->
  (k < Z.of_nat (length l)) ->
  cc_feed c l = Some c' -> cc_rstate c' = REnabled.
Proof.
  intros Hr. induction l as [|[t x] l IH]; intros c c' k I En Em Hx Hk Hl E.
  - cbn in Hl. cbn in E. apply Some_inj in E. subst c'.
    destruct (cc_rstate c) eqn:S; [exfalso| exfalso |reflexivity].
    all: assert (Z.abs (cc_model c - 24 * r) <= 63 * k) by (apply Hk; discriminate); lia.
  - cbn [cc_feed] in E. assert (x = r) by (eapply Hx; left; reflexivity). subst x.
    destruct (set_feedback_ok t c r I ltac:(lia)) as (c1 & X & I1 & A1 & _ & A2 & _ & _ & _ & F).
    rewrite X in E. cbn [bind] in E. specialize (F En Em).
    destruct F as (u & dt & y & Hs & Hu & HR & HM & HS & _).
    assert (L : forall t x, In (t, x) l -> x = r) by (intros; eapply Hx; right; eassumption).
    destruct (cc_rstate c) eqn:S; cbn [src_of src_next] in *.
    + replace (1088 <? r) with false in Hs by lia. specialize (HS (or_intror (conj eq_refl (proj2 Hr)))).
      apply (IH c1 c' (k - 1)); auto; try congruence; [|cbn [length] in Hl; lia].
      intros N. destruct (Z.abs (u - r) <? 64) eqn:D.
      * destruct (cc_rstate c1); cbn in Hs; congruence.
      * destruct I as (_ & [M _] & _). pose proof (resync_progress (cc_model c) r (cc_model c1) u ltac:(clear - M; lia) ltac:(clear - Hr; lia) HS ltac:(clear - D; lia)) as Q.
        specialize (Hk ltac:(discriminate)). clear - Hk Q. lia.
    + specialize (HS (or_introl eq_refl)).
      apply (IH c1 c' (k - 1)); auto; try congruence; [|cbn [length] in Hl; lia].
      intros N. destruct (Z.abs (u - r) <? 64) eqn:D.
      * destruct (cc_rstate c1); cbn in Hs; congruence.
      * destruct I as (_ & [M _] & _). pose proof (resync_progress (cc_model c) r (cc_model c1) u ltac:(clear - M; lia) ltac:(clear - Hr; lia) HS ltac:(clear - D; lia)) as Q.
        specialize (Hk ltac:(discriminate)). clear - Hk Q. lia.
    + replace (1152 <=? r) with false in Hs by lia.
      apply (IH c1 c' (k - 1)); auto; try congruence; [|cbn [length] in Hl; lia].
      intros N. destruct (cc_rstate c1); cbn in Hs; congruence.
Qed.

Lemma resync_terminates r c l c' : 0 <= r <= 1088 -> cc_inv c -> cc_enabled c = true -> cc_emerg c = 0 ->
  (forall t x, In (t, x) l -> x = r) -> 1221 <= Z.of_nat (length l) ->
  cc_feed c l = Some c' -> cc_rstate c' = REnabled.
Proof.
  intros R I En Em L N E. apply (resync_done r R l c c' 1220); auto; [|lia].
  intros _. destruct I as (_ & [M _] & _). lia.
Qed.

Lemma reachable_inv now c : cc_reachable now c -> cc_inv c.
Proof.
  intros (c0 & ops & F & E0 & E). destruct cc_boot_ok as (c1 & E1 & I & _). rewrite E1 in E0. apply Some_inj in E0. subst c1.
  destruct (cc_exec_ok ops 0 c0 I F) as (n & c' & X & I'). rewrite X in E. apply Some_inj in E. injection E as <- <-. exact I'.
Qed.
