(** * How each event acts on the controllers *)
From Coq Require Import ZArith List Bool Lia ZifyBool.
From Verif Require Import Base PBase MConf MUtil MFixpt MScale MRing MFilter MTimer MPid MPwm MTempMap MCurr MSens
  SpecNum SpecPid SpecSmall PNum PSmall PScale PPid SpecCurr PCurr MSettings SpecSettings PSettings PSysSet
  MSseg MDisplay MText MState MTemp MMeas MMenu MMain SpecDisplay SpecSys PSys PSysMeas PSysMenu PSysDisp PSysBtn
  PSysStep PSysRun.
Import ListNotations.
Open Scope Z_scope.
Ltac Zify.zify_post_hook ::= Z.div_mod_to_equations.

(** A result is waiting and this event handles it. *)
Definition handles (y : sys) (e : event) (chan : Z) : Prop :=
  e = EMeasure /\ m_avail (y_meas y) = true /\ m_chan (y_meas y) = chan.
Definition pending (y : sys) (e : event) : bool :=
  match e with EMeasure => m_avail (y_meas y) | _ => false end.
Lemma pending_cases B C y e : inv B C y -> pending y e = true -> handles y e 0 \/ handles y e 1.
Proof.
  intros I P. destruct e; try discriminate P. cbn [pending] in P. destruct (i_meas _ _ _ I) as (_ & [M|M] & _);
    [left|right]; repeat split; assumption.
Qed.

Definition calm (y : sys) (e : event) (y' : sys) : Prop :=
  y_now y' = (match e with ETick => u16 (y_now y + 1) | _ => y_now y end) /\ y_mc y' = y_mc y /\ y_mt y' = y_mt y /\
  m_chan (y_meas y') = m_chan (y_meas y) /\ map chflags (m_chans (y_meas y')) = map chflags (m_chans (y_meas y)) /\
  t_emerg (y_ct y') = t_emerg (y_ct y) /\ t_feedback (y_ct y') = t_feedback (y_ct y) /\
  (y_cc y' = y_cc y /\ t_dt (y_ct y') = t_dt (y_ct y) /\ t_enabled (y_ct y') = t_enabled (y_ct y) \/
   y_cc y' = contrcurr_set_setpoint (y_cc y) 0 /\ t_dt (y_ct y') = y_now y).
Lemma side_calm y e y' : side_frame y y' -> e <> ETick -> calm y e y'.
Proof.
  intros (S1 & S2 & S3 & (l & S4 & S4') & S5 & S6 & S7) N. unfold calm. rewrite S4. cbn.
  split; [rewrite S1; destruct e; congruence|]. repeat (split; [assumption || reflexivity|]). exact S7.
Qed.
Lemma calm_refl y e : e <> ETick -> calm y e y.
Proof. apply side_calm. apply side_refl. Qed.

Lemma step_calm B C y e y' : build_conf C -> bok B -> sinv4 B C y -> ev_ok C y e -> is_power e = false -> pending y e = false ->
  step C y e = Some y' -> calm y e y'.
Proof.
  intros HC HB [I Ro H S] O P N E. destruct e; cbn [step is_power ev_ok pending] in *; try discriminate P.
  - apply Some_inj in E. subst y'. unfold calm, sys_tick, timer_isr. cbn. repeat (split; [reflexivity|]). left; repeat split; reflexivity.
  - apply Some_inj in E. destruct (m_adc (y_meas y)) eqn:Ea; subst y'; [|apply calm_refl; discriminate].
    destruct (adc_isr_ok B C y raw I H Ea (proj1 O) (proj2 O)) as (_ & _ & _ & _ & _ & Eq & Ec & Ei & _). unfold calm. rewrite Eq.
    sy. rewrite Ec, Ei. repeat (split; [reflexivity|]). left; repeat split; reflexivity.
  - assert (K : y_now y' = y_now y /\ y' = set_y_set y (y_set y')).
    { destruct (x_eerie (y_set y)); [|apply Some_inj in E; subst; split; [reflexivity|destruct y'; reflexivity]].
      destruct (x_busy (y_set y)); [apply Some_inj in E; subst; split; [reflexivity|destruct y'; reflexivity]|].
      destruct (ee_ready_isr C (y_set y)) as [x|]; [|discriminate E]. cbn [bind] in E. apply Some_inj in E. subst. split; reflexivity. }
    destruct K as (_ & ->). unfold calm. sy. repeat (split; [reflexivity|]). left; repeat split; reflexivity.
  - apply Some_inj in E. subst y'. unfold calm. sy. repeat (split; [reflexivity|]). left; repeat split; reflexivity.
  - rewrite (measure_idle B C y I N) in E. apply Some_inj in E. subst y'. apply calm_refl. discriminate.
  - destruct (menu_work_ok B C y HB I Ro) as (y1 & y2 & y3 & y0 & E' & _ & _ & F & _). rewrite E' in E. apply Some_inj in E. subst y0.
    apply side_calm; [exact F|discriminate].
  - unfold sys_display_work in E. destruct (display_work _ _ _) as [[h d]|]; [|discriminate E]. cbn [bind] in E. apply Some_inj in E. subst y'.
    unfold calm. sy. repeat (split; [reflexivity|]). left; repeat split; reflexivity.
  - destruct (buttons_ok B C y pinb HB I Ro) as (y0 & E' & _ & _ & _ & F & _). rewrite E' in E. apply Some_inj in E. subst y0.
    apply side_calm; [exact F|discriminate].
  - apply Some_inj in E. subst y'. unfold calm, sys_settings_work. sy. repeat (split; [reflexivity|]). left; repeat split; reflexivity.
Qed.

(** A pending result: the lemma on measure_work as a statement about the step. *)
Lemma step_pending B C y e y' : build_conf C -> bok B -> sinv4 B C y -> pending y e = true -> step C y e = Some y' ->
  exists c0 c1 raw, m_chans (y_meas y) = [c0; c1] /\ raw_average (y_meas y) = Some raw /\ 0 <= raw <= 1023 /\
    meas_frame y y' /\ m_chan (y_meas y') = 1 - m_chan (y_meas y) /\ m_avail (y_meas y') = false /\ m_count (y_meas y') = 0 /\ m_sum (y_meas y') = 0 /\
    (m_chan (y_meas y) = 1 -> exists c1' v v' p, m_chans (y_meas y') = [c0; c1'] /\ y_mc y' = y_mc y /\
       checked (meastemp_config (c_smd C)) (y_now y) c1 c1' v v' p /\ temp_effect y y' v' p /\
       temp_of_code C (s_adj (x_cache (y_set y))) raw v) /\
    (m_chan (y_meas y) = 0 -> exists c0' v v' p, m_chans (y_meas y') = [c0'; c1] /\
       checked meascurr_config (y_now y) c0 c0' v v' p /\ curr_effect y y' v' p /\
       curr_of_code (snd (meascurr_filter_handler y raw)) v /\
       u_filter (y_mc y') = u_filter (y_mc (fst (meascurr_filter_handler y raw))) /\ u_init (y_mc y') = true).
Proof.
  intros HC HB [I Ro H S] P E. destruct e; try discriminate P. cbn [pending step] in *.
  destruct (i_meas _ _ _ I) as ((c0 & c1 & Ech & _) & _).
  destruct (measure_work_ok B C y c0 c1 I HB H P Ech) as (y0 & raw & E' & _ & F & _ & Er & Br & Q1 & Q2 & Q3 & Q4 & _ & Ht & Hc).
  rewrite E' in E. apply Some_inj in E. subst y0. exists c0, c1, raw. repeat (split; [assumption|]). assumption.
Qed.

(** ** The calls of the current controller *)
Lemma quiet_not_feedback ops r : Forall quiet_op ops -> ~ In (OFeedback r) ops.
Proof. intros F H. rewrite Forall_forall in F. exact (F _ H). Qed.
Lemma quiet_no_fixed ops : Forall quiet_op ops -> Forall no_fixed_current ops.
Proof. apply Forall_impl. intros []; cbn; tauto. Qed.

Lemma step_cc B C y e y' : build_conf C -> bok B -> sinv4 B C y -> ev_ok C y e -> is_power e = false -> step C y e = Some y' ->
  exists ops, Forall op_ok ops /\ Forall no_fixed_current ops /\ cc_exec (y_now y) (y_cc y) ops = Some (y_now y', y_cc y') /\
    (forall r, In (OFeedback r) ops -> handles y e 0).
Proof.
  intros HC HB S4 O P E. destruct (pending y e) eqn:Pn.
  - destruct (step_pending B C y e y' HC HB S4 Pn E) as (c0 & c1 & raw & Ech & Er & Br & F & Q1 & Q2 & Q3 & Q4 & Ht & Hc).
    destruct F as (Fn & _). destruct S4 as [I _ _ _]. destruct (pending_cases B C y e I Pn) as [(X1&X2&X3)|(X1&X2&X3)].
    + destruct (Hc X3) as (c0' & v & v' & p & _ & Ck & (_ & _ & _ & _ & _ & Ee & c & Em & Ef) & _).
      assert (Bv : 0 <= v' <= 3200) by (destruct Ck as (-> & _); change (mc_plaus_neg meascurr_config) with 0; change (mc_plaus_pos meascurr_config) with 3200; lia).
      destruct (i_mc _ _ _ I) as (Bu & _). pose proof (i_cc _ _ _ I) as (_ & _ & If & _). destruct (flag_ops _ If) as (_ & _ & (F3 & _) & (F4 & _)).
      assert (Bf : 0 <= cc_emerg (y_cc y') <= 3) by (rewrite Ee; change EMERG_UNPLAUS_FEEDBACK with 1; destruct p; assumption).
      exists (OEmerg (cc_emerg (y_cc y')) :: match p with MEAS_PLAUSIBLE => [OFeedback v'] | MEAS_NOT_PLAUSIBLE => [OFeedback (u_prev (y_mc y))] | MEAS_PLAUS_TIMEOUT => [] end).
      split; [constructor; [unfold op_ok, is_u8; lia|destruct p; repeat constructor; unfold op_ok; lia]|].
      split; [constructor; [exact Logic.I|destruct p; repeat constructor]|].
      split; [|intros; split; [|split]; assumption].
      cbn [cc_exec cc_step]. rewrite Em. cbn [bind]. rewrite Fn.
      destruct p; destruct Ef as (Ef & _); cbn [cc_exec cc_step]; [rewrite Ef|rewrite Ef|rewrite Ef]; reflexivity.
    + destruct (Ht X3) as (c1' & v & v' & p & _ & _ & _ & (_ & _ & _ & _ & _ & _ & _ & (ops & A1 & A2 & A3 & _) & _) & _).
      exists ops. split; [exact A2|]. split; [apply quiet_no_fixed; exact A1|]. split; [rewrite Fn; exact A3|].
      intros r Hr. destruct (quiet_not_feedback ops r A1 Hr).
  - destruct (step_calm B C y e y' HC HB S4 O P Pn E) as (A1 & _ & _ & _ & _ & _ & _ & A2).
    pose proof (u16_range (y_now y + 1)) as U.
    assert (K : exists ops, Forall op_ok ops /\ Forall no_fixed_current ops /\ Forall quiet_op ops /\ forall n, cc_exec n (y_cc y) ops = Some (n, y_cc y')).
    { destruct A2 as [(A2 & _)|(A2 & _)]; rewrite A2; [exists []|exists [OSetpoint 0]]; repeat split; repeat constructor; lia. }
    destruct K as (ops & K1 & K2 & K3 & K4).
    exists (match e with ETick => [OTime (u16 (y_now y + 1))] | _ => [] end ++ ops).
    split; [apply Forall_app; split; [destruct e; repeat constructor; apply U|exact K1]|].
    split; [apply Forall_app; split; [destruct e; repeat constructor|exact K2]|].
    split; [rewrite cc_exec_app, A1; destruct e; cbn [cc_exec cc_step bind]; apply K4|].
    intros r Hr. apply in_app_or in Hr. destruct Hr as [Hr|Hr]; [|destruct (quiet_not_feedback _ _ K3 Hr)].
    destruct e; cbn in Hr; repeat destruct Hr as [Hr|Hr]; try discriminate Hr; destruct Hr.
Qed.
