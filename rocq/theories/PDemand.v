(** * Which work functions touch the demand of the current controller and the clock of the temperature controller *)
From Coq Require Import ZArith List Bool Lia ZifyBool.
From Verif Require Import Base PBase MConf MUtil MFixpt MScale MRing MFilter MTimer MPid MPwm MTempMap MCurr MSens
  SpecNum SpecPid SpecSmall PNum PSmall PScale PPid SpecCurr PCurr MSettings SpecSettings PSettings PSysSet
  MSseg MDisplay MText MState MTemp MMeas MMenu MMain SpecDisplay PDisplay SpecSys PSys PSysMeas PSysMenu PSysDisp PSysBtn
  PSysStep PSysRun PSysCC SpecRun PSysSafe PSysProp PSysWin PSysLog PStore SpecControl PControl PMem.
Import ListNotations.
Open Scope Z_scope.

(** The current controller, the clock and the switch are kept. *)
Definition dk (y y' : sys) : Prop :=
  y_cc y' = y_cc y /\ t_dt (y_ct y') = t_dt (y_ct y) /\ t_enabled (y_ct y') = t_enabled (y_ct y).
Definition dsw (y y' : sys) : Prop := dk y y' \/ t_enabled (y_ct y') = negb (t_enabled (y_ct y)).
Lemma dk_refl y : dk y y. Proof. repeat split; reflexivity. Qed.
Lemma dk_trans a b c : dk a b -> dk b c -> dk a c.
Proof. intros (A1 & A2 & A3) (B1 & B2 & B3). unfold dk. rewrite B1, B2, B3. auto. Qed.
Lemma dk_dsw a b c : dk a b -> dsw b c -> dsw a c.
Proof. intros A [B|B]; [left; eapply dk_trans; eassumption|right]. destruct A as (_ & _ & A). congruence. Qed.
Lemma dsw_dk a b c : dsw a b -> dk b c -> dsw a c.
Proof. intros [A|A] B; [left; eapply dk_trans; eassumption|right]. destruct B as (_ & _ & B). congruence. Qed.
Ltac drf := solve [repeat split; reflexivity | repeat split; sy; reflexivity].

Lemma set_boost_d C y m y' : contrtemp_set_boost_mode C y m = Some y' -> dk y y'.
Proof. unfold contrtemp_set_boost_mode. intros H. invs H. unfold menu_request_display_update. destruct (c_boost C); drf. Qed.
Lemma update_setpoint_d C y y' : contrtemp_update_setpoint C y = Some y' -> dk y y'.
Proof. unfold contrtemp_update_setpoint. intros H. invs H; drf. Qed.
Lemma set_enabled_d C y b y' : contrtemp_set_enabled C y b = Some y' -> dsw y y' /\ (t_enabled (y_ct y) = b -> dk y y').
Proof.
  unfold contrtemp_set_enabled, do_set_enabled. intros H. destruct (Bool.eqb _ b) eqn:Eb; cbn [negb] in H; [inv1 H; split; [left|intros _]; apply dk_refl|].
  cbv zeta in H. inv1 H. inv1 H.
  match goal with K : contrtemp_set_boost_mode _ _ _ = Some _ |- _ => apply set_boost_d in K; destruct K as (_ & _ & B) end. sy in B. split.
  - right. sy. rewrite B. destruct (t_enabled (y_ct y)), b; cbn in *; congruence.
  - intros Q. rewrite Q, eqb_reflx in Eb. discriminate Eb.
Qed.
Lemma arm_d y ms y' : arm_menu_timeout y ms = Some y' -> dk y y'.
Proof. unfold arm_menu_timeout. intros H. invs H. drf. Qed.
Lemma set_state_d C y s y' : menu_set_state C y s = Some y' ->
  dsw y y' /\ (t_enabled (y_ct y) = true -> adjusting s = false -> dk y y') /\ (s = MENU_SELPRESET \/ s = MENU_CHGPRESET -> dk y y').
Proof.
  unfold menu_set_state. intros H. destruct (mstate_eqb _ _); [inv1 H; split; [left; apply dk_refl|split; intros; apply dk_refl]|]. cbv zeta in H. inv1 H. inv1 H.
  match goal with K : match s with _ => _ end = Some ?z |- _ =>
    enough (S1 : dsw y z /\ (t_enabled (y_ct y) = true -> adjusting s = false -> dk y z) /\ (s = MENU_SELPRESET \/ s = MENU_CHGPRESET -> dk y z)); [|rename K into F] end.
  { destruct S1 as (S1 & S2 & S3). match goal with |- dsw y (menu_request_display_update ?z) /\ _ => assert (L : dk z (menu_request_display_update z)) by drf end.
    split; [eapply dsw_dk; eassumption|]. split; intros; (eapply dk_trans; [|exact L]); auto. }
  assert (Y1 : dk y (set_y_menu y (set_n_state (y_menu y) s))) by drf.
  destruct s; repeat (inv1 F);
    repeat match goal with
           | K : arm_menu_timeout _ _ = Some _ |- _ => apply arm_d in K
           | K : contrtemp_set_enabled _ _ _ = Some _ |- _ => apply set_enabled_d in K; destruct K end;
    cbn [adjusting];
    (split; [first [left; solve [eauto using dk_trans] | eapply dk_dsw; [|eassumption]; eauto using dk_trans]
            |split; [intros Q1 Q2; try discriminate Q2; try solve [eauto using dk_trans]|intros [Q|Q]; try discriminate Q; eauto using dk_trans]]).
Qed.
Lemma store_d y s y' : sys_store (put_settings y s) = Some y' -> dk y y'.
Proof. unfold sys_store, put_settings. sy. rewrite store_eq. cbn [bind]. intros H. inv1 H. drf. Qed.
Lemma presets_store_d C y s y' : presets_store C (put_settings y s) = Some y' -> dk y y'.
Proof.
  unfold presets_store. intros H. inv1 H. inv1 H. inv1 H.
  match goal with K : sys_store _ = Some _ |- _ => apply store_d in K; eapply dk_trans; [exact K|] end.
  match goal with K : contrtemp_update_setpoint _ _ = Some _ |- _ => apply update_setpoint_d in K; eapply dk_trans; [exact K|] end. drf.
Qed.
Lemma handler_d C y h up y' : call_ramp_handler C y h up = Some y' -> dk y y'.
Proof.
  unfold call_ramp_handler. intros H. inv1 H. subst h. destruct x.
  - unfold settemp_ramp_handler in H. inv1 H. inv1 H. inv1 H. unfold presets_set_active_value in *.
    match goal with K : context[zupd] |- _ => cbv zeta in K; inv1 K; apply presets_store_d in K; eapply dk_trans; [exact K|] end.
    apply set_state_d in H. destruct H as (_ & _ & H). auto.
  - unfold idletemp_ramp_handler in H. inv1 H. unfold contrtemp_set_idle_setpoint in H. destruct (c_idle C); [|inv1 H; apply dk_refl]. cbv zeta in H. inv1 H.
    match goal with K : contrtemp_update_setpoint _ _ = Some _ |- _ => apply update_setpoint_d in K; eapply dk_trans; [|eapply dk_trans; [exact K|]] end; [drf|].
    unfold sys_store in H. inv1 H. inv1 H. drf.
  - unfold adj_ramp_handler in H. inv1 H. inv1 H. unfold meastemp_adjust_set, measure_adjust_set in H. destruct (c_adj C); [|inv1 H; apply dk_refl]. cbv zeta in H. inv1 H.
    match goal with K : bind (zget _ _) _ = Some _ |- _ => inv1 K; inv1 K; inv1 K end. inv1 H.
    match goal with K : sys_store _ = Some _ |- _ => apply store_d in K; eapply dk_trans; [|eapply dk_trans; [exact K|]] end; [drf|]. inv1 H. drf.
  - unfold kconf_kp_ramp_handler, do_ramp_k in H. cbv zeta in H. inv1 H. inv1 H. inv1 H. inv1 H. apply set_boost_d in H.
    match goal with K : sys_store _ = Some _ |- _ => apply store_d in K; eapply dk_trans; eassumption end.
  - unfold kconf_ki_ramp_handler, do_ramp_k in H. cbv zeta in H. inv1 H. inv1 H. inv1 H. inv1 H. apply set_boost_d in H.
    match goal with K : sys_store _ = Some _ |- _ => apply store_d in K; eapply dk_trans; eassumption end.
  - unfold kconf_kd_ramp_handler, do_ramp_k in H. cbv zeta in H. inv1 H. inv1 H. inv1 H. inv1 H. apply set_boost_d in H.
    match goal with K : sys_store _ = Some _ |- _ => apply store_d in K; eapply dk_trans; eassumption end.
Qed.
Lemma start_d y up w h y' : start_ramping y up w h = Some y' -> dk y y'.
Proof. unfold start_ramping. intros H. cbv zeta in H. inv1 H. inv1 H. drf. Qed.
Lemma start_button_d y b bs w h y' : start_ramping_button y b bs w h = Some y' -> dk y y'.
Proof. unfold start_ramping_button. intros H. destruct (is_pos bs); [|inv1 H; apply dk_refl]. destruct (is_minus b); [eapply start_d; exact H|]. destruct (is_plus b); [eapply start_d; exact H|inv1 H; apply dk_refl]. Qed.
Lemma timeouts_d C y y' : menu_timeouts C y = Some y' -> t_enabled (y_ct y) = true -> adjusting (n_state (y_menu y)) = false -> dk y y'.
Proof.
  unfold menu_timeouts. intros H.
  assert (K : forall a b, (if mstate_eqb (n_state (y_menu y)) MENU_IDLETEMP then menu_set_state C y MENU_CURTEMP else menu_set_next_state C y) = Some a -> Some (stop_ramping a) = Some b ->
    ((n_state (y_menu y) = MENU_SELPRESET \/ n_state (y_menu y) = MENU_CHGPRESET \/ n_state (y_menu y) = MENU_IDLETEMP) -> t_enabled (y_ct y) = true -> dk y b)).
  { intros a b E F. inv1 F. assert (L : dk a (stop_ramping a)) by drf.
    intros S En. eapply dk_trans; [|exact L]. destruct S as [S|[S|S]]; unfold menu_set_next_state in E; rewrite S in E; cbn [mstate_eqb next_menu_state] in E;
        apply set_state_d in E; destruct E as (_ & E & _); apply E; auto. }
  destruct (n_state (y_menu y)); try (inv1 H; intros; apply dk_refl);
    (destruct (timer_expired _ _); [|inv1 H; intros; apply dk_refl]; inv1 H;
     match goal with A : _ = Some _ |- _ => specialize (K _ _ A H) end;
     intros En Ad; first [discriminate Ad|apply K; auto]).
Qed.
Lemma errors_d y : dk y (menu_errors y).
Proof. unfold menu_errors. cbv zeta. destruct (negb _); [drf|apply dk_refl]. Qed.
Lemma heating_d y : dk y (menu_heating y).
Proof. unfold menu_heating. cbv zeta. destruct (negb _); [drf|apply dk_refl]. Qed.
Lemma ramping_d C y y' : menu_ramping C y = Some y' -> dk y y'.
Proof.
  unfold menu_ramping. intros H. cbv zeta in H.
  assert (P : forall up z, (if timer_expired (y_now y) (n_pretimer (y_menu y)) then start_ramping y up false (n_handler (y_menu y)) else Some y) = Some z -> dk y z).
  { intros up z E. destruct (timer_expired _ _); [eapply start_d; exact E|inv1 E; apply dk_refl]. }
  assert (Q : forall up z, ramp_step C y up = Some z -> dk y z).
  { intros up z E. unfold ramp_step in E. destruct (timer_expired (y_now y) (n_rtimer (y_menu y))); [|inv1 E; apply dk_refl]. inv1 E. cbv zeta in E. inv1 E. inv1 E.
    match goal with K : call_ramp_handler _ _ _ _ = Some _ |- _ => apply handler_d in K; eapply dk_trans; [exact K|drf] end. }
  destruct (n_ramp (y_menu y)) eqn:Er; [inv1 H; apply dk_refl| | | |]; first [solve [apply (Q true); exact H]|solve [apply (Q false); exact H]|exact (P _ _ H)].
Qed.
Lemma menu_d C y y' : reach C y -> build_conf C -> menu_work C y = Some y' -> t_enabled (y_ct y) = true -> dk y y'.
Proof.
  intros R HC H En. pose proof (reach_s4 C y HC R) as S4. pose proof (s4_inv _ _ _ S4) as I.
  destruct (menu_work_ok relaxed C y bok_relaxed I (s4_ramp _ _ _ S4)) as (y1 & y2 & y3 & y0 & E & _ & _ & _ & _ & _ & E1 & I1 & R1 & Ey2 & I2 & R2 & E3 & _ & _ & (ds & Ey0)).
  rewrite H in E. apply Some_inj in E. subst y0.
  pose proof (i_en _ _ _ I) as He. rewrite En in He. assert (Ad : adjusting (n_state (y_menu y)) = false) by (apply negb_true_iff; congruence).
  pose proof (timeouts_d C y y1 E1 En Ad) as A. apply ramping_d in E3.
  eapply dk_trans; [exact A|]. eapply dk_trans; [|eapply dk_trans; [exact E3|rewrite Ey0; drf]]. subst y2. eapply dk_trans; [apply errors_d|apply heating_d].
Qed.
Lemma debug_d C y b y' : debug_enable C y b = Some y' -> dk y y'.
Proof. unfold debug_enable. intros H. destruct (c_debug C); [|inv1 H; apply dk_refl]. cbv zeta in H. inv1 H. destruct x. inv1 H. drf. Qed.
Lemma do_idle_d C y b y' : contrtemp_do_idle C y b = Some y' -> dk y y'.
Proof. unfold contrtemp_do_idle. intros H. cbv zeta in H. inv1 H. inv1 H. match goal with K : contrtemp_update_setpoint _ _ = Some _ |- _ => apply update_setpoint_d in K; eapply dk_trans; [|eapply dk_trans; [exact K|]] end; drf. Qed.
Lemma switch_d C y b bs y' : menu_button_switch C y b bs = Some y' -> dk y y'.
Proof.
  unfold menu_button_switch. intros H. destruct (n_state (y_menu y)).
  - inv1 H. match goal with K : start_ramping_button _ _ _ _ _ = Some _ |- _ => apply start_button_d in K; eapply dk_trans; [exact K|] end.
    destruct (_ && _); [apply set_state_d in H; destruct H as (_ & _ & H); auto|inv1 H; apply dk_refl].
  - inv1 H. match goal with K : arm_menu_timeout _ _ = Some _ |- _ => apply arm_d in K; rename K into A end. inv1 H. apply start_button_d in H.
    match goal with K : (if is_neg bs then _ else _) = Some _ |- _ => rename K into F end. eapply dk_trans; [exact A|]. eapply dk_trans; [|exact H].
    destruct (is_neg bs); [|inv1 F; apply dk_refl].
    destruct (is_plus b); [|destruct (is_minus b)].
    + unfold presets_next in F. cbv zeta in F. apply presets_store_d in F. exact F.
    + unfold presets_prev in F. cbv zeta in F. apply presets_store_d in F. exact F.
    + inv1 F. apply dk_refl.
  - inv1 H. match goal with K : arm_menu_timeout _ _ = Some _ |- _ => apply arm_d in K; rename K into A end. apply start_button_d in H. eapply dk_trans; eassumption.
  - destruct (negb _); [inv1 H; apply dk_refl|]. inv1 H. match goal with K : arm_menu_timeout _ _ = Some _ |- _ => apply arm_d in K; rename K into A end. apply start_button_d in H. eapply dk_trans; eassumption.
  - destruct (negb _); [inv1 H; apply dk_refl|]. destruct (is_pos bs); [|inv1 H; apply dk_refl]. destruct (is_plus b); [eapply debug_d; exact H|].
    destruct (is_minus b); [|inv1 H; apply dk_refl]. inv1 H. inv1 H. match goal with K : debug_enable _ _ _ = Some _ |- _ => apply debug_d in K; eapply dk_trans; [exact K|drf] end.
  - inv1 H; apply dk_refl.
  - destruct (negb _); [inv1 H; apply dk_refl|]. eapply start_button_d; exact H.
  - inv1 H; apply dk_refl.
  - destruct (negb _); [inv1 H; apply dk_refl|]. eapply start_button_d; exact H.
  - inv1 H; apply dk_refl.
  - destruct (negb _); [inv1 H; apply dk_refl|]. eapply start_button_d; exact H.
  - inv1 H; apply dk_refl.
  - destruct (negb _); [inv1 H; apply dk_refl|]. eapply start_button_d; exact H.
Qed.
Lemma iron_d C y bs y' : contrtemp_button_handler C y BUTTON_IRON bs = Some y' -> dk y y'.
Proof.
  unfold contrtemp_button_handler, button_boost_idle, button_boost, button_idle. cbn [is_iron negb]. intros H.
  destruct (c_boost C) eqn:Cb; [destruct (c_idle C) eqn:Ci|destruct (c_idle C) eqn:Ci]; cbn [andb] in H; cbv zeta in H.
  - inv1 H. assert (S1 : dk y x) by (destruct (is_pos bs); repeat inv1 H0; drf). clear H0.
    destruct (t_bilet (y_ct x)); [|inv1 H; exact S1]. destruct (_ || _).
    + inv1 H. inv1 H. apply do_idle_d in H0. eapply dk_trans; [exact S1|]. eapply dk_trans; [exact H0|drf].
    + destruct (is_neg bs) eqn:En; [|inv1 H; exact S1]. inv1 H. inv1 H. unfold contrtemp_do_next_boost_mode in H0. cbv zeta in H0. apply set_boost_d in H0.
      eapply dk_trans; [exact S1|]. eapply dk_trans; [exact H0|drf].
  - destruct (is_pos bs) eqn:Ep; [|inv1 H; apply dk_refl]. unfold contrtemp_do_next_boost_mode in H. cbv zeta in H. apply set_boost_d in H. exact H.
  - destruct (negb _); [eapply do_idle_d; exact H|inv1 H; apply dk_refl].
  - inv1 H. apply dk_refl.
Qed.
(** Only SET released changes the switch, and it does so once in a sample. *)
Lemma call_d C y b bs y' : call_button_handlers C y b bs = Some y' ->
  dsw y y' /\ (is_set b && is_neg bs = false -> dk y y').
Proof.
  intros H. destruct (is_iron b) eqn:Ib.
  - destruct b; try discriminate Ib. apply iron_call, iron_d in H. split; [left|intros _]; exact H.
  - unfold call_button_handlers, menu_button_handler in H. inv1 H.
    assert (x = y).
    { match goal with K : contrtemp_button_handler _ _ _ _ = Some _ |- _ => unfold contrtemp_button_handler, button_boost_idle, button_boost, button_idle in K; rewrite Ib in K; cbn [negb] in K; cbv zeta in K; invs K; reflexivity end. }
    subst x. rewrite Ib in H. inv1 H. match goal with K : menu_button_switch _ _ _ _ = Some _ |- _ => apply switch_d in K; rename K into A end.
    destruct (is_neg bs); [|inv1 H; split; [left|intros _]; exact A].
    cbv zeta in H. assert (Z : dk x (stop_ramping x)) by drf. pose proof (dk_trans _ _ _ A Z) as Q.
    destruct (is_set b).
    + split; [|discriminate]. eapply dk_dsw; [exact Q|]. destruct (negb _); [|inv1 H; left; apply dk_refl]. apply set_state_d in H. apply H.
    + inv1 H. split; [left|intros _]; exact Q.
Qed.
Lemma others_d C l : forall y y', Forall (fun c => is_set (fst c) && is_neg (snd c) = false) l -> run_calls C y l = Some y' -> dk y y'.
Proof.
  induction l as [|(b, bs) l IH]; cbn [run_calls]; intros y y' F H; [inv1 H; apply dk_refl|]. inversion F as [|? ? A1 A2]; subst. inv1 H.
  match goal with K : call_button_handlers _ _ _ _ = Some _ |- _ => apply call_d in K; destruct K as (_ & K); eapply dk_trans; [exact (K A1)|] end. eapply IH; eassumption.
Qed.
Lemma buttons_d C y pins y' : buttons_work C y pins = Some y' -> dsw y y'.
Proof.
  unfold buttons_work. intros H. cbv zeta in H. destruct (negb _); [inv1 H; left; apply dk_refl|]. inv1 H.
  unfold sample_calls in H. cbn [flat_map] in H. cbv zeta in H.
  set (s := buttons_get_raw pins) in *. set (pe := u8 (Z.land (Z.land s (Z.lnot (b_prev (y_btn y)))) BUTTONS_MASK)) in *. set (ne := u8 (Z.land (Z.land (Z.lnot s) (b_prev (y_btn y))) BUTTONS_MASK)) in *.
  set (y0 := set_y_btn y (mkBtn s x)) in *. assert (P0 : dk y y0) by drf.
  apply run_app in H. destruct H as (y1 & E1 & H).
  assert (A : dsw y0 y1).
  { destruct (calls_one s pe ne BUTTON_SET) as (e & p & El & He & Hp). rewrite El in E1. apply run_app in E1. destruct E1 as (z & E1 & E2).
    apply others_d in E2; [|destruct Hp as [->| ->]; repeat constructor]. eapply dsw_dk; [|exact E2].
    destruct He as [->|[->| ->]]; cbn [run_calls] in E1; [inv1 E1; left; apply dk_refl| |]; inv1 E1; inv1 E1;
      match goal with K : call_button_handlers _ _ _ _ = Some _ |- _ => apply call_d in K; apply K end. }
  eapply dk_dsw; [exact P0|]. eapply dsw_dk; [exact A|]. eapply others_d; [|exact H].
  assert (K : forall b, is_set b = false -> Forall (fun c => is_set (fst c) && is_neg (snd c) = false) (button_calls s pe ne b)).
  { intros b N2. destruct (calls_one s pe ne b) as (e & p & -> & He & Hp). apply Forall_app. split;
      [destruct He as [->|[->| ->]]|destruct Hp as [->| ->]]; repeat constructor; cbn [fst snd]; rewrite ?N2; auto. }
  rewrite app_nil_r. apply Forall_app. split; [apply K; reflexivity|]. apply Forall_app. split; apply K; reflexivity.
Qed.

(** ** Events *)
Lemma event_d C y e y' : build_conf C -> reach C y -> ev_ok C y e -> is_power e = false -> pending y e = false -> step C y e = Some y' ->
  t_enabled (y_ct y) = true -> t_enabled (y_ct y') = true -> y_cc y' = y_cc y /\ t_dt (y_ct y') = t_dt (y_ct y).
Proof.
  intros HC R O P Pn E En En'. pose proof (reach_s4 C y HC R) as S4.
  destruct (step_calm relaxed C y e y' HC bok_relaxed S4 O P Pn E) as (_ & _ & _ & _ & _ & _ & _ & [(A1 & A2 & _)|(A2 & A3)]); [auto|].
  assert (K : dk y y'); [|destruct K as (K1 & K2 & _); auto].
  destruct e; cbn [step] in E; try discriminate P.
  - apply Some_inj in E. subst y'. drf.
  - apply Some_inj in E. destruct (m_adc (y_meas y)); subst y'; [|apply dk_refl]. unfold adc_isr. repeat match goal with |- context [if ?b then _ else _] => destruct b end; drf.
  - destruct (x_eerie (y_set y)); [|apply Some_inj in E; subst; apply dk_refl]. destruct (x_busy (y_set y)); [apply Some_inj in E; subst; apply dk_refl|].
    destruct (ee_ready_isr C (y_set y)); [|discriminate E]. cbn [bind] in E. apply Some_inj in E. subst. drf.
  - apply Some_inj in E. subst. drf.
  - rewrite (measure_idle relaxed C y (s4_inv _ _ _ S4) Pn) in E. apply Some_inj in E. subst y'. apply dk_refl.
  - eapply menu_d; eassumption.
  - unfold sys_display_work in E. destruct (display_work _ _ _) as [(h, d)|]; [|discriminate E]. cbn [bind] in E. apply Some_inj in E. subst. drf.
  - apply buttons_d in E. destruct E as [E|E]; [exact E|]. rewrite En, En' in E. discriminate E.
  - apply Some_inj in E. subst. unfold sys_settings_work. drf.
Qed.

(** ** The clock of the enabled temperature controller is exact *)
Lemma temp_clock_exact C y n : build_conf C -> temp_clock C y n ->
  reach C y /\ 0 <= n /\ (t_enabled (y_ct y) = true -> t_dt (y_ct y) = u16 (y_now y - n)).
Proof.
  intros HC D. induction D as [pinb y Hp E|y v pinb y' R O E|y n y' D (R & Bn & Q) E|y n e y' D (R & Bn & Q) O E P H|y n e y' D (R & Bn & Q) O E P N1 N2 N3].
  - destruct (temp_clock_inv C y 0 HC (tc_boot C pinb y Hp E)) as (R & m & Bm & Q). split; [exact R|]. split; [lia|]. intros _. replace 0 with m by lia. exact Q.
  - destruct (temp_clock_inv C y' 0 HC (tc_power C y v pinb y' R O E)) as (R' & m & Bm & Q). split; [exact R'|]. split; [lia|]. intros _. replace 0 with m by lia. exact Q.
  - split; [exact (reach_step C y ETick y' R Logic.I E)|]. pose proof E as E'. cbn [step] in E'. apply Some_inj in E'. subst y'.
    split; [lia|]. unfold sys_tick, timer_isr. sy. intros En. rewrite u16_add1. exact (Q En).
  - destruct (temp_clock_inv C y' 0 HC (tc_restart C y n e y' D O E P H)) as (R' & m & Bm & Q'). split; [exact R'|]. split; [lia|]. intros _. replace 0 with m by lia. exact Q'.
  - split; [econstructor; eassumption|]. split; [lia|]. intros En'. assert (En : t_enabled (y_ct y) = true) by congruence. specialize (Q En).
    pose proof (reach_s4 C y HC R) as S4. pose proof (s4_inv _ _ _ S4) as I.
    destruct (pending y e) eqn:Pn.
    + destruct (step_pending relaxed C y e y' HC bok_relaxed S4 Pn E) as (c0 & c1 & raw & _ & _ & _ & F & _ & _ & _ & _ & Ht & Hc).
      pose proof F as (Fn & _ & _ & _ & _ & _ & _ & (Fe & _)). rewrite Fn.
      destruct (pending_cases _ _ _ _ I Pn) as [(X1 & X2 & X3)|(X1 & X2 & X3)].
      * destruct (Hc X3) as (c0' & v & v' & p & _ & _ & (Ec & _) & _). rewrite Ec. exact Q.
      * destruct (Ht X3) as (c1' & v & v' & p & _ & _ & _ & T & _). destruct T as (_ & _ & _ & _ & _ & _ & _ & _ & _ & Td & _).
        rewrite Td, En. destruct (t_emerg (y_ct y')) eqn:Eg; [exact Q|].
        destruct N2. exists (t_feedback (y_ct y')). repeat split; assumption.
    + destruct (event_d C y e y' HC R O P Pn E En En') as (_ & A2). rewrite A2.
      destruct (step_calm relaxed C y e y' HC bok_relaxed S4 O P Pn E) as (A1 & _).
      assert (A1' : y_now y' = y_now y) by (rewrite A1; destruct e; congruence). rewrite A1'. exact Q.
Qed.
Lemma temp_clock_dt C y n dt : build_conf C -> temp_clock C y n -> n <= 32767 -> t_enabled (y_ct y) = true ->
  dt_seconds (y_now y) (t_dt (y_ct y)) = Some dt -> ms_to_q6 n dt /\ 0 <= dt.
Proof.
  intros HC D Bn En E. destruct (temp_clock_exact C y n HC D) as (R & B0 & Q). rewrite (Q En) in E.
  pose proof (i_now _ _ _ (s4_inv _ _ _ (reach_s4 C y HC R))) as B.
  destruct (clock_dt (y_now y) n B ltac:(lia)) as (dt' & E1' & A & A'). rewrite E in E1'. apply Some_inj in E1'. subst dt'. auto.
Qed.
Lemma temp_dt_exact C y e y' n r : build_conf C -> temp_clock C y n -> n <= 32767 -> temp_processed y e y' r -> step C y e = Some y' ->
  exists dt out, ms_to_q6 n dt /\ 0 <= dt /\ pid_run (t_pid (y_ct y)) dt r = Some (t_pid (y_ct y'), out).
Proof.
  intros HC D Bn (-> & X2 & X3 & X4 & X5 & <-) E. destruct (temp_clock_exact C y n HC D) as (R & _).
  pose proof (reach_s4 C y HC R) as S4.
  destruct (step_pending relaxed C y EMeasure y' HC bok_relaxed S4 X2 E) as (c0 & c1 & raw & _ & _ & _ & _ & _ & _ & _ & _ & Ht & _).
  destruct (Ht X3) as (c1' & v & v' & p & _ & _ & _ & T & _). destruct T as (_ & _ & _ & _ & _ & _ & _ & _ & _ & _ & Td).
  destruct (Td X4 X5) as (dt & out & a & E1 & E2 & _). destruct (temp_clock_dt C y n dt HC D Bn X4 E1). eauto 6.
Qed.
Lemma temp_law C y e y' r : build_conf C -> reach C y -> temp_processed y e y' r -> step C y e = Some y' ->
  let k := used_gains C y in
  exists dt out a,
    pid_step (kp k) (ki k) (kd k) 128 (-30 * 64) (80 * 64) 0 (480 * 64)
      (wanted_setpoint (x_cache (y_set y)) (c_idle C && t_idle (y_ct y)))
      (p_integr (t_pid (y_ct y))) (p_prev_e (t_pid (y_ct y))) dt r out
      (p_integr (t_pid (y_ct y'))) (p_prev_e (t_pid (y_ct y'))) /\
    (forall n, temp_clock C y n -> n <= 32767 -> ms_to_q6 n dt) /\
    (out <= 250 * 64 -> nearest_away out 5 a) /\ (250 * 64 <= out -> a = 5 * 640) /\
    p_setpoint (cc_pid (y_cc y')) = (if 480 * 64 <? r then 0 else a).
Proof.
  intros HC R T E k. destruct (temp_law_dt C y e y' r HC R T E) as (dt & out & a & A & Ed & B). exists dt, out, a. split; [exact A|]. split; [|exact B].
  intros n D Bn. destruct T as (_ & _ & _ & En & _). apply (temp_clock_dt C y n dt HC D Bn En Ed).
Qed.

(** ** The demand changes with the temperature results only *)
Lemma demand_kept C y e y' : build_conf C -> reach C y -> ev_ok C y e -> is_power e = false -> step C y e = Some y' ->
  ~ (exists r, temp_processed y e y' r) ->
  p_setpoint (cc_pid (y_cc y')) = if t_enabled (y_ct y') && negb (t_emerg (y_ct y')) then p_setpoint (cc_pid (y_cc y)) else 0.
Proof.
  intros HC R O P E N. pose proof (reach_s4 C y HC R) as S4. pose proof (s4_inv _ _ _ S4) as I.
  pose proof (i_link _ _ _ (s4_inv _ _ _ (reach_s4 C y' HC (reach_step C y e y' R O E)))) as L'. pose proof (i_link _ _ _ I) as L.
  destruct (t_enabled (y_ct y')) eqn:En'; [|apply L'; auto]. destruct (t_emerg (y_ct y')) eqn:Em'; [apply L'; auto|]. cbn [andb negb].
  destruct (t_enabled (y_ct y)) eqn:En.
  - destruct (pending y e) eqn:Pn.
    + destruct (step_pending relaxed C y e y' HC bok_relaxed S4 Pn E) as (c0 & c1 & raw & _ & Er & _ & F & _ & _ & _ & _ & Ht & Hc).
      destruct (pending_cases _ _ _ _ I Pn) as [(X1 & X2 & X3)|(X1 & X2 & X3)].
      * destruct (Hc X3) as (c0' & v & v' & p & _ & _ & (_ & _ & _ & _ & M & _) & _). exact M.
      * destruct N. exists (t_feedback (y_ct y')). unfold temp_processed. auto 10.
    + destruct (event_d C y e y' HC R O P Pn E En En') as (-> & _). reflexivity.
  - rewrite L by auto. destruct (sys_cascade_idle C y e y' HC R O P E N) as [->|K]; [apply L; auto|exact K].
Qed.

(** ** The compare value of the PWM changes with the current results and in emergencies only *)
Definition ok0 (c c' : cc) : Prop := cc_emerg c' = cc_emerg c /\ cc_ocr c' = cc_ocr c.
Definition ok1 (c c' : cc) : Prop := cc_emerg c' = 0 -> cc_ocr c' = cc_ocr c.
Lemma ok0_set_emerg y b : ok0 (y_cc y) (y_cc (contrtemp_set_emerg y b)).
Proof. unfold contrtemp_set_emerg, do_set_emerg. destruct (negb _); [destruct b|]; split; reflexivity. Qed.
Lemma ok1_run y r y' : contrtemp_run y r = Some y' -> ok1 (y_cc y) (y_cc y').
Proof.
  unfold contrtemp_run. cbv zeta. intros H. destruct (negb _); [inv1 H; intros _; reflexivity|]. destruct (t_emerg _); [inv1 H; intros _; reflexivity|].
  inv1 H. inv1 H. destruct x0 as (p, out). inv1 H.
  match goal with K : (let '(_, _) := (if ?b then ?u else ?v) in _) = Some _ |- _ => destruct (if b then u else v) as (f, a) end.
  inv1 H. inv1 H. sy. intros Z. unfold contrcurr_set_setpoint in *. cbn [cc_emerg cc_set_pid cc_ocr] in *.
  match goal with K : contrcurr_set_emerg _ _ = Some _ |- _ => unfold contrcurr_set_emerg in K; destruct (negb (f =? cc_emerg (y_cc y))) eqn:Q; [destruct (negb (f =? 0)) eqn:Q0|]; invs K end.
  - exfalso. unfold cc_pwm in *.
    match goal with K : _ = Some x1 |- _ => cbn in K; apply Some_inj in K; subst x1 end. cbn [cc_emerg cc_set_ocr cc_set_emerg] in Z. subst f. discriminate Q0.
  - reflexivity.
  - reflexivity.
Qed.
Lemma ok1_feedback y r y' : contrtemp_set_feedback y r = Some y' -> ok1 (y_cc y) (y_cc y').
Proof. unfold contrtemp_set_feedback. intros H. apply ok1_run in H. destruct (negb _); exact H. Qed.
Lemma ok01 a b c : ok0 a b -> ok1 b c -> ok1 a c.
Proof. intros (A & B) H Z. rewrite (H Z). exact B. Qed.
Lemma ok1_result y v p y' : meastemp_result_handler y v p = Some y' -> ok1 (y_cc y) (y_cc y').
Proof.
  unfold meastemp_result_handler. cbv zeta. intros H. destruct p.
  - apply ok1_feedback in H. eapply ok01; [|exact H]. sy. destruct (ok0_set_emerg y false) as (A & B). split; assumption.
  - apply ok1_feedback in H. exact H.
  - inv1 H. intros _. apply ok0_set_emerg.
Qed.
Lemma ok1_measure C y y' : m_chan (y_meas y) = 1 -> measure_work C y = Some y' -> ok1 (y_cc y) (y_cc y').
Proof.
  unfold measure_work. cbv zeta. intros Hc H. destruct (m_avail (y_meas y)); [|inv1 H; intros _; reflexivity]. inv1 H.
  match goal with K : adc_trigger_next_chan _ ?x = Some _ |- _ => assert (Et : y_cc y' = y_cc x) end.
  { unfold adc_trigger_next_chan in H. cbv zeta in H. inv1 H. inv1 H. inv1 H. reflexivity. }
  match goal with K : measure_handle_result _ _ = Some _ |- _ => rename K into M end.
  unfold measure_handle_result in M. cbv zeta in M. inv1 M. inv1 M. inv1 M.
  sy in M. rewrite Hc in *. unfold measure_user_filter_handler in M. change (1 =? MEAS_CHAN_CURRENT) with false in M. cbv iota beta in M.
  inv1 M. inv1 M. inv1 M. destruct x5 as ((ch, phys), pl). inv1 M. unfold measure_user_result_handler in M. change (1 =? MEAS_CHAN_TEMP) with true in M. cbv iota in M.
  apply ok1_result in M. rewrite Et. exact M.
Qed.
Lemma ocr_kept C y e y' : build_conf C -> reach C y -> ev_ok C y e -> is_power e = false -> ~ result y e 0 -> step C y e = Some y' ->
  cc_ocr (y_cc y') = if cc_emerg (y_cc y') =? 0 then cc_ocr (y_cc y) else 8191.
Proof.
  intros HC R O P N E. destruct (Z.eqb_spec (cc_emerg (y_cc y')) 0) as [Z|Z]; [|apply (sys_emerg_off C y' HC (reach_step C y e y' R O E) Z)].
  pose proof (reach_s4 C y HC R) as S4. destruct (pending y e) eqn:Pn.
  - destruct (pending_cases _ _ _ _ (s4_inv _ _ _ S4) Pn) as [X|(-> & X2 & X3)]; [destruct (N X)|]. cbn [step] in E.
    apply (ok1_measure C y y' X3 E Z).
  - destruct (step_calm relaxed C y e y' HC bok_relaxed S4 O P Pn E) as (_ & _ & _ & _ & _ & _ & _ & [(A2 & _)|(A2 & _)]); rewrite A2; reflexivity.
Qed.
