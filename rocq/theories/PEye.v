(** * What the eye sees (C77) *)
From Coq Require Import ZArith List Bool Lia ZifyBool.
From Verif Require Import Base PBase MConf MUtil MFixpt MScale MRing MFilter MTimer MPid MPwm MTempMap MCurr MSens
  SpecNum SpecPid SpecSmall PNum PSmall PScale PPid SpecCurr PCurr MSettings SpecSettings PSettings PSysSet
  MSseg MDisplay MText MState MTemp MMeas MMenu MMain SpecDisplay PDisplay SpecSys PSys PSysMeas PSysMenu PSysDisp PSysBtn
  PSysStep PSysRun PSysCC SpecRun PSysSafe PStore SpecEye.
Import ListNotations.
Open Scope Z_scope.
Ltac Zify.zify_post_hook ::= Z.div_mod_to_equations.

(** ** Work functions that leave display and ports alone *)
Definition dv (y : sys) : Z * hw * disp * bool := (y_now y, y_hw y, y_disp y, y_dbg y).
Ltac dfin := solve [reflexivity
  | match goal with K : dv _ = dv _ |- _ => solve [etransitivity; [|etransitivity; [exact K|]]; reflexivity] end
  | match goal with K : dv _ = dv _, L : dv _ = dv _ |- _ =>
      solve [etransitivity; [|etransitivity; [exact K|etransitivity; [|etransitivity; [exact L|]]]]; reflexivity] end].
Lemma set_boost_d C y m y' : contrtemp_set_boost_mode C y m = Some y' -> dv y' = dv y.
Proof. unfold contrtemp_set_boost_mode. intros H. invs H. dfin. Qed.
Lemma update_setpoint_d C y y' : contrtemp_update_setpoint C y = Some y' -> dv y' = dv y.
Proof. unfold contrtemp_update_setpoint. intros H. invs H; dfin. Qed.
Lemma set_enabled_d C y b y' : contrtemp_set_enabled C y b = Some y' -> dv y' = dv y.
Proof.
  unfold contrtemp_set_enabled, do_set_enabled. intros H. destruct (negb _); [|inv1 H; reflexivity]. cbv zeta in H. inv1 H. inv1 H.
  match goal with K : contrtemp_set_boost_mode _ _ _ = Some _ |- _ => apply set_boost_d in K end. dfin.
Qed.
Lemma set_emerg_d y b : dv (contrtemp_set_emerg y b) = dv y.
Proof. unfold contrtemp_set_emerg, do_set_emerg. destruct (negb _); [|reflexivity]. destruct b; dfin. Qed.
Lemma contr_run_d y r y' : contrtemp_run y r = Some y' -> dv y' = dv y.
Proof. unfold contrtemp_run. intros H. destruct (negb _); [invs H; reflexivity|]. destruct (t_emerg _); [invs H; reflexivity|]. cbv zeta in H. inv1 H. inv1 H. inv1 H. inv1 H. destruct (CONTRTEMP_POSLIM <? r); inv1 H; inv1 H; dfin. Qed.
Lemma feedback_d y r y' : contrtemp_set_feedback y r = Some y' -> dv y' = dv y.
Proof. unfold contrtemp_set_feedback. intros H. apply contr_run_d in H. rewrite H. destruct (negb _); dfin. Qed.
Lemma trigger_d C y y' : adc_trigger_next_chan C y = Some y' -> dv y' = dv y.
Proof. unfold adc_trigger_next_chan. intros H. invs H. dfin. Qed.
Lemma temp_result_d y v p y' : meastemp_result_handler y v p = Some y' -> dv y' = dv y.
Proof.
  unfold meastemp_result_handler. intros H. destruct p; cbv zeta in H.
  - apply feedback_d in H. rewrite H. etransitivity; [|exact (set_emerg_d y false)]. dfin.
  - apply feedback_d in H. exact H.
  - inv1 H. apply set_emerg_d.
Qed.
Lemma curr_result_d y v p y' : meascurr_result_handler y v p = Some y' -> dv y' = dv y.
Proof. unfold meascurr_result_handler. intros H. cbv zeta in H. inv1 H. inv1 H. destruct x0. inv1 H. dfin. Qed.
Lemma handle_d C y y' : measure_handle_result C y = Some y' -> dv y' = dv y.
Proof.
  unfold measure_handle_result. intros H. cbv zeta in H. inv1 H. inv1 H. inv1 H.
  destruct (measure_user_filter_handler y (m_chan (y_meas y)) x1) as (y1, r) eqn:F.
  assert (S1 : dv y1 = dv y).
  { unfold measure_user_filter_handler, meascurr_filter_handler in F. destruct (_ =? _); [|inversion F; reflexivity].
    destruct (if u_init _ then _ else _) as (u, f). inversion F. dfin. }
  inv1 H. inv1 H. inv1 H. destruct x4 as ((ch, ph), pl). inv1 H. rewrite <- S1. unfold measure_user_result_handler in H.
  destruct (_ =? MEAS_CHAN_TEMP); [apply temp_result_d in H|apply curr_result_d in H]; (rewrite H; dfin).
Qed.
Lemma measure_d C y y' : measure_work C y = Some y' -> dv y' = dv y.
Proof.
  unfold measure_work. intros H. cbv zeta in H. destruct (m_avail _); [|inv1 H; dfin]. inv1 H.
  apply trigger_d in H. rewrite H. match goal with K : measure_handle_result _ _ = Some _ |- _ => apply handle_d in K; rewrite K; dfin end.
Qed.
Lemma arm_d y ms y' : arm_menu_timeout y ms = Some y' -> dv y' = dv y.
Proof. unfold arm_menu_timeout. intros H. invs H. dfin. Qed.
Lemma set_state_d C y s y' : menu_set_state C y s = Some y' -> dv y' = dv y.
Proof.
  unfold menu_set_state. intros H. destruct (mstate_eqb _ _); [inv1 H; reflexivity|]. cbv zeta in H. inv1 H. inv1 H.
  match goal with K : match s with _ => _ end = Some ?z |- _ => enough (S1 : dv z = dv y) by (rewrite <- S1; dfin); rename K into F end.
  assert (Y1 : dv (set_y_menu y (set_n_state (y_menu y) s)) = dv y) by dfin.
  destruct s; repeat (inv1 F); repeat match goal with K : arm_menu_timeout _ _ = Some _ |- _ => apply arm_d in K | K : contrtemp_set_enabled _ _ _ = Some _ |- _ => apply set_enabled_d in K end;
    congruence.
Qed.
Lemma sys_store_d y y' : sys_store y = Some y' -> dv y' = dv y.
Proof. unfold sys_store. intros H. invs H. dfin. Qed.
Lemma presets_store_d C y y' : presets_store C y = Some y' -> dv y' = dv y.
Proof.
  unfold presets_store. intros H. inv1 H. inv1 H. inv1 H.
  match goal with K : sys_store _ = Some _ |- _ => apply sys_store_d in K end.
  match goal with K : contrtemp_update_setpoint _ _ = Some _ |- _ => apply update_setpoint_d in K end. unfold menu_request_display_update. dfin.
Qed.
Lemma do_ramp_k_d C y g p i m up y' : do_ramp_k C y g p i m up = Some y' -> dv y' = dv y.
Proof.
  unfold do_ramp_k, contrtemp_update_pid_config. intros H. cbv zeta in H. repeat inv1 H.
  repeat match goal with K : sys_store _ = Some _ |- _ => apply sys_store_d in K | K : contrtemp_set_boost_mode _ _ _ = Some _ |- _ => apply set_boost_d in K end. dfin.
Qed.
Lemma handler_d C y h up y' : call_ramp_handler C y h up = Some y' -> dv y' = dv y.
Proof.
  unfold call_ramp_handler. intros H. inv1 H. destruct x.
  - unfold settemp_ramp_handler, presets_set_active_value in H. inv1 H. inv1 H. inv1 H. apply set_state_d in H.
    match goal with K : context[zupd] |- _ => cbv zeta in K; inv1 K; apply presets_store_d in K end. dfin.
  - unfold idletemp_ramp_handler in H. inv1 H. unfold contrtemp_set_idle_setpoint in H. destruct (c_idle C); [|inv1 H; reflexivity]. cbv zeta in H. inv1 H. apply sys_store_d in H.
    match goal with K : contrtemp_update_setpoint _ _ = Some _ |- _ => apply update_setpoint_d in K end. dfin.
  - unfold adj_ramp_handler in H. inv1 H. inv1 H. unfold meastemp_adjust_set, measure_adjust_set in H. destruct (c_adj C); [|inv1 H; reflexivity]. cbv zeta in H. inv1 H.
    match goal with K : bind (zget _ _) _ = Some _ |- _ => inv1 K; inv1 K; inv1 K end. inv1 H.
    match goal with K : sys_store _ = Some _ |- _ => apply sys_store_d in K end. inv1 H. unfold menu_request_display_update. dfin.
  - eapply do_ramp_k_d; exact H.
  - eapply do_ramp_k_d; exact H.
  - eapply do_ramp_k_d; exact H.
Qed.
Lemma start_d y up w h y' : start_ramping y up w h = Some y' -> dv y' = dv y.
Proof. unfold start_ramping. intros H. cbv zeta in H. inv1 H. inv1 H. dfin. Qed.
Lemma start_button_d y b bs w h y' : start_ramping_button y b bs w h = Some y' -> dv y' = dv y.
Proof. unfold start_ramping_button. intros H. destruct (is_pos bs); [|inv1 H; reflexivity]. destruct (is_minus b); [eapply start_d; exact H|]. destruct (is_plus b); [eapply start_d; exact H|inv1 H; reflexivity]. Qed.
Lemma timeouts_d C y y' : menu_timeouts C y = Some y' -> dv y' = dv y.
Proof.
  unfold menu_timeouts. intros H.
  assert (K : forall a b, (if mstate_eqb (n_state (y_menu y)) MENU_IDLETEMP then menu_set_state C y MENU_CURTEMP else menu_set_next_state C y) = Some a -> Some (stop_ramping a) = Some b -> dv b = dv y).
  { intros a b E F. inv1 F. unfold stop_ramping. assert (S1 : dv a = dv y) by (destruct (mstate_eqb _ _); eapply set_state_d; exact E). dfin. }
  destruct (n_state (y_menu y)); try (inv1 H; reflexivity); (destruct (timer_expired _ _); [|inv1 H; reflexivity]; inv1 H; eapply K; eassumption).
Qed.
Lemma errors_d y : dv (menu_errors y) = dv y.
Proof. unfold menu_errors. cbv zeta. destruct (negb _); reflexivity. Qed.
Lemma heating_d y : dv (menu_heating y) = dv y.
Proof. unfold menu_heating. cbv zeta. destruct (negb _); reflexivity. Qed.
Lemma ramping_d C y y' : menu_ramping C y = Some y' -> dv y' = dv y.
Proof.
  unfold menu_ramping. intros H. cbv zeta in H.
  assert (P : forall up z, (if timer_expired (y_now y) (n_pretimer (y_menu y)) then start_ramping y up false (n_handler (y_menu y)) else Some y) = Some z -> dv z = dv y).
  { intros up z E. destruct (timer_expired _ _); [eapply start_d; exact E|inv1 E; reflexivity]. }
  assert (Q : forall up z, ramp_step C y up = Some z -> dv z = dv y).
  { intros up z E. unfold ramp_step in E. destruct (timer_expired (y_now y) (n_rtimer (y_menu y))); [|inv1 E; reflexivity]. inv1 E. cbv zeta in E. inv1 E. inv1 E.
    match goal with K : call_ramp_handler _ _ _ _ = Some _ |- _ => apply handler_d in K end. unfold menu_request_display_update. dfin. }
  destruct (n_ramp (y_menu y)); try (eapply P; exact H); try (eapply Q; exact H); inv1 H; reflexivity.
Qed.
(** menu_work redraws the digits only. *)
Definition rv (y : sys) : Z * hw * bool * Z * Z * bool := (y_now y, y_hw y, d_enabled (y_disp y), d_mux (y_disp y), d_timer (y_disp y), y_dbg y).
Lemma dv_rv y y' : dv y' = dv y -> rv y' = rv y.
Proof. unfold dv, rv. intros H. injection H as -> -> -> ->. reflexivity. Qed.
Lemma menu_r C y y' : menu_work C y = Some y' -> rv y' = rv y.
Proof.
  unfold menu_work. intros H. inv1 H. inv1 H.
  match goal with K : menu_timeouts _ _ = Some ?z |- _ => apply timeouts_d in K; pose proof (errors_d z); pose proof (heating_d (menu_errors z)) end.
  match goal with K : menu_ramping _ _ = Some ?z |- _ => apply ramping_d in K; assert (A : rv z = rv y) by (apply dv_rv; congruence) end.
  destruct (n_upd _); [|inv1 H; exact A]. rewrite <- A. unfold menu_update_display, display_force_dp, display_show in H. inv1 H. destruct x1. cbv zeta in H. inv1 H. inv1 H. inv1 H.
  match goal with K : bind (zget _ _) _ = Some _ |- _ => inv1 K; inv1 K; inv1 K end.
  match goal with K : bind (show_digits _ _ _) _ = Some _ |- _ => inv1 K; inv1 K end. reflexivity.
Qed.

(** ** Keys: only the debug menu switches the display *)
Definition dinv (y : sys) : Prop := disp_inv (y_disp y) /\ io_ok (y_hw y) (y_disp y) /\ d_enabled (y_disp y) = negb (y_dbg y) /\ h_tx (y_hw y) = y_dbg y.
Definition unlit (h : hw) : Prop := h_portb h = 127 /\ h_portc h = 1.
Definition bt (y y' : sys) : Prop :=
  dinv y -> dinv y' /\ y_now y' = y_now y /\ d_mux (y_disp y') = d_mux (y_disp y) /\
    (dv y' = dv y \/ d_enabled (y_disp y') = false \/ d_timer (y_disp y') = timer_set_now (y_now y') /\ unlit (y_hw y')).
Lemma dv_inv y y' : dv y' = dv y -> dinv y -> dinv y'.
Proof. unfold dv, dinv. intros H. injection H as _ -> -> ->. auto. Qed.
Lemma dv_bt y y' : dv y' = dv y -> bt y y'.
Proof. intros H D. split; [eapply dv_inv; eassumption|]. pose proof H as K. unfold dv in K. injection K as K1 K2 K3 K4. rewrite K3. auto. Qed.
Lemma bt_trans a b c : bt a b -> bt b c -> bt a c.
Proof.
  intros H1 H2 D. destruct (H1 D) as (D1 & A1 & A2 & A3). destruct (H2 D1) as (D2 & B1 & B2 & B3). split; [exact D2|]. split; [congruence|]. split; [congruence|].
  destruct B3 as [B3|B3]; [|right; exact B3]. pose proof B3 as K. unfold dv in K. injection K as K1 K2 K3 K4. rewrite K1, K2, K3. destruct A3 as [A3|A3]; [left; congruence|right; exact A3].
Qed.
Lemma enable_more now h d en h' d' : disp_inv d -> io_ok h d -> display_enable now h d en = Some (h', d') ->
  d_mux d' = d_mux d /\ (h' = h /\ d' = d \/ d_enabled d' = false \/ d_timer d' = timer_set_now now /\ unlit h').
Proof.
  intros D Io. unfold display_enable. destruct (Bool.eqb en (d_enabled d)) eqn:Ee.
  - intros E. apply Some_inj in E. injection E as <- <-. auto.
  - destruct D as (Hm & g0 & g1 & g2 & g3 & Ed & (A1&A2&A3) & (B1&B2&B3) & (C1&C2&C3) & (D1&D2&D3) & F0 & F1 & F3).
    destruct d as [den dds dm dt]. cbn [d_enabled d_digits d_mux d_timer] in *. subst dds.
    destruct g0 as [[i0 s0 m0] f0 o0], g1 as [[i1 s1 m1] f1 o1], g2 as [[i2 s2 m2] f2 o2], g3 as [[i3 s3 m3] f3 o3].
    cbn [g_sseg dd_iomap dd_mask dd_set g_dpforce] in *. subst. destruct h as [pb db pc dc pd ddd tx].
    unfold io_ok in Io. cbn [d_enabled h_portb h_ddrb h_portc h_ddrc h_portd h_ddrd d_mux] in Io.
    destruct en, den; try discriminate Ee; cbv zeta; intros E.
    + destruct Io as (-> & -> & -> & -> & -> & ->). inv1 E. destruct x as (h1, ds). apply Some_inj in E. injection E as <- <-.
      cbn [d_mux set_d_timer set_d_digits set_d_enabled d_timer]. split; [reflexivity|]. right. right. split; [reflexivity|].
      lazy in H. apply Some_inj in H. injection H as <- <-. split; reflexivity.
    + inv1 E. apply Some_inj in E. injection E as <- <-. cbn [d_mux set_d_enabled d_enabled]. auto.
Qed.
Lemma debug_bt C y b y' : debug_enable C y b = Some y' -> bt y y'.
Proof.
  unfold debug_enable. intros H. destruct (c_debug C); [|inv1 H; apply dv_bt; reflexivity]. cbv zeta in H. inv1 H. destruct x as (h, d). inv1 H.
  intros (D1 & D2 & D3 & D4). sy in H0.
  destruct (enable_ok (y_now y) (y_hw y) (y_disp y) (negb b) D1 D2) as (h' & d' & E & Q1 & Q2 & Q3 & _ & Q5 & _). rewrite E in H0. apply Some_inj in H0. injection H0 as -> ->.
  destruct (enable_more _ _ _ _ _ _ D1 D2 E) as (M1 & M2).
  split. { split; sy; [exact Q1|]. split; [|split; [exact Q3|reflexivity]]. revert Q2. unfold io_ok, set_h_tx. sy. cbn [h_portb h_ddrb h_portc h_ddrc h_portd h_ddrd]. auto. }
  sy. split; [reflexivity|]. split; [exact M1|].
  destruct M2 as [(-> & ->)|[M2|M2]]; [left|right; left; exact M2|right; right; exact M2].
  unfold dv. sy. rewrite D3 in Q3. assert (Eb : b = y_dbg y) by (destruct b, (y_dbg y); cbn [negb] in Q3; congruence). rewrite Eb.
  assert (Et : set_h_tx (y_hw y) (y_dbg y) = y_hw y) by (rewrite <- D4; destruct (y_hw y); reflexivity). rewrite Et. reflexivity.
Qed.
Lemma do_idle_d C y b y' : contrtemp_do_idle C y b = Some y' -> dv y' = dv y.
Proof. unfold contrtemp_do_idle. intros H. cbv zeta in H. inv1 H. inv1 H. match goal with K : contrtemp_update_setpoint _ _ = Some _ |- _ => apply update_setpoint_d in K end. dfin. Qed.
Lemma iron_d C y b bs y' : contrtemp_button_handler C y b bs = Some y' -> dv y' = dv y.
Proof.
  unfold contrtemp_button_handler, button_boost_idle, button_boost, button_idle, contrtemp_do_next_boost_mode. intros H.
  destruct (c_boost C && c_idle C); [|destruct (c_boost C); [|destruct (c_idle C); [|inv1 H; reflexivity]]]; cbv zeta in H; (destruct (negb (is_iron b)); [inv1 H; reflexivity|]).
  - inv1 H. assert (S1 : dv x = dv y) by (destruct (is_pos bs); repeat inv1 H0; reflexivity). rewrite <- S1. clear H0.
    destruct (t_bilet (y_ct x)); [|inv1 H; reflexivity]. destruct (_ || _).
    + inv1 H. inv1 H. apply do_idle_d in H0. dfin.
    + destruct (is_neg bs); [|inv1 H; reflexivity]. inv1 H. inv1 H. apply set_boost_d in H0. dfin.
  - destruct (is_pos bs); [apply set_boost_d in H; exact H|inv1 H; reflexivity].
  - destruct (negb _); [apply do_idle_d in H; exact H|inv1 H; reflexivity].
Qed.
Lemma switch_bt C y b bs y' : menu_button_switch C y b bs = Some y' -> bt y y'.
Proof.
  unfold menu_button_switch. intros H. destruct (n_state (y_menu y)).
  5: { destruct (negb _); [inv1 H; apply dv_bt; reflexivity|]. destruct (is_pos bs); [|inv1 H; apply dv_bt; reflexivity]. destruct (is_plus b); [eapply debug_bt; exact H|].
    destruct (is_minus b); [|inv1 H; apply dv_bt; reflexivity]. inv1 H. inv1 H. match goal with K : debug_enable _ _ _ = Some _ |- _ => apply debug_bt in K; eapply bt_trans; [exact K|apply dv_bt; reflexivity] end. }
  all: apply dv_bt; try (destruct (negb _); [inv1 H; reflexivity|]).
  - inv1 H. match goal with K : start_ramping_button _ _ _ _ _ = Some _ |- _ => apply start_button_d in K; rewrite <- K end.
    destruct (_ && _); [eapply set_state_d; exact H|inv1 H; reflexivity].
  - inv1 H. match goal with K : arm_menu_timeout _ _ = Some _ |- _ => apply arm_d in K; rewrite <- K end. inv1 H. apply start_button_d in H. rewrite H.
    match goal with K : (if is_neg bs then _ else _) = Some _ |- _ => rename K into F end.
    destruct (is_neg bs); [|inv1 F; reflexivity].
    destruct (is_plus b); [|destruct (is_minus b)].
    + unfold presets_next in F. cbv zeta in F. apply presets_store_d in F. rewrite F. reflexivity.
    + unfold presets_prev in F. cbv zeta in F. apply presets_store_d in F. rewrite F. reflexivity.
    + inv1 F. reflexivity.
  - inv1 H. match goal with K : arm_menu_timeout _ _ = Some _ |- _ => apply arm_d in K; rewrite <- K end. apply start_button_d in H. exact H.
  - inv1 H. match goal with K : arm_menu_timeout _ _ = Some _ |- _ => apply arm_d in K; rewrite <- K end. apply start_button_d in H. exact H.
  - inv1 H. reflexivity.
  - eapply start_button_d; exact H.
  - inv1 H. reflexivity.
  - eapply start_button_d; exact H.
  - inv1 H. reflexivity.
  - eapply start_button_d; exact H.
  - inv1 H. reflexivity.
  - eapply start_button_d; exact H.
Qed.
Lemma call_bt C y b bs y' : call_button_handlers C y b bs = Some y' -> bt y y'.
Proof.
  unfold call_button_handlers, menu_button_handler. intros H. inv1 H. match goal with K : contrtemp_button_handler _ _ _ _ = Some _ |- _ => apply iron_d, dv_bt in K; eapply bt_trans; [exact K|] end.
  destruct (is_iron b); [inv1 H; apply dv_bt; reflexivity|]. inv1 H. match goal with K : menu_button_switch _ _ _ _ = Some _ |- _ => apply switch_bt in K; eapply bt_trans; [exact K|] end.
  apply dv_bt. destruct (is_neg bs); [|inv1 H; reflexivity]. cbv zeta in H. destruct (is_set b); [|inv1 H; reflexivity]. destruct (negb _); [|inv1 H; reflexivity].
  apply set_state_d in H. rewrite H. reflexivity.
Qed.
Lemma calls_bt C l : forall y y', run_calls C y l = Some y' -> bt y y'.
Proof.
  induction l as [|(b, bs) l IH]; cbn [run_calls]; intros y y' H.
  - inv1 H. apply dv_bt. reflexivity.
  - inv1 H. apply IH in H. apply call_bt in H0. eapply bt_trans; eassumption.
Qed.
Lemma buttons_bt C y pins y' : buttons_work C y pins = Some y' -> bt y y'.
Proof.
  unfold buttons_work. intros H. cbv zeta in H. destruct (timer_expired _ _) eqn:E; cbn [negb] in H.
  - inv1 H. apply calls_bt in H. eapply bt_trans; [apply dv_bt|exact H]. reflexivity.
  - inv1 H. apply dv_bt. reflexivity.
Qed.

(** ** The pins *)
Lemma four i : 0 <= i <= 3 -> i = 0 \/ i = 1 \/ i = 2 \/ i = 3. Proof. lia. Qed.
Lemma reach_dinv C y : build_conf C -> reach C y -> dinv y.
Proof.
  intros HC R. pose proof (s4_inv _ _ _ (reach_s4 C y HC R)) as I. destruct (i_dbg _ _ _ I) as (_ & D1 & D2).
  split; [exact (i_disp _ _ _ I)|]. split; [exact (i_io _ _ _ I)|]. split; assumption.
Qed.
Lemma off_dark y : dinv y -> d_enabled (y_disp y) = false -> dark (y_hw y).
Proof.
  intros (_ & Io & _) E. unfold io_ok in Io. rewrite E in Io. destruct Io as (A1 & A2 & _). intros i Hi. unfold driven. rewrite A1, A2.
  destruct (four i Hi) as [->|[->|[->| ->]]]; cbn [Z.ltb Z.compare Pos.compare Pos.compare_cont]; rewrite andb_comm; reflexivity.
Qed.
Lemma unlit_dark h : unlit h -> dark h.
Proof. intros (A1 & A2) i Hi. unfold driven. rewrite A1, A2. destruct (four i Hi) as [->|[->|[->| ->]]]; reflexivity. Qed.
Lemma driven_mux y i : dinv y -> 0 <= i <= 3 -> driven (y_hw y) i = true -> i = d_mux (y_disp y) /\ d_enabled (y_disp y) = true.
Proof.
  intros D Hi. destruct (d_enabled (y_disp y)) eqn:E; [|rewrite (off_dark y D E i Hi); discriminate]. destruct D as (_ & Io & _). unfold io_ok in Io. rewrite E in Io.
  destruct Io as (A1 & A2 & _ & _ & Hp). unfold driven. rewrite A1, A2.
  destruct Hp as [(-> & ->)|[(-> & -> & ->)|[(-> & -> & ->)|[(-> & -> & ->)|(-> & -> & ->)]]]];
    destruct (four i Hi) as [->|[->|[->| ->]]]; intros H; first [discriminate H|split; reflexivity].
Qed.
(** Every other event leaves the pins alone or leaves all digits off. *)
Lemma other_r C y e y' : build_conf C -> reach C y -> is_power e = false -> e <> ETick -> e <> EDisplay -> step C y e = Some y' ->
  rv y' = rv y \/ y_now y' = y_now y /\ d_mux (y_disp y') = d_mux (y_disp y) /\
    (d_enabled (y_disp y') = false \/ d_timer (y_disp y') = timer_set_now (y_now y') /\ unlit (y_hw y')).
Proof.
  intros HC R P NT ND E. destruct e; try discriminate P; try contradiction; cbn [step] in E.
  - left. apply Some_inj in E. subst y'. destruct (m_adc (y_meas y)); [|reflexivity].
    unfold adc_isr; cbv zeta; repeat match goal with |- context[if ?b then _ else _] => destruct b end; reflexivity.
  - left. destruct (x_eerie (y_set y)); [|apply Some_inj in E; subst; reflexivity]. destruct (x_busy (y_set y)); [apply Some_inj in E; subst; reflexivity|].
    destruct (ee_ready_isr C (y_set y)); [|discriminate E]. cbn [bind] in E. apply Some_inj in E. subst y'. reflexivity.
  - left. apply Some_inj in E. subst y'. reflexivity.
  - left. apply dv_rv. eapply measure_d; exact E.
  - left. eapply menu_r; exact E.
  - destruct (buttons_bt C y pinb y' E (reach_dinv C y HC R)) as (_ & A1 & A2 & [A3|A3]); [left; apply dv_rv; exact A3|right; auto].
  - left. apply Some_inj in E. subst y'. reflexivity.
Qed.
Lemma eye_still C y e y' : build_conf C -> reach C y -> ev_ok C y e -> is_power e = false -> e <> EDisplay -> step C y e = Some y' ->
  y_hw y' = y_hw y \/ dark (y_hw y').
Proof.
  intros HC R O P ND E. assert (D : e = ETick \/ e <> ETick) by (destruct e; auto; right; discriminate). destruct D as [->|D].
  - cbn [step] in E. apply Some_inj in E. subst y'. left. reflexivity.
  - destruct (other_r C y e y' HC R P D ND E) as [A|(_ & _ & [A|(_ & A)])].
    + left. unfold rv in A. injection A as _ A _ _ _ _. exact A.
    + right. apply off_dark; [|exact A]. apply (reach_dinv C y' HC). econstructor; eassumption.
    + right. apply unlit_dark. exact A.
Qed.
Lemma writes_ok now h d : disp_inv d -> io_ok h d -> exists l d', display_writes now h d = Some (l, d') /\
  (l = [] \/ exists h1 h2 h3, l = [h1; h2; h3] /\ dark h1 /\ dark h2).
Proof.
  intros D Io. unfold display_writes. destruct (d_enabled d) eqn:Ee; cbn [negb]; [|exists [], d; auto].
  destruct (timer_expired now (d_timer d)); cbn [negb]; [|exists [], d; auto].
  unfold DISPLAY_MUX_PERIOD_MS. rewrite add_ok by lia. cbn [bind].
  destruct D as (Hm & g0 & g1 & g2 & g3 & Ed & (A1&A2&A3) & (B1&B2&B3) & (C1&C2&C3) & (D1&D2&D3) & F0 & F1 & F3).
  destruct d as [den dds dm dt]. cbn [d_enabled d_digits d_mux d_timer set_d_timer set_d_mux] in *. subst dds den.
  destruct g0 as [[i0 s0 m0] f0 o0], g1 as [[i1 s1 m1] f1 o1], g2 as [[i2 s2 m2] f2 o2], g3 as [[i3 s3 m3] f3 o3].
  cbn [g_sseg dd_iomap dd_mask dd_set g_dpforce] in *. subst. destruct h as [pb db pc dc pd ddd tx].
  unfold io_ok in Io. cbn [d_enabled h_portb h_ddrb h_portc h_ddrc h_portd h_ddrd d_mux] in Io. destruct Io as (-> & -> & -> & Hd & Hp).
  change (DISPLAY_NR_DIGITS - 1) with 3.
  assert (Hmm : dm = 0 \/ dm = 1 \/ dm = 2 \/ dm = 3) by lia.
  destruct Hmm as [->|[->|[->| ->]]];
    [change (ring_next 0 3) with 1|change (ring_next 1 3) with 2|change (ring_next 2 3) with 3|change (ring_next 3 3) with 0];
    rewrite ?(proj1 (zget4 _ _ _ _)), ?(proj1 (proj2 (zget4 _ _ _ _))), ?(proj1 (proj2 (proj2 (zget4 _ _ _ _)))), ?(proj2 (proj2 (proj2 (zget4 _ _ _ _))));
    cbv beta iota zeta delta [sseg_multiplex mux_write segment_write bind g_sseg dd_iomap im_segport im_muxport im_muxmask im_muxpol im_segpol dd_mask dd_set
        get_port set_port set_h_portb set_h_portc set_h_portd h_portb h_portc h_portd h_ddrb h_ddrc h_ddrd h_tx];
    eexists _, _; (split; [reflexivity|]); right; eexists _, _, _; (split; [reflexivity|]);
    destruct Hp as [(-> & ->)|[(Q & -> & ->)|[(Q & -> & ->)|[(Q & -> & ->)|(Q & -> & ->)]]]]; try discriminate Q;
    (split; intros i Hi; unfold driven; cbn [h_portb h_portc h_ddrb h_ddrc]; destruct (four i Hi) as [->|[->|[->| ->]]]; vm_compute; reflexivity).
Qed.
Lemma eye_clean C y : build_conf C -> reach C y -> exists l d' y', display_writes (y_now y) (y_hw y) (y_disp y) = Some (l, d') /\
  step C y EDisplay = Some y' /\ y_hw y' = last l (y_hw y) /\ Forall (fun h => h = y_hw y' \/ dark h) l.
Proof.
  intros HC R. destruct (reach_dinv C y HC R) as (D1 & D2 & _). destruct (writes_ok (y_now y) _ _ D1 D2) as (l & d' & E & K).
  exists l, d'. cbn [step]. unfold sys_display_work, display_work. rewrite E. cbn [bind]. eexists. split; [reflexivity|]. split; [reflexivity|]. sy. split; [reflexivity|].
  destruct K as [->|(h1 & h2 & h3 & -> & K1 & K2)]; [constructor|]. cbn [last]. constructor; [right; exact K1|constructor; [right; exact K2|constructor; [left; reflexivity|constructor]]].
Qed.
(** A due call switches to the next digit with its picture. *)
Lemma work_r C y y' : build_conf C -> reach C y -> step C y EDisplay = Some y' ->
  y_now y' = y_now y /\ y_dbg y' = y_dbg y /\ d_enabled (y_disp y') = d_enabled (y_disp y) /\ d_digits (y_disp y') = d_digits (y_disp y) /\
  if d_enabled (y_disp y) && timer_expired (y_now y) (d_timer (y_disp y))
  then d_mux (y_disp y') = (d_mux (y_disp y) + 1) mod 4 /\ d_timer (y_disp y') = u16 (d_timer (y_disp y) + 1) /\ h_ddrd (y_hw y') = 255 /\
    (exists g, zget (d_digits (y_disp y)) (d_mux (y_disp y')) = Some g /\ h_portd (y_hw y') = 255 - dd_set (g_sseg g) /\ is_u8 (dd_set (g_sseg g))) /\
    forall i, 0 <= i <= 3 -> driven (y_hw y') i = (i =? d_mux (y_disp y'))
  else y_hw y' = y_hw y /\ y_disp y' = y_disp y.
Proof.
  intros HC R E. destruct (reach_dinv C y HC R) as (D1 & D2 & _). destruct (work_ok (y_now y) _ _ D1 D2) as (h' & d' & W & Q1 & Q2 & Q3 & Q4 & Q5 & Q6).
  cbn [step] in E. unfold sys_display_work in E. rewrite W in E. cbn [bind] in E. apply Some_inj in E. subst y'. sy.
  split; [reflexivity|]. split; [reflexivity|]. split; [exact Q3|]. split; [exact Q5|].
  destruct (d_enabled (y_disp y) && timer_expired (y_now y) (d_timer (y_disp y))) eqn:Due; [|exact Q6].
  destruct Q6 as (M & T & (g & G1 & G2) & Pc & Pb). apply andb_true_iff in Due. destruct Due as (En & _).
  unfold io_ok in Q2. rewrite Q3, En in Q2. destruct Q2 as (B1 & B2 & B3 & _).
  split; [exact M|]. split; [exact T|]. split; [exact B3|]. split.
  - exists g. split; [exact G1|]. split; [exact G2|]. destruct D1 as (_ & g0 & g1 & g2 & g3 & Ed & (_&_&A) & (_&_&B) & (_&_&C1) & (_&_&D) & _).
    rewrite Ed in G1. destruct Q1 as (Hm & _).
    destruct (four _ Hm) as [X|[X|[X|X]]]; rewrite X in G1; cbn in G1; apply Some_inj in G1; subst g; assumption.
  - intros i Hi. unfold driven. rewrite B1, B2, Pc, Pb. destruct Q1 as (Hm & _).
    destruct (four _ Hm) as [X|[X|[X|X]]]; rewrite X; destruct (four i Hi) as [->|[->|[->| ->]]]; reflexivity.
Qed.
Lemma above8 v k : is_u8 v -> 8 <= k -> Z.testbit v k = false.
Proof.
  intros Hv Hk. apply Z.testbit_false; [lia|]. rewrite Z.div_small; [reflexivity|]. unfold is_u8 in Hv. split; [lia|].
  apply Z.lt_le_trans with (2 ^ 8); [lia|apply Z.pow_le_mono_r; lia].
Qed.
Lemma low_bit v n : is_u8 v -> 0 <= n <= 7 -> Z.testbit (255 - v) n = negb (Z.testbit v n).
Proof.
  intros Hv Hn. replace (255 - v) with (Z.lxor v 255).
  - rewrite Z.lxor_spec. change 255 with (Z.ones 8). rewrite Z.ones_spec_low by lia. apply xorb_true_r.
  - assert (X : Z.land v (Z.lxor v 255) = 0).
    { apply Z.bits_inj'. intros k Hk. rewrite Z.land_spec, Z.lxor_spec, Z.bits_0. change 255 with (Z.ones 8).
      destruct (Z_lt_dec k 8); [rewrite Z.ones_spec_low by lia; destruct (Z.testbit v k); reflexivity|].
      rewrite Z.ones_spec_high by lia. rewrite (above8 v k Hv) by lia. reflexivity. }
    assert (S : v + Z.lxor v 255 = 255) by (rewrite (Z.add_nocarry_lxor _ _ X), <- Z.lxor_assoc, Z.lxor_nilpotent; reflexivity). lia.
Qed.
Lemma pin_range i s : 0 <= seg_pin i s <= 7.
Proof. unfold seg_pin. destruct (i <? 3), s; lia. Qed.
Lemma eye_glow C y y' s lamp : build_conf C -> reach C y -> step C y EDisplay = Some y' -> y_hw y' <> y_hw y -> drawn (d_digits (y_disp y)) s lamp ->
  exists i, 0 <= i <= 3 /\ (forall j, 0 <= j <= 3 -> driven (y_hw y) j = true -> i = (j + 1) mod 4) /\ glowing (y_hw y') i s lamp.
Proof.
  intros HC R E N (_ & Dr). pose proof (reach_dinv C y HC R) as D. destruct (work_r C y y' HC R E) as (_ & _ & _ & Dg & W).
  destruct (_ && _); [|destruct (N (proj1 W))]. destruct W as (M & _ & B & (g & G1 & G2 & G3) & Dv).
  destruct D as ((Hm & D) & D'). assert (Hi : 0 <= d_mux (y_disp y') <= 3) by (rewrite M; lia).
  exists (d_mux (y_disp y')). split; [exact Hi|]. split.
  - intros j Hj X. destruct (driven_mux y j (reach_dinv C y HC R) Hj X) as (-> & _). exact M.
  - intros j sg Hj. unfold glows. rewrite (Dv j Hj). destruct (j =? d_mux (y_disp y')) eqn:Ej; [|reflexivity]. cbn [andb]. apply Z.eqb_eq in Ej.
    rewrite B, G2. unfold high. rewrite low_bit by (apply pin_range || exact G3).
    assert (F : Z.testbit 255 (seg_pin j sg) = true) by (change 255 with (Z.ones 8); apply Z.ones_spec_low; pose proof (pin_range j sg); lia). rewrite F, negb_involutive. cbn [andb].
    assert (G : nth_error (d_digits (y_disp y)) (Z.to_nat j) = Some g).
    { revert G1. rewrite <- Ej. unfold zget. destruct (j <? 0) eqn:X; [lia|auto]. }
    specialize (Dr _ _ G). destruct D as (g0 & g1 & g2 & g3 & Ed & _).
    assert (K : Nat.eqb (Z.to_nat j) 2 = (j =? 2)) by (destruct (four j Hj) as [Y|[Y|[Y|Y]]]; rewrite Y; reflexivity). rewrite K in Dr.
    destruct (glyph_at s (Z.to_nat j) (j =? 2) lamp) as (c, dot). destruct Dr as (_ & Dr). rewrite <- (Dr sg). rewrite Z2Nat.id by lia. reflexivity.
Qed.

(** ** Every digit every 4 ms *)
Definition lag (y : sys) (b : bool) : Prop :=
  exists L, d_timer (y_disp y) = u16 (y_now y - L) /\ if b then -1 <= L <= 0 else 0 <= L <= 1.
Definition eye_inv (y : sys) (b : bool) (w : Z -> Z) : Prop :=
  (d_enabled (y_disp y) = true -> lag y b) /\
  forall i, 0 <= i <= 3 -> 0 <= w i <= (if d_enabled (y_disp y) then (d_mux (y_disp y) - i) mod 4 + (if b then 0 else 1) else 0).
Lemma expired_lag now L : 0 <= L <= 1 -> timer_expired now (u16 (now - L)) = true.
Proof. intros H. unfold timer_expired, timer_count_since, u16, s16, u16. lia. Qed.
Lemma fresh_eye C y : fresh C y -> d_timer (y_disp y) = 0 /\ y_now y = 0.
Proof. intros (x & k & a & p & -> & _). unfold booted. cbn [y_disp y_now]. split; [|reflexivity]. destruct p; reflexivity. Qed.
Lemma eyes_inv C y b w : build_conf C -> eyes C y b w -> reach C y /\ eye_inv y b w.
Proof.
  intros HC H.
  assert (F : forall y, reach C y -> fresh C y -> eye_inv y false (fun _ => 0)).
  { intros z R F. destruct (fresh_eye C z F) as (A1 & A2). split; [|intros i Hi; destruct (d_enabled _); lia]. intros _. exists 0. rewrite A1, A2. split; [reflexivity|lia]. }
  induction H as [pinb y Hp E|y v pinb y' R O E|y w y' H (R & (I1 & I2)) E|y b w e y' H (R & (I1 & I2)) O E P N].
  - assert (R : reach C y) by (econstructor; eassumption). split; [exact R|]. apply F; [exact R|]. eapply boot_fresh; eassumption.
  - assert (R' : reach C y') by (econstructor; eassumption). split; [exact R'|]. apply F; [exact R'|]. exact (power_fresh C y v pinb y' HC R O E).
  - assert (R' : reach C y') by (econstructor; [exact R| |exact E]; exact I). split; [exact R'|]. pose proof (reach_dinv C y' HC R') as (_ & _ & D & _).
    cbn [step] in E. apply Some_inj in E. subst y'. unfold sys_tick in *. sy in D. unfold eye_inv, lag, watch. sy. split.
    + intros En. destruct (I1 En) as (L & A1 & A2). exists (L + 1). split; [|lia]. rewrite A1. unfold timer_isr, u16. lia.
    + intros i Hi. specialize (I2 i Hi). rewrite D in *. destruct (y_dbg y); cbn [negb] in *; [rewrite orb_true_r; lia|]. destruct (driven _ _); cbn [orb]; lia.
  - assert (R' : reach C y') by (econstructor; eassumption). split; [exact R'|]. pose proof (reach_dinv C y HC R) as (_ & _ & D & _). pose proof (reach_dinv C y' HC R') as Dy'.
    pose proof Dy' as (_ & _ & D' & _).
    assert (X : e = EDisplay \/ e <> EDisplay) by (destruct e; auto; right; discriminate). destruct X as [->|X].
    + destruct (work_r C y y' HC R E) as (W1 & W2 & W3 & _ & W). cbn [is_display]. rewrite orb_true_r.
      destruct (d_enabled (y_disp y)) eqn:En.
      2: { split; [congruence|]. intros i Hi. unfold watch. rewrite W2. destruct (y_dbg y); [|discriminate D]. rewrite orb_true_r, W3. lia. }
      destruct (I1 eq_refl) as (L & A1 & A2). destruct (timer_expired (y_now y) (d_timer (y_disp y))) eqn:T; cbn [andb] in W.
      * destruct W as (M & Tm & _ & _ & Dv). split.
        -- intros _. exists (L - 1). rewrite Tm, A1, W1. split; [unfold u16; lia|]. destruct b; [|lia].
           assert (L <> -1); [|lia]. intros ->. rewrite A1 in T. revert T. unfold timer_expired, timer_count_since, u16, s16, u16. lia.
        -- intros i Hi. specialize (I2 i Hi). unfold watch. rewrite W2, W3, (Dv i Hi), M. destruct (y_dbg y); [discriminate D|]. rewrite orb_false_r.
           destruct (i =? (d_mux (y_disp y) + 1) mod 4) eqn:Z; [lia|]. destruct b; lia.
      * destruct W as (Wh & Wd). destruct b.
        -- split; [intros _; exists L; rewrite Wd, W1; auto|]. intros i Hi. specialize (I2 i Hi). unfold watch. rewrite Wd, En. destruct (_ || _); lia.
        -- rewrite A1, expired_lag in T by exact A2. discriminate T.
    + assert (Xd : is_display e = false) by (destruct e; auto; contradiction). rewrite Xd, orb_false_r.
      destruct (other_r C y e y' HC R P N X E) as [A|(A1 & A2 & A3)].
      * unfold rv in A. injection A as B1 B2 B3 B4 B5 B6. unfold eye_inv, lag, watch. rewrite B1, B2, B3, B4, B5, B6. split; [exact I1|].
        intros i Hi. specialize (I2 i Hi). destruct (_ || _); [|exact I2]. destruct (d_enabled _), b; lia.
      * split.
        -- intros En. destruct A3 as [A3|(A3 & _)]; [congruence|]. exists 0. rewrite A3. split; [|destruct b; lia]. unfold timer_set_now.
           pose proof (i_now _ _ _ (s4_inv _ _ _ (reach_s4 C y' HC R'))) as U. unfold is_u16 in U. unfold u16. lia.
        -- intros i Hi. specialize (I2 i Hi). unfold watch. rewrite A2. destruct (d_enabled (y_disp y')) eqn:En.
           ++ destruct (_ || _); [destruct b; lia|]. destruct (d_enabled (y_disp y)); destruct b; lia.
           ++ destruct (y_dbg y'); [|discriminate D']. rewrite orb_true_r. lia.
Qed.
Lemma eye_refresh C y b w i : build_conf C -> eyes C y b w -> 0 <= i <= 3 -> 0 <= w i <= 4.
Proof. intros HC H Hi. destruct (eyes_inv C y b w HC H) as (_ & _ & I). specialize (I i Hi). destruct (d_enabled _), b; lia. Qed.
