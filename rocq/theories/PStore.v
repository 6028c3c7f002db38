(** * Which work functions touch the settings *)
From Coq Require Import ZArith List Bool Lia ZifyBool.
From Verif Require Import Base PBase MConf MUtil MFixpt MScale MRing MFilter MTimer MPid MPwm MTempMap MCurr MSens
  MSettings SpecSettings PSettings MSseg MDisplay MText MState MTemp MMeas MMenu MMain SpecSys PSys.
Import ListNotations.
Open Scope Z_scope.

Definition same (y y' : sys) : Prop := y_now y' = y_now y /\ y_set y' = y_set y.
Definition kept (y y' : sys) : Prop := y_now y' = y_now y /\ (y_set y' = y_set y \/ exists s, y_set y' = stored y s).
Lemma same_refl y : same y y. Proof. split; reflexivity. Qed.
Lemma same_trans a b c : same a b -> same b c -> same a c.
Proof. intros (A1 & A2) (B1 & B2). split; congruence. Qed.
Lemma same_kept a b : same a b -> kept a b.
Proof. intros (A & B). split; [exact A|left; exact B]. Qed.
Lemma kept_trans a b c : kept a b -> kept b c -> kept a c.
Proof.
  intros (A1 & A2) (B1 & B2). split; [congruence|]. destruct B2 as [B2|(s & B2)].
  - destruct A2 as [A2|(s & A2)]; [left; congruence|right; exists s; congruence].
  - right. exists s. rewrite B2. unfold stored. rewrite A1. destruct A2 as [A2|(s' & A2)]; rewrite A2; [reflexivity|]. unfold stored. sy. reflexivity.
Qed.
Ltac inv1 H :=
  lazymatch type of H with
  | Some _ = Some _ => apply Some_inj in H; try subst
  | None = Some _ => discriminate H
  | bind _ _ = Some _ => apply bind_inv in H; destruct H as (? & ? & H)
  | (if ?b then _ else _) = Some _ => destruct b
  | match ?x with _ => _ end = Some _ => destruct x
  end.
Ltac invs H := repeat (cbv zeta beta in H; inv1 H).
Ltac rfl := solve [split; reflexivity | split; sy; reflexivity].

Lemma set_boost_same C y m y' : contrtemp_set_boost_mode C y m = Some y' -> same y y'.
Proof. unfold contrtemp_set_boost_mode. intros H. invs H. rfl. Qed.
Lemma update_setpoint_same C y y' : contrtemp_update_setpoint C y = Some y' -> same y y'.
Proof. unfold contrtemp_update_setpoint. intros H. invs H; rfl. Qed.
Lemma set_enabled_same C y b y' : contrtemp_set_enabled C y b = Some y' -> same y y'.
Proof.
  unfold contrtemp_set_enabled, do_set_enabled. intros H. destruct (negb _); [|inv1 H; apply same_refl]. cbv zeta in H. inv1 H. inv1 H.
  match goal with K : contrtemp_set_boost_mode _ _ _ = Some _ |- _ => apply set_boost_same in K; destruct K as (A & B) end. split; sy; [exact A|exact B].
Qed.
Lemma set_emerg_same y b : same y (contrtemp_set_emerg y b).
Proof. unfold contrtemp_set_emerg, do_set_emerg. destruct (negb _); [|apply same_refl]. destruct b; rfl. Qed.
Lemma contr_run_same y r y' : contrtemp_run y r = Some y' -> same y y'.
Proof. unfold contrtemp_run. intros H. destruct (negb _); [invs H; apply same_refl|]. destruct (t_emerg _); [invs H; apply same_refl|]. cbv zeta in H. inv1 H. inv1 H. inv1 H. inv1 H. destruct (CONTRTEMP_POSLIM <? r); inv1 H; inv1 H; rfl. Qed.
Lemma feedback_same y r y' : contrtemp_set_feedback y r = Some y' -> same y y'.
Proof. unfold contrtemp_set_feedback. intros H. apply contr_run_same in H. eapply same_trans; [|exact H]. destruct (negb _); rfl. Qed.
Lemma trigger_same C y y' : adc_trigger_next_chan C y = Some y' -> same y y'.
Proof. unfold adc_trigger_next_chan. intros H. invs H. rfl. Qed.
Lemma temp_result_same y v p y' : meastemp_result_handler y v p = Some y' -> same y y'.
Proof.
  unfold meastemp_result_handler. intros H. destruct p; cbv zeta in H.
  - apply feedback_same in H. eapply same_trans; [exact (set_emerg_same y false)|]. eapply same_trans; [|exact H]. rfl.
  - apply feedback_same in H. exact H.
  - inv1 H. apply set_emerg_same.
Qed.
Lemma curr_result_same y v p y' : meascurr_result_handler y v p = Some y' -> same y y'.
Proof. unfold meascurr_result_handler. intros H. cbv zeta in H. inv1 H. inv1 H. destruct x0. inv1 H. rfl. Qed.
Lemma handle_same C y y' : measure_handle_result C y = Some y' -> same y y'.
Proof.
  unfold measure_handle_result. intros H. cbv zeta in H. inv1 H. inv1 H. inv1 H.
  destruct (measure_user_filter_handler y (m_chan (y_meas y)) x1) as (y1, r) eqn:F.
  assert (S1 : same y y1).
  { unfold measure_user_filter_handler, meascurr_filter_handler in F. destruct (_ =? _); [|inversion F; apply same_refl].
    destruct (if u_init _ then _ else _) as (u, f). inversion F. rfl. }
  inv1 H. inv1 H. inv1 H. destruct x4 as ((ch, ph), pl). inv1 H. eapply same_trans; [exact S1|]. unfold measure_user_result_handler in H.
  destruct (_ =? MEAS_CHAN_TEMP); [apply temp_result_same in H|apply curr_result_same in H]; (eapply same_trans; [|exact H]; rfl).
Qed.
Lemma measure_same C y y' : measure_work C y = Some y' -> same y y'.
Proof.
  unfold measure_work. intros H. cbv zeta in H. destruct (m_avail _); [|inv1 H; rfl]. inv1 H.
  match goal with K : measure_handle_result _ _ = Some _ |- _ => apply handle_same in K; eapply same_trans; [|eapply same_trans; [exact K|]] end; [rfl|]. eapply trigger_same; exact H.
Qed.
Lemma display_same y y' : sys_display_work y = Some y' -> same y y'.
Proof. unfold sys_display_work. intros H. invs H. rfl. Qed.

Lemma arm_same y ms y' : arm_menu_timeout y ms = Some y' -> same y y'.
Proof. unfold arm_menu_timeout. intros H. invs H. rfl. Qed.
Lemma set_state_same C y s y' : menu_set_state C y s = Some y' -> same y y'.
Proof.
  unfold menu_set_state. intros H. destruct (mstate_eqb _ _); [inv1 H; apply same_refl|]. cbv zeta in H. inv1 H. inv1 H.
  match goal with K : match s with _ => _ end = Some ?z |- _ => enough (S1 : same y z) by (eapply same_trans; [exact S1|rfl]); rename K into F end.
  assert (Y1 : same y (set_y_menu y (set_n_state (y_menu y) s))) by rfl.
  destruct s; repeat (inv1 F); repeat match goal with K : arm_menu_timeout _ _ = Some _ |- _ => apply arm_same in K | K : contrtemp_set_enabled _ _ _ = Some _ |- _ => apply set_enabled_same in K end;
    eauto using same_trans, same_refl.
Qed.
Lemma store_shape y s y' : sys_store (put_settings y s) = Some y' -> y_now y' = y_now y /\ y_set y' = stored y s.
Proof. unfold sys_store, put_settings. sy. rewrite store_eq. cbn [bind]. intros H. inv1 H. split; reflexivity. Qed.
Lemma presets_store_kept C y s y' : presets_store C (put_settings y s) = Some y' -> kept y y'.
Proof.
  unfold presets_store. intros H. inv1 H. inv1 H. inv1 H.
  match goal with K : sys_store _ = Some _ |- _ => apply store_shape in K; destruct K as (A & B) end.
  match goal with K : contrtemp_update_setpoint _ _ = Some _ |- _ => apply update_setpoint_same in K; destruct K as (D & E) end.
  split; [sy; unfold menu_request_display_update; sy; congruence|]. right. exists s. unfold menu_request_display_update. sy. congruence.
Qed.
Lemma handler_kept C y h up y' : call_ramp_handler C y h up = Some y' -> kept y y'.
Proof.
  unfold call_ramp_handler. intros H. inv1 H. destruct x.
  - unfold settemp_ramp_handler in H. inv1 H. inv1 H. inv1 H. unfold presets_set_active_value in *.
    match goal with K : context[zupd] |- _ => cbv zeta in K; inv1 K; apply presets_store_kept in K; eapply kept_trans; [exact K|] end. apply same_kept. eapply set_state_same; exact H.
  - unfold idletemp_ramp_handler in H. inv1 H. unfold contrtemp_set_idle_setpoint in H. destruct (c_idle C); [|inv1 H; apply same_kept, same_refl]. cbv zeta in H. inv1 H.
    unfold contrtemp_update_setpoint in *. match goal with K : bind (presets_get_active_value _) _ = Some _ |- _ => inv1 K; cbv zeta in K; inv1 K end.
    unfold sys_store in H. sy in H. rewrite store_eq in H. cbn [bind] in H. inv1 H. split; sy; [reflexivity|]. right. unfold put_settings. sy. eexists. unfold stored. sy. reflexivity.
  - unfold adj_ramp_handler in H. inv1 H. inv1 H. unfold meastemp_adjust_set, measure_adjust_set in H. destruct (c_adj C); [|inv1 H; apply same_kept, same_refl]. cbv zeta in H. inv1 H.
    match goal with K : bind (zget _ _) _ = Some _ |- _ => inv1 K; inv1 K; inv1 K end. inv1 H.
    match goal with K : sys_store _ = Some _ |- _ => apply store_shape in K; destruct K as (A & B) end. inv1 H. split; unfold menu_request_display_update; sy; [sy in A; exact A|].
    right. sy in B. eexists. rewrite B. unfold stored. sy. reflexivity.
  - unfold kconf_kp_ramp_handler, do_ramp_k in H. cbv zeta in H. inv1 H. inv1 H. inv1 H. inv1 H. 
    match goal with K : sys_store _ = Some _ |- _ => apply store_shape in K; destruct K as (A & B) end. apply set_boost_same in H. destruct H as (Q1 & Q2). split; [congruence|]. right. eexists. rewrite Q2. exact B.
  - unfold kconf_ki_ramp_handler, do_ramp_k in H. cbv zeta in H. inv1 H. inv1 H. inv1 H. inv1 H. 
    match goal with K : sys_store _ = Some _ |- _ => apply store_shape in K; destruct K as (A & B) end. apply set_boost_same in H. destruct H as (Q1 & Q2). split; [congruence|]. right. eexists. rewrite Q2. exact B.
  - unfold kconf_kd_ramp_handler, do_ramp_k in H. cbv zeta in H. inv1 H. inv1 H. inv1 H. inv1 H. 
    match goal with K : sys_store _ = Some _ |- _ => apply store_shape in K; destruct K as (A & B) end. apply set_boost_same in H. destruct H as (Q1 & Q2). split; [congruence|]. right. eexists. rewrite Q2. exact B.
Qed.

Lemma start_same y up w h y' : start_ramping y up w h = Some y' -> same y y'.
Proof. unfold start_ramping. intros H. cbv zeta in H. inv1 H. inv1 H. rfl. Qed.
Lemma start_button_same y b bs w h y' : start_ramping_button y b bs w h = Some y' -> same y y'.
Proof. unfold start_ramping_button. intros H. destruct (is_pos bs); [|inv1 H; apply same_refl]. destruct (is_minus b); [eapply start_same; exact H|]. destruct (is_plus b); [eapply start_same; exact H|inv1 H; apply same_refl]. Qed.
Lemma timeouts_same C y y' : menu_timeouts C y = Some y' -> same y y' /\ (n_ramp (y_menu y) = RAMP_NONE -> n_ramp (y_menu y') = RAMP_NONE).
Proof.
  unfold menu_timeouts. intros H.
  assert (K : forall a b, (if mstate_eqb (n_state (y_menu y)) MENU_IDLETEMP then menu_set_state C y MENU_CURTEMP else menu_set_next_state C y) = Some a -> Some (stop_ramping a) = Some b ->
    same y b /\ (n_ramp (y_menu y) = RAMP_NONE -> n_ramp (y_menu b) = RAMP_NONE)).
  { intros a b E F. inv1 F. unfold stop_ramping. sy. split; [|reflexivity]. assert (S1 : same y a) by (destruct (mstate_eqb _ _); eapply set_state_same; exact E). eapply same_trans; [exact S1|rfl]. }
  destruct (n_state (y_menu y)); try (inv1 H; split; [apply same_refl|auto]); (destruct (timer_expired _ _); [|inv1 H; split; [apply same_refl|auto]]; inv1 H; eapply K; eassumption).
Qed.
Lemma errors_same y : same y (menu_errors y) /\ (n_ramp (y_menu y) = RAMP_NONE -> n_ramp (y_menu (menu_errors y)) = RAMP_NONE).
Proof.
  unfold menu_errors. cbv zeta. destruct (negb _); [|split; [apply same_refl|auto]]. unfold menu_request_display_update, stop_ramping. sy. split; [rfl|reflexivity].
Qed.
Lemma heating_same y : same y (menu_heating y) /\ n_ramp (y_menu (menu_heating y)) = n_ramp (y_menu y).
Proof. unfold menu_heating. cbv zeta. destruct (negb _); [|split; [apply same_refl|auto]]. unfold menu_request_display_update. sy. split; [rfl|reflexivity]. Qed.
Lemma ramping_kept C y y' : menu_ramping C y = Some y' -> kept y y' /\ (n_ramp (y_menu y) = RAMP_NONE -> same y y').
Proof.
  unfold menu_ramping. intros H. cbv zeta in H.
  assert (P : forall up z, (if timer_expired (y_now y) (n_pretimer (y_menu y)) then start_ramping y up false (n_handler (y_menu y)) else Some y) = Some z -> kept y z).
  { intros up z E. apply same_kept. destruct (timer_expired _ _); [eapply start_same; exact E|inv1 E; apply same_refl]. }
  assert (Q : forall up z, ramp_step C y up = Some z -> kept y z).
  { intros up z E. unfold ramp_step in E. destruct (timer_expired (y_now y) (n_rtimer (y_menu y))); [|inv1 E; apply same_kept, same_refl]. inv1 E. cbv zeta in E. inv1 E. inv1 E.
    match goal with K : call_ramp_handler _ _ _ _ = Some _ |- _ => apply handler_kept in K; eapply kept_trans; [exact K|] end. apply same_kept. unfold menu_request_display_update. rfl. }
  destruct (n_ramp (y_menu y)); (split; [|first [discriminate|idtac]]); try (eapply P; exact H); try (eapply Q; exact H); inv1 H; [apply same_kept|intros _]; apply same_refl.
Qed.
Lemma update_display_same C y y' : menu_update_display C y = Some y' -> same y y'.
Proof. unfold menu_update_display. intros H. inv1 H. destruct x. inv1 H. inv1 H. inv1 H. rfl. Qed.
Lemma menu_kept C y y' : menu_work C y = Some y' -> kept y y' /\ (n_ramp (y_menu y) = RAMP_NONE -> same y y').
Proof.
  unfold menu_work. intros H. inv1 H. inv1 H.
  match goal with K : menu_timeouts _ _ = Some ?z |- _ => apply timeouts_same in K; destruct K as (A1 & A2); pose proof (errors_same z) as (B1 & B2); pose proof (heating_same (menu_errors z)) as (D1 & D2) end.
  match goal with K : menu_ramping _ _ = Some ?z |- _ => apply ramping_kept in K; destruct K as (F1 & F2); assert (L : same z y') end.
  { destruct (n_upd _); [|inv1 H; apply same_refl]. apply update_display_same in H. eapply same_trans; [|exact H]. rfl. }
  pose proof (same_trans _ _ _ A1 (same_trans _ _ _ B1 D1)) as P. split.
  - eapply kept_trans; [apply same_kept; exact P|]. eapply kept_trans; [exact F1|apply same_kept; exact L].
  - intros N. rewrite D2 in F2. eapply same_trans; [exact P|]. eapply same_trans; [apply F2; auto|exact L].
Qed.

Lemma debug_same C y b y' : debug_enable C y b = Some y' -> same y y'.
Proof. unfold debug_enable. intros H. destruct (c_debug C); [|inv1 H; apply same_refl]. cbv zeta in H. inv1 H. destruct x. inv1 H. rfl. Qed.
Lemma do_idle_same C y b y' : contrtemp_do_idle C y b = Some y' -> same y y'.
Proof. unfold contrtemp_do_idle. intros H. cbv zeta in H. inv1 H. inv1 H. match goal with K : contrtemp_update_setpoint _ _ = Some _ |- _ => apply update_setpoint_same in K; eapply same_trans; [|eapply same_trans; [exact K|]] end; rfl. Qed.
Lemma iron_same C y b bs y' : contrtemp_button_handler C y b bs = Some y' -> same y y'.
Proof.
  unfold contrtemp_button_handler, button_boost_idle, button_boost, button_idle, contrtemp_do_next_boost_mode. intros H.
  assert (R := same_refl y).
  destruct (c_boost C && c_idle C); [|destruct (c_boost C); [|destruct (c_idle C); [|inv1 H; exact R]]]; cbv zeta in H; (destruct (negb (is_iron b)); [inv1 H; exact R|]).
  - inv1 H. assert (S1 : same y x) by (destruct (is_pos bs); repeat inv1 H0; rfl). eapply same_trans; [exact S1|]. clear H0.
    destruct (t_bilet (y_ct x)); [|inv1 H; apply same_refl]. destruct (_ || _).
    + inv1 H. inv1 H. apply do_idle_same in H0. eapply same_trans; [exact H0|rfl].
    + destruct (is_neg bs); [|inv1 H; apply same_refl]. inv1 H. inv1 H. apply set_boost_same in H0. eapply same_trans; [exact H0|rfl].
  - destruct (is_pos bs); [apply set_boost_same in H; exact H|inv1 H; exact R].
  - destruct (negb _); [apply do_idle_same in H; exact H|inv1 H; exact R].
Qed.
(** The keys that change settings: released PLUS or MINUS. *)
Definition edits (b : button) (bs : bstate) : bool := is_neg bs && (is_plus b || is_minus b).
Lemma switch_kept C y b bs y' : menu_button_switch C y b bs = Some y' -> kept y y' /\ (edits b bs = false -> same y y').
Proof.
  unfold menu_button_switch. intros H.
  enough (K : same y y' \/ (kept y y' /\ edits b bs = true)) by (destruct K as [K|(K1 & K2)]; split; auto using same_kept; intros; congruence).
  destruct (n_state (y_menu y)).
  - left. inv1 H. match goal with K : start_ramping_button _ _ _ _ _ = Some _ |- _ => apply start_button_same in K; eapply same_trans; [exact K|] end.
    destruct (_ && _); [eapply set_state_same; exact H|inv1 H; apply same_refl].
  - inv1 H. match goal with K : arm_menu_timeout _ _ = Some _ |- _ => apply arm_same in K; rename K into A end. inv1 H. apply start_button_same in H.
    match goal with K : (if is_neg bs then _ else _) = Some _ |- _ => rename K into F end. unfold edits.
    destruct (is_neg bs); [|inv1 F; left; eapply same_trans; eassumption]. cbn [andb].
    destruct (is_plus b); [|destruct (is_minus b)]; cbn [orb].
    + right. split; [|reflexivity]. unfold presets_next in F. cbv zeta in F. apply presets_store_kept in F. eauto using kept_trans, same_kept.
    + right. split; [|reflexivity]. unfold presets_prev in F. cbv zeta in F. apply presets_store_kept in F. eauto using kept_trans, same_kept.
    + inv1 F. left. eapply same_trans; eassumption.
  - left. inv1 H. match goal with K : arm_menu_timeout _ _ = Some _ |- _ => apply arm_same in K; rename K into A end. apply start_button_same in H. eapply same_trans; eassumption.
  - left. destruct (negb _); [inv1 H; apply same_refl|]. inv1 H. match goal with K : arm_menu_timeout _ _ = Some _ |- _ => apply arm_same in K; rename K into A end. apply start_button_same in H. eapply same_trans; eassumption.
  - left. destruct (negb _); [inv1 H; apply same_refl|]. destruct (is_pos bs); [|inv1 H; apply same_refl]. destruct (is_plus b); [eapply debug_same; exact H|].
    destruct (is_minus b); [|inv1 H; apply same_refl]. inv1 H. inv1 H. match goal with K : debug_enable _ _ _ = Some _ |- _ => apply debug_same in K; eapply same_trans; [exact K|rfl] end.
  - left. inv1 H; apply same_refl.
  - left. destruct (negb _); [inv1 H; apply same_refl|]. eapply start_button_same; exact H.
  - left. inv1 H; apply same_refl.
  - left. destruct (negb _); [inv1 H; apply same_refl|]. eapply start_button_same; exact H.
  - left. inv1 H; apply same_refl.
  - left. destruct (negb _); [inv1 H; apply same_refl|]. eapply start_button_same; exact H.
  - left. inv1 H; apply same_refl.
  - left. destruct (negb _); [inv1 H; apply same_refl|]. eapply start_button_same; exact H.
Qed.
Lemma call_kept C y b bs y' : call_button_handlers C y b bs = Some y' -> kept y y' /\ (edits b bs = false -> same y y').
Proof.
  unfold call_button_handlers, menu_button_handler. intros H. inv1 H. match goal with K : contrtemp_button_handler _ _ _ _ = Some _ |- _ => apply iron_same in K; rename K into A end.
  destruct (is_iron b); [inv1 H; split; [apply same_kept|intros _]; exact A|]. inv1 H. match goal with K : menu_button_switch _ _ _ _ = Some _ |- _ => apply switch_kept in K; destruct K as (S1 & S2) end.
  assert (L : same x0 y').
  { destruct (is_neg bs); [|inv1 H; apply same_refl]. cbv zeta in H. assert (Z : same x0 (stop_ramping x0)) by (unfold stop_ramping; rfl).
    destruct (is_set b); [|inv1 H; exact Z]. destruct (negb _); [|inv1 H; exact Z]. eapply same_trans; [exact Z|]. eapply set_state_same; exact H. }
  split; [eauto using kept_trans, same_kept|]. intros E. eapply same_trans; [exact A|]. eapply same_trans; [exact (S2 E)|exact L].
Qed.
Lemma calls_kept C l : forall y y', run_calls C y l = Some y' -> kept y y' /\ (Forall (fun c => edits (fst c) (snd c) = false) l -> same y y').
Proof.
  induction l as [|(b, bs) l IH]; cbn [run_calls]; intros y y' H.
  - inv1 H. split; [apply same_kept|intros _]; apply same_refl.
  - inv1 H. apply IH in H. destruct H as (K1 & K2). apply call_kept in H0. destruct H0 as (J1 & J2). split; [eapply kept_trans; eassumption|].
    intros F. inversion F; subst. eapply same_trans; [apply J2; assumption|apply K2; assumption].
Qed.
Lemma buttons_kept C y pins y' : buttons_work C y pins = Some y' -> kept y y' /\
  (timer_expired (y_now y) (b_timer (y_btn y)) = false \/ Forall (fun c => edits (fst c) (snd c) = false) (sample_calls (b_prev (y_btn y)) pins) -> same y y').
Proof.
  unfold buttons_work. intros H. cbv zeta in H. destruct (timer_expired _ _) eqn:E; cbn [negb] in H.
  - inv1 H. apply calls_kept in H. destruct H as (A & B). split.
    + eapply kept_trans; [apply same_kept|exact A]. rfl.
    + intros [F|F]; [discriminate F|]. eapply same_trans; [|exact (B F)]. rfl.
  - inv1 H. split; [apply same_kept|intros _]; apply same_refl.
Qed.
