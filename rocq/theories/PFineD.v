(** * Interrupts inside the work functions: which of them touch the demand of the current controller (see PDemand) *)
From Coq Require Import ZArith List Bool Lia ZifyBool.
From Verif Require Import Base PBase MConf MUtil MFixpt MScale MRing MFilter MTimer MPid MPwm MTempMap MCurr MSens
  SpecNum SpecPid SpecSmall PNum PSmall PScale PPid SpecCurr PCurr MSettings SpecSettings PSettings PSysSet
  MSseg MDisplay MText MState MTemp MMeas MMenu MMain SpecDisplay PDisplay SpecSys PSys PSysMeas PSysMenu PSysDisp PSysBtn
  PSysStep PSysRun PSysCC SpecRun PSysSafe PSysProp PSysWin PSysLog PStore SpecControl PControl PMem SpecLive PLive PLive2 PDemand MFine SpecFine SpecFineLive PFine PFine8 PFineT PFineT2 PFineT3 PFineT4 PFineW.
Import ListNotations.
Open Scope Z_scope.

(** The current controller and the switch are kept. *)
Definition fd (y y' : sys) : Prop := y_cc y' = y_cc y /\ t_enabled (y_ct y') = t_enabled (y_ct y).
Definition fdsw (y y' : sys) : Prop := fd y y' \/ t_enabled (y_ct y') = negb (t_enabled (y_ct y)).
Lemma fd_refl y : fd y y. Proof. split; reflexivity. Qed.
Lemma fd_trans a b c : fd a b -> fd b c -> fd a c.
Proof. intros (A1 & A2) (B1 & B2). unfold fd. rewrite B1, B2. auto. Qed.
Lemma fd_dsw a b c : fd a b -> fdsw b c -> fdsw a c.
Proof. intros A [B|B]; [left; eapply fd_trans; eassumption|right]. destruct A as (_ & A). congruence. Qed.
Lemma dsw_fd a b c : fdsw a b -> fd b c -> fdsw a c.
Proof. intros [A|A] B; [left; eapply fd_trans; eassumption|right]. destruct B as (_ & B). congruence. Qed.
Lemma dk_fd a b : dk a b -> fd a b.
Proof. intros (A & _ & B). split; assumption. Qed.

Section Demand.
Variable C : conf.
Lemma fire_menu y i y' : fire C y i = Some y' -> y_menu y' = y_menu y.
Proof.
  unfold fire. destruct i as [|raw| |]; cbn [irq_event ev_okb step].
  - intros E. apply Some_inj in E. subst y'. reflexivity.
  - destruct (_ && _); intros E; apply Some_inj in E; subst y'; [|reflexivity]. destruct (m_adc (y_meas y)); [|reflexivity]. unfold adc_isr. cbv zeta. destruct (timer_expired _ _); reflexivity.
  - destruct (x_eerie (y_set y)); [|intros E; apply Some_inj in E; subst; reflexivity].
    destruct (x_busy (y_set y)); [intros E; apply Some_inj in E; subst; reflexivity|].
    destruct (ee_ready_isr C (y_set y)) as [x|]; [|discriminate]. cbn [bind]. intros E. apply Some_inj in E. subst. reflexivity.
  - intros E. apply Some_inj in E. subst. reflexivity.
Qed.
Lemma fires_menu l : forall y y', fires C y l = Some y' -> y_menu y' = y_menu y.
Proof.
  induction l as [|i l IH]; intros y y' E; cbn [fires] in E; [apply Some_inj in E; subst; reflexivity|].
  apply bind_inv in E. destruct E as (z & E1 & E2). apply fire_menu in E1. apply IH in E2. congruence.
Qed.
Lemma pt_keep y o y' o' : pt C y o = Some (y', o') -> y_cc y' = y_cc y /\ y_ct y' = y_ct y /\ y_menu y' = y_menu y.
Proof.
  unfold pt. destruct o as [|l o1]; intros E; [injection E as <- <-; auto|]. apply bind_inv in E. destruct E as (y1 & E1 & E2). injection E2 as <- <-.
  split; [exact (fires_cc C _ _ _ E1)|]. split; [exact (fires_ct C _ _ _ E1)|exact (fires_menu _ _ _ E1)].
Qed.

Definition kd (m : F sys) (y : sys) : Prop := forall o y' o', m o = Some (y', o') -> fd y y'.
Definition kw (m : F sys) (y : sys) : Prop := forall o y' o', m o = Some (y', o') -> fdsw y y'.
Lemma kd_kw m y : kd m y -> kw m y.
Proof. intros H o y' o' E. left. exact (H _ _ _ E). Qed.
Lemma kd_ret a y : fd y a -> kd (ret a) y.
Proof. intros H o y' o' E. unfold ret in E. injection E as <- <-. exact H. Qed.
Lemma kd_lift m y : (forall a, m = Some a -> fd y a) -> kd (lift m) y.
Proof. intros H o y' o' E. apply lift_inv in E. destruct E as (E & ->). apply H. exact E. Qed.
Lemma kd_bind m f y : kd m y -> (forall a, kd (f a) a) -> kd (fbind m f) y.
Proof. intros H K o y' o' E. fb E. eapply fd_trans; [exact (H _ _ _ E0)|exact (K a _ _ _ E)]. Qed.
Lemma kd_val {A} (m : option A) f y : (forall a, m = Some a -> kd (f a) y) -> kd (fbind (lift m) f) y.
Proof. intros H o y' o' E. fv E. exact (H a E0 _ _ _ E). Qed.
Lemma kd_pt z y : fd y z -> kd (pt C z) y.
Proof. intros H o y' o' E. apply pt_keep in E. destruct E as (E1 & E2 & _). eapply fd_trans; [exact H|]. split; [exact E1|congruence]. Qed.
Lemma kd_eq m y z : kd m z -> fd y z -> kd m y.
Proof. intros H K o y' o' E. eapply fd_trans; [exact K|exact (H _ _ _ E)]. Qed.
Lemma kw_after m f y : kd m y -> (forall a, kw (f a) a) -> kw (fbind m f) y.
Proof. intros H K o y' o' E. fb E. eapply fd_dsw; [exact (H _ _ _ E0)|exact (K a _ _ _ E)]. Qed.
Lemma kw_before m f y : kw m y -> (forall a, kd (f a) a) -> kw (fbind m f) y.
Proof. intros H K o y' o' E. fb E. eapply dsw_fd; [exact (H _ _ _ E0)|exact (K a _ _ _ E)]. Qed.
Lemma kw_eq m y z : kw m z -> fd y z -> kw m y.
Proof. intros H K o y' o' E. eapply fd_dsw; [exact K|exact (H _ _ _ E)]. Qed.

Ltac dr := solve [unfold fd; cbn; auto].
Ltac plaind := intros;
  repeat match goal with
    | H : bind _ _ = Some _ |- _ => apply bind_inv in H; destruct H as (? & ? & H)
    | H : Some _ = Some _ |- _ => apply Some_inj in H
    | H : (if ?b then _ else _) = Some _ |- _ => destruct b
    | H : (let '(_, _) := ?p in _) = Some _ |- _ => destruct p
    end; subst; try dr; eauto.
Lemma store_fd y y' : sys_store y = Some y' -> fd y y'.
Proof. unfold sys_store. plaind. Qed.
Lemma boost_fd y b y' : contrtemp_set_boost_mode C y b = Some y' -> fd y y'.
Proof. intros E. apply dk_fd. exact (set_boost_d C y b y' E). Qed.
Lemma setpoint_fd y y' : contrtemp_update_setpoint C y = Some y' -> fd y y'.
Proof. intros E. apply dk_fd. exact (update_setpoint_d C y y' E). Qed.
Lemma pid_config_fd y y' : contrtemp_update_pid_config C y = Some y' -> fd y y'.
Proof. unfold contrtemp_update_pid_config. apply boost_fd. Qed.
Lemma next_boost_fd y y' : contrtemp_do_next_boost_mode C y = Some y' -> fd y y'.
Proof. unfold contrtemp_do_next_boost_mode. apply boost_fd. Qed.
Lemma do_idle_fd y b y' : contrtemp_do_idle C y b = Some y' -> fd y y'.
Proof. intros E. apply dk_fd. exact (do_idle_d C y b y' E). Qed.
Lemma adjust_fd y id a y' : measure_adjust_set C y id a = Some y' -> fd y y'.
Proof. unfold measure_adjust_set. destruct (c_adj C); cbv zeta; plaind. Qed.
Lemma arm_fd y d y' : arm_menu_timeout y d = Some y' -> fd y y'.
Proof. intros E. apply dk_fd. exact (arm_d y d y' E). Qed.
Lemma display_fd y y' : menu_update_display C y = Some y' -> fd y y'.
Proof.
  unfold menu_update_display. intros E. apply bind_inv in E. destruct E as ([b s] & _ & E). apply bind_inv in E. destruct E as (d & _ & E).
  apply bind_inv in E. destruct E as (d2 & _ & E). apply Some_inj in E. subst. dr.
Qed.
Lemma ctrl_button_fd y b bs y' : c_boost C && c_idle C = false -> contrtemp_button_handler C y b bs = Some y' -> fd y y'.
Proof.
  intros H. unfold contrtemp_button_handler. rewrite H. destruct (c_boost C).
  - unfold button_boost. destruct (negb _); [plaind|]. destruct (is_pos bs); [apply next_boost_fd|plaind].
  - destruct (c_idle C); [|plaind]. unfold button_idle. destruct (negb _); [plaind|]. cbv zeta. destruct (negb _); [apply do_idle_fd|plaind].
Qed.

Ltac pd := match goal with
  | H : _ = Some ?a |- fd _ ?a =>
    first [apply store_fd in H | apply boost_fd in H | apply setpoint_fd in H | apply pid_config_fd in H | apply next_boost_fd in H | apply do_idle_fd in H
          | apply adjust_fd in H | apply arm_fd in H | apply display_fd in H | apply ctrl_button_fd in H; [|assumption]];
    first [exact H | eapply fd_trans; [|exact H]; dr]
  end.
Create HintDb kd.
Ltac k1 := first
  [ progress cbv beta zeta
  | match goal with
    | |- kd (ret _) _ => apply kd_ret; first [dr | congruence]
    | |- kd (pt _ _) _ => apply kd_pt; dr
    | |- kd (lift _) _ => apply kd_lift; intros; pd
    | |- kd (fbind (lift _) _) _ => first [apply kd_bind; [apply kd_lift; intros; pd|intros] | apply kd_val; intros]
    | |- kd (fbind (pt _ _) _) _ => apply kd_bind; [apply kd_pt; dr|intros]
    | |- kd (fbind _ _) _ => apply kd_bind; [|intros]
    | |- kd (if ?b then _ else _) _ => destruct b eqn:?
    | |- kd (match ?p with (_, _) => _ end) _ => destruct p
    | |- kd (match ?p with _ => _ end) _ => destruct p
    | |- kd _ _ => solve [eauto with kd | eapply kd_eq; [eauto with kd|dr]]
    end ].
Ltac k := repeat k1.

Lemma sys_store_kd y : kd (sys_store_f C y) y.
Proof. unfold sys_store_f. k. Qed.
Hint Resolve sys_store_kd : kd.
Lemma idle_setpoint_kd y w : kd (contrtemp_set_idle_setpoint_f C y w) y.
Proof. unfold contrtemp_set_idle_setpoint_f. k. Qed.
Lemma set_enabled_kw y b : kw (contrtemp_set_enabled_f C y b) y.
Proof.
  unfold contrtemp_set_enabled_f. destruct (Bool.eqb (t_enabled (y_ct y)) b) eqn:Eb; cbn [negb]; [apply kd_kw; k|].
  intros o y' o' E. right. unfold do_set_enabled_f in E. cbv zeta in E. fb E. rename a into z. apply pt_keep in E0. destruct E0 as (_ & E0 & _).
  fv E. rename a into z2. apply ret_inv in E. destruct E as (-> & ->). apply boost_fd in E1. destruct E1 as (_ & E1). cbn [y_ct set_y_cc set_y_ct t_enabled set_t_dt] in *.
  rewrite E1, E0. cbn. destruct (t_enabled (y_ct y)), b; cbn in *; congruence.
Qed.
Lemma set_enabled_kd y b : t_enabled (y_ct y) = b -> kd (contrtemp_set_enabled_f C y b) y.
Proof. intros <-. unfold contrtemp_set_enabled_f. rewrite eqb_reflx. cbn [negb]. k. Qed.
Lemma boost_idle_kd y b bs : kd (button_boost_idle_f C y b bs) y.
Proof. unfold button_boost_idle_f. k. Qed.
Hint Resolve idle_setpoint_kd boost_idle_kd : kd.
Lemma ctrl_button_kd y b bs : kd (contrtemp_button_handler_f C y b bs) y.
Proof. unfold contrtemp_button_handler_f. k. Qed.
Hint Resolve ctrl_button_kd : kd.
Lemma presets_store_kd y : kd (presets_store_f C y) y.
Proof. unfold presets_store_f. k. Qed.
Hint Resolve presets_store_kd : kd.
Lemma presets_next_kd y : kd (presets_next_f C y) y.
Proof. unfold presets_next_f. k. Qed.
Lemma presets_prev_kd y : kd (presets_prev_f C y) y.
Proof. unfold presets_prev_f. k. Qed.
Lemma presets_set_kd y v : kd (presets_set_active_value_f C y v) y.
Proof. unfold presets_set_active_value_f. k. Qed.
Hint Resolve presets_next_kd presets_prev_kd presets_set_kd : kd.
Lemma adjust_kd y a : kd (meastemp_adjust_set_f C y a) y.
Proof. unfold meastemp_adjust_set_f. k. Qed.
Lemma debug_enable_kd y b : kd (debug_enable_f C y b) y.
Proof. unfold debug_enable_f. k. Qed.
Lemma arm_kd y d : kd (arm_menu_timeout_f C y d) y.
Proof. unfold arm_menu_timeout_f. k. Qed.
Hint Resolve adjust_kd debug_enable_kd arm_kd : kd.
Lemma set_state_kw y s : kw (menu_set_state_f C y s) y.
Proof.
  unfold menu_set_state_f. destruct (mstate_eqb _ _); [apply kd_kw; k|]. cbv zeta.
  apply kw_before; [|intros; k]. apply (kw_eq _ _ (set_y_menu y (set_n_state (y_menu y) s))); [|dr].
  destruct s; try (destruct (negb _); [apply kd_kw; k|]);
    first [solve [apply kd_kw; k] | apply set_enabled_kw | apply kw_after; [apply arm_kd|intros; apply set_enabled_kw]].
Qed.
Lemma set_state_kd y s : t_enabled (y_ct y) = true -> adjusting s = false -> kd (menu_set_state_f C y s) y.
Proof.
  intros En Ad. unfold menu_set_state_f. destruct (mstate_eqb _ _); [k|]. cbv zeta.
  apply kd_bind; [|intros; k]. apply (kd_eq _ _ (set_y_menu y (set_n_state (y_menu y) s))); [|dr].
  destruct s; try discriminate Ad; first [apply set_enabled_kd; exact En | k].
Qed.
Lemma set_state_preset y s : s = MENU_SELPRESET \/ s = MENU_CHGPRESET -> kd (menu_set_state_f C y s) y.
Proof.
  intros D. unfold menu_set_state_f. destruct (mstate_eqb _ _); [k|]. cbv zeta.
  apply kd_bind; [|intros; k]. apply (kd_eq _ _ (set_y_menu y (set_n_state (y_menu y) s))); [|dr]. destruct D as [->| ->]; k.
Qed.
Lemma set_state_sel y : kd (menu_set_state_f C y MENU_SELPRESET) y. Proof. apply set_state_preset. auto. Qed.
Lemma set_state_chg y : kd (menu_set_state_f C y MENU_CHGPRESET) y. Proof. apply set_state_preset. auto. Qed.
Hint Resolve set_state_sel set_state_chg : kd.
Lemma ramp_k_kd y g p i m up : kd (do_ramp_k_f C y g p i m up) y.
Proof. unfold do_ramp_k_f. k. Qed.
Hint Resolve ramp_k_kd : kd.
Lemma handler_kd y h up : kd (call_ramp_handler_f C y h up) y.
Proof.
  unfold call_ramp_handler_f, settemp_ramp_handler_f, idletemp_ramp_handler_f, adj_ramp_handler_f, kconf_kp_ramp_handler_f, kconf_ki_ramp_handler_f, kconf_kd_ramp_handler_f. k.
Qed.
Lemma start_ramping_kd y up pre h : kd (start_ramping_f C y up pre h) y.
Proof. unfold start_ramping_f. k. Qed.
Hint Resolve handler_kd start_ramping_kd : kd.
Lemma ramp_button_kd y b bs pre h : kd (start_ramping_button_f C y b bs pre h) y.
Proof. unfold start_ramping_button_f. k. Qed.
Hint Resolve ramp_button_kd : kd.
Lemma switch_kd y b bs : kd (menu_button_switch_f C y b bs) y.
Proof. unfold menu_button_switch_f. k. Qed.
Hint Resolve switch_kd : kd.
Lemma menu_handler_kw y b bs : kw (menu_button_handler_f C y b bs) y.
Proof.
  unfold menu_button_handler_f. destruct (is_iron b); [apply kd_kw; k|]. apply kw_after; [apply switch_kd|]. intros a. destruct (is_neg bs); [|apply kd_kw; k]. cbv zeta.
  destruct (is_set b); [|apply kd_kw; k]. destruct (negb _); [|apply kd_kw; k]. apply (kw_eq _ _ (stop_ramping a)); [apply set_state_kw|dr].
Qed.
Lemma menu_handler_kd y b bs : is_set b && is_neg bs = false -> kd (menu_button_handler_f C y b bs) y.
Proof.
  intros H. unfold menu_button_handler_f. destruct (is_iron b); [k|]. apply kd_bind; [apply switch_kd|]. intros a. destruct (is_neg bs); [|k]. cbv zeta.
  destruct (is_set b); [discriminate H|k].
Qed.
Lemma call_kw y b bs : kw (call_button_handlers_f C y b bs) y.
Proof. unfold call_button_handlers_f. apply kw_after; [apply ctrl_button_kd|]. intros. apply menu_handler_kw. Qed.
Lemma call_kd y b bs : is_set b && is_neg bs = false -> kd (call_button_handlers_f C y b bs) y.
Proof. intros H. unfold call_button_handlers_f. apply kd_bind; [apply ctrl_button_kd|]. intros. apply menu_handler_kd. exact H. Qed.
Lemma timeouts_kd y : t_enabled (y_ct y) = true -> adjusting (n_state (y_menu y)) = false -> kd (menu_timeouts_f C y) y.
Proof.
  intros En Ad. unfold menu_timeouts_f.
  assert (K : n_state (y_menu y) = MENU_SELPRESET \/ n_state (y_menu y) = MENU_CHGPRESET \/ n_state (y_menu y) = MENU_IDLETEMP ->
    kd (y <~ pt C y ;; if timer_expired (y_now y) (n_timeout (y_menu y)) then
      y <~ (if mstate_eqb (n_state (y_menu y)) MENU_IDLETEMP then menu_set_state_f C y MENU_CURTEMP else menu_set_next_state_f C y) ;; ret (stop_ramping y) else ret y) y).
  { intros D o y' o' E. fb E. rename a into z. apply pt_keep in E0. destruct E0 as (A1 & A2 & A3). apply (fd_trans _ z); [split; [exact A1|congruence]|].
    revert E. destruct (timer_expired _ _); [|intros E; apply ret_inv in E; destruct E as (-> & _); apply fd_refl]. intros E. fb E. apply ret_inv in E. destruct E as (-> & _).
    apply (fd_trans _ a); [|dr]. rewrite A3 in E0. unfold menu_set_next_state_f in E0. rewrite A3 in E0.
    destruct D as [D|[D|D]]; rewrite D in E0; cbn [mstate_eqb next_menu_state] in E0; (eapply set_state_kd; [|  |exact E0]); try reflexivity; congruence. }
  destruct (n_state (y_menu y)); try discriminate Ad; first [solve [k]|apply K; auto].
Qed.
Lemma ramp_step_kd y up : kd (ramp_step_f C y up) y.
Proof. unfold ramp_step_f. k. Qed.
Hint Resolve ramp_step_kd : kd.
Lemma ramping_kd y : kd (menu_ramping_f C y) y.
Proof. unfold menu_ramping_f. k. Qed.
Hint Resolve ramping_kd : kd.
Lemma menu_work_kd y : t_enabled (y_ct y) = true -> adjusting (n_state (y_menu y)) = false -> kd (menu_work_f C y) y.
Proof.
  intros En Ad. unfold menu_work_f. apply kd_bind; [apply timeouts_kd; assumption|]. intros a.
  apply kd_bind; [eapply kd_eq; [apply ramping_kd|apply dk_fd; eapply dk_trans; [apply errors_d|apply heating_d]]|]. intros b. k.
Qed.
Lemma run_calls_kd l : forall y, Forall (fun c => is_set (fst c) && is_neg (snd c) = false) l -> kd (run_calls_f C y l) y.
Proof. induction l as [|[b bs] l IH]; intros y F; cbn [run_calls_f]; [k|]. inversion F; subst. apply kd_bind; [apply call_kd; assumption|auto]. Qed.
Lemma run_calls_app l1 : forall l2 y o, run_calls_f C y (l1 ++ l2) o = fbind (run_calls_f C y l1) (fun z => run_calls_f C z l2) o.
Proof.
  induction l1 as [|[b bs] l1 IH]; intros l2 y o; cbn [app run_calls_f]; [reflexivity|]. unfold fbind at 1 2 3. destruct (call_button_handlers_f C y b bs o) as [[z o1]|]; [|reflexivity].
  cbn [bind]. rewrite IH. reflexivity.
Qed.
Lemma buttons_work_kw y pins : kw (buttons_work_f C y pins) y.
Proof.
  unfold buttons_work_f. apply kw_after; [apply kd_pt; apply fd_refl|]. intros a. cbv zeta. destruct (negb _); [apply kd_kw; k|].
  intros o y' o' E. fv E. rename a0 into x. unfold sample_calls in E. cbn [flat_map] in E. cbv zeta in E.
  set (s := buttons_get_raw pins) in *. set (pe := u8 (Z.land (Z.land s (Z.lnot (b_prev (y_btn a)))) BUTTONS_MASK)) in *. set (ne := u8 (Z.land (Z.land (Z.lnot s) (b_prev (y_btn a))) BUTTONS_MASK)) in *.
  set (y0 := set_y_btn a (mkBtn s x)) in *. assert (P0 : fd a y0) by dr. rewrite run_calls_app in E. fb E. rename a0 into y1.
  assert (A : fdsw y0 y1).
  { destruct (calls_one s pe ne BUTTON_SET) as (e & p & El & He & Hp). rewrite El, run_calls_app in E1. fb E1. rename a0 into z.
    apply run_calls_kd in E1; [|destruct Hp as [->| ->]; repeat constructor]. eapply dsw_fd; [|exact E1].
    destruct He as [->|[->| ->]]; cbn [run_calls_f] in E2; [apply ret_inv in E2; destruct E2 as (-> & _); left; apply fd_refl| |]; fb E2; apply ret_inv in E2; destruct E2 as (-> & _); exact (call_kw _ _ _ _ _ _ E3). }
  eapply fd_dsw; [exact P0|]. eapply dsw_fd; [exact A|]. refine (run_calls_kd _ _ _ _ _ _ E).
  assert (K : forall b, is_set b = false -> Forall (fun c => is_set (fst c) && is_neg (snd c) = false) (button_calls s pe ne b)).
  { intros b N2. destruct (calls_one s pe ne b) as (e & p & -> & He & Hp). apply Forall_app. split;
      [destruct He as [->|[->| ->]]|destruct Hp as [->| ->]]; repeat constructor; cbn [fst snd]; rewrite ?N2; auto. }
  rewrite app_nil_r. apply Forall_app. split; [apply K; reflexivity|]. apply Forall_app. split; apply K; reflexivity.
Qed.

(** ** Events *)
Lemma fevent_d y e o y' : build_conf C -> freach C y -> is_power e = false -> pending y e = false -> fwork C y e o = Some (y', []) ->
  t_enabled (y_ct y) = true -> t_enabled (y_ct y') = true -> y_cc y' = y_cc y.
Proof.
  intros HC R P Pn E En En'. pose proof (freach_s4 C y HC R) as S4. pose proof (s4_inv _ _ _ S4) as I.
  destruct (plain e) eqn:Pl.
  - destruct (fwork_plain C y e o y' Pl E) as (_ & Ep). destruct e; try discriminate Pl; try discriminate P; cbn [step] in Ep.
    + apply Some_inj in Ep. subst y'. reflexivity.
    + apply Some_inj in Ep. subst y'. destruct (m_adc (y_meas y)); [|reflexivity]. unfold adc_isr. cbv zeta. destruct (timer_expired _ _); reflexivity.
    + destruct (x_eerie (y_set y)); [|apply Some_inj in Ep; subst; reflexivity]. destruct (x_busy (y_set y)); [apply Some_inj in Ep; subst; reflexivity|].
      destruct (ee_ready_isr C (y_set y)) as [x|]; [|discriminate Ep]. cbn [bind] in Ep. apply Some_inj in Ep. subst. reflexivity.
    + apply Some_inj in Ep. subst y'. reflexivity.
    + unfold sys_display_work in Ep. destruct (display_work _ _ _) as [[h d]|]; [|discriminate Ep]. cbn [bind] in Ep. apply Some_inj in Ep. subst y'. reflexivity.
    + apply Some_inj in Ep. subst y'. reflexivity.
  - destruct e; try discriminate Pl; cbn [fwork] in E.
    + cbn [pending] in Pn. unfold measure_work_f in E. cbv zeta in E. rewrite Pn in E. apply ret_inv in E. destruct E as (-> & _). reflexivity.
    + pose proof (i_en _ _ _ I) as He. rewrite En in He. assert (Ad : adjusting (n_state (y_menu y)) = false) by (apply negb_true_iff; congruence).
      exact (proj1 (menu_work_kd y En Ad _ _ _ E)).
    + destruct (buttons_work_kw y pinb _ _ _ E) as [(K & _)|K]; [exact K|]. rewrite En, En' in K. discriminate K.
Qed.
End Demand.
