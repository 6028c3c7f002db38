(** * Interrupts inside the work functions: the clock and the memory of the temperature controller *)
From Coq Require Import ZArith List Bool Lia ZifyBool.
From Verif Require Import Base PBase MConf MUtil MFixpt MScale MRing MFilter MTimer MPid MPwm MTempMap MCurr MSens
  MSettings MSseg MDisplay MText MState MTemp MMeas MMenu MMain SpecSys MFine PFineT PFineT2.
Import ListNotations.
Open Scope Z_scope.
Ltac Zify.zify_post_hook ::= Z.div_mod_to_equations.

(** The error of the last run *)
Definition pe (y : sys) : Z := p_prev_e (t_pid (y_ct y)).
(** No time passes; the memory may be cleared *)
Definition st (y y' : sys) : Prop := y_now y' = y_now y /\ t_dt (y_ct y') = t_dt (y_ct y) /\ (pe y' = pe y \/ pe y' = 0).
(** The interrupts [l] happen; the controller's clock may be set to the time, the memory may be cleared *)
Definition tk (y : sys) (l : list irq) (y' : sys) : Prop :=
  y_now y' = u16 (y_now y + ticks l) /\
  (t_dt (y_ct y') = t_dt (y_ct y) \/ exists d, 0 <= d <= ticks l /\ t_dt (y_ct y') = u16 (y_now y + d)) /\
  (pe y' = pe y \/ pe y' = 0).
Lemma st_refl y : st y y.
Proof. unfold st. auto. Qed.
Lemma st_trans a b c : st a b -> st b c -> st a c.
Proof. intros (A1 & A2 & A3) (B1 & B2 & B3). unfold st. rewrite B1, B2. split; [exact A1|]. split; [exact A2|]. destruct B3 as [B3|B3]; rewrite B3; auto. Qed.
Lemma st_tk a b l c : st a b -> tk b l c -> tk a l c.
Proof. intros (A1 & A2 & A3) (B1 & B2 & B3). unfold tk. rewrite A1, A2 in *. split; [exact B1|]. split; [exact B2|]. destruct B3 as [B3|B3]; rewrite B3; auto. Qed.
Lemma tk_st a l b c : tk a l b -> st b c -> tk a l c.
Proof. intros (A1 & A2 & A3) (B1 & B2 & B3). unfold tk. rewrite B1, B2. split; [exact A1|]. split; [exact A2|]. destruct B3 as [B3|B3]; rewrite B3; auto. Qed.
Lemma tk_nil y : is_u16 (y_now y) -> tk y [] y.
Proof. intros H. unfold tk. cbn [ticks]. split; [unfold is_u16, u16 in *; lia|]. auto. Qed.
Lemma tk_trans a l b k c : tk a l b -> tk b k c -> tk a (l ++ k) c.
Proof.
  intros (A1 & A2 & A3) (B1 & B2 & B3). unfold tk. rewrite ticks_app. pose proof (ticks_pos l). pose proof (ticks_pos k). rewrite A1 in *.
  split; [rewrite B1; unfold u16; lia|]. split.
  - destruct B2 as [B2|(d & Bd & B2)]; [rewrite B2; destruct A2 as [A2|(d & Ad & A2)]; [auto|right; exists d; split; [lia|exact A2]]|].
    right. exists (ticks l + d). split; [lia|]. rewrite B2. unfold u16. lia.
  - destruct B3 as [B3|B3]; rewrite B3; auto.
Qed.

Section Keep.
Variable C : conf.

Lemma fire_ct y i y' : fire C y i = Some y' -> y_ct y' = y_ct y.
Proof.
  unfold fire. destruct i as [|raw| |]; cbn [irq_event ev_okb step].
  - intros E. apply Some_inj in E. subst y'. reflexivity.
  - destruct (_ && _); intros E; apply Some_inj in E; subst y'; [|reflexivity]. destruct (m_adc (y_meas y)); [|reflexivity]. unfold adc_isr. cbv zeta. destruct (timer_expired _ _); reflexivity.
  - destruct (x_eerie (y_set y)); [|intros E; apply Some_inj in E; subst; reflexivity].
    destruct (x_busy (y_set y)); [intros E; apply Some_inj in E; subst; reflexivity|].
    destruct (ee_ready_isr C (y_set y)) as [x|]; [|discriminate]. cbn [bind]. intros E. apply Some_inj in E. subst. reflexivity.
  - intros E. apply Some_inj in E. subst. reflexivity.
Qed.
Lemma fires_ct l : forall y y', fires C y l = Some y' -> y_ct y' = y_ct y.
Proof.
  induction l as [|i l IH]; intros y y' E; cbn [fires] in E.
  - apply Some_inj in E. subst. reflexivity.
  - apply bind_inv in E. destruct E as (y1 & E1 & E2). rewrite (IH _ _ E2). exact (fire_ct _ _ _ E1).
Qed.
Lemma fire_cc y i y' : fire C y i = Some y' -> y_cc y' = y_cc y.
Proof.
  unfold fire. destruct i as [|raw| |]; cbn [irq_event ev_okb step].
  - intros E. apply Some_inj in E. subst y'. reflexivity.
  - destruct (_ && _); intros E; apply Some_inj in E; subst y'; [|reflexivity]. destruct (m_adc (y_meas y)); [|reflexivity]. unfold adc_isr. cbv zeta. destruct (timer_expired _ _); reflexivity.
  - destruct (x_eerie (y_set y)); [|intros E; apply Some_inj in E; subst; reflexivity].
    destruct (x_busy (y_set y)); [intros E; apply Some_inj in E; subst; reflexivity|].
    destruct (ee_ready_isr C (y_set y)) as [x|]; [|discriminate]. cbn [bind]. intros E. apply Some_inj in E. subst. reflexivity.
  - intros E. apply Some_inj in E. subst. reflexivity.
Qed.
Lemma fires_cc l : forall y y', fires C y l = Some y' -> y_cc y' = y_cc y.
Proof.
  induction l as [|i l IH]; intros y y' E; cbn [fires] in E.
  - apply Some_inj in E. subst. reflexivity.
  - apply bind_inv in E. destruct E as (y1 & E1 & E2). rewrite (IH _ _ E2). exact (fire_cc _ _ _ E1).
Qed.
Lemma pfires_now l : forall p, is_u16 (fst p) -> fst (pfires p l) = u16 (fst p + ticks l).
Proof.
  unfold pfires. induction l as [|i l IH]; intros p Hn.
  - cbn. unfold is_u16, u16 in *. lia.
  - cbn [fold_left]. assert (Ei : fst (pfire p i) = u16 (fst p + match i with ITick => 1 | _ => 0 end)).
    { assert (N0 : fst p = u16 (fst p + 0)) by (unfold is_u16, u16 in *; lia). destruct i; cbn [pfire fst snd]; [reflexivity| |exact N0|exact N0].
      rewrite <- N0. destruct (_ && _); [destruct (m_adc _)|]; reflexivity. }
    rewrite IH; [|rewrite Ei; unfold is_u16, u16; lia]. rewrite Ei. destruct i; cbn [ticks]; unfold u16; lia.
Qed.
Lemma fires_tk y l y' : is_u16 (y_now y) -> fires C y l = Some y' -> tk y l y'.
Proof.
  intros Hn E. pose proof (fires_ct _ _ _ E) as Ec. pose proof (fires_pj C _ _ _ E) as Ep. unfold tk, pe. rewrite Ec. split; [|auto].
  change (fst (pj y') = u16 (y_now y + ticks l)). rewrite Ep. apply (pfires_now l (pj y)). exact Hn.
Qed.

Definition ks (m : F sys) (y : sys) : Prop := forall o y' o', is_u16 (y_now y) -> m o = Some (y', o') -> exists l, uses o o' l /\ tk y l y'.
Lemma tk_u16 y l y' : tk y l y' -> is_u16 (y_now y').
Proof. intros (A & _). rewrite A. unfold is_u16, u16. lia. Qed.
Lemma ks_ret a y : st y a -> ks (ret a) y.
Proof. intros H o y' o' Hn E. unfold ret in E. injection E as <- <-. exists []. split; [apply uses_nil|]. eapply tk_st; [apply tk_nil; exact Hn|exact H]. Qed.
Lemma ks_lift m y : (forall a, m = Some a -> st y a) -> ks (lift m) y.
Proof. intros H o y' o' Hn E. apply lift_inv in E. destruct E as (E & ->). exists []. split; [apply uses_nil|]. eapply tk_st; [apply tk_nil; exact Hn|apply H; exact E]. Qed.
Lemma ks_bind m f y : ks m y -> (forall a, ks (f a) a) -> ks (fbind m f) y.
Proof.
  intros H K o y' o' Hn E. fb E. destruct (H _ _ _ Hn E0) as (l1 & U1 & P1). destruct (K a _ _ _ (tk_u16 _ _ _ P1) E) as (l2 & U2 & P2).
  exists (l1 ++ l2). split; [eapply uses_app; eassumption|]. eapply tk_trans; eassumption.
Qed.
Lemma ks_val {A} (m : option A) f y : (forall a, m = Some a -> ks (f a) y) -> ks (fbind (lift m) f) y.
Proof. intros H o y' o' Hn E. fv E. exact (H a E0 _ _ _ Hn E). Qed.
Lemma ks_pt z y : st y z -> ks (pt C z) y.
Proof.
  intros H o y' o' Hn E. unfold pt in E. destruct o as [|l o1].
  - injection E as <- <-. exists []. split; [apply uses_nil|]. eapply tk_st; [apply tk_nil; exact Hn|exact H].
  - apply bind_inv in E. destruct E as (y1 & E1 & E2). injection E2 as <- <-. exists l. split; [exists [l]; split; [reflexivity|cbn; symmetry; apply app_nil_r]|].
    eapply st_tk; [exact H|]. apply fires_tk; [|exact E1]. destruct H as (-> & _). exact Hn.
Qed.
Lemma ks_eq m y z : ks m z -> st y z -> ks m y.
Proof. intros H K o y' o' Hn E. destruct (H o y' o') as (l & U & T); [destruct K as (-> & _); exact Hn|exact E|]. exists l. split; [exact U|]. eapply st_tk; eassumption. Qed.

Ltac sr := solve [unfold st, pe; cbn; auto].
Ltac plains := intros;
  repeat match goal with
    | H : bind _ _ = Some _ |- _ => apply bind_inv in H; destruct H as (? & ? & H)
    | H : Some _ = Some _ |- _ => apply Some_inj in H
    | H : (if ?b then _ else _) = Some _ |- _ => destruct b
    | H : (let '(_, _) := ?p in _) = Some _ |- _ => destruct p
    end; subst; try sr; eauto.
Lemma store_st y y' : sys_store y = Some y' -> st y y'.
Proof. unfold sys_store. plains. Qed.
Lemma boost_st y b y' : contrtemp_set_boost_mode C y b = Some y' -> st y y'.
Proof. unfold contrtemp_set_boost_mode. cbv zeta. intros E. apply bind_inv in E. destruct E as (k & _ & E). apply Some_inj in E. subst y'. destruct (c_boost C); sr. Qed.
Lemma setpoint_st y y' : contrtemp_update_setpoint C y = Some y' -> st y y'.
Proof. unfold contrtemp_update_setpoint. cbv zeta. plains. Qed.
Lemma pid_config_st y y' : contrtemp_update_pid_config C y = Some y' -> st y y'.
Proof. unfold contrtemp_update_pid_config. apply boost_st. Qed.
Lemma next_boost_st y y' : contrtemp_do_next_boost_mode C y = Some y' -> st y y'.
Proof. unfold contrtemp_do_next_boost_mode. apply boost_st. Qed.
Lemma do_idle_st y b y' : contrtemp_do_idle C y b = Some y' -> st y y'.
Proof.
  unfold contrtemp_do_idle. cbv zeta. intros E. apply bind_inv in E. destruct E as (z & E1 & E2). apply Some_inj in E2. subst y'.
  apply setpoint_st in E1. exact E1.
Qed.
Lemma adjust_st y id a y' : measure_adjust_set C y id a = Some y' -> st y y'.
Proof. unfold measure_adjust_set. destruct (c_adj C); cbv zeta; plains. Qed.
Lemma arm_st y d y' : arm_menu_timeout y d = Some y' -> st y y'.
Proof. unfold arm_menu_timeout. plains. Qed.
Lemma display_st y y' : menu_update_display C y = Some y' -> st y y'.
Proof.
  unfold menu_update_display. intros E. apply bind_inv in E. destruct E as ([b s] & _ & E). apply bind_inv in E. destruct E as (d & _ & E).
  apply bind_inv in E. destruct E as (d2 & _ & E). apply Some_inj in E. subst. sr.
Qed.
Lemma ctrl_button_st y b bs y' : c_boost C && c_idle C = false -> contrtemp_button_handler C y b bs = Some y' -> st y y'.
Proof.
  intros H. unfold contrtemp_button_handler. rewrite H. destruct (c_boost C).
  - unfold button_boost. destruct (negb _); [plains|]. destruct (is_pos bs); [apply next_boost_st|plains].
  - destruct (c_idle C); [|plains]. unfold button_idle. destruct (negb _); [plains|]. cbv zeta. destruct (negb _); [apply do_idle_st|plains].
Qed.
Lemma emerg_st y b : st y (contrtemp_set_emerg y b).
Proof. unfold contrtemp_set_emerg, do_set_emerg. destruct (negb _), b; sr. Qed.
Lemma errors_st y : st y (menu_errors y).
Proof. unfold menu_errors. cbv zeta. destruct (negb _); sr. Qed.
Lemma heating_st y : st y (menu_heating y).
Proof. unfold menu_heating. cbv zeta. destruct (negb _); sr. Qed.

Ltac ps := match goal with
  | H : _ = Some ?a |- st _ ?a =>
    first [apply store_st in H | apply boost_st in H | apply setpoint_st in H | apply pid_config_st in H | apply next_boost_st in H | apply do_idle_st in H
          | apply adjust_st in H | apply arm_st in H | apply display_st in H | apply ctrl_button_st in H; [|assumption]];
    first [exact H | eapply st_trans; [|exact H]; sr]
  end.
Create HintDb ks.
Ltac k1 := first
  [ progress cbv beta zeta
  | match goal with
    | |- ks (ret _) _ => apply ks_ret; first [sr | congruence]
    | |- ks (pt _ _) _ => apply ks_pt; sr
    | |- ks (lift _) _ => apply ks_lift; intros; ps
    | |- ks (fbind (lift _) _) _ => first [apply ks_bind; [apply ks_lift; intros; ps|intros] | apply ks_val; intros]
    | |- ks (fbind (pt _ _) _) _ => apply ks_bind; [apply ks_pt; sr|intros]
    | |- ks (fbind _ _) _ => apply ks_bind; [|intros]
    | |- ks (if ?b then _ else _) _ => destruct b eqn:?
    | |- ks (match ?p with (_, _) => _ end) _ => destruct p
    | |- ks (match ?p with _ => _ end) _ => destruct p
    | |- ks _ _ => solve [eauto with ks | eapply ks_eq; [eauto with ks|sr]]
    end ].
Ltac k := repeat k1.

Lemma sys_store_ks y : ks (sys_store_f C y) y.
Proof. unfold sys_store_f. k. Qed.
Hint Resolve sys_store_ks : ks.
Lemma idle_setpoint_ks y w : ks (contrtemp_set_idle_setpoint_f C y w) y.
Proof. unfold contrtemp_set_idle_setpoint_f. k. Qed.
Lemma do_set_enabled_ks y b : ks (do_set_enabled_f C y b) y.
Proof.
  intros o y' o' Hn E. unfold do_set_enabled_f in E. cbv zeta in E. fb E. rename a into z.
  destruct (ks_pt (set_y_ct y (set_t_pid (set_t_enabled (y_ct y) b) (pid_reset (t_pid (set_t_enabled (y_ct y) b))))) y ltac:(sr) _ _ _ Hn E0) as (l & U & T1 & T2 & T3).
  assert (Pz : pe z = 0).
  { unfold pt in E0. destruct o as [|l0 o1]; [injection E0 as <- <-; reflexivity|]. apply bind_inv in E0. destruct E0 as (y1 & E1 & E2). injection E2 as <- <-.
    apply fires_ct in E1. unfold pe. rewrite E1. reflexivity. }
  fv E. rename a into z2. apply ret_inv in E. destruct E as (-> & ->). apply boost_st in E1. destruct E1 as (S1 & S2 & S3).
  exists l. split; [exact U|]. pose proof (ticks_pos l) as Tp. unfold tk. cbn [y_now y_ct set_y_cc] in *. split; [rewrite S1; exact T1|].
  split; [right; exists (ticks l); split; [lia|]; rewrite S2; cbn; unfold timer_set_now; exact T1|].
  right. change (pe z2 = 0). destruct S3 as [S3|S3]; [rewrite S3; exact Pz|exact S3].
Qed.
Hint Resolve idle_setpoint_ks do_set_enabled_ks : ks.
Lemma set_enabled_ks y b : ks (contrtemp_set_enabled_f C y b) y.
Proof. unfold contrtemp_set_enabled_f. k. Qed.
Hint Resolve set_enabled_ks : ks.
Lemma boost_idle_ks y b bs : ks (button_boost_idle_f C y b bs) y.
Proof. unfold button_boost_idle_f. k. Qed.
Hint Resolve boost_idle_ks : ks.
Lemma ctrl_button_ks y b bs : ks (contrtemp_button_handler_f C y b bs) y.
Proof. unfold contrtemp_button_handler_f. k. Qed.
Hint Resolve ctrl_button_ks : ks.
Lemma presets_store_ks y : ks (presets_store_f C y) y.
Proof. unfold presets_store_f. k. Qed.
Hint Resolve presets_store_ks : ks.
Lemma presets_next_ks y : ks (presets_next_f C y) y.
Proof. unfold presets_next_f. k. Qed.
Lemma presets_prev_ks y : ks (presets_prev_f C y) y.
Proof. unfold presets_prev_f. k. Qed.
Lemma presets_set_ks y v : ks (presets_set_active_value_f C y v) y.
Proof. unfold presets_set_active_value_f. k. Qed.
Hint Resolve presets_next_ks presets_prev_ks presets_set_ks : ks.
Lemma adjust_ks y a : ks (meastemp_adjust_set_f C y a) y.
Proof. unfold meastemp_adjust_set_f. k. Qed.
Lemma debug_enable_ks y b : ks (debug_enable_f C y b) y.
Proof. unfold debug_enable_f. k. Qed.
Lemma arm_ks y d : ks (arm_menu_timeout_f C y d) y.
Proof. unfold arm_menu_timeout_f. k. Qed.
Hint Resolve adjust_ks debug_enable_ks arm_ks : ks.
Lemma set_state_ks y s : ks (menu_set_state_f C y s) y.
Proof. unfold menu_set_state_f. k. Qed.
Hint Resolve set_state_ks : ks.
Lemma next_state_ks y : ks (menu_set_next_state_f C y) y.
Proof. unfold menu_set_next_state_f. k. Qed.
Hint Resolve next_state_ks : ks.
Lemma ramp_k_ks y g p i m up : ks (do_ramp_k_f C y g p i m up) y.
Proof. unfold do_ramp_k_f. k. Qed.
Hint Resolve ramp_k_ks : ks.
Lemma handler_ks y h up : ks (call_ramp_handler_f C y h up) y.
Proof.
  unfold call_ramp_handler_f, settemp_ramp_handler_f, idletemp_ramp_handler_f, adj_ramp_handler_f, kconf_kp_ramp_handler_f, kconf_ki_ramp_handler_f, kconf_kd_ramp_handler_f. k.
Qed.
Lemma start_ramping_ks y up pre h : ks (start_ramping_f C y up pre h) y.
Proof. unfold start_ramping_f. k. Qed.
Hint Resolve handler_ks start_ramping_ks : ks.
Lemma ramp_button_ks y b bs pre h : ks (start_ramping_button_f C y b bs pre h) y.
Proof. unfold start_ramping_button_f. k. Qed.
Hint Resolve ramp_button_ks : ks.
Lemma switch_ks y b bs : ks (menu_button_switch_f C y b bs) y.
Proof. unfold menu_button_switch_f. k. Qed.
Hint Resolve switch_ks : ks.
Lemma menu_handler_ks y b bs : ks (menu_button_handler_f C y b bs) y.
Proof. unfold menu_button_handler_f. k. Qed.
Hint Resolve menu_handler_ks : ks.
Lemma timeouts_ks y : ks (menu_timeouts_f C y) y.
Proof. unfold menu_timeouts_f. k. Qed.
Lemma ramp_step_ks y up : ks (ramp_step_f C y up) y.
Proof. unfold ramp_step_f. k. Qed.
Hint Resolve timeouts_ks ramp_step_ks : ks.
Lemma ramping_ks y : ks (menu_ramping_f C y) y.
Proof. unfold menu_ramping_f. k. Qed.
Hint Resolve ramping_ks : ks.
Lemma menu_work_ks y : ks (menu_work_f C y) y.
Proof.
  unfold menu_work_f. apply ks_bind; [apply timeouts_ks|]. intros a. apply ks_bind; [eapply ks_eq; [apply ramping_ks|eapply st_trans; [apply errors_st|apply heating_st]]|]. intros b. k.
Qed.
Lemma run_calls_ks l : forall y, ks (run_calls_f C y l) y.
Proof. induction l as [|[b bs] l IH]; intros y; cbn [run_calls_f]; [k|]. apply ks_bind; [|exact IH]. unfold call_button_handlers_f. k. Qed.
Hint Resolve run_calls_ks : ks.
Lemma buttons_work_ks y pinb : ks (buttons_work_f C y pinb) y.
Proof. unfold buttons_work_f. k. Qed.

(** *** A result of the temperature channel *)
Definition ran (y : sys) (l : list irq) (r : Z) (y' : sys) : Prop := exists d d2 dt out a, 0 <= d <= d2 /\ d2 <= ticks l /\
  dt_seconds (u16 (y_now y + d)) (t_dt (y_ct y)) = Some dt /\ pid_run (t_pid (y_ct y)) dt r = Some (t_pid (y_ct y'), out) /\
  temp_to_amps out = Some a /\ t_dt (y_ct y') = u16 (y_now y + d2) /\ p_setpoint (cc_pid (y_cc y')) = (if 30720 <? r then 0 else a).
Lemma pt_both y o y' o' : is_u16 (y_now y) -> pt C y o = Some (y', o') -> exists l, uses o o' l /\ y_now y' = u16 (y_now y + ticks l) /\ y_ct y' = y_ct y.
Proof.
  intros Hn E. destruct (ks_pt y y (st_refl y) _ _ _ Hn E) as (l & U & T & _). exists l. split; [exact U|]. split; [exact T|].
  unfold pt in E. destruct o as [|l0 o1]; [injection E as <- <-; reflexivity|]. apply bind_inv in E. destruct E as (y1 & E1 & E2). injection E2 as <- <-. exact (fires_ct _ _ _ E1).
Qed.
Lemma run_ran y r o y' o' : is_u16 (y_now y) -> contrtemp_run_f C y r o = Some (y', o') ->
  t_enabled (y_ct y') = t_enabled (y_ct y) /\ t_emerg (y_ct y') = t_emerg (y_ct y) /\ t_feedback (y_ct y') = t_feedback (y_ct y) /\
  (t_enabled (y_ct y) = true -> t_emerg (y_ct y) = false -> exists l, uses o o' l /\ ran y l r y').
Proof.
  intros Hn E. unfold contrtemp_run_f in E. destruct (t_enabled (y_ct y)) eqn:En; cbn [negb] in E.
  2:{ apply ret_inv in E. destruct E as (-> & _). repeat split; try congruence. }
  destruct (t_emerg (y_ct y)) eqn:Em.
  { apply ret_inv in E. destruct E as (-> & _). repeat split; try congruence. }
  fb E. destruct (pt_both _ _ _ _ Hn E0) as (l1 & U1 & N1 & C1). fv E. rename a0 into dt, E1 into Ed. fb E.
  assert (Hn1 : is_u16 (y_now a)) by (rewrite N1; unfold is_u16, u16; lia). destruct (pt_both _ _ _ _ Hn1 E1) as (l2 & U2 & N2 & C2). clear E0 E1.
  rename a0 into z. cbv zeta in E. fv E. destruct a0 as [p out]. rename E0 into Ep. fv E. rename a0 into am, E0 into Ea.
  set (fc := if CONTRTEMP_POSLIM <? r then _ else _) in E. destruct fc as [fl cur] eqn:Ef. fv E. apply ret_inv in E. destruct E as (-> & ->).
  pose proof (ticks_pos l1). pose proof (ticks_pos l2).
  cbn [y_ct set_y_cc set_y_ct set_t_pid set_t_dt t_enabled t_emerg t_feedback t_pid t_dt y_cc] in *. rewrite C2, C1 in *. split; [exact En|]. split; [exact Em|]. split; [reflexivity|].
  intros _ _. exists (l1 ++ l2). split; [eapply uses_app; eassumption|]. exists (ticks l1), (ticks l1 + ticks l2), dt, out, am. rewrite ticks_app.
  split; [lia|]. split; [lia|]. rewrite <- N1. split; [exact Ed|]. split; [exact Ep|]. split; [exact Ea|].
  split; [change (y_now z = u16 (y_now y + (ticks l1 + ticks l2))); rewrite N2, N1; unfold u16; lia|].
  assert (cur = if 30720 <? r then 0 else am) as -> by (unfold fc in Ef; change CONTRTEMP_POSLIM with 30720 in Ef; destruct (30720 <? r); injection Ef as _ <-; reflexivity).
  reflexivity.
Qed.
Lemma feed_ran y r o y' o' : is_u16 (y_now y) -> contrtemp_set_feedback_f C y r o = Some (y', o') ->
  t_enabled (y_ct y') = t_enabled (y_ct y) /\ t_emerg (y_ct y') = t_emerg (y_ct y) /\ t_feedback (y_ct y') = r /\
  (t_enabled (y_ct y) = true -> t_emerg (y_ct y) = false -> exists l, uses o o' l /\ ran y l r y').
Proof.
  intros Hn E. unfold contrtemp_set_feedback_f in E. cbv zeta in E. destruct (r =? t_feedback (y_ct y)) eqn:Eq; cbn [negb] in E.
  - destruct (run_ran _ _ _ _ _ Hn E) as (A1 & A2 & A3 & A4). split; [exact A1|]. split; [exact A2|]. split; [lia|exact A4].
  - apply run_ran in E; [|exact Hn]. exact E.
Qed.
Lemma result_ran y v p o y' o' : is_u16 (y_now y) -> meastemp_result_handler_f C y v p o = Some (y', o') ->
  t_enabled (y_ct y) = true -> t_emerg (y_ct y') = false -> exists l, uses o o' l /\ ran y l (t_feedback (y_ct y')) y'.
Proof.
  intros Hn E En Em. unfold meastemp_result_handler_f in E. cbv zeta in E. destruct p.
  - match type of E with contrtemp_set_feedback_f _ ?zz _ _ = _ => set (z := zz) in * end.
    assert (Z : y_now z = y_now y /\ t_dt (y_ct z) = t_dt (y_ct y) /\ t_pid (y_ct z) = t_pid (y_ct y) /\ t_enabled (y_ct z) = t_enabled (y_ct y) /\ t_emerg (y_ct z) = false).
    { unfold z, contrtemp_set_emerg, do_set_emerg. destruct (t_emerg (y_ct y)) eqn:Q; cbn; auto. }
    destruct Z as (Z1 & Z2 & Z3 & Z4 & Z5). apply feed_ran in E; [|rewrite Z1; exact Hn]. destruct E as (A1 & A2 & A3 & A4). rewrite A3.
    destruct (A4 ltac:(congruence) Z5) as (l & U & Rn). exists l. split; [exact U|]. unfold ran in *. rewrite Z1, Z2, Z3 in Rn. exact Rn.
  - apply feed_ran in E; [|exact Hn]. destruct E as (A1 & A2 & A3 & A4). rewrite A3. apply A4; congruence.
  - apply ret_inv in E. destruct E as (-> & ->). exfalso. unfold contrtemp_set_emerg, do_set_emerg in Em. destruct (t_emerg (y_ct y)) eqn:Q; cbn in Em; congruence.
Qed.
Lemma ran_shift y l1 z l2 r y' : y_now z = u16 (y_now y + ticks l1) -> y_ct z = y_ct y -> ran z l2 r y' -> ran y (l1 ++ l2) r y'.
Proof.
  intros N Ec (d & d2 & dt & out & a & B1 & B2 & E1 & E2 & E3 & E4 & E5). rewrite Ec, N in *. pose proof (ticks_pos l1).
  exists (ticks l1 + d), (ticks l1 + d2), dt, out, a. rewrite ticks_app.
  replace (u16 (u16 (y_now y + ticks l1) + d)) with (u16 (y_now y + (ticks l1 + d))) in E1 by (unfold u16; lia).
  split; [lia|]. split; [lia|]. split; [exact E1|]. split; [exact E2|]. split; [exact E3|]. split; [rewrite E4; unfold u16; lia|exact E5].
Qed.
Lemma ran_more y l1 z l2 r y' : ran y l1 r z -> y_ct y' = y_ct z -> y_cc y' = y_cc z -> ran y (l1 ++ l2) r y'.
Proof.
  intros (d & d2 & dt & out & a & B1 & B2 & E) C1 C2. pose proof (ticks_pos l2). exists d, d2, dt, out, a. rewrite ticks_app, C1, C2.
  split; [lia|]. split; [lia|exact E].
Qed.
Lemma pfires_chan l : forall p, m_chan (snd (pfires p l)) = m_chan (snd p).
Proof.
  unfold pfires. induction l as [|i l IH]; intros p; [reflexivity|]. cbn [fold_left]. rewrite IH. destruct i; cbn [pfire fst snd]; try reflexivity.
  destruct (_ && _); [|reflexivity]. destruct (m_adc _); [|reflexivity]. cbv zeta. destruct (timer_expired _ _); reflexivity.
Qed.
Lemma pt_all y o y' o' : is_u16 (y_now y) -> pt C y o = Some (y', o') ->
  exists l, uses o o' l /\ y_now y' = u16 (y_now y + ticks l) /\ y_ct y' = y_ct y /\ y_cc y' = y_cc y /\ m_chan (y_meas y') = m_chan (y_meas y).
Proof.
  intros Hn E. destruct (pt_both _ _ _ _ Hn E) as (l & U & N & E1). exists l. split; [exact U|]. split; [exact N|]. split; [exact E1|].
  unfold pt in E. destruct o as [|l0 o1]; [injection E as <- <-; auto|]. apply bind_inv in E. destruct E as (y1 & K1 & K2). injection K2 as <- <-.
  split; [exact (fires_cc _ _ _ K1)|]. apply fires_pj in K1. change (m_chan (snd (pj y1)) = m_chan (snd (pj y))). rewrite K1. apply pfires_chan.
Qed.
Lemma plaus_all cfg y ch v o y' r o' : is_u16 (y_now y) -> plaus_check_f C cfg y ch v o = Some ((y', r), o') ->
  exists l, uses o o' l /\ y_now y' = u16 (y_now y + ticks l) /\ y_ct y' = y_ct y /\ y_cc y' = y_cc y.
Proof.
  intros Hn E. unfold plaus_check_f in E. set (x := if v <? mc_plaus_neg cfg then _ else _) in E. destruct x as [[c1 v1] p1]. clear ch v.
  fb E. destruct a as [z c2].
  assert (K : exists l, uses o o0 l /\ y_now z = u16 (y_now y + ticks l) /\ y_ct z = y_ct y /\ y_cc z = y_cc y).
  { assert (K0 : forall c, ret (y, c) o = Some (z, c2, o0) -> exists l, uses o o0 l /\ y_now z = u16 (y_now y + ticks l) /\ y_ct z = y_ct y /\ y_cc z = y_cc y).
    { intros c Q. apply ret_inv in Q. destruct Q as (Q & ->). injection Q as -> _. exists []. split; [apply uses_nil|]. cbn [ticks]. split; [unfold is_u16, u16 in *; lia|auto]. }
    destruct p1; [exact (K0 _ E0)| |]; (destruct (negb (ch_running c1)); [|exact (K0 _ E0)]); fb E0; destruct (pt_all _ _ _ _ Hn E1) as (l & U & A1 & A2 & A3 & _);
      fv E0; apply ret_inv in E0; destruct E0 as (Q & ->); injection Q as -> _; eauto 10. }
  destruct K as (l1 & U1 & A1 & A2 & A3). cbv iota beta in E. fb E. assert (Hz : is_u16 (y_now z)) by (rewrite A1; unfold is_u16, u16; lia).
  destruct (pt_all _ _ _ _ Hz E1) as (l2 & U2 & B1 & B2 & B3 & _). cbv zeta in E. apply ret_inv in E. destruct E as (Q & ->). injection Q as -> _.
  exists (l1 ++ l2). split; [eapply uses_app; eassumption|]. rewrite ticks_app, B1, B2, B3, A1, A2, A3. split; [unfold u16; lia|auto].
Qed.
Lemma measure_ran y o y' o' : is_u16 (y_now y) -> m_avail (y_meas y) = true -> m_chan (y_meas y) = 1 -> measure_work_f C y o = Some (y', o') ->
  t_enabled (y_ct y) = true -> t_emerg (y_ct y') = false -> exists l, uses o o' l /\ ran y l (t_feedback (y_ct y')) y'.
Proof.
  intros Hn Hv Hc E En Em. unfold measure_work_f in E. cbv zeta in E. rewrite Hv in E. set (y0 := set_y_meas y (set_m_avail (y_meas y) false)) in E.
  fb E. rename a into z, o0 into oz. unfold measure_handle_result_f in E0. fb E0. rename a into y1.
  destruct (pt_all y0 _ _ _ Hn E1) as (l1 & U1 & A1 & A2 & A3 & A4). clear E1. change (m_chan (y_meas y0)) with (m_chan (y_meas y)) in A4. rewrite Hc in A4.
  change (y_now y0) with (y_now y) in A1. change (y_ct y0) with (y_ct y) in A2. cbv zeta in E0. rewrite A4 in E0. fv E0. clear E1. fv E0. clear E1. fv E0. clear E1.
  unfold measure_user_filter_handler in E0. change (1 =? MEAS_CHAN_CURRENT) with false in E0. cbv iota in E0. fv E0. clear E1. fv E0. clear E1. fb E0. destruct a4 as [z2 [[ch' v'] p]].
  assert (H1 : is_u16 (y_now y1)) by (rewrite A1; unfold is_u16, u16; lia). destruct (plaus_all _ _ _ _ _ _ _ _ H1 E1) as (l2 & U2 & B1 & B2 & B3). clear E1.
  fv E0. clear E1. unfold measure_user_result_handler_f in E0. change (1 =? MEAS_CHAN_TEMP) with true in E0. cbv iota in E0.
  match type of E0 with meastemp_result_handler_f _ ?zz _ _ _ = _ => set (z3 := zz) in E0; assert (Z3 : y_now z3 = y_now z2 /\ y_ct z3 = y_ct z2) by (split; reflexivity); clearbody z3 end.
  destruct Z3 as (Z1 & Z2). assert (H3 : is_u16 (y_now z3)) by (rewrite Z1, B1; unfold is_u16, u16; lia).
  unfold adc_trigger_next_chan_f in E. cbv zeta in E. fv E. clear E1. fb E. rename a6 into z4.
  match type of E1 with pt _ ?zz _ = _ => assert (Hz : is_u16 (y_now zz) -> y_ct z4 = y_ct z /\ y_cc z4 = y_cc z /\ exists l, uses oz o2 l) end.
  { intros Hz. destruct (pt_all _ _ _ _ Hz E1) as (l & U & _ & Q1 & Q2 & _). eauto. }
  fv E. apply ret_inv in E. destruct E as (-> & ->). change (y_ct (set_y_meas z4 _)) with (y_ct z4) in *.
  assert (Hzn : is_u16 (y_now z)).
  { destruct (meastemp_tr C z3 _ _ _ _ _ E0) as (l & _ & Pl). apply (f_equal fst) in Pl.
    change (fst (pj z)) with (y_now z) in Pl. rewrite Pl. rewrite pfires_now by exact H3. unfold is_u16, u16; lia. }
  destruct (Hz Hzn) as (Q1 & Q2 & l4 & U4). rewrite Q1 in *.
  destruct (result_ran _ _ _ _ _ _ H3 E0 ltac:(congruence) Em) as (l3 & U3 & Rn).
  exists ((l1 ++ l2) ++ (l3 ++ l4)). split; [eapply uses_app; [eapply uses_app; eassumption|eapply uses_app; eassumption]|].
  eapply ran_shift; [| |eapply ran_more; [exact Rn|exact Q1|exact Q2]].
  - rewrite ticks_app, Z1, B1, A1. unfold u16. lia.
  - congruence.
Qed.
End Keep.
