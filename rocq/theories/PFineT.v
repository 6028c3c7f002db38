(** * Interrupts inside the work functions, part 9: which interrupts happened, and the measurement *)
From Coq Require Import ZArith List Bool Lia ZifyBool.
From Verif Require Import Base PBase MConf MUtil MFixpt MScale MRing MFilter MTimer MPid MPwm MTempMap MCurr MSens
  MSettings MSseg MDisplay MText MState MTemp MMeas MMenu MMain SpecSys MFine.
Import ListNotations.
Open Scope Z_scope.

(** The clock and the measurement without the sensor adjustments *)
Definition bare (m : meas) : meas := set_m_chans m (map (fun c => set_ch_adj c 0) (m_chans m)).
Definition pj (y : sys) : Z * meas := (y_now y, bare (y_meas y)).
Definition pfire (p : Z * meas) (i : irq) : Z * meas :=
  match i with
  | ITick => (timer_isr (fst p), snd p)
  | IAdc raw =>
    if (0 <=? raw) && (raw <=? 1023) && (m_count (snd p) <? 65535) then
      if m_adc (snd p) then
        let m := snd p in
        let m := set_m_sum m (u32 (m_sum m + raw)) in
        let m := set_m_count m (u16 (m_count m + 1)) in
        let m := if timer_expired (fst p) (m_timer m) then set_m_adc (set_m_avail m true) false else m in
        (fst p, m)
      else p
    else p
  | _ => p
  end.
Definition pfires (p : Z * meas) (l : list irq) : Z * meas := fold_left pfire l p.

Section Trace.
Variable C : conf.

Lemma fire_pj y i y' : fire C y i = Some y' -> pj y' = pfire (pj y) i.
Proof.
  unfold fire. destruct i as [|raw| |]; cbn [irq_event ev_okb step pfire].
  - intros E. apply Some_inj in E. subst y'. reflexivity.
  - unfold pj. cbn [fst snd]. change (m_count (bare (y_meas y))) with (m_count (y_meas y)). change (m_adc (bare (y_meas y))) with (m_adc (y_meas y)).
    destruct (_ && _); [|intros E; apply Some_inj in E; subst y'; reflexivity].
    intros E. apply Some_inj in E. subst y'. destruct (m_adc (y_meas y)) eqn:Ea; [|reflexivity].
    unfold adc_isr. cbv zeta. change (m_timer (set_m_count (set_m_sum (bare (y_meas y)) (u32 (m_sum (bare (y_meas y)) + raw))) (u16 (m_count (set_m_sum (bare (y_meas y)) (u32 (m_sum (bare (y_meas y)) + raw))) + 1)))) with (m_timer (y_meas y)).
    change (m_timer (set_m_count (set_m_sum (y_meas y) (u32 (m_sum (y_meas y) + raw))) (u16 (m_count (set_m_sum (y_meas y) (u32 (m_sum (y_meas y) + raw))) + 1)))) with (m_timer (y_meas y)).
    destruct (timer_expired _ _); reflexivity.
  - destruct (x_eerie (y_set y)); [|intros E; apply Some_inj in E; subst; reflexivity].
    destruct (x_busy (y_set y)); [intros E; apply Some_inj in E; subst; reflexivity|].
    destruct (ee_ready_isr C (y_set y)) as [x|]; [|discriminate]. cbn [bind]. intros E. apply Some_inj in E. subst. reflexivity.
  - intros E. apply Some_inj in E. subst. reflexivity.
Qed.
Lemma fires_pj l : forall y y', fires C y l = Some y' -> pj y' = pfires (pj y) l.
Proof.
  induction l as [|i l IH]; intros y y' E; cbn [fires] in E.
  - apply Some_inj in E. subst. reflexivity.
  - apply bind_inv in E. destruct E as (y1 & E1 & E2). unfold pfires. cbn [fold_left]. rewrite <- (fire_pj _ _ _ E1). exact (IH _ _ E2).
Qed.
Lemma pfires_app p a b : pfires p (a ++ b) = pfires (pfires p a) b.
Proof. apply fold_left_app. Qed.

(** [l]: the interrupts taken from [o] when [o'] remains *)
Definition uses (o o' : plan) (l : list irq) : Prop := exists k, o = k ++ o' /\ l = concat k.
Lemma uses_nil o : uses o o [].
Proof. exists []. split; reflexivity. Qed.
Lemma uses_app o o1 o2 l1 l2 : uses o o1 l1 -> uses o1 o2 l2 -> uses o o2 (l1 ++ l2).
Proof. intros (a & -> & ->) (b & -> & ->). exists (a ++ b). rewrite app_assoc, concat_app. split; reflexivity. Qed.
Lemma uses_all o l : uses o [] l -> l = concat o.
Proof. intros (k & -> & ->). rewrite app_nil_r. reflexivity. Qed.

(** Everything but the interrupts leaves clock and measurement alone. *)
Definition tr (m : F sys) (y : sys) : Prop := forall o y' o', m o = Some (y', o') -> exists l, uses o o' l /\ pj y' = pfires (pj y) l.
Lemma tr_ret a y : pj a = pj y -> tr (ret a) y.
Proof. intros H o y' o' E. unfold ret in E. injection E as <- <-. exists []. split; [apply uses_nil|exact H]. Qed.
Lemma tr_lift m y : (forall a, m = Some a -> pj a = pj y) -> tr (lift m) y.
Proof. intros H o y' o' E. unfold lift in E. destruct m as [a|]; [|discriminate E]. cbn [bind] in E. injection E as <- <-. exists []. split; [apply uses_nil|apply H; reflexivity]. Qed.
Lemma tr_bind m f y : tr m y -> (forall a, tr (f a) a) -> tr (fbind m f) y.
Proof.
  intros H K o y' o' E. unfold fbind in E. destruct (m o) as [[a o1]|] eqn:E1; [|discriminate E].
  destruct (H _ _ _ E1) as (l1 & U1 & P1). destruct (K a _ _ _ E) as (l2 & U2 & P2). exists (l1 ++ l2). split; [eapply uses_app; eassumption|].
  rewrite P2, P1, pfires_app. reflexivity.
Qed.
Lemma tr_val {A} (m : option A) f y : (forall a, m = Some a -> tr (f a) y) -> tr (fbind (lift m) f) y.
Proof. intros H o y' o' E. unfold fbind, lift in E. destruct m as [a|]; [|discriminate E]. cbn [bind] in E. exact (H a eq_refl _ _ _ E). Qed.
Lemma tr_pt z y : pj z = pj y -> tr (pt C z) y.
Proof.
  intros H o y' o' E. unfold pt in E. destruct o as [|l o1].
  - injection E as <- <-. exists []. split; [apply uses_nil|exact H].
  - apply bind_inv in E. destruct E as (y1 & E1 & E2). injection E2 as <- <-. exists l. split.
    + exists [l]. split; [reflexivity|cbn; symmetry; apply app_nil_r].
    + rewrite <- H. apply fires_pj. exact E1.
Qed.
Lemma tr_eq m y z : tr m z -> pj z = pj y -> tr m y.
Proof. intros H K o y' o' E. rewrite <- K. exact (H _ _ _ E). Qed.

(** The functions that do not read the time *)
Ltac plain := intros;
  repeat match goal with
    | H : bind _ _ = Some _ |- _ => apply bind_inv in H; destruct H as (? & ? & H)
    | H : Some _ = Some _ |- _ => apply Some_inj in H
    | H : (if ?b then _ else _) = Some _ |- _ => destruct b
    | H : (let '(_, _) := ?p in _) = Some _ |- _ => destruct p
    end; subst; try reflexivity; eauto.
Lemma store_pj y y' : sys_store y = Some y' -> pj y' = pj y.
Proof. unfold sys_store. plain. Qed.
Lemma boost_pj y b y' : contrtemp_set_boost_mode C y b = Some y' -> pj y' = pj y.
Proof. unfold contrtemp_set_boost_mode. plain. Qed.
Lemma setpoint_pj y y' : contrtemp_update_setpoint C y = Some y' -> pj y' = pj y.
Proof. unfold contrtemp_update_setpoint. plain. Qed.
Lemma pid_config_pj y y' : contrtemp_update_pid_config C y = Some y' -> pj y' = pj y.
Proof. unfold contrtemp_update_pid_config. apply boost_pj. Qed.
Lemma next_boost_pj y y' : contrtemp_do_next_boost_mode C y = Some y' -> pj y' = pj y.
Proof. unfold contrtemp_do_next_boost_mode. apply boost_pj. Qed.
Lemma do_idle_pj y b y' : contrtemp_do_idle C y b = Some y' -> pj y' = pj y.
Proof.
  unfold contrtemp_do_idle. cbv zeta. intros E. apply bind_inv in E. destruct E as (z & E1 & E2). apply Some_inj in E2. subst y'.
  apply setpoint_pj in E1. change (pj z = pj y). rewrite E1. reflexivity.
Qed.
Lemma adjust_pj y id a y' : measure_adjust_set C y id a = Some y' -> pj y' = pj y.
Proof.
  unfold measure_adjust_set. destruct (c_adj C); [|plain]. cbv zeta. intros E. apply bind_inv in E. destruct E as (ch & E1 & E). apply bind_inv in E.
  destruct E as (l & E2 & E). apply Some_inj in E. subst y'. unfold pj, bare. cbn. f_equal. unfold set_m_chans. cbn. f_equal.
  revert E1 E2. unfold zget, zupd. destruct (id <? 0); [discriminate|]. generalize (Z.to_nat id). clear. generalize (m_chans (y_meas y)). intros l0 n. revert l. revert n.
  induction l0 as [|c r IH]; intros [|n] l E1 E2; cbn in *; try discriminate.
  - apply Some_inj in E1. apply Some_inj in E2. subst. reflexivity.
  - apply bind_inv in E2. destruct E2 as (r' & E2 & E3). apply Some_inj in E3. subst l. cbn. f_equal. exact (IH _ _ E1 E2).
Qed.
Lemma arm_pj y d y' : arm_menu_timeout y d = Some y' -> pj y' = pj y.
Proof. unfold arm_menu_timeout. plain. Qed.
Lemma display_pj y y' : menu_update_display C y = Some y' -> pj y' = pj y.
Proof.
  unfold menu_update_display. intros E. apply bind_inv in E. destruct E as ([b s] & _ & E). apply bind_inv in E. destruct E as (d & _ & E).
  apply bind_inv in E. destruct E as (d2 & _ & E). apply Some_inj in E. subst. reflexivity.
Qed.
Lemma ctrl_button_pj y b bs y' : c_boost C && c_idle C = false -> contrtemp_button_handler C y b bs = Some y' -> pj y' = pj y.
Proof.
  intros H. unfold contrtemp_button_handler. rewrite H. destruct (c_boost C).
  - unfold button_boost. destruct (negb _); [plain|]. destruct (is_pos bs); [apply next_boost_pj|plain].
  - destruct (c_idle C); [|plain]. unfold button_idle. destruct (negb _); [plain|]. cbv zeta. destruct (negb _); [apply do_idle_pj|plain].
Qed.
Lemma emerg_pj y b : pj (contrtemp_set_emerg y b) = pj y.
Proof. unfold contrtemp_set_emerg, do_set_emerg. destruct (negb _), b; reflexivity. Qed.
Lemma errors_pj y : pj (menu_errors y) = pj y.
Proof. unfold menu_errors. cbv zeta. destruct (negb _); reflexivity. Qed.
Lemma heating_pj y : pj (menu_heating y) = pj y.
Proof. unfold menu_heating. cbv zeta. destruct (negb _); reflexivity. Qed.

Ltac ps := match goal with
  | H : _ = Some ?a |- pj ?a = _ =>
    first [apply store_pj in H | apply boost_pj in H | apply setpoint_pj in H | apply pid_config_pj in H | apply next_boost_pj in H | apply do_idle_pj in H
          | apply adjust_pj in H | apply arm_pj in H | apply display_pj in H | apply ctrl_button_pj in H; [|assumption]]; rewrite H; reflexivity
  end.
Create HintDb tr.
(** One step of a function of MFine *)
Ltac t1 := first
  [ progress cbv beta zeta
  | match goal with
    | |- tr (ret _) _ => apply tr_ret; first [reflexivity | congruence]
    | |- tr (pt _ _) _ => apply tr_pt; reflexivity
    | |- tr (lift _) _ => apply tr_lift; intros; ps
    | |- tr (fbind (lift _) _) _ => first [apply tr_bind; [apply tr_lift; intros; ps|intros] | apply tr_val; intros]
    | |- tr (fbind (pt _ _) _) _ => apply tr_bind; [apply tr_pt; reflexivity|intros]
    | |- tr (fbind _ _) _ => apply tr_bind; [|intros]
    | |- tr (if ?b then _ else _) _ => destruct b eqn:?
    | |- tr (match ?p with (_, _) => _ end) _ => destruct p
    | |- tr (match ?p with _ => _ end) _ => destruct p
    | |- tr _ _ => solve [eauto with tr | eapply tr_eq; [eauto with tr|reflexivity]]
    end ].
Ltac t := repeat t1.

Lemma sys_store_tr y : tr (sys_store_f C y) y.
Proof. unfold sys_store_f. t. Qed.
Hint Resolve sys_store_tr : tr.
Lemma contrcurr_run_tr y r : tr (contrcurr_run_f C y r) y.
Proof. unfold contrcurr_run_f. t. Qed.
Hint Resolve contrcurr_run_tr : tr.
Lemma contrcurr_set_feedback_tr y r : tr (contrcurr_set_feedback_f C y r) y.
Proof. unfold contrcurr_set_feedback_f. t. Qed.
Hint Resolve contrcurr_set_feedback_tr : tr.
Lemma contrtemp_run_tr y r : tr (contrtemp_run_f C y r) y.
Proof. unfold contrtemp_run_f. t. Qed.
Hint Resolve contrtemp_run_tr : tr.
Lemma contrtemp_set_feedback_tr y r : tr (contrtemp_set_feedback_f C y r) y.
Proof. unfold contrtemp_set_feedback_f. cbv zeta. destruct (negb _); t. Qed.
Hint Resolve contrtemp_set_feedback_tr : tr.
Lemma idle_setpoint_tr y w : tr (contrtemp_set_idle_setpoint_f C y w) y.
Proof. unfold contrtemp_set_idle_setpoint_f. t. Qed.
Lemma do_set_enabled_tr y b : tr (do_set_enabled_f C y b) y.
Proof. unfold do_set_enabled_f. t. Qed.
Hint Resolve idle_setpoint_tr do_set_enabled_tr : tr.
Lemma set_enabled_tr y b : tr (contrtemp_set_enabled_f C y b) y.
Proof. unfold contrtemp_set_enabled_f. t. Qed.
Hint Resolve set_enabled_tr : tr.
Lemma boost_idle_tr y b bs : tr (button_boost_idle_f C y b bs) y.
Proof. unfold button_boost_idle_f. t. Qed.
Hint Resolve boost_idle_tr : tr.
Lemma ctrl_button_tr y b bs : tr (contrtemp_button_handler_f C y b bs) y.
Proof. unfold contrtemp_button_handler_f. t. Qed.
Hint Resolve ctrl_button_tr : tr.
Lemma presets_store_tr y : tr (presets_store_f C y) y.
Proof. unfold presets_store_f. t. Qed.
Hint Resolve presets_store_tr : tr.
Lemma presets_next_tr y : tr (presets_next_f C y) y.
Proof. unfold presets_next_f. t. Qed.
Lemma presets_prev_tr y : tr (presets_prev_f C y) y.
Proof. unfold presets_prev_f. t. Qed.
Lemma presets_set_tr y v : tr (presets_set_active_value_f C y v) y.
Proof. unfold presets_set_active_value_f. t. Qed.
Hint Resolve presets_next_tr presets_prev_tr presets_set_tr : tr.
Lemma meascurr_tr y v p : tr (meascurr_result_handler_f C y v p) y.
Proof. unfold meascurr_result_handler_f. t. Qed.
Lemma meastemp_tr y v p : tr (meastemp_result_handler_f C y v p) y.
Proof.
  unfold meastemp_result_handler_f. cbv zeta. destruct p.
  - eapply tr_eq; [apply contrtemp_set_feedback_tr|]. exact (emerg_pj y false).
  - apply contrtemp_set_feedback_tr.
  - apply tr_ret. apply emerg_pj.
Qed.
Hint Resolve meascurr_tr meastemp_tr : tr.
Lemma user_result_tr y i v p : tr (measure_user_result_handler_f C y i v p) y.
Proof. unfold measure_user_result_handler_f. t. Qed.
Lemma adjust_tr y a : tr (meastemp_adjust_set_f C y a) y.
Proof. unfold meastemp_adjust_set_f. t. Qed.
Lemma debug_enable_tr y b : tr (debug_enable_f C y b) y.
Proof. unfold debug_enable_f. t. Qed.
Lemma arm_tr y d : tr (arm_menu_timeout_f C y d) y.
Proof. unfold arm_menu_timeout_f. t. Qed.
Hint Resolve user_result_tr adjust_tr debug_enable_tr arm_tr : tr.
Lemma set_state_tr y s : tr (menu_set_state_f C y s) y.
Proof. unfold menu_set_state_f. t. Qed.
Hint Resolve set_state_tr : tr.
Lemma next_state_tr y : tr (menu_set_next_state_f C y) y.
Proof. unfold menu_set_next_state_f. t. Qed.
Hint Resolve next_state_tr : tr.
Lemma ramp_k_tr y g p i m up : tr (do_ramp_k_f C y g p i m up) y.
Proof. unfold do_ramp_k_f. t. Qed.
Hint Resolve ramp_k_tr : tr.
Lemma handler_tr y h up : tr (call_ramp_handler_f C y h up) y.
Proof.
  unfold call_ramp_handler_f, settemp_ramp_handler_f, idletemp_ramp_handler_f, adj_ramp_handler_f, kconf_kp_ramp_handler_f, kconf_ki_ramp_handler_f, kconf_kd_ramp_handler_f. t.
Qed.
Lemma start_ramping_tr y up pre h : tr (start_ramping_f C y up pre h) y.
Proof. unfold start_ramping_f. t. Qed.
Hint Resolve handler_tr start_ramping_tr : tr.
Lemma ramp_button_tr y b bs pre h : tr (start_ramping_button_f C y b bs pre h) y.
Proof. unfold start_ramping_button_f. t. Qed.
Hint Resolve ramp_button_tr : tr.
Lemma switch_tr y b bs : tr (menu_button_switch_f C y b bs) y.
Proof. unfold menu_button_switch_f. t. Qed.
Hint Resolve switch_tr : tr.
Lemma menu_handler_tr y b bs : tr (menu_button_handler_f C y b bs) y.
Proof. unfold menu_button_handler_f. t. Qed.
Hint Resolve menu_handler_tr : tr.
Lemma timeouts_tr y : tr (menu_timeouts_f C y) y.
Proof. unfold menu_timeouts_f. t. Qed.
Lemma ramp_step_tr y up : tr (ramp_step_f C y up) y.
Proof. unfold ramp_step_f. t. Qed.
Hint Resolve timeouts_tr ramp_step_tr : tr.
Lemma ramping_tr y : tr (menu_ramping_f C y) y.
Proof. unfold menu_ramping_f. t. Qed.
Hint Resolve ramping_tr : tr.
Lemma menu_work_tr y : tr (menu_work_f C y) y.
Proof.
  unfold menu_work_f. apply tr_bind; [apply timeouts_tr|]. intros a. apply tr_bind; [eapply tr_eq; [apply ramping_tr|rewrite heating_pj; apply errors_pj]|]. intros b. t.
Qed.
Lemma run_calls_tr l : forall y, tr (run_calls_f C y l) y.
Proof. induction l as [|[b bs] l IH]; intros y; cbn [run_calls_f]; [t|]. apply tr_bind; [|exact IH]. unfold call_button_handlers_f. t. Qed.
Hint Resolve run_calls_tr : tr.
Lemma buttons_work_tr y pinb : tr (buttons_work_f C y pinb) y.
Proof. unfold buttons_work_f. t. Qed.
End Trace.
