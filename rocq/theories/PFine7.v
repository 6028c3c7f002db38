(** * Interrupts inside the work functions, part 7: without interrupts inside *)
From Coq Require Import ZArith List Bool Lia ZifyBool.
From Verif Require Import Base PBase MConf MUtil MFixpt MScale MRing MFilter MTimer MPid MPwm MTempMap MCurr MSens
  SpecNum SpecPid SpecSmall PNum PSmall PScale PPid SpecCurr PCurr MSettings SpecSettings PSettings PSysSet
  MSseg MDisplay MText MState MTemp MMeas MMenu MMain SpecDisplay PDisplay SpecSys PSys PSysMeas PSysMenu PSysDisp PSysBtn PSysStep PSysRun MFine.
Import ListNotations.
Open Scope Z_scope.
Ltac Zify.zify_post_hook ::= Z.div_mod_to_equations.


(** Without interrupts inside the functions are the atomic ones. *)
Definition fnil {A} (m : F A) (v : option A) : Prop := m [] = (a <- v ;; Some (a, [])).
Lemma fnil_ret {A} (a : A) : fnil (ret a) (Some a).
Proof. reflexivity. Qed.
Lemma fnil_lift {A} (v : option A) : fnil (lift v) v.
Proof. reflexivity. Qed.
Lemma fnil_bind {A B} (m : F A) v (f : A -> F B) g : fnil m v -> (forall a, fnil (f a) (g a)) -> fnil (fbind m f) (bind v g).
Proof. unfold fnil, fbind. intros E H. rewrite E. destruct v as [a|]; cbn [bind]; [apply H|reflexivity]. Qed.
Lemma fnil_pt {A} C y (f : sys -> F A) v : fnil (f y) v -> fnil (fbind (pt C y) f) v.
Proof. intros E. exact E. Qed.
Lemma fnil_done {A B} (a : A) (f : A -> F B) v : fnil (f a) v -> fnil (fbind (ret a) f) v.
Proof. intros E. exact E. Qed.
Lemma fnil_eq {A} (m : F A) v w : fnil m v -> v = w -> fnil m w.
Proof. intros E <-. exact E. Qed.
Ltac nl := repeat (first
  [ exact (fnil_ret _) | exact (fnil_lift _) | assumption | progress cbv beta zeta
  | match goal with
    | |- fnil (fbind (pt _ _) _) _ => apply fnil_pt
    | |- fnil (fbind (ret _) _) _ => apply fnil_done
    | |- fnil (fbind _ _) (bind _ _) => apply fnil_bind; [|intros]
    | |- fnil (if ?b then _ else _) _ => destruct b
    | |- fnil (match ?b with _ => _ end) _ => destruct b
    end ]).

Section Nil.
Variable C : conf.
Lemma sys_store_nil y : fnil (sys_store_f C y) (sys_store y).
Proof. unfold sys_store_f. apply fnil_pt. eapply fnil_eq; [apply fnil_lift|]. unfold sys_store. sy. rewrite !store_eq. reflexivity. Qed.
Lemma contrcurr_run_nil y r : fnil (contrcurr_run_f C y r) (c <- contrcurr_run (y_now y) (y_cc y) r ;; Some (set_y_cc y c)).
Proof.
  unfold contrcurr_run_f, contrcurr_run. destruct (negb (cc_enabled (y_cc y))); [destruct y; reflexivity|].
  destruct (negb (cc_emerg (y_cc y) =? 0)); [destruct y; reflexivity|]. apply fnil_pt. unfold fnil, fbind, lift.
  destruct (dt_seconds _ _) as [dt|]; cbn [bind pt]; [|reflexivity]. cbv zeta.
  destruct (cc_select_r _ _) as [[c1 r1]|]; cbn [bind]; [|reflexivity].
  destruct (pid_run _ _ _) as [[p out]|]; cbn [bind]; [|reflexivity].
  destruct (cc_pwm _ _); reflexivity.
Qed.
Lemma contrcurr_set_feedback_nil y r : fnil (contrcurr_set_feedback_f C y r) (c <- contrcurr_set_feedback (y_now y) (y_cc y) r ;; Some (set_y_cc y c)).
Proof.
  unfold contrcurr_set_feedback_f, contrcurr_set_feedback. cbv zeta. eapply fnil_eq; [apply contrcurr_run_nil|]. sy.
  destruct (contrcurr_run _ _ _); reflexivity.
Qed.
Lemma contrtemp_run_nil y r : fnil (contrtemp_run_f C y r) (contrtemp_run y r).
Proof.
  unfold contrtemp_run_f, contrtemp_run. cbv zeta. destruct (negb (t_enabled (y_ct y))); [reflexivity|].
  destruct (t_emerg (y_ct y)); [reflexivity|]. apply fnil_pt. unfold fnil, fbind, lift.
  destruct (dt_seconds _ _) as [dt|]; cbn [bind pt]; [|reflexivity].
  destruct (pid_run _ _ _) as [[p out]|]; cbn [bind]; [|reflexivity].
  destruct (temp_to_amps _); cbn [bind]; [|reflexivity]. destruct (if _ <? _ then _ else _) as [fl cur].
  destruct (contrcurr_set_emerg _ _); reflexivity.
Qed.
Lemma contrtemp_set_feedback_nil y r : fnil (contrtemp_set_feedback_f C y r) (contrtemp_set_feedback y r).
Proof. unfold contrtemp_set_feedback_f, contrtemp_set_feedback. cbv zeta. apply contrtemp_run_nil. Qed.
Hint Resolve sys_store_nil contrcurr_set_feedback_nil contrtemp_set_feedback_nil : nil.
Ltac nla := nl; auto with nil.
Lemma idle_setpoint_nil y w : fnil (contrtemp_set_idle_setpoint_f C y w) (contrtemp_set_idle_setpoint C y w).
Proof. unfold contrtemp_set_idle_setpoint_f, contrtemp_set_idle_setpoint. nla. Qed.
Lemma set_enabled_nil y b : fnil (contrtemp_set_enabled_f C y b) (contrtemp_set_enabled C y b).
Proof. unfold contrtemp_set_enabled_f, contrtemp_set_enabled, do_set_enabled_f, do_set_enabled. nla. Qed.
Lemma ctrl_button_nil y b bs : fnil (contrtemp_button_handler_f C y b bs) (contrtemp_button_handler C y b bs).
Proof.
  unfold contrtemp_button_handler_f, contrtemp_button_handler. destruct (c_boost C && c_idle C); [|apply fnil_lift].
  unfold button_boost_idle_f, button_boost_idle. nla.
Qed.
Lemma presets_store_nil y : fnil (presets_store_f C y) (presets_store C y).
Proof. unfold presets_store_f, presets_store. nla. Qed.
Hint Resolve presets_store_nil idle_setpoint_nil set_enabled_nil ctrl_button_nil : nil.
Lemma presets_next_nil y : fnil (presets_next_f C y) (presets_next C y).
Proof. unfold presets_next_f, presets_next. nla. Qed.
Lemma presets_prev_nil y : fnil (presets_prev_f C y) (presets_prev C y).
Proof. unfold presets_prev_f, presets_prev. nla. Qed.
Lemma presets_set_nil y v : fnil (presets_set_active_value_f C y v) (presets_set_active_value C y v).
Proof. unfold presets_set_active_value_f, presets_set_active_value. nla. Qed.
Hint Resolve presets_next_nil presets_prev_nil presets_set_nil : nil.
Lemma meascurr_nil y v p : fnil (meascurr_result_handler_f C y v p) (meascurr_result_handler y v p).
Proof.
  unfold meascurr_result_handler_f, meascurr_result_handler. cbv zeta. apply fnil_bind; [apply fnil_lift|]. intros c.
  destruct p; unfold fnil, fbind.
  - rewrite contrcurr_set_feedback_nil. sy. destruct (contrcurr_set_feedback _ _ _); reflexivity.
  - rewrite contrcurr_set_feedback_nil. sy. destruct (contrcurr_set_feedback _ _ _); reflexivity.
  - reflexivity.
Qed.
Lemma meastemp_nil y v p : fnil (meastemp_result_handler_f C y v p) (meastemp_result_handler y v p).
Proof. unfold meastemp_result_handler_f, meastemp_result_handler. cbv zeta. destruct p; nla. Qed.
Hint Resolve meascurr_nil meastemp_nil : nil.
Lemma trigger_nil y : fnil (adc_trigger_next_chan_f C y) (adc_trigger_next_chan C y).
Proof. unfold adc_trigger_next_chan_f, adc_trigger_next_chan. cbv zeta. apply fnil_bind; [apply fnil_lift|]. intros. nla. Qed.
Lemma plaus_nil cfg y ch v : fnil (plaus_check_f C cfg y ch v) (r <- plaus_check cfg (y_now y) ch v ;; Some (y, r)).
Proof.
  unfold plaus_check_f, plaus_check. destruct (if v <? _ then _ else _) as [[ch0 v0] p0]. unfold fnil, fbind, ret, lift, pt.
  destruct p0; cbn [bind]; try reflexivity; (destruct (negb (ch_running ch0)); cbn [bind]; [|reflexivity]); (destruct (timer_arm _ _); cbn [bind]; reflexivity).
Qed.
Lemma handle_nil y : fnil (measure_handle_result_f C y) (measure_handle_result C y).
Proof.
  unfold measure_handle_result_f, measure_handle_result. apply fnil_pt. cbv zeta.
  apply fnil_bind; [apply fnil_lift|]. intros ch. apply fnil_bind; [apply fnil_lift|]. intros cfg. apply fnil_bind; [apply fnil_lift|]. intros raw.
  destruct (measure_user_filter_handler y (m_chan (y_meas y)) raw) as [y1 r1] eqn:Ef.
  assert (Em : y_meas y1 = y_meas y).
  { unfold measure_user_filter_handler, meascurr_filter_handler in Ef. destruct (_ =? _); [|congruence].
    destruct (u_init (y_mc y)); [destruct (lp_filter_u16_run _ _ _)|]; injection Ef as <- _; reflexivity. }
  apply fnil_bind; [apply fnil_lift|]. intros v. apply fnil_bind; [apply fnil_lift|]. intros w.
  unfold fnil, fbind. rewrite plaus_nil. destruct (plaus_check _ _ _ _) as [[[ch' v'] p]|]; cbn [bind]; [|reflexivity].
  rewrite Em. unfold lift. destruct (zupd _ _ _) as [l|]; cbn [bind]; [|reflexivity].
  unfold measure_user_result_handler_f, measure_user_result_handler. destruct (_ =? _); [apply meastemp_nil|apply meascurr_nil].
Qed.
Hint Resolve trigger_nil handle_nil : nil.
Lemma measure_work_nil y : fnil (measure_work_f C y) (measure_work C y).
Proof. unfold measure_work_f, measure_work. cbv zeta. nla. Qed.
Lemma adjust_nil y a : fnil (meastemp_adjust_set_f C y a) (meastemp_adjust_set C y a).
Proof. unfold meastemp_adjust_set_f, meastemp_adjust_set. nla. Qed.
Lemma debug_enable_nil y b : fnil (debug_enable_f C y b) (debug_enable C y b).
Proof.
  unfold debug_enable_f, debug_enable. destruct (c_debug C); [|reflexivity]. apply fnil_pt. cbv zeta. sy. unfold fnil, fbind, lift.
  destruct (display_enable _ _ _ _) as [[h d]|]; reflexivity.
Qed.
Lemma arm_nil y d : fnil (arm_menu_timeout_f C y d) (arm_menu_timeout y d).
Proof. unfold arm_menu_timeout_f. nla. Qed.
Hint Resolve adjust_nil debug_enable_nil arm_nil : nil.
Lemma set_state_nil y s : fnil (menu_set_state_f C y s) (menu_set_state C y s).
Proof. unfold menu_set_state_f, menu_set_state. destruct (mstate_eqb _ _); [reflexivity|]. cbv zeta. destruct s; nla. Qed.
Hint Resolve set_state_nil : nil.
Lemma ramp_k_nil y g p i m up : fnil (do_ramp_k_f C y g p i m up) (do_ramp_k C y g p i m up).
Proof. unfold do_ramp_k_f, do_ramp_k. nla. Qed.
Lemma handler_nil y h up : fnil (call_ramp_handler_f C y h up) (call_ramp_handler C y h up).
Proof.
  unfold call_ramp_handler_f, call_ramp_handler. apply fnil_bind; [apply fnil_lift|]. intros [| | | | |].
  - unfold settemp_ramp_handler_f, settemp_ramp_handler. nla.
  - unfold idletemp_ramp_handler_f, idletemp_ramp_handler. nla.
  - unfold adj_ramp_handler_f, adj_ramp_handler. nla.
  - apply ramp_k_nil.
  - apply ramp_k_nil.
  - apply ramp_k_nil.
Qed.
Lemma start_ramping_nil y up pre h : fnil (start_ramping_f C y up pre h) (start_ramping y up pre h).
Proof.
  unfold start_ramping_f, start_ramping. cbv zeta. unfold fnil, fbind, pt, lift, ret. destruct pre; cbn [bind]; [|reflexivity].
  sy. destruct (timer_arm _ _); reflexivity.
Qed.
Hint Resolve handler_nil start_ramping_nil : nil.
Lemma ramp_button_nil y b bs pre h : fnil (start_ramping_button_f C y b bs pre h) (start_ramping_button y b bs pre h).
Proof. unfold start_ramping_button_f, start_ramping_button. nla. Qed.
Hint Resolve ramp_button_nil : nil.
Lemma switch_nil y b bs : fnil (menu_button_switch_f C y b bs) (menu_button_switch C y b bs).
Proof. unfold menu_button_switch_f, menu_button_switch. destruct (n_state (y_menu y)); nla. Qed.
Hint Resolve switch_nil : nil.
Lemma menu_handler_nil y b bs : fnil (menu_button_handler_f C y b bs) (menu_button_handler C y b bs).
Proof. unfold menu_button_handler_f, menu_button_handler, menu_set_next_state_f, menu_set_next_state. nla. Qed.
Hint Resolve menu_handler_nil : nil.
Lemma timeouts_nil y : fnil (menu_timeouts_f C y) (menu_timeouts C y).
Proof.
  unfold menu_timeouts_f, menu_timeouts, menu_set_next_state_f, menu_set_next_state.
  destruct (n_state (y_menu y)) eqn:E; try reflexivity; (apply fnil_pt; rewrite ?E; nla).
Qed.
Lemma ramp_step_nil y up : fnil (ramp_step_f C y up) (ramp_step C y up).
Proof. unfold ramp_step_f, ramp_step. nla. Qed.
Lemma ramping_nil y : fnil (menu_ramping_f C y) (menu_ramping C y).
Proof. unfold menu_ramping_f, menu_ramping. cbv zeta. destruct (n_ramp (y_menu y)); try apply ramp_step_nil; nla. Qed.
Hint Resolve timeouts_nil ramping_nil : nil.
Lemma menu_work_nil y : fnil (menu_work_f C y) (menu_work C y).
Proof. unfold menu_work_f, menu_work. nla. Qed.
Lemma run_calls_nil l : forall y, fnil (run_calls_f C y l) (run_calls C y l).
Proof. induction l as [|(b & bs) r IH]; intros y; cbn [run_calls_f run_calls]; [reflexivity|]. unfold call_button_handlers_f, call_button_handlers. nla. Qed.
Hint Resolve run_calls_nil : nil.
Lemma buttons_work_nil y pinb : fnil (buttons_work_f C y pinb) (buttons_work C y pinb).
Proof. unfold buttons_work_f, buttons_work. nla. Qed.
Lemma fstep_nil y e : fstep C y e [] = step C y e.
Proof.
  assert (K : forall (m : F sys) v, fnil m v -> ('(z, _) <- m [] ;; Some z) = v) by (intros m v E; rewrite E; destruct v; reflexivity).
  unfold fstep. destruct e; (apply K; first [exact (fnil_lift _)|apply measure_work_nil|apply menu_work_nil|apply buttons_work_nil]).
Qed.
End Nil.
