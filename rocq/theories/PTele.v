(** * The firmware with debug output is the firmware *)
From Coq Require Import ZArith List Bool Lia.
From Verif Require Import Base PBase MUtil MConf MFixpt MScale MRing MFilter MTimer MPid MTempMap MPwm MCurr MSens MSettings
  SpecSettings MSseg MDisplay MText MState MTemp MMeas MMenu MMain MDebug SpecSys MTele.
Import ListNotations.
Open Scope Z_scope.

(** ** Leaving out the calls *)
Definition erase {A} (m : W A) : option A := match m with Some (a, _) => Some a | None => None end.
Lemma erase_bind {A B} (m : W A) (f : A -> W B) : erase (wbind m f) = bind (erase m) (fun a => erase (f a)).
Proof. destruct m as [(a, l)|]; [|reflexivity]. cbn. destruct (f a) as [(b, l')|]; reflexivity. Qed.
Lemma erase_lift {A} (m : option A) : erase (lift m) = m.
Proof. destruct m; reflexivity. Qed.
Lemma erase_tell {B} a (f : unit -> W B) : erase (wbind (tell a) f) = erase (f tt).
Proof. rewrite erase_bind. reflexivity. Qed.
Lemma erase_ret {A} (a : A) : erase (ret a) = Some a. Proof. reflexivity. Qed.
Lemma bind_ext {A B} (m : option A) (f g : A -> option B) : (forall a, f a = g a) -> bind m f = bind m g.
Proof. intros H. destruct m; [apply H|reflexivity]. Qed.
Lemma bind_eq {A B} (m m' : option A) (f g : A -> option B) : m = m' -> (forall a, f a = g a) -> bind m f = bind m' g.
Proof. intros -> H. apply bind_ext. exact H. Qed.
Lemma bind_some {A} (m : option A) : bind m (fun a => Some a) = m. Proof. destruct m; reflexivity. Qed.
(** Erases under binders. *)
Ltac er1 := first
  [ reflexivity
  | rewrite erase_tell
  | rewrite erase_lift
  | rewrite erase_ret
  | rewrite erase_bind; apply bind_eq; [|intros; try match goal with p : (_ * _)%type |- _ => destruct p end]
  | match goal with |- context [erase (if ?b then _ else _)] => destruct b end
  | match goal with |- context [erase (match ?x with _ => _ end)] => destruct x end
  | rewrite bind_some ].
Ltac er := repeat (cbv zeta; er1).

Lemma e_pid k p dt r : erase (pid_run_t k p dt r) = pid_run p dt r.
Proof. unfold pid_run_t, pid_run. er. Qed.
Lemma e_cc_run now c r : erase (contrcurr_run_t now c r) = contrcurr_run now c r.
Proof. unfold contrcurr_run_t, contrcurr_run. er. apply e_pid. Qed.
Lemma e_cc_fb now c r : erase (contrcurr_set_feedback_t now c r) = contrcurr_set_feedback now c r.
Proof. unfold contrcurr_set_feedback_t, contrcurr_set_feedback. rewrite erase_bind. destruct (negb _); [rewrite erase_tell|]; cbn [erase ret bind]; apply e_cc_run. Qed.
Lemma e_boost C y m : erase (contrtemp_set_boost_mode_t C y m) = contrtemp_set_boost_mode C y m.
Proof. unfold contrtemp_set_boost_mode_t, contrtemp_set_boost_mode. rewrite erase_bind, erase_lift. apply bind_ext. intros k. cbv zeta. destruct (c_boost C); reflexivity. Qed.
Lemma e_run y r : erase (contrtemp_run_t y r) = contrtemp_run y r.
Proof. unfold contrtemp_run_t, contrtemp_run. er. apply e_pid. Qed.
Lemma e_fb y r : erase (contrtemp_set_feedback_t y r) = contrtemp_set_feedback y r.
Proof. unfold contrtemp_set_feedback_t, contrtemp_set_feedback. rewrite erase_bind. destruct (negb _); [rewrite erase_tell|]; cbn [erase ret bind]; apply e_run. Qed.
Lemma e_do_enabled C y b : erase (do_set_enabled_t C y b) = do_set_enabled C y b.
Proof. unfold do_set_enabled_t, do_set_enabled. er. apply e_boost. Qed.
Lemma e_enabled C y b : erase (contrtemp_set_enabled_t C y b) = contrtemp_set_enabled C y b.
Proof. unfold contrtemp_set_enabled_t, contrtemp_set_enabled. destruct (negb _); [apply e_do_enabled|reflexivity]. Qed.
Lemma e_next_boost C y : erase (contrtemp_do_next_boost_mode_t C y) = contrtemp_do_next_boost_mode C y.
Proof. apply e_boost. Qed.
Lemma e_bi C y b s : erase (button_boost_idle_t C y b s) = button_boost_idle C y b s.
Proof. unfold button_boost_idle_t, button_boost_idle. er. apply e_next_boost. Qed.
Lemma e_cth C y b s : erase (contrtemp_button_handler_t C y b s) = contrtemp_button_handler C y b s.
Proof.
  unfold contrtemp_button_handler_t, contrtemp_button_handler. destruct (c_boost C && c_idle C); [apply e_bi|].
  destruct (c_boost C); [|destruct (c_idle C); [apply erase_lift|reflexivity]].
  unfold button_boost_t, button_boost. destruct (negb _); [reflexivity|]. destruct (is_pos s); [apply e_next_boost|reflexivity].
Qed.
Lemma e_ct_init C y : erase (contrtemp_init_t C y) = contrtemp_init C y.
Proof. unfold contrtemp_init_t, contrtemp_init. er. apply e_do_enabled. Qed.
Lemma e_filter y c r : erase (measure_user_filter_handler_t y c r) = Some (measure_user_filter_handler y c r).
Proof.
  unfold measure_user_filter_handler_t, measure_user_filter_handler. destruct (_ =? _); [|reflexivity].
  unfold meascurr_filter_handler_t. destruct (meascurr_filter_handler y r). rewrite erase_tell. reflexivity.
Qed.
Lemma e_mc y v p : erase (meascurr_result_handler_t y v p) = meascurr_result_handler y v p.
Proof. unfold meascurr_result_handler_t, meascurr_result_handler. er; apply e_cc_fb. Qed.
Lemma e_mt y v p : erase (meastemp_result_handler_t y v p) = meastemp_result_handler y v p.
Proof. unfold meastemp_result_handler_t, meastemp_result_handler. destruct p; [apply e_fb|apply e_fb|reflexivity]. Qed.
Lemma e_handle C y : erase (measure_handle_result_t C y) = measure_handle_result C y.
Proof.
  unfold measure_handle_result_t, measure_handle_result. cbv zeta.
  rewrite erase_bind, erase_lift. apply bind_ext. intros ch. rewrite erase_bind, erase_lift. apply bind_ext. intros cfg.
  rewrite erase_bind, erase_lift. apply bind_ext. intros raw. rewrite erase_tell, erase_bind, e_filter. cbn [bind].
  destruct (measure_user_filter_handler y (m_chan (y_meas y)) raw) as (y1, r1).
  rewrite erase_bind, erase_lift. apply bind_ext. intros v. rewrite erase_bind, erase_lift. apply bind_ext. intros w.
  rewrite erase_bind, erase_lift. apply bind_ext. intros ((ch', w'), pl). rewrite erase_bind, erase_lift. apply bind_ext. intros chs.
  unfold measure_user_result_handler_t, measure_user_result_handler. destruct (_ =? _); [apply e_mt|apply e_mc].
Qed.
Lemma e_measure C y : erase (measure_work_t C y) = measure_work C y.
Proof. unfold measure_work_t, measure_work. er. apply e_handle. Qed.
Lemma e_debug C y b : erase (debug_enable_t C y b) = debug_enable C y b.
Proof. unfold debug_enable_t. destruct (c_debug C) eqn:E; [rewrite erase_tell, erase_lift; reflexivity|]. unfold debug_enable. rewrite E. reflexivity. Qed.
Lemma e_state C y s : erase (menu_set_state_t C y s) = menu_set_state C y s.
Proof. unfold menu_set_state_t, menu_set_state. destruct (mstate_eqb _ _); [reflexivity|]. cbv zeta. rewrite erase_bind. apply bind_eq; [|reflexivity]. destruct s; er; apply e_enabled. Qed.
Lemma e_next C y : erase (menu_set_next_state_t C y) = menu_set_next_state C y. Proof. apply e_state. Qed.
Lemma e_ramp_k C y g p i m u : erase (do_ramp_k_t C y g p i m u) = do_ramp_k C y g p i m u.
Proof. unfold do_ramp_k_t, do_ramp_k. er. apply e_boost. Qed.
Lemma e_handler C y h u : erase (call_ramp_handler_t C y h u) = call_ramp_handler C y h u.
Proof.
  unfold call_ramp_handler_t, call_ramp_handler. rewrite erase_bind, erase_lift. apply bind_ext. intros g. destruct g; try apply erase_lift; try apply e_ramp_k.
  unfold settemp_ramp_handler_t, settemp_ramp_handler. er. apply e_state.
Qed.
Lemma e_switch C y b s : erase (menu_button_switch_t C y b s) = menu_button_switch C y b s.
Proof.
  unfold menu_button_switch_t. destruct (n_state (y_menu y)) eqn:E; try apply erase_lift.
  - unfold menu_button_switch. rewrite E, erase_bind, erase_lift. apply bind_ext. intros z. destruct (_ && _); [apply e_state|reflexivity].
  - unfold menu_button_switch. rewrite E. destruct (negb _); [reflexivity|]. destruct (is_pos s); [|reflexivity]. destruct (is_plus b); [apply e_debug|]. destruct (is_minus b); [|reflexivity].
    rewrite erase_bind, e_debug. reflexivity.
Qed.
Lemma e_mbh C y b s : erase (menu_button_handler_t C y b s) = menu_button_handler C y b s.
Proof.
  unfold menu_button_handler_t, menu_button_handler. destruct (is_iron b); [reflexivity|]. rewrite erase_bind, e_switch. apply bind_ext. intros z. cbv zeta.
  destruct (is_neg s); [|reflexivity]. destruct (is_set b); [|reflexivity]. destruct (negb _); [apply e_next|reflexivity].
Qed.
Lemma e_timeouts C y : erase (menu_timeouts_t C y) = menu_timeouts C y.
Proof.
  unfold menu_timeouts_t, menu_timeouts. destruct (n_state (y_menu y)); try reflexivity; (destruct (timer_expired _ _); [|reflexivity]);
    rewrite erase_bind; (apply bind_eq; [|reflexivity]); destruct (mstate_eqb _ _); solve [apply e_state|apply e_next].
Qed.
Lemma e_ramp_step C y u : erase (ramp_step_t C y u) = ramp_step C y u.
Proof. unfold ramp_step_t, ramp_step. er. apply e_handler. Qed.
Lemma e_ramping C y : erase (menu_ramping_t C y) = menu_ramping C y.
Proof. unfold menu_ramping_t, menu_ramping. destruct (n_ramp (y_menu y)); cbv zeta; try reflexivity; try apply e_ramp_step; apply erase_lift. Qed.
Lemma e_menu C y : erase (menu_work_t C y) = menu_work C y.
Proof.
  unfold menu_work_t, menu_work. rewrite erase_bind, e_timeouts. apply bind_ext. intros z. rewrite erase_bind, e_ramping. apply bind_ext. intros z'.
  destruct (n_upd _); [apply erase_lift|reflexivity].
Qed.
Lemma e_call C y b s : erase (call_button_handlers_t C y b s) = call_button_handlers C y b s.
Proof. unfold call_button_handlers_t, call_button_handlers. rewrite erase_bind, e_cth. apply bind_ext. intros z. apply e_mbh. Qed.
Lemma e_calls C l : forall y, erase (run_calls_t C y l) = run_calls C y l.
Proof. induction l as [|(b, s) l IH]; intros y; [reflexivity|]. cbn [run_calls_t run_calls]. rewrite erase_bind, e_call. apply bind_ext. exact IH. Qed.
Lemma e_buttons C y p : erase (buttons_work_t C y p) = buttons_work C y p.
Proof. unfold buttons_work_t, buttons_work. er. apply e_calls. Qed.
Lemma e_menu_init C y p : erase (menu_init_t C y p) = menu_init C y p.
Proof.
  unfold menu_init_t, menu_init. destruct (c_debug C); [|apply e_state]. destruct (button_is_pressed _ _); [|apply e_state].
  rewrite erase_bind, e_debug. apply bind_ext. intros z. apply e_state.
Qed.
Lemma e_boot C ee p : erase (boot_t C ee p) = boot C ee p.
Proof.
  unfold boot_t, boot. cbv zeta. rewrite erase_bind. apply bind_eq.
  { destruct (c_debug C) eqn:E; [|reflexivity]. unfold debug_uart_init_t, debug_uart_init. apply e_debug. }
  intros y1. rewrite erase_bind, erase_lift. apply bind_ext. intros x. rewrite erase_bind, erase_lift. apply bind_ext. intros (h, d).
  rewrite erase_bind, erase_lift. apply bind_ext. intros y2. rewrite erase_bind, erase_lift. apply bind_ext. intros c.
  rewrite erase_bind, e_ct_init. apply bind_ext. intros y3. rewrite erase_bind, e_menu_init. apply bind_ext. intros y4. apply erase_lift.
Qed.
Lemma e_step C y e : erase (step_t C y e) = step C y e.
Proof. destruct e; try apply erase_lift; cbn [step_t step]; [apply e_measure|apply e_menu|apply e_buttons|apply e_boot]. Qed.

(** ** The kinds of calls a function makes *)
Definition calls {A} (P : act -> Prop) (m : W A) : Prop := match m with Some (_, l) => Forall P l | None => True end.
Lemma calls_bind {A B} P (m : W A) (f : A -> W B) : calls P m -> (forall a, calls P (f a)) -> calls P (wbind m f).
Proof. intros H K. destruct m as [(a, l)|]; [|exact I]. specialize (K a). cbn in *. destruct (f a) as [(b, l')|]; [|exact I]. cbn in *. apply Forall_app. auto. Qed.
Lemma calls_lift {A} P (m : option A) : calls P (lift m). Proof. destruct m; [constructor|exact I]. Qed.
Lemma calls_ret {A} P (a : A) : calls P (ret a). Proof. constructor. Qed.
Lemma calls_tell (P : act -> Prop) (a : act) : P a -> calls P (tell a). Proof. intros H. constructor; [exact H|constructor]. Qed.
Lemma calls_imp {A} (P Q : act -> Prop) (m : W A) : (forall a, P a -> Q a) -> calls P m -> calls Q m.
Proof. intros H. destruct m as [(a, l)|]; [|trivial]. cbn. apply Forall_impl. exact H. Qed.
Ltac ca1 := first
  [ match goal with |- calls _ (ret _) => apply calls_ret | |- calls _ (lift _) => apply calls_lift | |- calls _ (tell _) => apply calls_tell; first [exact I | apply s16_range] end
  | match goal with |- calls _ (wbind _ _) => apply calls_bind; [|intros; try match goal with p : (_ * _)%type |- _ => destruct p end] end
  | match goal with |- calls _ (if ?b then _ else _) => destruct b end
  | match goal with |- calls _ (match ?x with _ => _ end) => destruct x end ].
Ltac ca := repeat (cbv zeta; ca1).
(** Reports only; prints only; prints and switching. *)
Definition is_report (a : act) : Prop := match a with AReport _ _ => True | _ => False end.
Definition is_print (a : act) : Prop := match a with APrint Tb v => is_s16 v | _ => False end.
Definition is_uiact (a : act) : Prop := match a with APrint Tb v => is_s16 v | AEnable _ => True | _ => False end.
Lemma print_ui a : is_print a -> is_uiact a. Proof. destruct a as [| |]; trivial. intros []. Qed.

Lemma c_pid k p dt r : calls is_report (pid_run_t k p dt r). Proof. unfold pid_run_t. ca. Qed.
Lemma c_cc_run now c r : calls is_report (contrcurr_run_t now c r). Proof. unfold contrcurr_run_t. ca; try apply c_pid. Qed.
Lemma c_cc_fb now c r : calls is_report (contrcurr_set_feedback_t now c r). Proof. unfold contrcurr_set_feedback_t. ca; try apply c_cc_run. Qed.
Lemma c_run y r : calls is_report (contrtemp_run_t y r). Proof. unfold contrtemp_run_t. ca; try apply c_pid. Qed.
Lemma c_fb y r : calls is_report (contrtemp_set_feedback_t y r). Proof. unfold contrtemp_set_feedback_t. ca; try apply c_run. Qed.
Lemma c_handle C y : calls is_report (measure_handle_result_t C y).
Proof.
  unfold measure_handle_result_t. ca.
  - unfold measure_user_filter_handler_t, meascurr_filter_handler_t. ca.
  - unfold measure_user_result_handler_t. destruct (_ =? _).
    + unfold meastemp_result_handler_t. match goal with p : plaus |- _ => destruct p end; [apply c_fb|apply c_fb|apply calls_ret].
    + unfold meascurr_result_handler_t. ca; try apply c_cc_fb.
Qed.
Lemma c_measure C y : calls is_report (measure_work_t C y). Proof. unfold measure_work_t. ca; try apply c_handle. Qed.
Lemma c_boost_t C y m : calls is_print (contrtemp_set_boost_mode_t C y m). Proof. unfold contrtemp_set_boost_mode_t. ca. Qed.
Lemma c_do_enabled C y b : calls is_print (do_set_enabled_t C y b). Proof. unfold do_set_enabled_t. ca; try apply c_boost_t. Qed.
Lemma c_enabled C y b : calls is_print (contrtemp_set_enabled_t C y b). Proof. unfold contrtemp_set_enabled_t. ca; try apply c_do_enabled. Qed.
Lemma c_cth C y b s : calls is_print (contrtemp_button_handler_t C y b s).
Proof. unfold contrtemp_button_handler_t, button_boost_idle_t, button_boost_t, contrtemp_do_next_boost_mode_t. ca; try apply c_boost_t. Qed.
Lemma c_state C y s : calls is_print (menu_set_state_t C y s).
Proof. unfold menu_set_state_t. ca; try apply c_enabled. Qed.
Lemma c_timeouts C y : calls is_print (menu_timeouts_t C y).
Proof. unfold menu_timeouts_t, menu_set_next_state_t. destruct (n_state (y_menu y)); try apply calls_ret; (destruct (timer_expired _ _); [|apply calls_ret]); apply calls_bind; try (intros; apply calls_ret); destruct (mstate_eqb _ _); apply c_state. Qed.
Lemma c_ramping C y : calls is_print (menu_ramping_t C y).
Proof.
  assert (H : forall u, calls is_print (ramp_step_t C y u)).
  { intros u. unfold ramp_step_t. ca. unfold call_ramp_handler_t, settemp_ramp_handler_t, do_ramp_k_t, contrtemp_update_pid_config_t. apply calls_bind; [apply calls_lift|]. intros g. destruct g; ca; first [apply c_state|apply c_boost_t]. }
  unfold menu_ramping_t. cbv zeta. destruct (n_ramp (y_menu y)); try apply H; try apply calls_ret; apply calls_lift.
Qed.
Lemma c_menu C y : calls is_print (menu_work_t C y).
Proof. unfold menu_work_t. apply calls_bind; [apply c_timeouts|]. intros z. apply calls_bind; [apply c_ramping|]. intros z'. ca. Qed.
Lemma c_debug_t C y b : calls is_uiact (debug_enable_t C y b). Proof. unfold debug_enable_t. ca. Qed.
Lemma c_switch C y b s : calls is_uiact (menu_button_switch_t C y b s).
Proof.
  unfold menu_button_switch_t. destruct (n_state (y_menu y)); try apply calls_lift.
  - apply calls_bind; [apply calls_lift|]. intros z. destruct (_ && _); [|apply calls_ret]. eapply calls_imp; [exact print_ui|apply c_state].
  - destruct (negb _); [apply calls_ret|]. destruct (is_pos s); [|apply calls_ret]. destruct (is_plus b); [apply c_debug_t|]. destruct (is_minus b); [|apply calls_ret].
    apply calls_bind; [apply c_debug_t|]. intros; apply calls_ret.
Qed.
Lemma c_mbh C y b s : calls is_uiact (menu_button_handler_t C y b s).
Proof.
  unfold menu_button_handler_t. destruct (is_iron b); [apply calls_ret|]. apply calls_bind; [apply c_switch|]. intros z. cbv zeta.
  destruct (is_neg s); [|apply calls_ret]. destruct (is_set b); [|apply calls_ret]. destruct (negb _); [|apply calls_ret]. eapply calls_imp; [exact print_ui|apply c_state].
Qed.
Lemma c_call C y b s : calls is_uiact (call_button_handlers_t C y b s).
Proof. unfold call_button_handlers_t. apply calls_bind; [eapply calls_imp; [exact print_ui|apply c_cth]|]. intros; apply c_mbh. Qed.
Lemma c_calls C l : forall y, calls is_uiact (run_calls_t C y l).
Proof. induction l as [|(b, s) l IH]; intros y; [apply calls_ret|]. cbn. apply calls_bind; [apply c_call|exact IH]. Qed.
Lemma c_buttons C y p : calls is_uiact (buttons_work_t C y p).
Proof. unfold buttons_work_t. ca; try apply c_calls. Qed.
Lemma c_boot C ee p : calls is_uiact (boot_t C ee p).
Proof.
  unfold boot_t. cbv zeta. apply calls_bind; [unfold debug_uart_init_t; destruct (c_debug C); [apply c_debug_t|apply calls_ret]|].
  intros y1. apply calls_bind; [apply calls_lift|]. intros x. apply calls_bind; [apply calls_lift|]. intros (h, d).
  apply calls_bind; [apply calls_lift|]. intros y2. apply calls_bind; [apply calls_lift|]. intros c.
  apply calls_bind. { eapply calls_imp; [exact print_ui|]. unfold contrtemp_init_t. ca. apply c_do_enabled. }
  intros y3. apply calls_bind.
  { unfold menu_init_t. destruct (c_debug C); [destruct (button_is_pressed _ _)|].
    - apply calls_bind; [apply c_debug_t|]. intros. eapply calls_imp; [exact print_ui|apply c_state].
    - eapply calls_imp; [exact print_ui|apply c_state].
    - eapply calls_imp; [exact print_ui|apply c_state]. }
  intros y4. apply calls_lift.
Qed.
