(** * The debug flag and the output *)
From Coq Require Import ZArith List Bool Lia.
From Verif Require Import Base PBase MUtil MConf MFixpt MScale MRing MFilter MTimer MPid MTempMap MPwm MCurr MSens MSettings
  SpecSettings MSseg MDisplay MText MState MTemp MMeas MMenu MMain MDebug SpecSys MTele SpecTele PTele PDebug PTele2 PStore PSys PEye.
Import ListNotations.
Open Scope Z_scope.

(** ** Postconditions *)
Definition post {A} (m : W A) (P : A -> list act -> Prop) : Prop := match m with Some (a, l) => P a l | None => True end.
Lemma post_bind {A B} (m : W A) (f : A -> W B) (P : B -> list act -> Prop) :
  post m (fun a l => post (f a) (fun b l' => P b (l ++ l'))) -> post (wbind m f) P.
Proof. destruct m as [(a, l)|]; [|trivial]. cbn. destruct (f a) as [(b, l')|]; trivial. Qed.
Lemma post_lift {A} (m : option A) (P : A -> list act -> Prop) : (forall a, m = Some a -> P a []) -> post (lift m) P.
Proof. destruct m; [|exact (fun _ => I)]. intros H. apply H. reflexivity. Qed.
Lemma post_imp {A} (m : W A) (P Q : A -> list act -> Prop) : post m P -> (forall a l, P a l -> Q a l) -> post m Q.
Proof. destruct m as [(a, l)|]; [|trivial]. cbn. auto. Qed.
Lemma post_tell a (P : unit -> list act -> Prop) : P tt [a] -> post (tell a) P. Proof. trivial. Qed.
Lemma post_ret {A} (a : A) (P : A -> list act -> Prop) : P a [] -> post (ret a) P. Proof. trivial. Qed.
Lemma post_erase {A} (m : W A) o (P : A -> Prop) : erase m = o -> (forall a, o = Some a -> P a) -> post m (fun a _ => P a).
Proof. intros <- H. destruct m as [(a, l)|]; [|exact I]. apply H. reflexivity. Qed.
Lemma post_and {A} (m : W A) (P Q : A -> list act -> Prop) : post m P -> post m Q -> post m (fun a l => P a l /\ Q a l).
Proof. destruct m as [(a, l)|]; [|trivial]. cbn. auto. Qed.
Lemma post_calls {A} (m : W A) P : calls P m -> post m (fun _ l => Forall P l).
Proof. trivial. Qed.

(** ** The flag *)
Definition dk (y : sys) (m : W sys) : Prop := post m (fun y' l => y_dbg y' = fold_left enf l (y_dbg y)).
Lemma enf_prints l en : Forall (fun a => forall b, a <> AEnable b) l -> fold_left enf l en = en.
Proof. induction 1 as [|a l H _ IH]; [reflexivity|]. cbn. destruct a; try exact IH. destruct (H enable eq_refl). Qed.
Definition noen (a : act) : Prop := forall b, a <> AEnable b.
Lemma print_noen a : is_print a -> noen a. Proof. intros H b ->. destruct H. Qed.
Lemma report_noen a : is_report a -> noen a. Proof. intros H b ->. destruct H. Qed.
Lemma dk_noen y m o : calls noen m -> erase m = o -> (forall y', o = Some y' -> dv y' = dv y) -> dk y m.
Proof.
  intros H E K. unfold dk. eapply post_imp; [apply post_and; [exact (post_calls m _ H)|exact (post_erase m o (fun a => dv a = dv y) E K)]|].
  intros y' l (F & D). rewrite (enf_prints l _ F). unfold dv in D. injection D as _ _ _ D. exact D.
Qed.
Lemma dk_bind y m (f : sys -> W sys) : dk y m -> (forall z, dk z (f z)) -> dk y (wbind m f).
Proof.
  intros H K. unfold dk. apply post_bind. eapply post_imp; [exact H|]. intros z l E. eapply post_imp; [apply K|]. intros y' l' E'. rewrite fold_left_app, <- E. exact E'.
Qed.
Lemma dk_same y y' : dv y' = dv y -> dk y (ret y'). Proof. intros D. unfold dv in D. injection D as _ _ _ D. exact D. Qed.
Lemma dk_print y m o : calls is_print m -> erase m = o -> (forall y', o = Some y' -> dv y' = dv y) -> dk y m.
Proof. intros H. apply dk_noen. eapply calls_imp; [exact print_noen|exact H]. Qed.
Lemma dk_state C y s : dk y (menu_set_state_t C y s).
Proof. eapply dk_print; [apply c_state|apply e_state|]. intros y' E. eapply set_state_d; exact E. Qed.
Lemma dk_enable C y b : dk y (debug_enable_t C y b).
Proof.
  unfold debug_enable_t. destruct (c_debug C) eqn:E; [|reflexivity]. unfold dk. apply post_bind, post_tell, post_lift. intros y' K.
  unfold debug_enable in K. rewrite E in K. cbv zeta in K. inv1 K. destruct x as (h, d). inv1 K. reflexivity.
Qed.
Lemma switch_nodebug C y b bs y' : n_state (y_menu y) <> MENU_DEBUG -> menu_button_switch C y b bs = Some y' -> dv y' = dv y.
Proof.
  unfold menu_button_switch. intros N H. destruct (n_state (y_menu y)); try contradiction; clear N.
  all: try (destruct (negb _); [inv1 H; reflexivity|]).
  - inv1 H. match goal with K : start_ramping_button _ _ _ _ _ = Some _ |- _ => apply start_button_d in K; rewrite <- K end.
    destruct (_ && _); [eapply set_state_d; exact H|inv1 H; reflexivity].
  - inv1 H. match goal with K : arm_menu_timeout _ _ = Some _ |- _ => apply arm_d in K; rewrite <- K end. inv1 H. apply start_button_d in H. rewrite H.
    match goal with K : (if is_neg bs then _ else _) = Some _ |- _ => rename K into F end.
    destruct (is_neg bs); [|inv1 F; reflexivity].
    destruct (is_plus b); [|destruct (is_minus b)].
    + unfold presets_next in F. cbv zeta in F. apply presets_store_d in F. rewrite F. reflexivity.
    + unfold presets_prev in F. cbv zeta in F. apply presets_store_d in F. rewrite F. reflexivity.
    + inv1 F. reflexivity.
  - inv1 H. match goal with K : arm_menu_timeout _ _ = Some _ |- _ => apply arm_d in K; rewrite <- K end. apply start_button_d in H. exact H.
  - inv1 H. match goal with K : arm_menu_timeout _ _ = Some _ |- _ => apply arm_d in K; rewrite <- K end. apply start_button_d in H. exact H.
  - inv1 H. reflexivity.
  - eapply start_button_d; exact H.
  - inv1 H. reflexivity.
  - eapply start_button_d; exact H.
  - inv1 H. reflexivity.
  - eapply start_button_d; exact H.
  - inv1 H. reflexivity.
  - eapply start_button_d; exact H.
Qed.
Lemma dk_switch C y b s : dk y (menu_button_switch_t C y b s).
Proof.
  destruct (n_state (y_menu y)) eqn:E.
  5: { unfold menu_button_switch_t. rewrite E. destruct (negb _); [reflexivity|]. destruct (is_pos s); [|reflexivity]. destruct (is_plus b); [apply dk_enable|].
       destruct (is_minus b); [|reflexivity]. apply dk_bind; [apply dk_enable|]. intros z. apply dk_same. reflexivity. }
  all: eapply dk_noen; [|apply e_switch|intros y' H; eapply switch_nodebug; [|exact H]; congruence].
  all: unfold menu_button_switch_t; rewrite E; try apply calls_lift.
  apply calls_bind; [apply calls_lift|]. intros z. destruct (_ && _); [|apply calls_ret]. eapply calls_imp; [exact print_noen|apply c_state].
Qed.
Lemma dk_mbh C y b s : dk y (menu_button_handler_t C y b s).
Proof.
  unfold menu_button_handler_t. destruct (is_iron b); [reflexivity|]. apply dk_bind; [apply dk_switch|]. intros z. cbv zeta.
  assert (D : dv (stop_ramping z) = dv z) by reflexivity.
  destruct (is_neg s); [|reflexivity]. destruct (is_set b); [|apply dk_same; exact D]. destruct (negb _); [|apply dk_same; exact D].
  unfold menu_set_next_state_t. pose proof (dk_state C (stop_ramping z) (next_menu_state C (n_state (y_menu (stop_ramping z))))) as K. exact K.
Qed.
Lemma dk_call C y b s : dk y (call_button_handlers_t C y b s).
Proof.
  unfold call_button_handlers_t. apply dk_bind; [|intros z; apply dk_mbh]. eapply dk_print; [apply c_cth|apply e_cth|]. intros y' H. eapply iron_d; exact H.
Qed.
Lemma dk_calls C l : forall y, dk y (run_calls_t C y l).
Proof. induction l as [|(b, s) l IH]; intros y; [reflexivity|]. cbn. apply dk_bind; [apply dk_call|exact IH]. Qed.
Lemma dk_lift {A} y (m : option A) k : (forall a, m = Some a -> dk y (k a)) -> dk y (wbind (lift m) k).
Proof. intros H. unfold dk. apply post_bind, post_lift. intros a E. exact (H a E). Qed.
Lemma dk_dbg y z m : y_dbg z = y_dbg y -> dk z m -> dk y m.
Proof. unfold dk. intros ->. trivial. Qed.
Lemma dk_eq y z m : dv z = dv y -> dk z m -> dk y m.
Proof. unfold dk, dv. intros D. injection D as _ _ _ ->. trivial. Qed.
Lemma dk_buttons C y p : dk y (buttons_work_t C y p).
Proof.
  unfold buttons_work_t. cbv zeta. destruct (negb _); [reflexivity|]. apply dk_lift. intros t _. eapply dk_eq; [|apply dk_calls]. reflexivity.
Qed.
Lemma dk_menu C y : dk y (menu_work_t C y).
Proof.
  unfold dk. eapply post_imp; [apply post_and; [exact (post_calls _ _ (c_menu C y))|exact (post_erase _ _ (fun a => rv a = rv y) (e_menu C y) (fun y' H => menu_r C y y' H))]|].
  intros y' l (F & D). rewrite enf_prints by (revert F; apply Forall_impl; exact print_noen). unfold rv in D. injection D as _ _ _ _ _ D. exact D.
Qed.
Lemma dk_measure C y : dk y (measure_work_t C y).
Proof. eapply dk_noen; [eapply calls_imp; [exact report_noen|apply c_measure]|apply e_measure|]. intros y' H. eapply measure_d; exact H. Qed.
Lemma dk_boot C ee p : dk (sys_reset ee) (boot_t C ee p).
Proof.
  unfold boot_t. cbv zeta. apply dk_bind. { destruct (c_debug C); [|exact (eq_refl : y_dbg (buttons_init (sys_reset ee)) = y_dbg (sys_reset ee))]. unfold debug_uart_init_t. match goal with |- dk ?y (debug_enable_t C ?z false) => exact (dk_enable C z false) end. }
  intros y1. apply dk_lift. intros x _. apply dk_lift. intros (h, d) _. apply dk_lift. intros y2 E2. apply dk_lift. intros c _.
  assert (D2 : y_dbg y2 = y_dbg y1).
  { unfold meastemp_init, measure_adjust_set in E2. destruct (c_adj C); cbv zeta in E2; repeat inv1 E2; reflexivity. }
  apply dk_bind.
  { apply dk_dbg with (z := set_y_cc y2 c); [exact D2|]. eapply dk_noen; [|apply e_ct_init|].
    - eapply calls_imp; [exact print_noen|]. unfold contrtemp_init_t. ca. apply c_do_enabled.
    - intros y' H. unfold contrtemp_init in H. inv1 H. cbv zeta in H. inv1 H. inv1 H. inv1 H.
      match goal with K : do_set_enabled _ _ _ = Some _ |- _ => rename K into F end. unfold do_set_enabled in F. cbv zeta in F. inv1 F. inv1 F.
      match goal with K : contrtemp_set_boost_mode _ _ _ = Some _ |- _ => apply set_boost_d in K end. unfold do_set_emerg. dfin. }
  intros y3. cbv zeta. apply dk_bind.
  { unfold menu_init_t. assert (X : forall s, dk y3 (menu_set_state_t C (sys_pwmcurr_init y3) s)) by (intros s; exact (dk_state C (sys_pwmcurr_init y3) s)).
    destruct (c_debug C); [|apply X]. destruct (button_is_pressed _ _); [|apply X]. apply (dk_bind y3 _ _ (dk_enable C (sys_pwmcurr_init y3) true)). intros z. apply dk_state. }
  intros y4. unfold dk. apply post_lift. intros y' H. unfold measure_start in H. apply trigger_d in H. unfold dv in H. injection H as _ _ _ H. exact H.
Qed.
