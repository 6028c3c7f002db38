(** * Proofs of the properties of the debug output: how much is sent *)
From Coq Require Import ZArith List Bool Lia.
From Verif Require Import Base PBase MUtil MConf MFixpt MScale MRing MFilter MTimer MPid MTempMap MPwm MCurr MSens MSettings
  SpecSettings MSseg MDisplay MText MState MTemp MMeas MMenu MMain MDebug SpecSys SpecRun PDebug MTele SpecTele PNum PScale PSmall PCurr
  PTele PTele2 PTele3 PTele4 PStore PSysSet PSys PSysMeas PSysCC PSysRun PSysSafe PControl PMem PTele5 PTele6 PSysLog.
Import ListNotations.
Open Scope Z_scope.

Definition cost {A} (n : nat) (m : W A) : Prop := post m (fun _ l => (total l <= n)%nat).
Lemma total_app a b : total (a ++ b) = (total a + total b)%nat.
Proof. unfold total. rewrite map_app, list_sum_app. reflexivity. Qed.
Lemma cost_bind {A B} a n (m : W A) (f : A -> W B) : cost a m -> (a <= n)%nat -> (forall x, cost (n - a) (f x)) -> cost n (wbind m f).
Proof.
  intros H L K. apply post_bind. eapply post_imp; [exact H|]. intros x l Hl. eapply post_imp; [apply K|]. intros z l' Hl'. rewrite total_app. cbv beta in *. lia.
Qed.
Lemma cost_le {A} a n (m : W A) : cost a m -> (a <= n)%nat -> cost n m.
Proof. intros H L. eapply post_imp; [exact H|]. cbv beta. intros. lia. Qed.
Lemma cost_ret {A} n (x : A) : cost n (ret x). Proof. apply post_ret. cbn. lia. Qed.
Lemma cost_lift {A} n (o : option A) : cost n (lift o). Proof. apply post_lift. intros. cbn. lia. Qed.
Lemma cost_lift_bind {A B} n (o : option A) (f : A -> W B) : (forall x, cost n (f x)) -> cost n (wbind (lift o) f).
Proof. intros H. eapply cost_bind; [apply (cost_lift O)|lia|]. rewrite Nat.sub_0_r. exact H. Qed.
Lemma cost_ret_bind {A B} n (a : A) (f : A -> W B) : (forall x, cost n (f x)) -> cost n (wbind (ret a) f).
Proof. intros H. eapply cost_bind; [apply (cost_ret O)|lia|]. rewrite Nat.sub_0_r. exact H. Qed.
Lemma cost_tell_bind {B} n a (f : unit -> W B) : (weight a <= n)%nat -> (forall x, cost (n - weight a) (f x)) -> cost n (wbind (tell a) f).
Proof. intros L H. eapply cost_bind; [|exact L|exact H]. apply post_tell. unfold total. cbn. lia. Qed.
Ltac lk := lia || (match goal with |- (weight (AReport (CItem ?i) _) <= _)%nat => change (20 <= weight (AReport (CItem i) 0) + 1000)%nat; cbn; lia end).
Ltac co1 := first
  [ apply cost_ret | apply cost_lift
  | apply cost_lift_bind; intros; try match goal with p : (_ * _)%type |- _ => destruct p end
  | apply cost_ret_bind; intros; try match goal with p : (_ * _)%type |- _ => destruct p end
  | apply cost_tell_bind; [cbn [weight width]; lia|intros _; cbn [weight width Nat.sub]]
  | match goal with |- cost _ (if ?b then _ else _) => destruct b end ].
Ltac co := repeat (cbv zeta; co1).
Ltac cl H := eapply cost_le; [apply H|lia].

Lemma k_pid k p dt r : cost 125 (pid_run_t k p dt r). Proof. unfold pid_run_t. co. Qed.
Lemma k_cc_run now c r : cost 185 (contrcurr_run_t now c r).
Proof. unfold contrcurr_run_t. co. eapply cost_bind; [apply k_pid|lia|]. intros (p', v). cbn [Nat.sub]. co. Qed.
Lemma k_cc_fb now c r : cost 205 (contrcurr_set_feedback_t now c r).
Proof.
  unfold contrcurr_set_feedback_t. eapply (cost_bind 20); [|lia|intros x; apply k_cc_run]. co.
Qed.
Lemma k_run y r : cost 165 (contrtemp_run_t y r).
Proof. unfold contrtemp_run_t. co. eapply cost_bind; [apply k_pid|lia|]. intros (p, v). cbn [Nat.sub]. co. destruct (_ <? _); co. Qed.
Lemma k_fb y r : cost 185 (contrtemp_set_feedback_t y r).
Proof. unfold contrtemp_set_feedback_t. eapply (cost_bind 20); [|lia|intros x; apply k_run]. co. Qed.
Lemma k_handle C y : cost 245 (measure_handle_result_t C y).
Proof.
  unfold measure_handle_result_t. co. eapply (cost_bind 20); [|lia|].
  - unfold measure_user_filter_handler_t, meascurr_filter_handler_t. co. destruct (meascurr_filter_handler _ _). co.
  - intros (y1, r1). cbn [Nat.sub]. co. destruct p. unfold measure_user_result_handler_t. destruct (_ =? _).
    + unfold meastemp_result_handler_t. destruct p0; co; cl k_fb.
    + unfold meascurr_result_handler_t. co. eapply (cost_bind 205); [|lia|intros (c', u'); apply cost_ret].
      destruct p0; co; (eapply cost_bind; [apply k_cc_fb|lia|intros; apply cost_ret]).
Qed.
Lemma k_measure C y : cost 245 (measure_work_t C y).
Proof. unfold measure_work_t. co. eapply cost_bind; [apply k_handle|lia|]. intros; apply cost_lift. Qed.
Lemma k_boost C y m : cost 20 (contrtemp_set_boost_mode_t C y m).
Proof. unfold contrtemp_set_boost_mode_t. co. eapply (cost_bind 20); [|lia|intros; apply cost_ret]. co. Qed.
Local Opaque contrtemp_set_boost_mode_t.
Lemma k_do_enabled C y b : cost 20 (do_set_enabled_t C y b).
Proof. unfold do_set_enabled_t. cbv zeta. eapply cost_bind; [apply k_boost|lia|]. intros; apply cost_ret. Qed.
Lemma k_enabled C y b : cost 20 (contrtemp_set_enabled_t C y b). Proof. unfold contrtemp_set_enabled_t. co. apply k_do_enabled. Qed.
Lemma k_cth C y b s : cost (if is_iron b then 20 else 0) (contrtemp_button_handler_t C y b s).
Proof.
  unfold contrtemp_button_handler_t, button_boost_idle_t, button_boost_t, contrtemp_do_next_boost_mode_t. cbv zeta.
  destruct (is_iron b); cbn [negb]; co; try (unfold button_idle; apply cost_lift); try apply k_boost.
  all: eapply cost_bind; [apply k_boost|lia|]; intros; apply cost_ret.
Qed.
Lemma k_state C y s : cost 20 (menu_set_state_t C y s).
Proof.
  unfold menu_set_state_t. co. eapply (cost_bind 20); [|lia|intros; apply cost_ret]. destruct s; co; apply k_enabled.
Qed.
Lemma k_timeouts C y : cost 20 (menu_timeouts_t C y).
Proof.
  unfold menu_timeouts_t, menu_set_next_state_t. destruct (n_state (y_menu y)); try apply cost_ret; (destruct (timer_expired _ _); [|apply cost_ret]);
    (eapply (cost_bind 20); [|lia|intros; apply cost_ret]); destruct (mstate_eqb _ _); apply k_state.
Qed.
Lemma k_ramping C y : cost 20 (menu_ramping_t C y).
Proof.
  assert (H : forall u, cost 20 (ramp_step_t C y u)).
  { intros u. unfold ramp_step_t. co. eapply (cost_bind 20); [|lia|].
    - unfold call_ramp_handler_t, settemp_ramp_handler_t, do_ramp_k_t, contrtemp_update_pid_config_t. apply cost_lift_bind. intros g. destruct g; co; first [apply k_state|apply k_boost].
    - intros x. cbn [Nat.sub]. co. }
  unfold menu_ramping_t. cbv zeta. destruct (n_ramp (y_menu y)); try apply H; try apply cost_ret; apply cost_lift.
Qed.
Lemma k_menu C y : cost 40 (menu_work_t C y).
Proof. unfold menu_work_t. eapply cost_bind; [apply k_timeouts|lia|]. intros z. eapply cost_bind; [apply k_ramping|lia|]. intros z'. co. Qed.
Lemma k_debug C y b : cost 6 (debug_enable_t C y b). Proof. unfold debug_enable_t. co. Qed.
Lemma k_switch C y b s : cost 20 (menu_button_switch_t C y b s).
Proof.
  unfold menu_button_switch_t. destruct (n_state (y_menu y)); try apply cost_lift.
  - co. apply k_state.
  - co; try (cl k_debug). eapply cost_bind; [apply k_debug|lia|]. intros; apply cost_ret.
Qed.
Lemma k_mbh C y b s : cost (if is_iron b then 0 else 40) (menu_button_handler_t C y b s).
Proof.
  unfold menu_button_handler_t. destruct (is_iron b); [apply cost_ret|]. eapply cost_bind; [apply k_switch|lia|]. intros z. cbn [Nat.sub]. co. apply k_state.
Qed.
Lemma k_call C y b s : cost 40 (call_button_handlers_t C y b s).
Proof.
  unfold call_button_handlers_t. pose proof (k_cth C y b s) as H1. pose proof (fun z => k_mbh C z b s) as H2. destruct (is_iron b).
  - eapply cost_bind; [exact H1|lia|]. intros z. eapply cost_le; [apply H2|lia].
  - eapply cost_bind; [exact H1|lia|]. intros z. eapply cost_le; [apply H2|lia].
Qed.
Lemma k_calls C l : forall y, cost (40 * length l) (run_calls_t C y l).
Proof.
  induction l as [|(b, s) l IH]; intros y; [apply cost_ret|]. cbn [run_calls_t length]. eapply cost_bind; [apply k_call|lia|]. intros z. eapply cost_le; [apply IH|lia].
Qed.
Lemma k_buttons C y p : cost 320 (buttons_work_t C y p).
Proof.
  unfold buttons_work_t. co. eapply cost_le; [apply k_calls|].
  assert (L : forall st pe ne b, (length (button_calls st pe ne b) <= 2)%nat).
  { intros. unfold button_calls. rewrite app_length. repeat match goal with |- context [if ?b then _ else _] => destruct b end; cbn; lia. }
  unfold sample_calls. cbv zeta. cbn [flat_map]. rewrite !app_length. cbn [length].
  match goal with |- (40 * (?a + (?b + (?c + (?d + 0)))) <= _)%nat => assert (a <= 2 /\ b <= 2 /\ c <= 2 /\ d <= 2)%nat by (repeat split; apply L); lia end.
Qed.
Lemma k_boot C ee p : cost 52 (boot_t C ee p).
Proof.
  unfold boot_t. cbv zeta. eapply (cost_bind 6); [unfold debug_uart_init_t; destruct (c_debug C); [apply k_debug|apply cost_ret]|lia|].
  intros y1. cbn [Nat.sub]. co. destruct x0. eapply (cost_bind 20); [|lia|].
  - unfold contrtemp_init_t. co. eapply cost_bind; [apply k_do_enabled|lia|]. intros; apply cost_ret.
  - intros y2. cbn [Nat.sub]. cbv zeta. eapply (cost_bind 26); [|lia|intros; apply cost_lift].
    unfold menu_init_t. co; try (cl k_state). eapply cost_bind; [apply k_debug|lia|]. intros; cl k_state.
Qed.
(** ** Bytes sent by an event *)
Lemma event_cost C y e : cost (bytes e) (step_t C y e).
Proof. destruct e; cbn [step_t bytes]; first [apply cost_lift|apply k_measure|apply k_menu|apply k_buttons|apply k_boot]. Qed.

(** ** The statements *)
Lemma tlog_reach C y f b g : build_conf C -> tlog C y f b g -> reach C y.
Proof. intros HC H. apply (tlog_inv C y f b g HC H). Qed.
Lemma tele_runs C y : build_conf C -> reach C y -> exists f b g, tlog C y f b g.
Proof.
  intros HC. induction 1 as [pinb y Hp E|y e y' R (f & b & g & T) O E].
  - destruct (tboot_eq C _ _ _ E) as (l & _ & _ & _ & X). destruct (c_debug C) eqn:Cd; [destruct X as (s & _ & _ & X)|]; eexists _, _, _; eapply tl_boot; eassumption.
  - destruct (tstep_eq C y f e HC R O) as (z & l & Ez & _ & _ & _ & X). rewrite E in Ez. apply Some_inj in Ez. subst z. cbv zeta in X.
    destruct (c_debug C) eqn:Cd; [destruct X as (s & _ & _ & X)|]; eexists _, _, _; eapply tl_step; eassumption.
Qed.
Lemma tele_transparent C y f b g e : build_conf C -> tlog C y f b g -> ev_ok C y e -> exists y' f' s, tstep C y f e = Some (y', f', s) /\ step C y e = Some y'.
Proof.
  intros HC T O. destruct (tstep_eq C y f e HC (tlog_reach _ _ _ _ _ HC T) O) as (z & l & Ez & _ & _ & _ & X). cbv zeta in X.
  destruct (c_debug C); [destruct X as (s & _ & _ & X)|]; eexists _, _, _; split; eassumption.
Qed.
Lemma perform_silent now l : Forall rngv l -> forall f en' f' s, perform now false f l = Some (en', f', s) -> s = [] \/ exists r, s = greeting :: r.
Proof.
  induction 1 as [|a l R _ IH]; intros f en' f' s E; [cbn in E; left; congruence|].
  destruct (perform1_ok now false f a R) as (s1 & E1 & _ & Q & _). cbn [perform] in E. rewrite E1 in E. cbn [bind] in E.
  apply bind_inv in E. destruct E as (((e2, f2), s2) & E2 & E). apply Some_inj in E. injection E as _ _ <-.
  destruct a as [c v|i v|[]].
  1-2: rewrite (Q eq_refl ltac:(discriminate)); exact (IH _ _ _ _ E2).
  - right. exists s2. cbn in E1. apply Some_inj in E1. injection E1 as <-. reflexivity.
  - cbn in E1. apply Some_inj in E1. injection E1 as <-. exact (IH _ _ _ _ E2).
Qed.
Lemma tele_silent C y f b g e y' f' s : build_conf C -> tlog C y f b g -> ev_ok C y e -> tstep C y f e = Some (y', f', s) -> s <> [] ->
  c_debug C = true /\ (y_dbg y = true /\ is_power e = false \/ exists r, s = greeting :: r).
Proof.
  intros HC T O E N. destruct (tstep_eq C y f e HC (tlog_reach _ _ _ _ _ HC T) O) as (z & l & Ez & _ & Rn & _ & X). cbv zeta in X.
  destruct (c_debug C). 2: { rewrite X in E. apply Some_inj in E. injection E as _ _ <-. contradiction. }
  split; [reflexivity|]. destruct X as (s' & Ep & _ & X). rewrite X in E. apply Some_inj in E. injection E as <- <- <-.
  destruct (is_power e). { right. destruct (perform_silent _ _ Rn _ _ _ _ Ep); [contradiction|assumption]. }
  destruct (y_dbg y) eqn:D; [left; split; reflexivity|]. right. destruct (perform_silent _ _ Rn _ _ _ _ Ep); [contradiction|assumption].
Qed.
Lemma tele_shown C y f b g n i : build_conf C -> tlog C y f b g -> y_dbg y = true -> i <> Tb -> seen n b g i (f (CItem i)).
Proof.
  intros HC T D N. destruct (tlog_inv C y f b g HC T) as (_ & _ & S). destruct (S n D) as (_ & S'). exact (S' i N).
Qed.
Lemma tele_controllers C y f b g n : build_conf C -> tlog C y f b g -> y_dbg y = true ->
  seen n b g Tr (t_feedback (y_ct y)) /\ seen n b g Cr1 (cc_feedback (y_cc y)) /\ seen n b g Cy (cc_prev_y (y_cc y)) /\
  (seen n b g Rs (rstate_num (cc_rstate (y_cc y))) \/ seen n b g Rs 0 /\ cc_rstate (y_cc y) = REnabled).
Proof.
  intros HC T D. pose proof (fun i => tele_shown C y f b g n i HC T D) as S. destruct (tlog_inv C y f b g HC T) as (R & M & _).
  assert (Cd : c_debug C = true) by (destruct (c_debug C) eqn:Q; [reflexivity|rewrite (not_debug C y HC R Q) in D; discriminate D]).
  destruct (M Cd) as (M1 & M2 & M3 & _ & _ & M4). rewrite <- M1, <- M2, <- M3. repeat (split; [apply S; discriminate|]).
  destruct M4 as [M4|(M4 & M5)]; [left; rewrite <- M4|right; split; [rewrite <- M4|exact M5]]; apply S; discriminate.
Qed.
Lemma tele_measured C y f b g y' f' s : build_conf C -> c_debug C = true -> tlog C y f b g -> m_avail (y_meas y) = true -> tstep C y f EMeasure = Some (y', f', s) ->
  f' (CItem (chan_item (m_chan (y_meas y)))) = mean_code y /\
  (m_chan (y_meas y) = 0 -> forall T fo h, curr_log C y T fo h -> f' (CItem Fc) = lp_code fo (mean_code y)) /\
  (m_chan (y_meas y) = 1 -> t_enabled (y_ct y) = true -> t_emerg (y_ct y') = false ->
     f' (CItem Ty2) = p_setpoint (cc_pid (y_cc y')) /\ 0 <= f' (CItem Ty1) <= 30720).
Proof.
  intros HC Cd T A E. pose proof (tlog_reach _ _ _ _ _ HC T) as R. destruct (tstep_eq C y f EMeasure HC R Logic.I) as (z & l & Ez & Et & Rn & _ & X). cbv zeta in X.
  rewrite Cd in X. destruct X as (s' & _ & _ & X). rewrite X in E. apply Some_inj in E. injection E as <- <- <-. cbn [is_power].
  pose proof (post_both _ _ _ _ (p_measure relaxed C y bok_relaxed (reach_s4 C y HC R)) Et) as (_ & _ & _ & P). destruct (P A) as (P1 & P2 & P3).
  split; [apply P1|]. split.
  - intros Ch T0 fo h L. rewrite (P2 Ch). destruct (curr_log_inv C y T0 fo h HC L) as (_ & _ & _ & F & _).
    refine (proj1 (PSysLog.lp_step (y_mc y) (mean_code y) fo _ F y eq_refl)). pose proof (reach_s4 C y HC R) as [Iy _ Hh _]. destruct (average_ok C (y_meas y) _ (i_meas _ _ _ Iy) (proj2 Hh A)) as (raw & _ & Em & Hr).
    unfold mean_code. rewrite <- Em. exact Hr.
  - intros Ch En Em. destruct (P3 Ch En Em f) as (K1 & K2 & _). split; assumption.
Qed.
Lemma tele_bytes C y f b g e y' f' s : build_conf C -> tlog C y f b g -> ev_ok C y e -> tstep C y f e = Some (y', f', s) ->
  (length (concat s) <= bytes e)%nat /\ Forall (fun x => x = greeting \/ (9 <= length x <= 25)%nat) s.
Proof.
  intros HC T O E. destruct (tstep_eq C y f e HC (tlog_reach _ _ _ _ _ HC T) O) as (z & l & Ez & Et & Rn & _ & X). cbv zeta in X.
  destruct (c_debug C). 2: { rewrite X in E. apply Some_inj in E. injection E as _ _ <-. split; [cbn; lia|constructor]. }
  destruct X as (s' & _ & (G1 & G2) & X). rewrite X in E. apply Some_inj in E. injection E as <- <- <-. split; [|exact G2].
  pose proof (post_both _ _ _ _ (event_cost C y e) Et). cbv beta in *. lia.
Qed.
Lemma tele_executions C y : build_conf C -> (reach C y <-> exists f b g, tlog C y f b g).
Proof. intros HC. split; [apply tele_runs; exact HC|]. intros (f & b & g & T). exact (tlog_reach C y f b g HC T). Qed.
