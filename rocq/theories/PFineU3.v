(** * The user interface with interrupts inside the work functions, part 3: what stays *)
From Coq Require Import ZArith List Bool Lia ZifyBool.
From Verif Require Import Base PBase MConf MUtil MFixpt MScale MRing MFilter MTimer MPid MPwm MTempMap MCurr MSens
  SpecNum SpecPid SpecSmall PNum PSmall PScale PPid SpecCurr PCurr MSettings SpecSettings PSettings PSysSet
  MSseg MDisplay MText MState MTemp MMeas MMenu MMain SpecDisplay PDisplay SpecSys SpecRun SpecUI PSys PSysMeas PSysMenu PSysDisp PSysBtn PSysStep PSysRun
  PSysCC PSysSafe MFine SpecFine SpecFineLive SpecFineUI PFine PFine2 PFine3 PFine4 PSysUI PSysUI2 PFineU PFineU2.
Import ListNotations.
Open Scope Z_scope.
Ltac Zify.zify_post_hook ::= Z.div_mod_to_equations.

(** The part of the state that the automaton sees, without clock and settings *)
Definition vis (y : sys) := (n_state (y_menu y), n_timeout (y_menu y), n_err (y_menu y), ramp_fields (y_menu y), y_dbg y, y_btn y,
  (t_bilet (y_ct y), t_bitimer (y_ct y), t_idle (y_ct y), t_boost (y_ct y))).
(** With the settings *)
Definition visc (y : sys) := (vis y, x_cache (y_set y)).
Lemma vis_rel C y u y' k c : ui_rel C y u -> vis y' = vis y -> 0 <= k -> y_now y' = u16 (y_now y + k) ->
  same_settings (x_cache (y_set y')) c -> ui_rel C y' (set_u_cfg (ui_wait k u) c).
Proof.
  intros [Q1 Q2 Q3 Q4 Q5 Q6 Q7 Q8 Q9 Q10 Q11 Q12] V Hk En Hc. unfold vis in V. injection V as V1 V2 V3 V4 V5 V6 V7 V8 V9 V10 V11 V12 V13 V14.
  constructor; uf; try congruence; try assumption.
  - destruct Q8 as (T & Tn). split; [lia|]. rewrite En, Tn, u16_shift. reflexivity.
  - destruct Q9 as (X1 & X2 & X3 & X4). rewrite V10. split; [exact X1|]. split; [lia|]. auto.
  - destruct Q10 as (X1 & X2). split; [lia|]. intros d Hd. rewrite V2, (X2 d Hd). f_equal. lia.
  - apply ramp_wait; [exact Hk|]. eapply ramp_rel_fields; [|exact Q11]. unfold ramp_fields. congruence.
  - apply iron_wait; [exact Hk|]. unfold iron_rel in *. destruct (u_iron u); rewrite V11, ?V12; auto.
Qed.
Lemma visc_rel C y u y' k : ui_rel C y u -> visc y' = visc y -> 0 <= k -> y_now y' = u16 (y_now y + k) -> ui_rel C y' (ui_wait k u).
Proof.
  intros R V Hk En. pose proof (f_equal snd V) as Vc. apply (f_equal fst) in V. cbn [visc fst snd] in V, Vc. assert (X := vis_rel C y u y' k (u_cfg u) R).
  replace (set_u_cfg (ui_wait k u) (u_cfg u)) with (ui_wait k u) in X by (destruct u; reflexivity).
  apply X; [exact V|exact Hk|exact En|]. rewrite Vc. apply R.
Qed.

Section Stays.
Variables (X : Type) (p : sys -> X).
Definition sl {A} (g : A -> sys) (m : F A) (y : sys) : Prop := is_u16 (y_now y) -> forall o a o', m o = Some (a, o') ->
  exists k, 0 <= k /\ ticks_in o = k + ticks_in o' /\ y_now (g a) = u16 (y_now y + k) /\ is_u16 (y_now (g a)) /\ p (g a) = p y.
Local Notation slid := (sl (fun a : sys => a)).
Definition same (a y : sys) : Prop := y_now a = y_now y /\ p a = p y.
Lemma u16_0 n : is_u16 n -> n = u16 (n + 0).
Proof. intros H. unfold is_u16 in H. rewrite u16_id; lia. Qed.
Lemma sl_ret {A} (g : A -> sys) a y : same (g a) y -> sl g (ret a) y.
Proof.
  intros (H1 & H2) N o b o' E. unfold ret in E. injection E as <- <-. exists 0. rewrite H1, H2. split; [lia|]. split; [lia|]. split; [apply u16_0; exact N|]. split; [exact N|reflexivity].
Qed.
Lemma sl_lift {A} (g : A -> sys) m y : (forall a, m = Some a -> same (g a) y) -> sl g (lift m) y.
Proof.
  intros H N o b o' E. unfold lift in E. destruct m as [a|]; [|discriminate E]. cbn [bind] in E. injection E as <- <-. destruct (H a eq_refl) as (H1 & H2).
  exists 0. rewrite H1, H2. split; [lia|]. split; [lia|]. split; [apply u16_0; exact N|]. split; [exact N|reflexivity].
Qed.
Lemma sl_bind {A D} (g : A -> sys) (h : D -> sys) (m : F A) f y : sl g m y -> (forall a, sl h (f a) (g a)) -> sl h (fbind m f) y.
Proof.
  intros H K N o b o' E. unfold fbind in E. destruct (m o) as [[a o1]|] eqn:E1; [|discriminate E].
  destruct (H N _ _ _ E1) as (k & K1 & K2 & K3 & K4 & K5). destruct (K a K4 _ _ _ E) as (j & J1 & J2 & J3 & J4 & J5).
  exists (k + j). split; [lia|]. split; [lia|]. split; [rewrite J3, K3, u16_shift, Z.add_assoc; reflexivity|]. split; [exact J4|congruence].
Qed.
Lemma sl_val {A D} (h : D -> sys) (m : option A) f y : (forall a, m = Some a -> sl h (f a) y) -> sl h (fbind (lift m) f) y.
Proof. intros H N o b o' E. unfold fbind, lift in E. destruct m as [a|]; [|discriminate E]. cbn [bind] in E. exact (H a eq_refl N _ _ _ E). Qed.
Lemma sl_eq {D} (h : D -> sys) m y z : sl h m z -> same z y -> sl h m y.
Proof. intros H (H1 & H2) N o y' o' E. rewrite <- H1 in N. destruct (H N _ _ _ E) as (k & K). exists k. rewrite <- H1, <- H2. exact K. Qed.
Lemma sl_bd N {A} (g : A -> sys) m y : is_u16 (y_now y) -> sl g m y ->
  bd N m (fun a N' => exists k, 0 <= k /\ N' = N - k /\ y_now (g a) = u16 (y_now y + k) /\ p (g a) = p y).
Proof.
  intros U H o a o' L E. destruct (H U o a o' E) as (k & K1 & K2 & K3 & K4 & K5). exists k. split; [exact K1|]. split; [exact K2|]. exists k. auto.
Qed.
Variable C : conf.
Hypothesis Hp : forall y i y', fire C y i = Some y' -> p y' = p y.
Lemma fires_sl l : forall y y', is_u16 (y_now y) -> fires C y l = Some y' -> y_now y' = u16 (y_now y + tl l) /\ is_u16 (y_now y') /\ p y' = p y.
Proof.
  induction l as [|i l IH]; intros y y' N E; cbn [fires] in E.
  - apply Some_inj in E. subst. change (tl []) with 0. split; [apply u16_0; exact N|]. split; [exact N|reflexivity].
  - apply bind_inv in E. destruct E as (y1 & E1 & E2). pose proof (fire_now C _ _ _ N E1) as N1.
    assert (N2 : is_u16 (y_now y1)) by (rewrite N1; unfold is_u16, u16; lia). destruct (IH _ _ N2 E2) as (A1 & A2 & A3).
    split; [rewrite A1, N1, u16_shift; f_equal; unfold tl; cbn [filter]; destruct (is_tick i); cbn [length]; lia|]. split; [exact A2|]. rewrite A3. exact (Hp _ _ _ E1).
Qed.
Lemma sl_pt z y : same z y -> slid (pt C z) y.
Proof.
  intros (H1 & H2) N o y' o' E. unfold pt in E. destruct o as [|l o1].
  - injection E as <- <-. exists 0. rewrite H1, H2. split; [lia|]. split; [lia|]. split; [apply u16_0; exact N|]. split; [exact N|reflexivity].
  - apply bind_inv in E. destruct E as (y1 & E1 & E2). injection E2 as <- <-. rewrite <- H1 in N. destruct (fires_sl _ _ _ N E1) as (A1 & A2 & A3).
    exists (tl l). rewrite ticks_cons, <- H1, <- H2. pose proof (tl_nonneg l). split; [lia|]. split; [lia|]. auto.
Qed.
End Stays.

Lemma vis_fire C y i y' : fire C y i = Some y' -> vis y' = vis y.
Proof.
  unfold fire. destruct (ev_okb C y (irq_event i)); [|intros E; apply Some_inj in E; subst; reflexivity]. destruct i as [|raw| |]; cbn [irq_event step].
  - intros E. apply Some_inj in E. subst y'. reflexivity.
  - intros E. apply Some_inj in E. subst y'. destruct (m_adc _); reflexivity.
  - destruct (x_eerie (y_set y)); [|intros E; apply Some_inj in E; subst; reflexivity].
    destruct (x_busy (y_set y)); [intros E; apply Some_inj in E; subst; reflexivity|].
    destruct (ee_ready_isr C (y_set y)) as [x|]; [|discriminate]. cbn [bind]. intros E. apply Some_inj in E. subst. reflexivity.
  - intros E. apply Some_inj in E. subst. reflexivity.
Qed.
Lemma ready_cache C x x' : ee_ready_isr C x = Some x' -> x_cache x' = x_cache x.
Proof.
  unfold ee_ready_isr. cbv zeta. destruct (_ && _); [|discriminate]. intros E. apply bind_inv in E. destruct E as (d & _ & E). apply Some_inj in E. subst x'.
  destruct (_ =? _), (_ <=? _); reflexivity.
Qed.
Lemma visc_fire C y i y' : fire C y i = Some y' -> visc y' = visc y.
Proof.
  intros E. unfold visc. rewrite (vis_fire C y i y' E). f_equal. revert E.
  unfold fire. destruct (ev_okb C y (irq_event i)); [|intros E; apply Some_inj in E; subst; reflexivity]. destruct i as [|raw| |]; cbn [irq_event step].
  - intros E. apply Some_inj in E. subst y'. reflexivity.
  - intros E. apply Some_inj in E. subst y'. destruct (m_adc _); reflexivity.
  - destruct (x_eerie (y_set y)); [|intros E; apply Some_inj in E; subst; reflexivity].
    destruct (x_busy (y_set y)); [intros E; apply Some_inj in E; subst; reflexivity|].
    destruct (ee_ready_isr C (y_set y)) as [x|] eqn:Er; [|discriminate]. cbn [bind]. intros E. apply Some_inj in E. subst. cbn. exact (ready_cache _ _ _ Er).
  - intros E. apply Some_inj in E. subst. cbn. unfold ee_prog_done. destruct (x_busy (y_set y)) as [[? ?]|]; reflexivity.
Qed.

(** ** The functions that change the settings *)
Section Settings.
Variable C : conf.
Local Notation same := (same _ vis).
Local Notation slid := (sl _ vis (fun a : sys => a)).
Lemma store_same y y' : sys_store y = Some y' -> same y' y.
Proof. unfold sys_store. intros E. apply bind_inv in E. destruct E as (x & _ & E). apply Some_inj in E. subst. split; reflexivity. Qed.
Lemma setpoint_same y y' : contrtemp_update_setpoint C y = Some y' -> same y' y.
Proof. unfold contrtemp_update_setpoint. intros E. apply bind_inv in E. destruct E as (x & _ & E). cbv zeta in E. apply Some_inj in E. subst. split; reflexivity. Qed.
Lemma config_same y y' : contrtemp_update_pid_config C y = Some y' -> same y' y.
Proof.
  unfold contrtemp_update_pid_config, contrtemp_set_boost_mode, contrtemp_get_boost_mode. intros E. apply bind_inv in E. destruct E as (k & _ & E).
  cbv zeta in E. apply Some_inj in E. subst. destruct (c_boost C); split; reflexivity.
Qed.
Lemma adjust_same y id a y' : measure_adjust_set C y id a = Some y' -> same y' y.
Proof.
  unfold measure_adjust_set. destruct (c_adj C); [|intros E; apply Some_inj in E; subst; split; reflexivity]. cbv zeta. intros E. apply bind_inv in E. destruct E as (ch & _ & E).
  apply bind_inv in E. destruct E as (l & _ & E). apply Some_inj in E. subst. split; reflexivity.
Qed.
Lemma store_sl y : slid (sys_store_f C y) y.
Proof. unfold sys_store_f. eapply sl_bind; [apply sl_pt with (C := C); [exact (vis_fire C)|split; reflexivity]|]. intros a. apply sl_lift. intros b E. apply store_same. exact E. Qed.
Lemma presets_store_sl y : slid (presets_store_f C y) y.
Proof.
  unfold presets_store_f. eapply sl_bind; [apply store_sl|]. intros a. apply sl_val. intros b E. apply sl_ret. destruct (setpoint_same _ _ E) as (H1 & H2). split; [exact H1|exact H2].
Qed.
Lemma idle_sl y w : slid (contrtemp_set_idle_setpoint_f C y w) y.
Proof.
  unfold contrtemp_set_idle_setpoint_f. destruct (c_idle C); [|apply sl_ret; split; reflexivity]. cbv zeta. apply sl_val. intros b E. eapply sl_eq; [apply store_sl|].
  destruct (setpoint_same _ _ E) as (H1 & H2). split; [exact H1|exact H2].
Qed.
Lemma ramp_k_sl y g p i m up : slid (do_ramp_k_f C y g p i m up) y.
Proof.
  unfold do_ramp_k_f. cbv zeta. apply sl_val. intros k _. apply sl_val. intros v _. apply sl_val. intros l _.
  eapply sl_bind; [eapply sl_eq; [apply store_sl|split; reflexivity]|]. intros a. apply sl_lift. intros b E. apply config_same. exact E.
Qed.
Lemma adjust_sl y a : slid (meastemp_adjust_set_f C y a) y.
Proof.
  unfold meastemp_adjust_set_f. destruct (c_adj C); [|apply sl_ret; split; reflexivity]. apply sl_val. intros z E. cbv zeta.
  eapply sl_bind; [eapply sl_eq; [apply store_sl|exact (adjust_same _ _ _ _ E)]|]. intros b. apply sl_ret. split; reflexivity.
Qed.
Lemma handler_sl y h up : h <> HSettemp -> slid (call_ramp_handler_f C y (Some h) up) y.
Proof.
  intros N. unfold call_ramp_handler_f. apply sl_val. intros a E. apply Some_inj in E. subst a.
  destruct h; [congruence| | | | |].
  - unfold idletemp_ramp_handler_f. apply sl_val. intros v _. apply idle_sl.
  - unfold adj_ramp_handler_f. apply sl_val. intros v _. apply sl_val. intros w _. apply adjust_sl.
  - apply ramp_k_sl.
  - apply ramp_k_sl.
  - apply ramp_k_sl.
Qed.
Lemma presets_set_sl y v : slid (presets_set_active_value_f C y v) y.
Proof. unfold presets_set_active_value_f. cbv zeta. apply sl_val. intros l _. eapply sl_eq; [apply presets_store_sl|split; reflexivity]. Qed.
End Settings.

(** ** The measurement *)
Section Meas.
Variable C : conf.
Local Notation same := (same _ visc).
Local Notation slid := (sl _ visc (fun a : sys => a)).
Local Notation sl := (sl _ visc).
Ltac sm := split; reflexivity.
Ltac po := apply sl_pt with (C := C); [exact (visc_fire C)|sm].
Lemma curr_run_sl y r : slid (contrcurr_run_f C y r) y.
Proof.
  unfold contrcurr_run_f. destruct (negb _); [apply sl_ret; sm|]. destruct (negb _); [apply sl_ret; sm|].
  eapply sl_bind; [po|]. intros a. apply sl_val. intros dt _. eapply sl_bind; [po|]. intros b. cbv zeta. apply sl_val. intros [c r'] _. apply sl_val. intros [q out] _.
  apply sl_val. intros d _. apply sl_ret. sm.
Qed.
Lemma curr_feedback_sl y r : slid (contrcurr_set_feedback_f C y r) y.
Proof. unfold contrcurr_set_feedback_f. cbv zeta. eapply sl_eq; [apply curr_run_sl|sm]. Qed.
Lemma temp_run_sl y r : slid (contrtemp_run_f C y r) y.
Proof.
  unfold contrtemp_run_f. destruct (negb _); [apply sl_ret; sm|]. destruct (t_emerg _); [apply sl_ret; sm|].
  eapply sl_bind; [po|]. intros a. apply sl_val. intros dt _. eapply sl_bind; [po|]. intros b. cbv zeta. apply sl_val. intros [q out] _. apply sl_val. intros d _.
  destruct (_ <? r); apply sl_val; intros e _; apply sl_ret; sm.
Qed.
Lemma temp_feedback_sl y r : slid (contrtemp_set_feedback_f C y r) y.
Proof. unfold contrtemp_set_feedback_f. cbv zeta. eapply sl_eq; [apply temp_run_sl|]. destruct (negb _); sm. Qed.
Lemma emerg_same y b : same (contrtemp_set_emerg y b) y.
Proof. unfold contrtemp_set_emerg, do_set_emerg. destruct (negb _), b; sm. Qed.
Lemma curr_result_sl y v p : slid (meascurr_result_handler_f C y v p) y.
Proof.
  unfold meascurr_result_handler_f. cbv zeta. apply sl_val. intros c _. eapply sl_bind with (g := fun a => a); [|intros a; apply sl_ret; sm].
  destruct p.
  - eapply sl_bind; [eapply sl_eq; [apply curr_feedback_sl|sm]|]. intros a. apply sl_ret. sm.
  - eapply sl_eq; [apply curr_feedback_sl|sm].
  - apply sl_ret. sm.
Qed.
Lemma temp_result_sl y v p : slid (meastemp_result_handler_f C y v p) y.
Proof.
  unfold meastemp_result_handler_f. cbv zeta. destruct p.
  - eapply sl_eq; [apply temp_feedback_sl|]. destruct (emerg_same y false) as (H1 & H2). split; [exact H1|exact H2].
  - apply temp_feedback_sl.
  - apply sl_ret. apply emerg_same.
Qed.
Lemma plaus_sl cfg y ch v : sl fst (plaus_check_f C cfg y ch v) y.
Proof.
  unfold plaus_check_f. destruct (if v <? mc_plaus_neg cfg then _ else _) as [[ch1 v1] p1].
  eapply sl_bind with (g := fst).
  - destruct p1; [apply sl_ret; sm| |]; (destruct (negb _); [|apply sl_ret; sm]); (eapply sl_bind; [po|]); intros a; apply sl_val; intros t _; apply sl_ret; sm.
  - intros [z c]. cbn [fst]. eapply sl_bind; [po|]. intros b. cbv zeta. apply sl_ret. sm.
Qed.
Lemma measure_sl y : slid (measure_work_f C y) y.
Proof.
  unfold measure_work_f. cbv zeta. destruct (m_avail _); [|apply sl_ret; sm]. eapply sl_bind with (g := fun a => a).
  - unfold measure_handle_result_f. eapply sl_bind; [po|]. intros a. cbv zeta. apply sl_val. intros ch _. apply sl_val. intros cfg _. apply sl_val. intros raw _.
    assert (Fh : same (fst (measure_user_filter_handler a (m_chan (y_meas a)) raw)) a).
    { unfold measure_user_filter_handler, meascurr_filter_handler. destruct (_ =? _); [|sm]. repeat match goal with |- context [let '(_, _) := ?q in _] => destruct q end; sm. }
    destruct (measure_user_filter_handler a (m_chan (y_meas a)) raw) as [b raw2]. cbn [fst] in Fh.
    apply sl_val. intros v _. apply sl_val. intros v2 _. eapply sl_bind with (g := fst); [eapply sl_eq; [apply plaus_sl|exact Fh]|]. intros [z [[ch2 v3] p3]]. cbn [fst].
    apply sl_val. intros l _. cbv zeta. unfold measure_user_result_handler_f. destruct (_ =? _); eapply sl_eq; [apply temp_result_sl|sm|apply curr_result_sl|sm].
  - intros a. unfold adc_trigger_next_chan_f. cbv zeta. apply sl_val. intros cfg _. eapply sl_bind; [po|]. intros b. apply sl_val. intros t _. apply sl_ret. sm.
Qed.
End Meas.
