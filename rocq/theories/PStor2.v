(** * The work functions with interrupts inside, as operations of the storage *)
From Coq Require Import ZArith List Bool Lia.
From Verif Require Import Base PBase MConf MFixpt MScale MRing MFilter MTimer MPid MTempMap MPwm MCurr MSens MSettings SpecSettings MSseg MDisplay MText MState MTemp MMeas
  MMenu MMain SpecSys MFine SpecFine SpecStor PSettings PStor.
Import ListNotations.
Open Scope Z_scope.

Section S.
Variable C : conf.
Notation stor := (stor C).

(** ** Functions that touch neither the settings nor the tick counter *)
Definition same (y y' : sys) : Prop := y_set y' = y_set y /\ y_now y' = y_now y.
Ltac frm := repeat match goal with
  | H : None = Some _ |- _ => discriminate H
  | H : Some _ = Some _ |- _ => injection H as H; try subst
  | H : bind ?m _ = Some _ |- _ => let E := fresh "E" in destruct m eqn:E; cbn [bind] in H; [|discriminate H]
  | H : (if ?b then _ else _) = Some _ |- _ => destruct b
  | H : (let '(_, _) := ?p in _) = Some _ |- _ => destruct p
  end; try (split; reflexivity).
Lemma same_trans a b c : same a b -> same b c -> same a c.
Proof. unfold same. intros (A & B) (D & E). split; congruence. Qed.
Lemma upd_setpoint_same y y' : contrtemp_update_setpoint C y = Some y' -> same y y'.
Proof. unfold contrtemp_update_setpoint. intros H. frm. Qed.
Lemma boost_same y m y' : contrtemp_set_boost_mode C y m = Some y' -> same y y'.
Proof. unfold contrtemp_set_boost_mode. intros H. frm. Qed.
Lemma do_idle_same y b y' : contrtemp_do_idle C y b = Some y' -> same y y'.
Proof. unfold contrtemp_do_idle. intros H. frm. pose proof (upd_setpoint_same _ _ E) as (A & B). split; [exact A|exact B]. Qed.
Lemma next_boost_same y y' : contrtemp_do_next_boost_mode C y = Some y' -> same y y'.
Proof. apply boost_same. Qed.
Lemma adjust_same y i a y' : measure_adjust_set C y i a = Some y' -> same y y'.
Proof. unfold measure_adjust_set. intros H. frm. Qed.
Lemma arm_same y d y' : arm_menu_timeout y d = Some y' -> same y y'.
Proof. unfold arm_menu_timeout. intros H. frm. Qed.
Lemma upd_disp_same y y' : menu_update_display C y = Some y' -> same y y'.
Proof. unfold menu_update_display. intros H. frm. Qed.
Lemma ctrl_button_same y b bs y' : contrtemp_button_handler C y b bs = Some y' -> same y y'.
Proof.
  unfold contrtemp_button_handler, button_boost_idle, button_boost, button_idle. intros H.
  destruct (c_boost C && c_idle C).
  - destruct (negb (is_iron b)); [frm|].
    destruct (if is_pos bs then _ else _) as [y1|] eqn:E1 in H; cbn [bind] in H; [|discriminate H].
    assert (S1 : same y y1) by (destruct (is_pos bs); frm). apply (same_trans _ y1 _ S1). destruct (t_bilet (y_ct y1)); [|frm].
    destruct (_ || _); [|destruct (is_neg bs); [|frm]].
    + destruct (contrtemp_do_idle C y1 _) as [y2|] eqn:E2; cbn [bind] in H; [|discriminate H]. injection H as <-. destruct (do_idle_same _ _ _ E2) as (A & B). split; [exact A|exact B].
    + destruct (contrtemp_do_next_boost_mode C y1) as [y2|] eqn:E2; cbn [bind] in H; [|discriminate H]. injection H as <-. destruct (next_boost_same _ _ E2) as (A & B). split; [exact A|exact B].
  - destruct (c_boost C); [|destruct (c_idle C); [|frm]].
    + destruct (negb _); [frm|]. destruct (is_pos bs); [exact (next_boost_same _ _ H)|frm].
    + destruct (negb _); [frm|]. destruct (negb (Bool.eqb _ _)); [exact (do_idle_same _ _ _ H)|frm].
Qed.
Lemma filter_same y id raw y' v : measure_user_filter_handler y id raw = (y', v) -> same y y'.
Proof.
  unfold measure_user_filter_handler, meascurr_filter_handler. destruct (_ =? _); [|intros [= <- _]; split; reflexivity].
  repeat (match goal with |- context [if ?b then _ else _] => destruct b | |- context [let '(_, _) := ?p in _] => destruct p end);
    intros H; injection H as <- _; split; reflexivity.
Qed.
Lemma emerg_same y b : same y (contrtemp_set_emerg y b).
Proof. unfold contrtemp_set_emerg, do_set_emerg. destruct (negb _); [|split; reflexivity]. cbv zeta. destruct b; split; reflexivity. Qed.
Lemma errors_same y : same y (menu_errors y).
Proof. unfold menu_errors. cbv zeta. destruct (negb _); split; reflexivity. Qed.
Lemma heating_same y : same y (menu_heating y).
Proof. unfold menu_heating. cbv zeta. destruct (negb _); split; reflexivity. Qed.

(** ** Rules *)
Lemma fpr_call {A} y0 y1 (m : F sys) (f : sys -> F A) (Q : A -> Prop) :
  stor y0 y1 -> fpr m (stor y1) -> (forall y2, stor y0 y2 -> fpr (f y2) Q) -> fpr (fbind m f) Q.
Proof. intros H Hm Hf. apply fpr_bind. eapply fpr_mono; [exact Hm|]. intros y2 H2. apply Hf. exact (stor_trans _ _ _ _ H H2). Qed.
Lemma fpr_last y0 y1 (m : F sys) : stor y0 y1 -> fpr m (stor y1) -> fpr m (stor y0).
Proof. intros H Hm. eapply fpr_mono; [exact Hm|]. intros y2 H2. exact (stor_trans _ _ _ _ H H2). Qed.
Lemma fpr_point {A} y0 y1 (f : sys -> F A) (Q : A -> Prop) : stor y0 y1 -> (forall y2, stor y0 y2 -> fpr (f y2) Q) -> fpr (fbind (pt C y1) f) Q.
Proof. intros H Hf. apply fpr_bind. apply (fpr_pt C y0 y1); assumption. Qed.
Lemma fpr_val {A B} (m : option A) (f : A -> F B) (Q : B -> Prop) : (forall a, m = Some a -> fpr (f a) Q) -> fpr (fbind (lift m) f) Q.
Proof. intros H. apply fpr_bind. apply fpr_lift. exact H. Qed.
Lemma fpr_done {A B} (a : A) (f : A -> F B) (Q : B -> Prop) : fpr (f a) Q -> fpr (fbind (ret a) f) Q.
Proof. intros H. apply fpr_bind. apply fpr_ret. exact H. Qed.
Lemma stor_by y0 y1 y2 : stor y0 y1 -> same y1 y2 -> stor y0 y2.
Proof. intros H (A & B). exact (stor_upd C y0 y1 y2 H A B). Qed.
Lemma stor_refl y : stor y y.
Proof. apply stor_same; reflexivity. Qed.

Ltac st := first [ assumption | apply stor_refl | apply stor_same; reflexivity |
  match goal with H : PStor.stor C ?a ?b |- PStor.stor C ?a ?c => apply (stor_upd C a b c H); reflexivity end ].
Ltac pcs := first
  [ apply fpr_ret; st
  | match goal with
    | |- fpr (fbind (pt C ?y1) _) (PStor.stor C ?y0) => apply (fpr_point y0 y1); [st|intros ? ?]
    | |- fpr (fbind (ret _) _) _ => apply fpr_done
    | |- fpr (fbind (lift _) _) _ => apply fpr_val; intros ? ?
    | |- fpr (fbind (if ?b then _ else _) _) _ => destruct b eqn:?
    | |- fpr (if ?b then _ else _) _ => destruct b eqn:?
    | |- fpr (fbind (fbind _ _) _) _ => apply fpr_bind
    | |- fpr (match ?p with (_, _) => _ end) _ => destruct p
    end ].
Ltac pc := repeat (cbv beta zeta; pcs).

Lemma curr_run_stor y r : fpr (contrcurr_run_f C y r) (stor y).
Proof. unfold contrcurr_run_f. pc. Qed.
Lemma curr_feed_stor y r : fpr (contrcurr_set_feedback_f C y r) (stor y).
Proof. unfold contrcurr_set_feedback_f. cbv zeta. eapply fpr_last; [|apply curr_run_stor]. st. Qed.
Lemma temp_run_stor y r : fpr (contrtemp_run_f C y r) (stor y).
Proof. unfold contrtemp_run_f. pc. Qed.
Lemma temp_feed_stor y r : fpr (contrtemp_set_feedback_f C y r) (stor y).
Proof. unfold contrtemp_set_feedback_f. cbv zeta. eapply fpr_last; [|apply temp_run_stor]. destruct (negb _); st. Qed.
Lemma curr_result_stor y v p : fpr (meascurr_result_handler_f C y v p) (stor y).
Proof.
  unfold meascurr_result_handler_f. cbv zeta. pc. destruct p.
  - apply fpr_bind. eapply (fpr_call y); [|apply curr_feed_stor|]; [st|]. intros y2 H2. apply fpr_ret. pc.
  - eapply (fpr_call y); [|apply curr_feed_stor|]; [st|]. intros y2 H2. pc.
  - pc.
Qed.
Lemma temp_result_stor y v p : fpr (meastemp_result_handler_f C y v p) (stor y).
Proof.
  unfold meastemp_result_handler_f. cbv zeta. destruct p.
  - eapply fpr_last; [|apply temp_feed_stor]. destruct (emerg_same y false) as (A & B). apply stor_same; [exact A|exact B].
  - eapply fpr_last; [|apply temp_feed_stor]. st.
  - apply fpr_ret. destruct (emerg_same y true) as (A & B). apply stor_same; [exact A|exact B].
Qed.
Lemma plaus_stor cfg y ch v : fpr (plaus_check_f C cfg y ch v) (fun r => stor y (fst r)).
Proof.
  unfold plaus_check_f. destruct (if v <? mc_plaus_neg cfg then _ else _) as [[ch1 v1] p1].
  assert (X : fpr (match p1 with MEAS_PLAUSIBLE => ret (y, ch1) | _ => if negb (ch_running ch1) then
                        y <~ pt C y ;; t <~ lift (timer_arm (y_now y) (mc_plaus_ms cfg)) ;; ret (y, set_ch_running (set_ch_timer ch1 t) true)
                      else ret (y, ch1) end) (fun r => stor y (fst r))).
  { assert (Z : fpr (if negb (ch_running ch1) then y <~ pt C y ;; t <~ lift (timer_arm (y_now y) (mc_plaus_ms cfg)) ;; ret (y, set_ch_running (set_ch_timer ch1 t) true)
                      else ret (y, ch1)) (fun r => stor y (fst r))).
    { destruct (negb _); [|apply fpr_ret; st]. eapply (fpr_point y); [st|]. intros y2 H2. apply fpr_val. intros t _. apply fpr_ret. exact H2. }
    destruct p1; [apply fpr_ret; st|exact Z|exact Z]. }
  apply fpr_bind. eapply fpr_mono; [exact X|]. intros (y2, ch2) H2. cbn [fst] in H2. eapply (fpr_point y); [exact H2|]. intros y3 H3. cbv zeta. apply fpr_ret. exact H3.
Qed.
Lemma trigger_stor y : fpr (adc_trigger_next_chan_f C y) (stor y).
Proof. unfold adc_trigger_next_chan_f. cbv zeta. pc. Qed.
Lemma handle_stor y : fpr (measure_handle_result_f C y) (stor y).
Proof.
  unfold measure_handle_result_f. eapply (fpr_point y); [st|]. intros y1 H1. cbv zeta. apply fpr_val. intros ch _. apply fpr_val. intros cfg _.
  apply fpr_val. intros raw _. destruct (measure_user_filter_handler y1 _ raw) as [y2 raw2] eqn:Ef.
  pose proof (stor_by _ _ _ H1 (filter_same _ _ _ _ _ Ef)) as H2. apply fpr_val. intros ph _. apply fpr_val. intros ph2 _.
  apply fpr_bind. eapply fpr_mono; [apply plaus_stor|]. intros (y3, ((ch3, v3), p3)) H3. cbn [fst] in H3. pose proof (stor_trans _ _ _ _ H2 H3) as H4.
  apply fpr_val. intros chans _. unfold measure_user_result_handler_f. destruct (_ =? _).
  - eapply fpr_last; [|apply temp_result_stor]. st.
  - eapply fpr_last; [|apply curr_result_stor]. st.
Qed.
Lemma measure_stor y : fpr (measure_work_f C y) (stor y).
Proof.
  unfold measure_work_f. cbv zeta. destruct (m_avail (y_meas y)); [|apply fpr_ret; st].
  eapply (fpr_call y); [|apply handle_stor|]; [st|]. intros y2 H2. eapply fpr_last; [exact H2|apply trigger_stor].
Qed.

(** ** The changes of the settings *)
Lemma clamp24 a b lo hi r : fixpt_add_limited a b lo hi = Some r -> lo <= hi -> lo <= r <= hi.
Proof.
  unfold fixpt_add_limited. intros H L. destruct (fixpt_add a b) as [v|]; cbn [bind] in H; [|discriminate H]. injection H as <-. unfold fixpt_clamp.
  destruct (v <? lo) eqn:E1; [destruct (hi <? lo) eqn:E2; lia|]. destruct (hi <? v) eqn:E2; lia.
Qed.
Lemma store_change y y0 y1 s : stor y y0 -> y_set y1 = set_x_cache (y_set y0) s -> y_now y1 = y_now y0 -> wf_change (x_cache (y_set y0)) s ->
  fpr (sys_store_f C y1) (stor y).
Proof. intros H A B D. eapply fpr_last; [exact H|]. eapply store_stor; eassumption. Qed.
Lemma presets_store_stor y y1 s : y_set y1 = set_x_cache (y_set y) s -> y_now y1 = y_now y -> wf_change (x_cache (y_set y)) s ->
  fpr (presets_store_f C y1) (stor y).
Proof.
  intros A B D. unfold presets_store_f. apply fpr_bind. eapply fpr_mono; [eapply store_stor; eassumption|]. intros y2 H2.
  apply fpr_val. intros y3 E3. apply fpr_ret. pose proof (stor_by _ _ _ H2 (upd_setpoint_same _ _ E3)). st.
Qed.
Lemma wf_active s v : is_u8 v -> wf_change s (set_s_active s v).
Proof. intros H. split; [|reflexivity]. intros (A1 & A2 & A3 & _ & A5 & A6 & A7). exact (conj A1 (conj A2 (conj A3 (conj H (conj A5 (conj A6 A7)))))). Qed.
Lemma wf_idle s v : is_s24 v -> wf_change s (set_s_idle s v).
Proof. intros H. split; [|reflexivity]. intros (A1 & _ & A3 & A4 & A5 & A6 & A7). exact (conj A1 (conj H (conj A3 (conj A4 (conj A5 (conj A6 A7)))))). Qed.
Lemma wf_adj s v : is_s24 v -> wf_change s (set_s_adj s v).
Proof. intros H. split; [|reflexivity]. intros (A1 & A2 & A3 & A4 & _ & A6 & A7). exact (conj A1 (conj A2 (conj A3 (conj A4 (conj H (conj A6 A7)))))). Qed.
Lemma upd6 (P : Z -> Prop) a b c d e f i v l : P a -> P b -> P c -> P d -> P e -> P f -> P v -> zupd [a; b; c; d; e; f] i v = Some l ->
  exists a b c d e f, l = [a; b; c; d; e; f] /\ P a /\ P b /\ P c /\ P d /\ P e /\ P f.
Proof.
  intros A B D E F G V H. unfold zupd in H. destruct (i <? 0); [discriminate H|].
  destruct (Z.to_nat i) as [|[|[|[|[|[|n]]]]]]; cbn in H; injection H as H || discriminate H; subst l; repeat eexists; assumption.
Qed.
Lemma upd3 (P : pid_k -> Prop) a b c i v l : P a -> P b -> P c -> P v -> zupd [a; b; c] i v = Some l ->
  exists a b c, l = [a; b; c] /\ P a /\ P b /\ P c.
Proof.
  intros A B D V H. unfold zupd in H. destruct (i <? 0); [discriminate H|].
  destruct (Z.to_nat i) as [|[|[|n]]]; cbn in H; injection H as H || discriminate H; subst l; repeat eexists; assumption.
Qed.
Lemma wf_preset s i v l : is_s24 v -> zupd (s_preset s) i v = Some l -> wf_change s (set_s_preset s l).
Proof.
  intros H E. split; [|reflexivity]. intros (A1 & A2 & (a & b & c & d & e & f & Ep & P1 & P2 & P3 & P4 & P5 & P6) & A4 & A5 & A6 & A7). rewrite Ep in E.
  destruct (upd6 is_s24 _ _ _ _ _ _ _ _ _ P1 P2 P3 P4 P5 P6 H E) as (a' & b' & c' & d' & e' & f' & El & Q).
  refine (conj A1 (conj A2 (conj _ (conj A4 (conj A5 (conj A6 A7)))))). exists a', b', c', d', e', f'. split; [exact El|exact Q].
Qed.
Lemma wf_k s i k (v : Z) l (put : pid_k -> Z -> pid_k) : (k24 k -> k24 (put k v)) -> zget (s_k s) i = Some k -> zupd (s_k s) i (put k v) = Some l -> wf_change s (set_s_k s l).
Proof.
  intros H Eg E. split; [|reflexivity]. intros ((a & b & c & Ep & P1 & P2 & P3) & A2 & A3 & A4 & A5 & A6 & A7). rewrite Ep in E, Eg.
  assert (K : k24 k). { unfold zget in Eg. destruct (i <? 0); [discriminate Eg|]. destruct (Z.to_nat i) as [|[|[|[|n]]]]; cbn in Eg; congruence. }
  destruct (upd3 k24 _ _ _ _ _ _ P1 P2 P3 (H K) E) as (a' & b' & c' & El & Q).
  refine (conj _ (conj A2 (conj A3 (conj A4 (conj A5 (conj A6 A7)))))). exists a', b', c'. split; [exact El|exact Q].
Qed.
Lemma ring_u8 i b : 0 <= b <= 255 -> is_u8 (ring_next i b) /\ is_u8 (ring_prev i b).
Proof. unfold ring_next, ring_prev, is_u8, u8. intros H. cbv zeta. split; destruct (b <? _) eqn:E; lia. Qed.
Lemma next_stor y : fpr (presets_next_f C y) (stor y).
Proof. unfold presets_next_f. cbv zeta. eapply presets_store_stor; [reflexivity|reflexivity|]. apply wf_active. apply (ring_u8 _ (NR_PRESETS - 1)). unfold NR_PRESETS. lia. Qed.
Lemma prev_stor y : fpr (presets_prev_f C y) (stor y).
Proof. unfold presets_prev_f. cbv zeta. eapply presets_store_stor; [reflexivity|reflexivity|]. apply wf_active. apply (ring_u8 _ (NR_PRESETS - 1)). unfold NR_PRESETS. lia. Qed.
Lemma set_value_stor y v : is_s24 v -> fpr (presets_set_active_value_f C y v) (stor y).
Proof. intros Hv. unfold presets_set_active_value_f. cbv zeta. apply fpr_val. intros l El. eapply presets_store_stor; [reflexivity|reflexivity|]. eapply wf_preset; eassumption. Qed.
Lemma set_idle_stor y v : is_s24 v -> fpr (contrtemp_set_idle_setpoint_f C y v) (stor y).
Proof.
  intros Hv. unfold contrtemp_set_idle_setpoint_f. destruct (c_idle C); [|apply fpr_ret; st]. cbv zeta. apply fpr_val. intros y1 E1. destruct (upd_setpoint_same _ _ E1) as (A & B).
  eapply store_stor; [exact A|exact B|]. apply wf_idle. exact Hv.
Qed.
Lemma set_adj_stor y v : is_s24 v -> fpr (meastemp_adjust_set_f C y v) (stor y).
Proof.
  intros Hv. unfold meastemp_adjust_set_f. destruct (c_adj C); [|apply fpr_ret; st]. apply fpr_val. intros y1 E1. destruct (adjust_same _ _ _ _ E1) as (A & B). cbv zeta.
  apply fpr_bind. eapply fpr_mono; [eapply (store_change y y1); [apply stor_same; assumption|reflexivity|reflexivity|apply wf_adj; exact Hv]|]. intros y2 H2. apply fpr_ret. st.
Qed.
Lemma ramp_k_stor y get put inc mx up : (forall k v, is_s24 v -> k24 k -> k24 (put k v)) -> 0 <= mx <= 8388607 -> fpr (do_ramp_k_f C y get put inc mx up) (stor y).
Proof.
  intros Hp Hm. unfold do_ramp_k_f. cbv zeta. apply fpr_val. intros k Ek. apply fpr_val. intros v Ev. apply fpr_val. intros l El.
  assert (Hv : is_s24 v) by (apply clamp24 in Ev; unfold is_s24; lia).
  apply fpr_bind. eapply fpr_mono; [eapply store_stor; [reflexivity|reflexivity|]|].
  - eapply (wf_k _ _ k v l put); [intros K; exact (Hp k v Hv K)|exact Ek|exact El].
  - intros y2 H2. apply fpr_lift. intros y3 E3. exact (stor_by _ _ _ H2 (boost_same _ _ _ E3)).
Qed.

(** ** The menu *)
Lemma enabled_stor y b : fpr (contrtemp_set_enabled_f C y b) (stor y).
Proof.
  unfold contrtemp_set_enabled_f. destruct (negb _); [|apply fpr_ret; st]. unfold do_set_enabled_f. cbv zeta. eapply (fpr_point y); [st|]. intros y1 H1.
  apply fpr_val. intros y2 E2. apply fpr_ret. destruct (boost_same _ _ _ E2) as (A & B). apply (stor_upd C y y1); [exact H1|exact A|exact B].
Qed.
Lemma arm_stor y d : fpr (arm_menu_timeout_f C y d) (stor y).
Proof. unfold arm_menu_timeout_f. eapply (fpr_point y); [st|]. intros y1 H1. apply fpr_lift. intros y2 E2. exact (stor_by _ _ _ H1 (arm_same _ _ _ E2)). Qed.
Lemma state_stor y s : fpr (menu_set_state_f C y s) (stor y).
Proof.
  unfold menu_set_state_f. destruct (mstate_eqb _ _); [apply fpr_ret; st|]. cbv zeta. apply fpr_bind. eapply (fpr_mono _ (stor y)); [|intros y2 H2; apply fpr_ret; st].
  set (y1 := set_y_menu y _). assert (H1 : stor y y1) by (unfold y1; st).
  assert (X : forall b, fpr (contrtemp_set_enabled_f C y1 b) (stor y)) by (intros b; eapply fpr_last; [exact H1|apply enabled_stor]).
  assert (Y : forall d, fpr (arm_menu_timeout_f C y1 d) (stor y)) by (intros d; eapply fpr_last; [exact H1|apply arm_stor]).
  assert (Z : forall d, fpr (y <~ arm_menu_timeout_f C y1 d ;; contrtemp_set_enabled_f C y false) (stor y)).
  { intros d. apply fpr_bind. eapply fpr_mono; [apply Y|]. intros y2 H2. eapply fpr_last; [exact H2|apply enabled_stor]. }
  clearbody y1. destruct s; cbv iota; repeat match goal with |- fpr (if ?b then _ else _) _ => destruct b end; first [apply X|apply Y|apply Z|apply fpr_ret; exact H1].
Qed.
Lemma handler_stor y h up : fpr (call_ramp_handler_f C y h up) (stor y).
Proof.
  assert (R : forall a b r, do_ramp_temp a b CONTRTEMP_NEGLIM CONTRTEMP_POSLIM = Some r -> is_s24 r).
  { intros a b r E. apply clamp24 in E; [|vm_compute; discriminate]. assert (X : CONTRTEMP_NEGLIM = 0 /\ CONTRTEMP_POSLIM = 30720) by (split; vm_compute; reflexivity). unfold is_s24. lia. }
  unfold call_ramp_handler_f. apply fpr_val. intros r _. destruct r.
  - unfold settemp_ramp_handler_f. apply fpr_val. intros a _. apply fpr_val. intros b Eb. eapply (fpr_call y); [apply stor_refl|apply set_value_stor; exact (R _ _ _ Eb)|].
    intros y2 H2. eapply fpr_last; [exact H2|apply state_stor].
  - unfold idletemp_ramp_handler_f. apply fpr_val. intros b Eb. apply set_idle_stor. exact (R _ _ _ Eb).
  - unfold adj_ramp_handler_f. apply fpr_val. intros a _. apply fpr_val. intros b Eb. apply set_adj_stor.
    apply clamp24 in Eb; [|vm_compute; discriminate]. assert (X : celsius (-99) = -6336 /\ celsius 99 = 6336) by (split; vm_compute; reflexivity). unfold is_s24. lia.
  - apply ramp_k_stor; [|split; vm_compute; discriminate]. intros k v Hv (K1 & K2 & K3 & K4). repeat split; cbn; apply Hv || apply K1 || apply K2 || apply K3 || apply K4.
  - apply ramp_k_stor; [|split; vm_compute; discriminate]. intros k v Hv (K1 & K2 & K3 & K4). repeat split; cbn; apply Hv || apply K1 || apply K2 || apply K3 || apply K4.
  - apply ramp_k_stor; [|split; vm_compute; discriminate]. intros k v Hv (K1 & K2 & K3 & K4). repeat split; cbn; apply Hv || apply K1 || apply K2 || apply K3 || apply K4.
Qed.
Lemma ramping_start_stor y up pre h : fpr (start_ramping_f C y up pre h) (stor y).
Proof.
  unfold start_ramping_f. apply fpr_bind. destruct pre.
  - cbv zeta. eapply (fpr_point y); [st|]. intros y1 H1. apply fpr_val. intros t _. apply fpr_ret. eapply (fpr_point y); [st|]. intros y2 H2. apply fpr_ret. st.
  - apply fpr_ret. cbv zeta. eapply (fpr_point y); [st|]. intros y2 H2. apply fpr_ret. st.
Qed.
Lemma ramp_button_stor y b bs pre h : fpr (start_ramping_button_f C y b bs pre h) (stor y).
Proof. unfold start_ramping_button_f. destruct (is_pos bs); [|apply fpr_ret; st]. destruct (is_minus b); [apply ramping_start_stor|]. destruct (is_plus b); [apply ramping_start_stor|apply fpr_ret; st]. Qed.
Lemma debug_stor y b : fpr (debug_enable_f C y b) (stor y).
Proof. unfold debug_enable_f. destruct (c_debug C); [|apply fpr_ret; st]. eapply (fpr_point y); [st|]. intros y1 H1. apply fpr_val. intros (h, d) _. apply fpr_ret. st. Qed.
Lemma switch_stor y b bs : fpr (menu_button_switch_f C y b bs) (stor y).
Proof.
  unfold menu_button_switch_f. destruct (n_state (y_menu y)); try (apply fpr_ret; st).
  - eapply (fpr_call y); [apply stor_refl|apply ramp_button_stor|]. intros y1 H1. destruct (_ && _); [|apply fpr_ret; st]. eapply fpr_last; [exact H1|apply state_stor].
  - eapply (fpr_call y); [apply stor_refl|apply arm_stor|]. intros y1 H1. apply fpr_bind. eapply (fpr_mono _ (stor y)).
    + destruct (is_neg bs); [|apply fpr_ret; st]. destruct (is_plus b); [eapply fpr_last; [exact H1|apply next_stor]|].
      destruct (is_minus b); [eapply fpr_last; [exact H1|apply prev_stor]|apply fpr_ret; st].
    + intros y2 H2. eapply fpr_last; [exact H2|apply ramp_button_stor].
  - eapply (fpr_call y); [apply stor_refl|apply arm_stor|]. intros y1 H1. eapply fpr_last; [exact H1|apply ramp_button_stor].
  - destruct (negb _); [apply fpr_ret; st|]. eapply (fpr_call y); [apply stor_refl|apply arm_stor|]. intros y1 H1. eapply fpr_last; [exact H1|apply ramp_button_stor].
  - destruct (negb _); [apply fpr_ret; st|]. destruct (is_pos bs); [|apply fpr_ret; st]. destruct (is_plus b); [apply debug_stor|].
    destruct (is_minus b); [|apply fpr_ret; st]. eapply (fpr_call y); [apply stor_refl|apply debug_stor|]. intros y1 H1. apply fpr_ret. st.
  - destruct (negb _); [apply fpr_ret; st|apply ramp_button_stor].
  - destruct (negb _); [apply fpr_ret; st|apply ramp_button_stor].
  - destruct (negb _); [apply fpr_ret; st|apply ramp_button_stor].
  - destruct (negb _); [apply fpr_ret; st|apply ramp_button_stor].
Qed.
Lemma menu_button_stor y b bs : fpr (menu_button_handler_f C y b bs) (stor y).
Proof.
  unfold menu_button_handler_f. destruct (is_iron b); [apply fpr_ret; st|]. eapply (fpr_call y); [apply stor_refl|apply switch_stor|]. intros y1 H1.
  destruct (is_neg bs); [|apply fpr_ret; st]. cbv zeta. destruct (is_set b); [|apply fpr_ret; st]. destruct (negb _); [|apply fpr_ret; st].
  unfold menu_set_next_state_f. eapply fpr_last; [|apply state_stor]. st.
Qed.
Lemma ctrl_button_stor y b bs : fpr (contrtemp_button_handler_f C y b bs) (stor y).
Proof.
  unfold contrtemp_button_handler_f. destruct (_ && _); [|apply fpr_lift; intros y1 E1; exact (stor_by _ _ _ (stor_refl y) (ctrl_button_same _ _ _ _ E1))].
  unfold button_boost_idle_f. cbv zeta. destruct (negb _); [apply fpr_ret; st|]. apply fpr_bind. eapply (fpr_mono _ (stor y)).
  - destruct (is_pos bs); [|apply fpr_ret; st]. eapply (fpr_point y); [st|]. intros y1 H1. apply fpr_val. intros t _. apply fpr_ret. st.
  - intros y1 H1. destruct (t_bilet _); [|apply fpr_ret; st]. eapply (fpr_point y); [exact H1|]. intros y2 H2. destruct (_ || _); [|destruct (is_neg bs); [|apply fpr_ret; st]].
    + apply fpr_val. intros y3 E3. pose proof (stor_by _ _ _ H2 (do_idle_same _ _ _ E3)) as H3. apply fpr_ret. st.
    + apply fpr_val. intros y3 E3. pose proof (stor_by _ _ _ H2 (next_boost_same _ _ E3)) as H3. apply fpr_ret. st.
Qed.
Lemma calls_stor l : forall y, fpr (run_calls_f C y l) (stor y).
Proof.
  induction l as [|(b, bs) l IH]; intros y; cbn [run_calls_f]; [apply fpr_ret; st|]. unfold call_button_handlers_f. apply fpr_bind.
  eapply (fpr_call y); [apply stor_refl|apply ctrl_button_stor|]. intros y1 H1. eapply fpr_mono; [apply menu_button_stor|]. intros y2 H2.
  eapply fpr_last; [exact (stor_trans _ _ _ _ H1 H2)|apply IH].
Qed.
Lemma buttons_stor y pinb : fpr (buttons_work_f C y pinb) (stor y).
Proof.
  unfold buttons_work_f. eapply (fpr_point y); [st|]. intros y1 H1. cbv zeta. destruct (negb _); [apply fpr_ret; st|]. apply fpr_val. intros t _. eapply fpr_last; [|apply calls_stor]. st.
Qed.
Lemma timeouts_stor y : fpr (menu_timeouts_f C y) (stor y).
Proof.
  unfold menu_timeouts_f. destruct (n_state (y_menu y)); try (apply fpr_ret; st).
  all: eapply (fpr_point y); [st|]; intros y1 H1; destruct (timer_expired _ _); [|apply fpr_ret; st]; apply fpr_bind; apply (fpr_mono _ (stor y)); [|intros y2 H2; apply fpr_ret; st].
  all: eapply fpr_last; [exact H1|]; destruct (mstate_eqb _ _); [|unfold menu_set_next_state_f]; apply state_stor.
Qed.
Lemma ramp_step_stor y up : fpr (ramp_step_f C y up) (stor y).
Proof.
  unfold ramp_step_f. eapply (fpr_point y); [st|]. intros y1 H1. destruct (timer_expired _ _); [|apply fpr_ret; st]. eapply (fpr_call y); [exact H1|apply handler_stor|].
  intros y2 H2. cbv zeta. apply fpr_val. intros t _. apply fpr_ret. st.
Qed.
Lemma ramping_stor y : fpr (menu_ramping_f C y) (stor y).
Proof.
  unfold menu_ramping_f. cbv zeta. destruct (n_ramp _); try (apply fpr_ret; st); try apply ramp_step_stor.
  all: eapply (fpr_point y); [st|]; intros y1 H1; destruct (timer_expired _ _); [|apply fpr_ret; st]; eapply fpr_last; [exact H1|apply ramping_start_stor].
Qed.
Lemma menu_stor y : fpr (menu_work_f C y) (stor y).
Proof.
  unfold menu_work_f. eapply (fpr_call y); [apply stor_refl|apply timeouts_stor|]. intros y1 H1.
  pose proof (stor_by _ _ _ (stor_by _ _ _ H1 (errors_same y1)) (heating_same _)) as H2. eapply (fpr_call y); [exact H2|apply ramping_stor|]. intros y3 H3.
  destruct (n_upd _); [|apply fpr_ret; st]. apply fpr_lift. intros y4 E4. destruct (upd_disp_same _ _ E4) as (A & B). apply (stor_upd C y y3); [exact H3|exact A|exact B].
Qed.
End S.
