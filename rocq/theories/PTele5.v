(** * Proofs of the properties of the debug output *)
From Coq Require Import ZArith List Bool Lia.
From Verif Require Import Base PBase MUtil MConf MFixpt MScale MRing MFilter MTimer MPid MTempMap MPwm MCurr MSens MSettings
  SpecSettings MSseg MDisplay MText MState MTemp MMeas MMenu MMain MDebug SpecSys SpecRun PDebug MTele SpecTele PNum PScale PSmall PCurr PTele PTele2 PTele3 PTele4 PStore PSysSet PSys PSysMeas PSysCC PSysRun PSysSafe PControl PMem.
Import ListNotations.
Open Scope Z_scope.

Definition hpost (y : sys) (raw : Z) (y' : sys) (l : list act) : Prop :=
  Forall rngv l /\ (forall f, mirrored f y -> mirrored (after l f) y') /\
  (forall f, after l f (CItem (chan_item (m_chan (y_meas y)))) = raw) /\
  (m_chan (y_meas y) = 0 -> forall f, after l f (CItem Fc) = snd (meascurr_filter_handler y raw)) /\
  (m_chan (y_meas y) = 1 -> tproc y y' l).
Lemma mirrored_cell f c v y : match c with CItem Cr1 | CItem Tr | CItem Cy | CItem Rs | CPid false _ => False | _ => True end ->
  mirrored f y -> mirrored (set_cell f c v) y.
Proof. intros N H. unfold mirrored in *. rewrite !sc_other by (intros <-; exact N). exact H. Qed.
Lemma p_handle B C y c0 c1 raw : inv B C y -> m_chans (y_meas y) = [c0; c1] -> raw_average (y_meas y) = Some raw -> 0 <= raw <= 1023 ->
  post (measure_handle_result_t C y) (hpost y raw).
Proof.
  intros I Ech Er Hr. unfold measure_handle_result_t. cbv zeta.
  assert (S16 : s16 raw = raw) by (unfold s16, u16; lia).
  assert (L : ctl y) by exact (proj1 (proj2 (proj2 (i_ct _ _ _ I)))).
  destruct (proj1 (proj2 (i_meas _ _ _ I))) as [Hc|Hc]; unfold hpost; rewrite Hc, Ech.
  - change (zget [c0; c1] 0) with (Some c0). change (chan_config C 0) with (Some meascurr_config).
    apply post_bind, post_lift. intros ch E. apply Some_inj in E. subst ch. apply post_bind, post_lift. intros cfg E. apply Some_inj in E. subst cfg.
    apply post_bind, post_lift. intros r E. rewrite Er in E. apply Some_inj in E. subst r.
    apply post_bind, post_tell. apply post_bind. unfold measure_user_filter_handler_t, meascurr_filter_handler_t. change (0 =? MEAS_CHAN_CURRENT) with true. cbv iota.
    destruct (i_mc _ _ _ I) as (U1 & U2).
    assert (exists u' r', meascurr_filter_handler y raw = (set_y_mc y u', r') /\ 0 <= r' <= 1023 /\ u_prev u' = u_prev (y_mc y)) as (u' & r' & Ef & Hr' & Hu').
    { unfold meascurr_filter_handler. destruct (u_init (y_mc y)).
      - destruct (PSmall.lp_step 1023 4 raw ltac:(lia) (u_filter (y_mc y)) ltac:(change (2 ^ 4) with 16; lia) Hr ltac:(lia)) as (b & Eb & _ & Bb).
        unfold MEASCURR_FILTER_SHIFT. rewrite Eb. change (2 ^ 4) with 16 in *. unfold MEASURE_MAX_RESULT. eexists _, _. split; [reflexivity|].
        split; [destruct (b / 16 <? 1023) eqn:F; lia|reflexivity].
      - eexists _, _. split; [reflexivity|]. unfold MEASURE_MAX_RESULT. split; [destruct (raw <? 1023) eqn:F; lia|reflexivity]. }
    rewrite Ef. apply post_bind, post_tell, post_ret. apply post_bind, post_lift. intros v _. apply post_bind, post_lift. intros w _. apply post_bind, post_lift. intros ((ch, w'), pl) Ew.
    destruct (plaus_check_ok meascurr_config (y_now (set_y_mc y u')) c0 w ltac:(vm_compute; discriminate) eq_refl) as (ch' & w2 & pl' & Ew' & _ & Hw & _).
    rewrite Ew in Ew'. apply Some_inj in Ew'. injection Ew' as <- <- <-.
    assert (Bw : 0 <= w' <= 3200) by (change (mc_plaus_neg meascurr_config) with 0 in Hw; change (mc_plaus_pos meascurr_config) with 3200 in Hw; lia).
    apply post_bind, post_lift. intros chs _. unfold measure_user_result_handler_t. change (0 =? MEAS_CHAN_TEMP) with false. cbv iota.
    set (z := set_y_meas _ _).
    assert (Iz : cc_inv (y_cc z)) by exact (proj1 (i_cc _ _ _ I)). assert (Uz : 0 <= u_prev (y_mc z) <= 3200) by (change (u_prev (y_mc z)) with (u_prev u'); lia).
    eapply post_imp; [apply post_and; [exact (p_mc z w' pl Iz Bw Uz)|apply post_and; [apply (post_calls _ (avoids (CItem Mc)))|apply (post_calls _ (avoids (CItem Fc)))]]|].
    { unfold meascurr_result_handler_t, contrcurr_set_feedback_t, contrcurr_run_t, pid_run_t. cv. }
    { unfold meascurr_result_handler_t, contrcurr_set_feedback_t, contrcurr_run_t, pid_run_t. cv. }
    intros y' l ((A & D) & G1 & G2). cbn [app snd]. change (chan_item 0) with Mc. rewrite S16. replace (s16 r') with r' by (unfold s16, u16; lia).
    split; [constructor; [cbn; unfold is_s24; lia|constructor; [cbn; unfold is_s24; lia|exact A]]|]. split; [|split; [|split; [|intros X; discriminate X]]].
    + intros f M. change (after (?a :: ?b :: l) f) with (after l (upd (upd f a) b)). apply D. cbn [upd].
      apply (mirrored_cell (set_cell f (CItem Mc) raw) (CItem Fc) r' z); [exact Coq.Init.Logic.I|]. apply (mirrored_cell f (CItem Mc) raw z); [exact Coq.Init.Logic.I|]. exact M.
    + intros f. change (after (?a :: ?b :: l) f) with (after l (upd (upd f a) b)). rewrite (after_other _ _ _ G1). cbn [upd]. rewrite sc_other by congruence. apply sc_same.
    + intros _ f. change (after (?a :: ?b :: l) f) with (after l (upd (upd f a) b)). rewrite (after_other _ _ _ G2). cbn [upd]. apply sc_same.
  - change (zget [c0; c1] 1) with (Some c1). change (chan_config C 1) with (Some (meastemp_config (c_smd C))).
    apply post_bind, post_lift. intros ch E. apply Some_inj in E. subst ch. apply post_bind, post_lift. intros cfg E. apply Some_inj in E. subst cfg.
    apply post_bind, post_lift. intros r E. rewrite Er in E. apply Some_inj in E. subst r.
    apply post_bind, post_tell. apply post_bind. unfold measure_user_filter_handler_t. change (1 =? MEAS_CHAN_CURRENT) with false. cbv iota.
    apply post_ret. apply post_bind, post_lift. intros v _. apply post_bind, post_lift. intros w _. apply post_bind, post_lift. intros ((ch, w'), pl) Ew.
    destruct (plaus_check_ok (meastemp_config (c_smd C)) (y_now y) c1 w ltac:(destruct (c_smd C); vm_compute; discriminate) ltac:(destruct (c_smd C); reflexivity)) as (ch' & w2 & pl' & Ew' & _ & Hw & _).
    rewrite Ew in Ew'. apply Some_inj in Ew'. injection Ew' as <- <- <-.
    assert (Bw : is_s24 w').
    { assert (X : mc_plaus_neg (meastemp_config (c_smd C)) = -1280 /\ mc_plaus_pos (meastemp_config (c_smd C)) = 32000) by (destruct (c_smd C); split; reflexivity). destruct X as (X1 & X2). rewrite X1, X2 in Hw. unfold is_s24. lia. }
    apply post_bind, post_lift. intros chs _. unfold measure_user_result_handler_t. change (1 =? MEAS_CHAN_TEMP) with true. cbv iota.
    set (z := set_y_meas _ _). assert (Lz : ctl z) by exact L. assert (Mz : is_s24 (y_mt z)) by (pose proof (i_mt _ _ _ I); change (y_mt z) with (y_mt y); unfold is_s24; lia).
    eapply post_imp; [apply post_and; [exact (p_mt z w' pl Lz Bw Mz)|apply (post_calls _ (avoids (CItem Mt)))]|].
    { unfold meastemp_result_handler_t, contrtemp_set_feedback_t, contrtemp_run_t, pid_run_t. cv. }
    intros y' l ((A & D & T) & G1). cbn [app]. change (chan_item 1) with Mt. rewrite S16.
    split; [constructor; [cbn; unfold is_s24; lia|exact A]|]. split; [|split; [|split; [intros X; discriminate X|]]].
    + intros f M. change (after (?a :: l) f) with (after l (upd f a)). apply D. cbn [upd]. apply (mirrored_cell f (CItem Mt) raw z); [exact Coq.Init.Logic.I|]. exact M.
    + intros f. change (after (?a :: l) f) with (after l (upd f a)). rewrite (after_other _ _ _ G1). cbn [upd]. apply sc_same.
    + intros _ T1 T2 f. exact (T T1 T2 (upd f (AReport (CItem Mt) raw))).
Qed.

Lemma post_both {A} (m : W A) (P : A -> list act -> Prop) a l : post m P -> m = Some (a, l) -> P a l.
Proof. intros H ->. exact H. Qed.
Definition mpost (y y' : sys) (l : list act) : Prop :=
  Forall rngv l /\ (forall f, mirrored f y -> mirrored (after l f) y') /\
  (m_avail (y_meas y) = false -> l = []) /\
  (m_avail (y_meas y) = true ->
    (forall f, after l f (CItem (chan_item (m_chan (y_meas y)))) = mean_code y) /\
    (m_chan (y_meas y) = 0 -> forall f, after l f (CItem Fc) = snd (meascurr_filter_handler y (mean_code y))) /\
    (m_chan (y_meas y) = 1 -> tproc y y' l)).
Lemma filter_meas y m raw : snd (meascurr_filter_handler (set_y_meas y m) raw) = snd (meascurr_filter_handler y raw).
Proof. unfold meascurr_filter_handler. change (y_mc (set_y_meas y m)) with (y_mc y). destruct (u_init (y_mc y)); [|reflexivity]. destruct (lp_filter_u16_run _ _ _). reflexivity. Qed.
Lemma p_measure B C y : bok B -> sinv4 B C y -> post (measure_work_t C y) (mpost y).
Proof.
  intros HB S. pose proof (s4_inv _ _ _ S) as I. unfold measure_work_t. cbv zeta. destruct (m_avail (y_meas y)) eqn:Ea.
  2: { apply post_ret. split; [constructor|]. split; [intros f H; exact H|]. split; [reflexivity|]. intros X. congruence. }
  destruct (i_meas _ _ _ I) as ((c0 & c1 & Ech & A0 & A1) & M2 & M3 & M4).
  destruct S as [_ Ro H _]. pose proof (proj2 H Ea) as Hc.
  destruct (average_ok C (y_meas y) _ (i_meas _ _ _ I) Hc) as (raw & Er & Em & Hr). fold (mean_code y) in Em.
  set (y1 := set_y_meas y (set_m_avail (y_meas y) false)).
  assert (I1 : inv B C y1) by (unfold y1; destruct I; constructor; sy; assumption).
  apply post_bind. eapply post_imp; [exact (p_handle B C y1 c0 c1 raw I1 Ech Er Hr)|].
  intros y2 l (P1 & P2 & P3 & P4 & P5). apply post_lift. intros y' Et. rewrite app_nil_r.
  unfold adc_trigger_next_chan in Et. cbv zeta in Et. inv1 Et. inv1 Et. inv1 Et.
  split; [exact P1|]. split; [exact P2|]. split; [intros X; congruence|]. intros _.
  split; [exact P3|]. split; [|exact P5]. intros X f. rewrite (P4 X f). apply filter_meas.
Qed.
Lemma ui_rng l : Forall is_uiact l -> Forall rngv l.
Proof. apply Forall_impl. intros [c v|i v|b] H; [destruct H| |exact Coq.Init.Logic.I]. destruct i; try destruct H. cbn in *. unfold is_s16, is_s24 in *. lia. Qed.
(** The calls of an event *)
Lemma ui_event C y e y' l : e <> EMeasure -> step_t C y e = Some (y', l) -> Forall is_uiact l.
Proof.
  intros N E. destruct e; try (destruct (N eq_refl)); cbn [step_t] in E;
    try (unfold lift in E; inv1 E; apply Some_inj in E; injection E as _ <-; constructor).
  - exact (post_both _ _ _ _ (post_calls _ _ (calls_imp _ _ _ print_ui (c_menu C y))) E).
  - exact (post_both _ _ _ _ (post_calls _ _ (c_buttons C y pinb)) E).
  - exact (post_both _ _ _ _ (post_calls _ _ (c_boot C _ pinb)) E).
Qed.
Lemma event_rng C y e y' l : build_conf C -> reach C y -> step_t C y e = Some (y', l) -> Forall rngv l.
Proof.
  intros HC R E. destruct (match e with EMeasure => true | _ => false end) eqn:Ee.
  - destruct e; try discriminate Ee. exact (proj1 (post_both _ _ _ _ (p_measure relaxed C y bok_relaxed (reach_s4 C y HC R)) E)).
  - apply ui_rng. eapply ui_event; [|exact E]. intros ->. discriminate Ee.
Qed.

(** ** The telemetry observes *)
Lemma tstep_eq C y f e : build_conf C -> reach C y -> ev_ok C y e ->
  exists y' l, step C y e = Some y' /\ step_t C y e = Some (y', l) /\ Forall rngv l /\
    let en0 := if is_power e then false else y_dbg y in let f0 := if is_power e then fun _ => 0 else f in let now := if is_power e then 0 else y_now y in
    y_dbg y' = fold_left enf l en0 /\
    if c_debug C then exists s, perform now en0 f0 l = Some (y_dbg y', after l f0, s) /\ good (total l) s /\ tstep C y f e = Some (y', after l f0, s)
    else tstep C y f e = Some (y', f0, []).
Proof.
  intros HC R O. destruct (step_ok relaxed C y e HC bok_relaxed (reach_s4 C y HC R) O) as (y' & E & _). pose proof (e_step C y e) as X. rewrite E in X.
  destruct (step_t C y e) as [(z, l)|] eqn:Et; [|discriminate X]. cbn [erase] in X. apply Some_inj in X. subst z. exists y', l.
  split; [exact E|]. split; [reflexivity|]. pose proof (event_rng C y e y' l HC R Et) as Rn. split; [exact Rn|]. cbv zeta.
  set (en0 := if is_power e then false else y_dbg y). set (f0 := if is_power e then fun _ => 0 else f). set (now := if is_power e then 0 else y_now y).
  assert (D : y_dbg y' = fold_left enf l en0).
  { unfold en0. destruct e; cbn [is_power step_t] in *.
    1-4,7,9: unfold lift in Et; rewrite E in Et; apply Some_inj in Et; injection Et as <-; cbn [fold_left]; symmetry; clear - E; cbn [step] in E.
    - apply Some_inj in E. subst y'. reflexivity.
    - apply Some_inj in E. subst y'. destruct (m_adc (y_meas y)); [|reflexivity]. unfold adc_isr. cbv zeta. repeat match goal with |- context [if ?b then _ else _] => destruct b end; reflexivity.
    - destruct (x_eerie (y_set y)); [|inv1 E; reflexivity]. destruct (x_busy (y_set y)); [inv1 E; reflexivity|]. apply bind_inv in E. destruct E as (x & _ & E). apply Some_inj in E. subst y'. reflexivity.
    - apply Some_inj in E. subst y'. reflexivity.
    - unfold sys_display_work in E. apply bind_inv in E. destruct E as ((h & d) & _ & E). apply Some_inj in E. subst y'. reflexivity.
    - apply Some_inj in E. subst y'. unfold sys_settings_work. reflexivity.
    - exact (post_both _ _ _ _ (dk_measure C y) Et).
    - exact (post_both _ _ _ _ (dk_menu C y) Et).
    - exact (post_both _ _ _ _ (dk_buttons C y pinb) Et).
    - exact (post_both _ _ _ _ (dk_boot C _ pinb) Et). }
  split; [exact D|].
  assert (T : tstep C y f e = tout C now en0 f0 (Some (y', l))).
  { rewrite <- Et. unfold now, en0, f0. destruct e; reflexivity. }
  rewrite T. unfold tout. cbn [bind]. destruct (c_debug C); [|reflexivity].
  destruct (perform_ok now l Rn en0 f0) as (s & Ep & G). rewrite Ep. cbn [bind]. exists s. split; [rewrite D; reflexivity|]. split; [exact G|reflexivity].
Qed.
