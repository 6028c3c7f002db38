(** * The converter: every conversion in an average is one of the channel, made in the window *)
From Coq Require Import ZArith List Bool Lia ZifyBool.
From Verif Require Import Base PBase MConf MUtil MFixpt MScale MRing MFilter MTimer MPid MPwm MTempMap MCurr MSens
  SpecNum SpecPid SpecSmall PNum PSmall PScale PPid SpecCurr PCurr MSettings SpecSettings PSettings PSysSet
  MSseg MDisplay MText MState MTemp MMeas MMenu MMain SpecDisplay SpecSys SpecRun PSys PSysMeas PSysMenu PSysDisp PSysBtn
  PSysStep PSysRun PSysCC PSysSafe PSysWin MAdc SpecAdc.
Import ListNotations.
Open Scope Z_scope.
Ltac Zify.zify_post_hook ::= Z.div_mod_to_equations.

(** ** The hardware *)
Lemma disable_silent a : silent (adc_disable a) /\ a_nr (adc_disable a) = a_nr a /\ a_data (adc_disable a) = a_data a.
Proof. unfold adc_disable, silent, write_adcsra. cbn. destruct (a_if a); cbn; repeat split. Qed.
Lemma trigger_converting a m : silent a -> (m = meascurr_mux \/ m = meastemp_mux) ->
  let a' := adc_trigger a (mx_mux m) (mx_ps m) (mx_ref m) (mx_did m) true true in
  converting (mx_mux m) a' /\ a_if a' = false /\ a_data a' = a_data a.
Proof.
  intros (S1 & S2 & S3 & S4) M a'. subst a'. unfold adc_trigger.
  assert (Hb : Z.testbit (Z.lor (a_did a) (mx_did m)) (mx_mux m) = true).
  { rewrite Z.lor_spec. replace (Z.testbit (mx_did m) (mx_mux m)) with true by (destruct M as [->| ->]; reflexivity). apply orb_true_r. }
  revert Hb. generalize (Z.lor (a_did a) (mx_did m)) as d. intros d Hb.
  destruct M as [->| ->]; unfold write_adcsra, converting; cbn -[Z.testbit] in *; rewrite S1, S2, S3; cbn -[Z.testbit]; repeat split; exact Hb.
Qed.
Lemma complete_converting i a code a' : converting i a -> adc_complete a code = Some a' ->
  converting i a' /\ a_if a' = true /\ a_from a' = (i, a_nr a') /\ a_data a' = code /\ a_nr a' = a_nr a.
Proof.
  intros (S1 & S2 & S3 & S4 & S5 & S6 & S7 & S8) E. unfold adc_complete in E. rewrite S8 in E. apply Some_inj in E. subst a'. unfold converting. cbn.
  rewrite S2, S3, S6. cbn. repeat split; assumption.
Qed.
Lemma completes_converting i l : forall a a', converting i a -> Forall (fun c => 0 <= c <= 1023) l -> adc_completes a l = Some a' ->
  converting i a' /\ a_nr a' = a_nr a /\ (0 <= a_data a <= 1023 -> 0 <= a_data a' <= 1023) /\
  ((a_if a = true -> a_from a = (i, a_nr a)) -> a_if a' = true -> a_from a' = (i, a_nr a')).
Proof.
  induction l as [|c r IH]; intros a a' Cv F E; cbn [adc_completes] in E; [apply Some_inj in E; subst a'; auto|].
  inversion F as [|? ? F1 F2]; subst. destruct (adc_complete a c) as [a1|] eqn:E1; [|discriminate E]. cbn [bind] in E.
  destruct (complete_converting i a c a1 Cv E1) as (C1 & C2 & C3 & C4 & C5). destruct (IH a1 a' C1 F2 E) as (I1 & I2 & I3 & I4).
  split; [exact I1|]. split; [congruence|]. split; [intros _; apply I3; lia|]. intros _. apply I4. intros _. exact C3.
Qed.
Lemma converting_completes i a l : converting i a -> exists a', adc_completes a l = Some a'.
Proof.
  revert a. induction l as [|c r IH]; intros a Cv; [exists a; reflexivity|]. cbn [adc_completes].
  destruct (adc_complete a c) as [a1|] eqn:E1; [|unfold adc_complete in E1; rewrite (proj2 (proj2 (proj2 (proj2 (proj2 (proj2 (proj2 Cv))))))) in E1; discriminate E1].
  cbn [bind]. apply IH. apply (complete_converting i a c a1 Cv E1).
Qed.
Lemma enter_inv i a a1 : converting i a -> adc_enter a = Some a1 ->
  converting i a1 /\ a_if a = true /\ a_if a1 = false /\ a_data a1 = a_data a /\ a_nr a1 = a_nr a.
Proof.
  intros (S1 & S2 & S3 & S4 & S5 & S6 & S7 & S8) E. unfold adc_enter in E. destruct (a_if a); [|discriminate E]. rewrite S4 in E. cbn in E. apply Some_inj in E. subst a1.
  unfold converting. cbn. repeat split; try assumption; reflexivity.
Qed.
(** The conversion of the ground input at power-up is over when the program goes on. *)
Lemma init_silent codes a : measure_init_r adc_reset codes = Some a -> silent a.
Proof. unfold measure_init_r. destruct (adc_busywait _ codes) as [a1|]; [|discriminate]. cbn [bind]. intros E. apply Some_inj in E. subst a. apply disable_silent. Qed.
Lemma init_possible code : exists a, measure_init_r adc_reset [code] = Some a.
Proof. eexists. unfold measure_init_r. cbn. reflexivity. Qed.
Lemma init_data codes a : Forall (fun c => 0 <= c <= 1023) codes -> measure_init_r adc_reset codes = Some a -> 0 <= a_data a <= 1023.
Proof.
  intros F. unfold measure_init_r. destruct codes as [|c [|c2 r]].
  - cbn. discriminate.
  - cbn. intros E. apply Some_inj in E. subst a. cbn. inversion F; assumption.
  - cbn. discriminate.
Qed.
Lemma chan_mux_of c : c = 0 \/ c = 1 -> exists m, chan_mux c = Some m /\ (m = meascurr_mux \/ m = meastemp_mux) /\ mx_mux m = input_of c.
Proof. intros [->| ->]; cbn; eexists; repeat split; auto. Qed.

(** ** The firmware *)
Record minv (C : conf) (y : sys) (a : adc) (l : list sample) : Prop := mkMinv {
  n_reach : reach C y;
  n_on : m_adc (y_meas y) = true -> converting (input_of (m_chan (y_meas y))) a /\
         (a_if a = true -> a_from a = (input_of (m_chan (y_meas y)), a_nr a) /\ 0 <= a_data a <= 1023);
  n_off : m_adc (y_meas y) = false -> silent a;
  n_from : Forall (fun s => fst s = (input_of (m_chan (y_meas y)), a_nr a) /\ 0 <= snd s <= 1023) l;
  n_sum : m_sum (y_meas y) = zsum (codes_of l);
  n_count : m_count (y_meas y) = Z.of_nat (length l)
}.
Lemma minv_start C y codes a : build_conf C -> reach C y -> fresh C y -> boot_r y codes = Some a -> minv C y a [].
Proof.
  intros HC R F E. destruct (fresh_window C y F) as (A1 & A2 & A3 & A4 & _). destruct (sys_handover C y HC R) as (B1 & _). unfold boot_r in E.
  destruct (measure_init_r adc_reset codes) as [a0|] eqn:E0; [|discriminate E]. cbn [bind] in E. rewrite A4 in E. cbn [chan_mux Z.eqb bind MEAS_CHAN_CURRENT MEAS_CHAN_TEMP] in E.
  apply Some_inj in E. destruct (trigger_converting a0 meastemp_mux (init_silent codes a0 E0) (or_intror eq_refl)) as (T1 & T2 & _). rewrite E in T1, T2.
  rewrite A3 in B1. constructor; auto; rewrite ?A4.
  - intros _. split; [exact T1|congruence].
  - rewrite B1. discriminate.
Qed.
Lemma step_irq C y a l late a1 y' a' : build_conf C -> minv C y a l -> adc_enter a = Some a1 -> adc_isr_r y a1 late = Some (y', a') ->
  Forall (fun c => 0 <= c <= 1023) late -> m_count (y_meas y) < 65535 ->
  m_adc (y_meas y) = true /\ ev_ok C y (EAdc (a_data a)) /\ step C y (EAdc (a_data a)) = Some y' /\ minv C y' a' ((a_from a, a_data a) :: l).
Proof.
  intros HC [R On Off Fr Su Co] E1 E F B. destruct (m_adc (y_meas y)) eqn:Ea.
  2:{ destruct (Off eq_refl) as (_ & _ & Q & _). unfold adc_enter in E1. rewrite Q in E1. discriminate E1. }
  destruct (On eq_refl) as (Cv & Fl). destruct (enter_inv _ a a1 Cv E1) as (C1 & C2 & C3 & C4 & C5). destruct (Fl C2) as (F1 & F2).
  unfold adc_isr_r in E. destruct (adc_completes a1 late) as [a2|] eqn:E2; [|discriminate E]. cbn [bind] in E. apply Some_inj in E.
  destruct (completes_converting _ late a1 a2 C1 F E2) as (D1 & D2 & D3 & D4). rewrite C4 in E.
  assert (O : ev_ok C y (EAdc (a_data a))) by (cbn; auto).
  assert (S : step C y (EAdc (a_data a)) = Some y') by (cbn [step]; rewrite Ea; congruence).
  split; [reflexivity|]. split; [exact O|]. split; [exact S|]. assert (R' : reach C y') by exact (reach_step C y _ y' R O S).
  destruct (step_window C y _ y' HC R O eq_refl eq_refl S) as [(r & Er & _ & (W1 & W2 & W3 & W4 & _))|(W & _)]; [|rewrite (W _ eq_refl) in Ea; discriminate Ea].
  injection Er as <-. destruct (sys_handover C y' HC R') as (H1 & _). rewrite W3 in H1.
  assert (Ey : y' = adc_isr y (a_data a)) by congruence.
  assert (Eaa : a' = if timer_expired (y_now y) (m_timer (y_meas y)) then adc_disable a2 else a2) by congruence.
  assert (Nr : a_nr a' = a_nr a) by (rewrite Eaa; destruct (timer_expired _ _); [rewrite (proj1 (proj2 (disable_silent a2)))|]; congruence).
  constructor.
  - exact R'.
  - intros Q. rewrite Q in H1. destruct (timer_expired _ _); [discriminate H1|]. subst a'. rewrite W4. split; [exact D1|]. intros Q2. split.
    + apply D4; [congruence|exact Q2].
    + apply D3. rewrite C4. exact F2.
  - intros Q. rewrite Q in H1. destruct (timer_expired _ _); [|discriminate H1]. subst a'. apply disable_silent.
  - rewrite W4, Nr. constructor; [auto|exact Fr].
  - rewrite W1, Su. unfold codes_of, zsum. cbn [map fold_right snd]. lia.
  - rewrite W2, Co. cbn [length]. lia.
Qed.
Lemma step_measure C y a l y' a' : build_conf C -> minv C y a l -> measure_work_r C y a = Some (y', a') ->
  step C y EMeasure = Some y' /\ minv C y' a' (if m_avail (y_meas y) then [] else l).
Proof.
  intros HC I E. pose proof I as [R On Off Fr Su Co]. unfold measure_work_r in E. destruct (sys_handover C y HC R) as (H1 & _ & H3).
  assert (S : step C y EMeasure = Some y').
  { cbn [step]. unfold measure_work. destruct (m_avail (y_meas y)).
    - destruct (measure_handle_result C _) as [y1|]; [|discriminate E]. cbn [bind] in *. unfold adc_trigger_next_chan_r in E.
      destruct (adc_trigger_next_chan C y1) as [y2|]; [|discriminate E]. cbn [bind] in E. destruct (chan_mux _); [|discriminate E]. cbn [bind] in E. congruence.
    - congruence. }
  split; [exact S|]. assert (R' : reach C y') by exact (reach_step C y EMeasure y' R Logic.I S). destruct (m_avail (y_meas y)) eqn:Ev.
  - assert (X : result y EMeasure (m_chan (y_meas y))) by (repeat split; exact Ev). destruct (sys_once C y EMeasure y' _ HC R X S) as (A1 & A2 & A3 & A4).
    destruct (measure_handle_result C _) as [y1|]; [|discriminate E]. cbn [bind] in E. unfold adc_trigger_next_chan_r in E.
    destruct (adc_trigger_next_chan C y1) as [y2|]; [|discriminate E]. cbn [bind] in E. destruct (chan_mux (m_chan (y_meas y2))) as [m|] eqn:Em; [|discriminate E]. cbn [bind] in E.
    apply Some_inj in E. assert (Ey : y2 = y') by congruence. subst y2.
    assert (Eaa : a' = adc_trigger a (mx_mux m) (mx_ps m) (mx_ref m) (mx_did m) true true) by congruence.
    destruct (chan_mux_of (m_chan (y_meas y')) ltac:(lia)) as (m' & Q1 & Q2 & Q3). assert (m' = m) by congruence. subst m'.
    destruct (trigger_converting a m (Off H1) Q2) as (T1 & T2 & _). rewrite <- Eaa in T1, T2. rewrite Q3 in T1.
    constructor; auto.
    + intros _. split; [exact T1|congruence].
    + destruct (sys_handover C y' HC R') as (B1 & _). rewrite A1 in B1. rewrite B1. discriminate.
  - assert (y' = y) by (pose proof (sys_not_twice C y HC R Ev) as Q; congruence). subst y'.
    assert (a' = a) by congruence. subst a'. exact I.
Qed.
Lemma step_other C y a l e y' : build_conf C -> minv C y a l -> ev_ok C y e -> step C y e = Some y' -> is_power e = false ->
  e <> EMeasure -> (forall raw, e <> EAdc raw) -> minv C y' a l.
Proof.
  intros HC [R On Off Fr Su Co] O S P N1 N2. assert (Pn : pending y e = false) by (destruct e; try reflexivity; congruence).
  destruct (step_window C y e y' HC R O P Pn S) as [(r & Er & _)|(_ & (W1 & W2 & W3 & W4 & W5 & _))]; [destruct (N2 r Er)|].
  constructor; rewrite ?W1, ?W2, ?W4, ?W5; auto. exact (reach_step C y e y' R O S).
Qed.
Lemma metered_inv C y a l : build_conf C -> metered C y a l -> minv C y a l.
Proof.
  intros HC D. induction D as [pinb y codes a Hp E Ea|y a l code a' D IH B E|y a l late a1 y' a' D IH E1 E F B|y a l y' a' D IH E|y a l e y' D IH O S P N1 N2|y a l v pinb y' codes a' D IH O E Ea].
  - apply (minv_start C y codes a HC); [econstructor; eassumption|exact (boot_fresh C pinb y HC E)|exact Ea].
  - destruct IH as [R On Off Fr Su Co]. destruct (m_adc (y_meas y)) eqn:Em.
    + destruct (On eq_refl) as (Cv & Fl). destruct (complete_converting _ a code a' Cv E) as (C1 & C2 & C3 & C4 & C5).
      constructor; rewrite ?C5; auto; intros Q; [|congruence]. split; [exact C1|]. intros _. split; [rewrite <- C5; exact C3|lia].
    + destruct (Off eq_refl) as (_ & Q & _). unfold adc_complete in E. rewrite Q in E. discriminate E.
  - apply (step_irq C y a l late a1 y' a' HC IH E1 E F B).
  - apply (step_measure C y a l y' a' HC IH E).
  - exact (step_other C y a l e y' HC IH O S P N1 N2).
  - pose proof (n_reach _ _ _ _ IH) as R. apply (minv_start C y' codes a' HC); [exact (reach_step C y _ y' R O E)|exact (power_fresh C y v pinb y' HC R O E)|exact Ea].
Qed.

(** ** The statements *)
Lemma adc_samples C y a l : build_conf C -> metered C y a l ->
  m_sum (y_meas y) = zsum (codes_of l) /\ m_count (y_meas y) = Z.of_nat (length l) /\
  Forall (fun s => fst s = (input_of (m_chan (y_meas y)), a_nr a) /\ 0 <= snd s <= 1023) l.
Proof. intros HC D. destruct (metered_inv C y a l HC D). auto. Qed.
Lemma adc_state C y a l : build_conf C -> metered C y a l ->
  if m_avail (y_meas y) then silent a
  else converting (input_of (m_chan (y_meas y))) a /\ (a_if a = true -> a_from a = (input_of (m_chan (y_meas y)), a_nr a)).
Proof.
  intros HC D. destruct (metered_inv C y a l HC D) as [R On Off _ _ _]. destruct (sys_handover C y HC R) as (H1 & _).
  destruct (m_avail (y_meas y)); cbn in H1; [apply Off; exact H1|]. destruct (On H1) as (A & B). split; [exact A|]. intros Q. apply B; exact Q.
Qed.
Lemma adc_refines C y a l : build_conf C -> metered C y a l -> reach C y /\
  (forall late a1 y' a', adc_enter a = Some a1 -> adc_isr_r y a1 late = Some (y', a') -> Forall (fun c => 0 <= c <= 1023) late ->
     m_count (y_meas y) < 65535 -> m_avail (y_meas y) = false /\ step C y (EAdc (a_data a)) = Some y') /\
  (forall y' a', measure_work_r C y a = Some (y', a') -> step C y EMeasure = Some y').
Proof.
  intros HC D. pose proof (metered_inv C y a l HC D) as I. pose proof (n_reach _ _ _ _ I) as R. split; [exact R|]. split.
  - intros late a1 y' a' E1 E F B. destruct (step_irq C y a l late a1 y' a' HC I E1 E F B) as (Q1 & _ & Q2 & _). split; [|exact Q2].
    destruct (sys_handover C y HC R) as (H1 & _). rewrite Q1 in H1. destruct (m_avail (y_meas y)); [discriminate H1|reflexivity].
  - intros y' a' E. apply (step_measure C y a l y' a' HC I E).
Qed.
(** Every execution of [reach] occurs. *)
Lemma adc_every C y : build_conf C -> reach C y -> exists a l, metered C y a l /\ a_if a = false.
Proof.
  intros HC R. induction R as [pinb y Hp E|y e y' R IH O E].
  - destruct (init_possible 0) as (a0 & E0). assert (Q : exists a, boot_r y [0] = Some a /\ a_if a = false).
    { destruct (fresh_window C y (boot_fresh C pinb y HC E)) as (_ & _ & _ & A4 & _). unfold boot_r. rewrite E0. cbn [bind]. rewrite A4.
      cbn [chan_mux Z.eqb bind MEAS_CHAN_CURRENT MEAS_CHAN_TEMP]. eexists. split; [reflexivity|]. apply (trigger_converting a0 meastemp_mux (init_silent _ a0 E0) (or_intror eq_refl)). }
    destruct Q as (a & Q1 & Q2). exists a, []. split; [econstructor; eassumption|exact Q2].
  - destruct IH as (a & l & D & Fl). pose proof (metered_inv C y a l HC D) as I.
    assert (De : (exists v pinb, e = EPower v pinb) \/ e = EMeasure \/ (exists raw, e = EAdc raw) \/ (is_power e = false /\ e <> EMeasure /\ forall raw, e <> EAdc raw)).
    { destruct e; try (right; right; right; repeat split; congruence); eauto. }
    destruct De as [(v & pinb & ->)|[->|[(raw & ->)|(P & N1 & N2)]]].
    + destruct (init_possible 0) as (a0 & E0). assert (Q : exists a, boot_r y' [0] = Some a /\ a_if a = false).
      { destruct (fresh_window C y' (power_fresh C y v pinb y' HC R O E)) as (_ & _ & _ & A4 & _). unfold boot_r. rewrite E0. cbn [bind]. rewrite A4.
        cbn [chan_mux Z.eqb bind MEAS_CHAN_CURRENT MEAS_CHAN_TEMP]. eexists. split; [reflexivity|]. apply (trigger_converting a0 meastemp_mux (init_silent _ a0 E0) (or_intror eq_refl)). }
      destruct Q as (a' & Q1 & Q2). exists a', []. split; [econstructor; eassumption|exact Q2].
    + assert (Q : exists a', measure_work_r C y a = Some (y', a') /\ a_if a' = false).
      { cbn [step] in E. unfold measure_work in E. unfold measure_work_r. destruct (m_avail (y_meas y)) eqn:Ev.
        - assert (S : step C y EMeasure = Some y') by (cbn [step]; unfold measure_work; rewrite Ev; exact E).
          assert (X : result y EMeasure (m_chan (y_meas y))) by (repeat split; exact Ev). destruct (sys_once C y EMeasure y' _ HC R X S) as (_ & _ & _ & A4).
          destruct (sys_handover C y HC R) as (H1 & _ & H3). rewrite Ev in H1. cbn in H1.
          destruct (measure_handle_result C _) as [y1|]; [|discriminate E]. cbn [bind] in *. unfold adc_trigger_next_chan_r. rewrite E. cbn [bind].
          destruct (chan_mux_of (m_chan (y_meas y')) ltac:(lia)) as (m & Q1 & Q2 & _). rewrite Q1. cbn [bind]. eexists. split; [reflexivity|].
          apply (trigger_converting a m (n_off _ _ _ _ I H1) Q2).
        - apply Some_inj in E. subst y'. exists a. auto. }
      destruct Q as (a' & Q1 & Q2). eexists a', _. split; [eapply met_measure; eassumption|exact Q2].
    + destruct (m_adc (y_meas y)) eqn:Ea.
      * destruct (n_on _ _ _ _ I Ea) as (Cv & _). destruct (adc_complete a raw) as [a1|] eqn:E1.
        2:{ unfold adc_complete in E1. rewrite (proj2 (proj2 (proj2 (proj2 (proj2 (proj2 (proj2 Cv))))))) in E1. discriminate E1. }
        pose proof (met_convert C y a l raw a1 D (proj1 O) E1) as D1. destruct (complete_converting _ a raw a1 Cv E1) as (C1 & C2 & C3 & C4 & C5).
        assert (E2 : exists a2, adc_enter a1 = Some a2) by (unfold adc_enter; rewrite C2, (proj1 (proj2 (proj2 (proj2 C1)))); cbn; eauto). destruct E2 as (a2 & E2).
        destruct (enter_inv _ a1 a2 C1 E2) as (_ & _ & F2 & F3 & _).
        assert (E3 : exists a3, adc_isr_r y a2 [] = Some (y', a3) /\ a_if a3 = false).
        { unfold adc_isr_r. cbn [adc_completes bind]. rewrite F3, C4. cbn [step] in E. rewrite Ea in E. apply Some_inj in E. rewrite E.
          eexists. split; [reflexivity|]. destruct (timer_expired _ _); [apply disable_silent|exact F2]. }
        destruct E3 as (a3 & E3 & Q3). eexists a3, _. split; [eapply met_irq; [exact D1|exact E2|exact E3|constructor|exact (proj2 O)]|exact Q3].
      * cbn [step] in E. rewrite Ea in E. apply Some_inj in E. subst y'. exists a, l. auto.
    + exists a, l. split; [eapply met_other; eassumption|exact Fl].
Qed.
