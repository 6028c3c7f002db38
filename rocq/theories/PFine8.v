(** * Interrupts inside the work functions, part 8: all executions *)
From Coq Require Import ZArith List Bool Lia ZifyBool.
From Verif Require Import Base PBase MConf MUtil MFixpt MScale MRing MFilter MTimer MPid MPwm MTempMap MCurr MSens
  SpecNum SpecPid SpecSmall PNum PSmall PScale PPid SpecCurr PCurr MSettings SpecSettings PSettings PSysSet
  MSseg MDisplay MText MState MTemp MMeas MMenu MMain SpecDisplay PDisplay SpecSys SpecRun PSys PSysMeas PSysMenu PSysDisp PSysBtn
  PSysStep PSysRun PSysCC PSysSafe MFine SpecFine PFine PFine2 PFine4 PFine5 PFine6 PFine7.
Import ListNotations.
Open Scope Z_scope.
Ltac Zify.zify_post_hook ::= Z.div_mod_to_equations.

Lemma fok_run (m : F sys) (Q : sys -> Prop) o : fok m Q -> exists y', ('(z, _) <- m o ;; Some z) = Some y' /\ Q y'.
Proof. intros H. destruct (H o) as (a & o' & E & K). exists a. rewrite E. split; [reflexivity|exact K]. Qed.
Lemma lift_run (m : option sys) o : ('(z, _) <- lift m o ;; Some z) = m.
Proof. unfold lift. destruct m; reflexivity. Qed.

(** The events with nothing inside *)
Definition plain (e : event) : bool := match e with EMeasure | EMenu | EButtons _ => false | _ => true end.
Lemma fstep_plain C y e o : plain e = true -> fstep C y e o = step C y e.
Proof. destruct e; try discriminate; intros _; unfold fstep; apply lift_run. Qed.

Lemma fine_vstep y y' : fine_frame y y' -> (t_feedback (y_ct y') <> t_feedback (y_ct y) -> n_upd (y_menu y') = true) ->
  (n_upd (y_menu y) = true -> n_upd (y_menu y') = true) -> vstep y y'.
Proof.
  intros (F1&F3&F4&F5&F6&(b&F7)&(G1&G2&G3&G4&G5&G6&G7)) H1 H2. unfold vstep.
  destruct (n_upd (y_menu y')) eqn:U; [left; reflexivity|]. right. split.
  { destruct (n_upd (y_menu y)); [discriminate H2; reflexivity|reflexivity]. }
  unfold vis. rewrite F3, F4, G2, G3, F7. sy.
  assert (t_feedback (y_ct y') = t_feedback (y_ct y)) as ->; [|reflexivity].
  destruct (Z.eq_dec (t_feedback (y_ct y')) (t_feedback (y_ct y))) as [E|E]; [exact E|]. discriminate (H1 E).
Qed.

Section All.
Variables (B : bnds) (C : conf).
Hypothesis HC : build_conf C.
Hypothesis HB : bok B.

(** What an event without a result does to the controllers *)
Definition fcalm (y y' : sys) : Prop :=
  y_mc y' = y_mc y /\ y_mt y' = y_mt y /\ t_emerg (y_ct y') = t_emerg (y_ct y) /\ t_feedback (y_ct y') = t_feedback (y_ct y) /\
  (y_cc y' = y_cc y \/ y_cc y' = contrcurr_set_setpoint (y_cc y) 0).
Lemma good_calm y y' : good B C y y' -> fcalm y y'.
Proof. intros []. unfold fcalm. auto 10. Qed.
Lemma calm_fcalm y e y' : calm y e y' -> fcalm y y'.
Proof. intros (_ & A1 & A2 & _ & _ & A3 & A4 & A5). unfold fcalm. repeat (split; [assumption|]). destruct A5 as [(A5 & _)|(A5 & _)]; auto. Qed.

Lemma fstep_all y e o : sinv4 B C y -> ev_ok C y e ->
  exists y', fstep C y e o = Some y' /\ sinv4 (if is_power e then relaxed else B) C y' /\
    (is_power e = false -> pending y e = false -> fcalm y y') /\
    (pending y e = true -> exists c0 c1 raw, raw_average (y_meas y) = Some raw /\ measured B C y y' c0 c1 raw).
Proof.
  intros S4 O. destruct (plain e) eqn:Pl.
  - destruct (step_ok B C y e HC HB S4 O) as (y' & E & S'). exists y'. split; [rewrite fstep_plain by exact Pl; exact E|]. split; [exact S'|].
    split; [|destruct e; discriminate]. intros P N. eapply calm_fcalm. eapply step_calm; eassumption.
  - destruct S4 as [I Ro H S]. destruct e; try discriminate Pl; unfold fstep; cbn [is_power].
    + destruct (i_meas _ _ _ I) as ((c0 & c1 & Ech & _) & M2 & _).
      destruct (fok_run _ _ o (measure_fine B C HC HB y c0 c1 I H Ech)) as (y' & E & K). exists y'. split; [exact E|].
      cbn [pending]. destruct (m_avail (y_meas y)) eqn:Ea.
      * destruct K as (raw & Er & K). split; [|split; [discriminate|intros _; exists c0, c1, raw; split; [exact Er|exact K]]].
        destruct K as (I' & F & H' & _ & _ & _ & _ & Ht & Hc). assert (F' := F). destruct F' as (_ & _ & _ & _ & _ & (b & F7) & _).
        constructor; [exact I'|rewrite F7; exact Ro|exact H'|]. eapply screen_step; [|exact S]. apply fine_vstep; [exact F| |];
          (destruct M2 as [M2|M2]; [destruct (Hc M2) as (? & ? & ? & ? & ? & ? & ? & ? & _ & _ & (G1 & _ & G2 & _) & _)|destruct (Ht M2) as (? & ? & ? & ? & ? & ? & ? & ? & _ & _ & _ & (_ & _ & _ & _ & _ & G1 & G2 & _) & _)]);
          [rewrite G1; cbn; congruence|exact G1|rewrite G2; auto|exact G2].
      * subst y'. split; [constructor; assumption|]. split; [|discriminate]. intros _ _. unfold fcalm. auto 10.
    + destruct (fok_run _ _ o (menu_work_fine B C HC HB y I Ro)) as (y' & E & G & R' & Sc & _). exists y'. split; [exact E|].
      split; [constructor; [apply G|exact R'|apply G; exact H|exact (Sc S)]|]. split; [|discriminate]. intros _ _. apply good_calm. exact G.
    + destruct (fok_run _ _ o (buttons_fine B C HC HB y pinb I Ro)) as (y' & E & G & R' & V). exists y'. split; [exact E|].
      split; [constructor; [apply G|exact R'|apply G; exact H|eapply screen_step; eassumption]|]. split; [|discriminate]. intros _ _. apply good_calm. exact G.
Qed.
Lemma fnext_all y e y' : sinv4 B C y -> fnext C y e y' -> sinv4 (if is_power e then relaxed else B) C y' /\
    (is_power e = false -> pending y e = false -> fcalm y y') /\
    (pending y e = true -> exists c0 c1 raw, raw_average (y_meas y) = Some raw /\ measured B C y y' c0 c1 raw).
Proof.
  intros S4 (O & o & E). destruct (fstep_all y e o S4 O) as (y1 & E1 & K). rewrite E in E1. apply Some_inj in E1. subst y1. exact K.
Qed.
End All.

Lemma freach_s4 C y : build_conf C -> freach C y -> sinv4 relaxed C y.
Proof.
  intros HC R. induction R as [pinb y Hp E|y e y' R IH N].
  - apply (reach_s4 C y HC). econstructor; eassumption.
  - destruct (fnext_all relaxed C HC bok_relaxed y e y' IH N) as (S1 & _). destruct (is_power e); exact S1.
Qed.
Lemma freach1_s4 C y : build_conf C -> freach1 C y -> sinv4 strict C y.
Proof.
  intros HC R. induction R as [pinb y Hp E|y e y' R IH P N].
  - apply (reach1_s4 C y HC). econstructor; eassumption.
  - destruct (fnext_all strict C HC bok_strict y e y' IH N) as (S1 & _). rewrite P in S1. exact S1.
Qed.
Lemma next_fnext C y e y' : ev_ok C y e -> step C y e = Some y' -> fnext C y e y'.
Proof. intros O E. split; [exact O|]. exists []. rewrite fstep_nil. exact E. Qed.
Lemma reach_freach C y : reach C y -> freach C y.
Proof.
  intros R. induction R as [pinb y Hp E|y e y' R IH O E]; [exact (freach_boot C pinb y Hp E)|].
  exact (freach_step C y e y' IH (next_fnext C y e y' O E)).
Qed.

Lemma ftotal C : build_conf C -> forall y e o, freach C y -> ev_ok C y e -> fstep C y e o <> None.
Proof.
  intros HC y e o R O. destruct (fstep_all relaxed C HC bok_relaxed y e o (freach_s4 C y HC R) O) as (y' & E & _). congruence.
Qed.
Lemma fpower_fresh C y v pinb y' : build_conf C -> freach C y -> fnext C y (EPower v pinb) y' -> fresh C y'.
Proof.
  intros HC R (O & o & E). pose proof (freach_s4 C y HC R) as [I _ _ _]. rewrite fstep_plain in E by reflexivity. cbn [step ev_ok] in *.
  destruct (set_power C HC relaxed (y_set y) v (i_set _ _ _ I) (proj1 O) (proj2 (proj2 O))) as (x & Ex & Sx & _).
  destruct (boot_s4 relaxed C _ x pinb bok_relaxed Ex Sx) as (y1 & E1 & _ & k & a & p & Ey & _).
  rewrite E in E1. apply Some_inj in E1. subst y1. exists x, k, a, p. split; [exact Ey|exact Sx].
Qed.

(** ** C25, C35, C36, C41, C46, C47, C62 *)
Lemma f_emerg_off C y : build_conf C -> freach C y -> cc_emerg (y_cc y) <> 0 -> pwm_off y.
Proof. intros HC R N. pose proof (freach_s4 C y HC R) as [I _ _ _]. destruct (i_cc _ _ _ I) as (_ & _ & _ & O). exact (O N). Qed.
Lemma f_handover C y : build_conf C -> freach C y ->
  m_adc (y_meas y) = negb (m_avail (y_meas y)) /\ (m_avail (y_meas y) = true -> 0 < m_count (y_meas y)) /\
  (m_chan (y_meas y) = 0 \/ m_chan (y_meas y) = 1).
Proof.
  intros HC R. pose proof (freach_s4 C y HC R) as [I Ro (H1 & H2) S]. split; [exact H1|]. split; [exact H2|]. exact (proj1 (proj2 (i_meas _ _ _ I))).
Qed.
Lemma f_once C y e y' chan : build_conf C -> freach C y -> result y e chan -> fnext C y e y' ->
  m_avail (y_meas y') = false /\ m_count (y_meas y') = 0 /\ m_sum (y_meas y') = 0 /\ m_chan (y_meas y') = 1 - chan.
Proof.
  intros HC R (-> & X2 & <-) N. destruct (fnext_all relaxed C HC bok_relaxed y _ y' (freach_s4 C y HC R) N) as (_ & _ & K).
  destruct (K X2) as (c0 & c1 & raw & _ & _ & _ & _ & A1 & A2 & A3 & A4 & _). auto.
Qed.
Lemma f_feedback_range C y : build_conf C -> freach C y ->
  -20 * 64 <= t_feedback (y_ct y) <= 500 * 64 /\ -20 * 64 <= y_mt y <= 500 * 64 /\ 0 <= u_prev (y_mc y) <= 5 * 640.
Proof.
  intros HC R. pose proof (s4_inv _ _ _ (freach_s4 C y HC R)) as I. destruct (i_ct _ _ _ I) as (_ & _ & _ & _ & _ & _ & B).
  pose proof (i_mt _ _ _ I) as B2. destruct (i_mc _ _ _ I) as (B3 & _). split; [exact B|]. split; [exact B2|exact B3].
Qed.
Lemma f_screen C y : build_conf C -> freach C y -> n_upd (y_menu y) = false -> exists s lamp, picture C y s lamp /\ drawn (d_digits (y_disp y)) s lamp.
Proof. intros HC R U. destruct (freach_s4 C y HC R) as [_ _ _ S]. exact (S U). Qed.
Lemma f_screen_after C y y' : build_conf C -> freach C y -> fnext C y EMenu y' -> exists s lamp, picture C y' s lamp /\ drawn (d_digits (y_disp y')) s lamp.
Proof.
  intros HC R N. apply (f_screen C y' HC); [exact (freach_step C y EMenu y' R N)|]. destruct N as (_ & o & E).
  pose proof (freach_s4 C y HC R) as [I Ro _ _].
  destruct (fok_run _ _ o (menu_work_fine relaxed C HC bok_relaxed y I Ro)) as (y1 & E1 & _ & _ & _ & U). unfold fstep in E. rewrite E in E1. apply Some_inj in E1. subst y1. exact U.
Qed.

(** ** C63, C28 *)
Lemma f_ocr C y e y' : build_conf C -> freach C y -> fnext C y e y' -> is_power e = false -> ~ result y e 0 ->
  cc_ocr (y_cc y') = cc_ocr (y_cc y) \/ cc_ocr (y_cc y') = 8191.
Proof.
  intros HC R N P X. pose proof (freach_s4 C y HC R) as S4. destruct (i_cc _ _ _ (s4_inv _ _ _ S4)) as (Ic & _).
  destruct (fnext_all relaxed C HC bok_relaxed y e y' S4 N) as (_ & Cm & Pd). destruct (pending y e) eqn:Pn.
  - destruct (pending_cases _ _ _ _ (s4_inv _ _ _ S4) Pn) as [Y|(X1 & X2 & X3)]; [destruct (X Y)|].
    destruct (Pd eq_refl) as (c0 & c1 & raw & _ & _ & _ & _ & _ & _ & _ & _ & Ht & _).
    destruct (Ht X3) as (c1' & v & v' & p & n1 & n2 & n & t & _ & _ & _ & (_ & _ & _ & _ & _ & _ & _ & Q & _) & _).
    exact (quiet_exec_ocr _ _ _ Ic Q).
  - destruct (Cm P eq_refl) as (_ & _ & _ & _ & [A2|A2]); rewrite A2; left; reflexivity.
Qed.
Lemma f_hot C y e y' : build_conf C -> freach C y -> fnext C y e y' -> is_power e = false ->
  (exists r, temp_processed y e y' r /\ hot y' = (30720 <? r)) \/ ((forall r, ~ temp_processed y e y' r) /\ hot y' = hot y).
Proof.
  intros HC R N P. pose proof (freach_s4 C y HC R) as S4. 
  destruct (fnext_all relaxed C HC bok_relaxed y e y' S4 N) as (_ & Cm & Pd). destruct (pending y e) eqn:Pn.
  - pose proof (s4_inv _ _ _ S4) as I. destruct (Pd eq_refl) as (c0 & c1 & raw & _ & _ & _ & _ & _ & _ & _ & _ & Ht & Hc).
    destruct (pending_cases _ _ _ _ I Pn) as [(X1 & X2 & X3)|(X1 & X2 & X3)].
    + destruct (Hc X3) as (c0' & v & v' & p & n1 & n2 & n & t & _ & _ & (_ & _ & _ & Hh & _) & _). right. split; [|exact Hh].
      intros r (_ & _ & Q & _). rewrite X3 in Q. discriminate.
    + destruct (Ht X3) as (c1' & v & v' & p & n1 & n2 & n & t & _ & _ & _ & (T1 & T2 & _) & _).
      change (t_enabled (y_ct (redt (set_y_now y n) t))) with (t_enabled (y_ct y)) in T1, T2. change (hot (redt (set_y_now y n) t)) with (hot y) in T2.
      destruct (t_enabled (y_ct y)) eqn:En; [destruct (t_emerg (y_ct y')) eqn:Em|].
      * right. split; [|apply T2; right; reflexivity]. intros r (_ & _ & _ & _ & Q & _). congruence.
      * left. exists (t_feedback (y_ct y')). split; [repeat split; assumption|]. apply T1; reflexivity.
      * right. split; [|apply T2; left; reflexivity]. intros r (_ & _ & _ & Q & _). congruence.
  - right. split.
    + intros r (-> & Q & _). cbn in Pn. congruence.
    + destruct (Cm P eq_refl) as (_ & _ & _ & _ & [A2|A2]); unfold hot; rewrite A2; reflexivity.
Qed.
Lemma ftoo_hot_reach C y : build_conf C -> ftoo_hot C y -> freach C y /\ hot y = true.
Proof.
  intros HC H. induction H as [y e y' r R N T G|y e y' H (R & Hh) N P G].
  - split; [exact (freach_step C y e y' R N)|]. assert (P : is_power e = false) by (destruct T as (-> & _); reflexivity).
    destruct (f_hot C y e y' HC R N P) as [(r' & T' & X)|(X & _)]; [|destruct (X r T)].
    assert (r' = r) as -> by (destruct T as (_&_&_&_&_&<-), T' as (_&_&_&_&_&<-); reflexivity). rewrite X. lia.
  - split; [exact (freach_step C y e y' R N)|]. destruct (f_hot C y e y' HC R N P) as [(r' & T' & X)|(_ & X)]; [|congruence].
    pose proof (G r' T'). rewrite X. lia.
Qed.
Lemma f_too_hot C y : build_conf C -> ftoo_hot C y -> pwm_off y.
Proof.
  intros HC H. destruct (ftoo_hot_reach C y HC H) as (R & Hh). apply (f_emerg_off C y HC R).
  intros Z. unfold hot in Hh. rewrite Z in Hh. discriminate.
Qed.

(** ** C29, C30, C26: what a current result does *)
Lemma effect_zero y y' v' p : cc_sys (y_cc y) -> 0 <= u_prev (y_mc y) <= 3200 -> 0 <= v' <= 3200 -> curr_effect y y' v' p ->
  p_setpoint (cc_pid (y_cc y)) = 0 -> 7372 <= cc_ocr (y_cc y').
Proof.
  intros Sc Bu Bv (Ect & _ & _ & _ & Es & Ee & c & Em & Ef) Hs. assert (Sc' := Sc). destruct Sc' as (_ & _ & If & _).
  destruct (flag_ops _ If) as (_ & _ & (F3 & _) & (F4 & _)).
  assert (Bf : 0 <= cc_emerg (y_cc y') <= 3) by (rewrite Ee; change EMERG_UNPLAUS_FEEDBACK with 1; destruct p; assumption).
  destruct (cc_set_emerg_sys (y_cc y) _ Sc Bf) as (c2 & E2 & S2 & _ & P2 & _). rewrite Em in E2. apply Some_inj in E2. subst c2.
  assert (Hs2 : p_setpoint (cc_pid c) = 0) by congruence.
  destruct p; destruct Ef as (Ef & _).
  - exact (zero_run _ _ _ _ S2 Bv Hs2 Ef).
  - exact (zero_run _ _ _ _ S2 Bu Hs2 Ef).
  - rewrite Ef. destruct S2 as (_ & _ & _ & O2). rewrite O2; [lia|]. rewrite <- Ef, Ee. change EMERG_UNPLAUS_FEEDBACK with 1.
    clear - If. intros Z. apply Z.lor_eq_0_iff in Z. destruct Z as (_ & Z). discriminate.
Qed.
Lemma effect_restricted y y' v' p : cc_sys (y_cc y) -> 0 <= u_prev (y_mc y) <= 3200 -> 0 <= v' <= 3200 -> curr_effect y y' v' p ->
  cc_restricted (y_cc y') = cc_restricted (y_cc y) /\ (cc_restricted (y_cc y) = true -> 4915 <= cc_ocr (y_cc y')).
Proof.
  intros Sc Bu Bv (_ & _ & _ & _ & Es & Ee & c & Em & Ef). assert (Sc' := Sc). destruct Sc' as (Ic & En & If & _).
  destruct (flag_ops _ If) as (_ & _ & (F3 & _) & (F4 & _)).
  assert (Bf : 0 <= cc_emerg (y_cc y') <= 3) by (rewrite Ee; change EMERG_UNPLAUS_FEEDBACK with 1; destruct p; assumption).
  destruct (cc_set_emerg_sys (y_cc y) _ Sc Bf) as (c2 & E2 & (I2 & N2 & _ & O2) & M2 & _ & R2 & _). rewrite Em in E2. apply Some_inj in E2. subst c2.
  assert (F : forall r, 0 <= r <= 3200 -> contrcurr_set_feedback (y_now y) c r = Some (y_cc y') ->
    cc_restricted (y_cc y') = cc_restricted (y_cc y) /\ (cc_restricted (y_cc y) = true -> 4915 <= cc_ocr (y_cc y'))).
  { intros r Br Er. destruct (set_feedback_ok (y_now y) c r I2 Br) as (c3 & E3 & _ & _ & R3 & M3 & _ & _ & F1 & _).
    rewrite Er in E3. apply Some_inj in E3. subst c3. split; [congruence|]. intros Re.
    destruct (Z.eq_dec (cc_emerg c) 0) as [Z0|Z0].
    - eapply (restricted_run (y_now y) c r (y_cc y')); try eassumption; [congruence|reflexivity].
    - rewrite (F1 (or_intror Z0)). change (cc_ocr (cc_set_feedback c r)) with (cc_ocr c). rewrite (O2 Z0). lia. }
  destruct p; destruct Ef as (Ef & _); [apply (F _ Bv Ef)|apply (F _ Bu Ef)|]. rewrite Ef. split; [exact R2|]. intros _. rewrite O2; [lia|]. rewrite M2, Ee. change EMERG_UNPLAUS_FEEDBACK with 1.
  intros Z. apply Z.lor_eq_0_iff in Z. destruct Z as (_ & Z). discriminate.
Qed.
Lemma f_result C y e y' : build_conf C -> freach C y -> result y e 0 -> fnext C y e y' ->
  t_emerg (y_ct y') = t_emerg (y_ct y) /\ t_feedback (y_ct y') = t_feedback (y_ct y) /\ y_mt y' = y_mt y /\
  p_setpoint (cc_pid (y_cc y')) = p_setpoint (cc_pid (y_cc y)) /\
  (p_setpoint (cc_pid (y_cc y)) = 0 -> 7372 <= cc_ocr (y_cc y')) /\
  cc_restricted (y_cc y') = cc_restricted (y_cc y) /\ (cc_restricted (y_cc y) = true -> 4915 <= cc_ocr (y_cc y')).
Proof.
  intros HC R (-> & X2 & X3) N. pose proof (freach_s4 C y HC R) as S4. pose proof (s4_inv _ _ _ S4) as I.
  destruct (fnext_all relaxed C HC bok_relaxed y _ y' S4 N) as (_ & _ & Pd).
  destruct (Pd X2) as (c0 & c1 & raw & _ & _ & _ & _ & _ & _ & _ & _ & _ & Hc).
  destruct (Hc X3) as (c0' & v & v' & p & n1 & n2 & n & t & _ & Ck & Ef & _). set (z := retimer (set_y_now y n) t) in *.
  assert (Bv : 0 <= v' <= 3200) by (destruct Ck as (-> & _); change (mc_plaus_neg meascurr_config) with 0; change (mc_plaus_pos meascurr_config) with 3200; lia).
  assert (Bu : 0 <= u_prev (y_mc z) <= 3200) by (apply (i_mc _ _ _ I)). assert (Sc : cc_sys (y_cc z)) by exact (i_cc _ _ _ I).
  destruct (effect_restricted z y' v' p Sc Bu Bv Ef) as (K1 & K2). pose proof (effect_zero z y' v' p Sc Bu Bv Ef) as K3.
  destruct Ef as (Ect & Emt & _ & _ & Es & _). rewrite Ect. split; [reflexivity|]. split; [reflexivity|]. split; [exact Emt|]. split; [exact Es|]. split; [exact K3|]. split; [exact K1|exact K2].
Qed.
Lemma f_link C y : build_conf C -> freach C y -> t_enabled (y_ct y) = false \/ t_emerg (y_ct y) = true -> p_setpoint (cc_pid (y_cc y)) = 0.
Proof. intros HC R. pose proof (freach_s4 C y HC R) as [I _ _ _]. apply (i_link _ _ _ I). Qed.
Lemma fdead_inv C y : build_conf C -> fdead C y -> freach C y /\ t_emerg (y_ct y) = true /\ 7372 <= cc_ocr (y_cc y).
Proof.
  intros HC D. induction D as [y e y' R T N X|y e y' D (R & T & Q) N P T'].
  - destruct (f_result C y e y' HC R X N) as (A1 & _ & _ & _ & A2 & _). split; [exact (freach_step C y e y' R N)|]. split; [congruence|].
    apply A2. apply (f_link C y HC R). auto.
  - split; [exact (freach_step C y e y' R N)|]. split; [exact T'|]. destruct (result_dec y e 0) as [X|X].
    + destruct (f_result C y e y' HC R X N) as (_ & _ & _ & _ & A2 & _). apply A2. apply (f_link C y HC R). auto.
    + destruct (f_ocr C y e y' HC R N P X); lia.
Qed.
Lemma f_dead C y : build_conf C -> fdead C y -> p_setpoint (cc_pid (y_cc y)) = 0 /\ duty_at_most y 1 10.
Proof. intros HC D. destruct (fdead_inv C y HC D) as (R & T & Q). split; [apply (f_link C y HC R); auto|]. unfold duty_at_most. lia. Qed.

(** A temperature result *)
Lemma f_temp C y y' : build_conf C -> freach C y -> result y EMeasure 1 -> fnext C y EMeasure y' ->
  exists v n t p, temp_of_code C (s_adj (x_cache (y_set y))) (mean_code y) v /\ temp_effect (redt (set_y_now y n) t) y' (Z.max (-1280) (Z.min 32000 v)) p /\
    t_enabled (y_ct y') = t_enabled (y_ct y) /\ (p = MEAS_PLAUSIBLE <-> -1280 <= v <= 32000).
Proof.
  intros HC R (_ & X2 & X3) N. pose proof (freach_s4 C y HC R) as S4.
  destruct (fnext_all relaxed C HC bok_relaxed y _ y' S4 N) as (_ & _ & Pd).
  destruct (Pd X2) as (c0 & c1 & raw & Er & _ & F & _ & _ & _ & _ & _ & Ht & _).
  destruct (Ht X3) as (c1' & v & v' & p & n1 & n2 & n & t & _ & _ & Ck & Ef & Tv). rewrite (raw_mean _ _ _ _ S4 X2 Er) in Tv.
  destruct Ck as (Cv & _ & Ec & Ep).
  change (mc_plaus_neg (meastemp_config (c_smd C))) with (-1280) in *. change (mc_plaus_pos (meastemp_config (c_smd C))) with 32000 in *. subst v'.
  exists v, n, t, p. split; [exact Tv|]. split; [exact Ef|]. split; [destruct F as (_ & _ & _ & _ & _ & _ & F & _); exact F|].
  destruct ((-1280 <=? v) && (v <=? 32000)) eqn:G.
  - subst c1'. cbn [ch_timeout] in Ep. split; [lia|auto].
  - split; [|lia]. intros ->. destruct (ch_timeout c1'); discriminate.
Qed.
Lemma f_restricted_kept C y e y' : build_conf C -> freach C y -> fnext C y e y' -> is_power e = false -> ~ (result y e 1 /\ good_temp C y) ->
  cc_restricted (y_cc y') = cc_restricted (y_cc y) /\ y_mt y' = y_mt y /\ (t_feedback (y_ct y) = y_mt y -> t_feedback (y_ct y') = y_mt y).
Proof.
  intros HC R N P X. destruct (result_dec y e 0) as [X0|X0].
  { destruct (f_result C y e y' HC R X0 N) as (_ & A1 & A2 & _ & _ & A3 & _). split; [exact A3|]. split; [exact A2|]. congruence. }
  destruct (result_dec y e 1) as [X1|X1].
  - assert (e = EMeasure) by apply X1. subst e. destruct (f_temp C y y' HC R X1 N) as (v & n & t & p & Tv & Ef & _ & Hp).
    assert (K : p <> MEAS_PLAUSIBLE) by (intros Q; apply X; split; [exact X1|]; exists v; split; [exact Tv|]; apply Hp; exact Q).
    destruct Ef as (_ & _ & M1 & _ & M2 & _ & _ & _ & M3 & _). unfold redt in M1, M2, M3. sy in M1. sy in M2. sy in M3.
    destruct p; [contradiction| |]; rewrite M1, M2, M3; auto.
  - pose proof (freach_s4 C y HC R) as S4. destruct (fnext_all relaxed C HC bok_relaxed y e y' S4 N) as (_ & Cm & _).
    assert (Pn : pending y e = false).
    { destruct (pending y e) eqn:Pn; [|reflexivity]. destruct (pending_cases _ _ _ _ (s4_inv _ _ _ S4) Pn) as [K|K]; [destruct (X0 K)|destruct (X1 K)]. }
    destruct (Cm P Pn) as (_ & A1 & _ & A2 & [A3|A3]); rewrite A1, A2, A3; auto.
Qed.
Lemma fcold_inv C y : build_conf C -> fcold C y -> freach C y /\ cc_restricted (y_cc y) = true /\ 4915 <= cc_ocr (y_cc y).
Proof.
  intros HC D. induction D as [pinb y Hp E|y v pinb y' R N|y e y' D (R & Q1 & Q2) N P X].
  - destruct (fresh_cc C y (boot_fresh C pinb y HC E)) as (A1 & A2 & _). split; [exact (freach_boot C pinb y Hp E)|]. split; [exact A1|lia].
  - destruct (fresh_cc C y' (fpower_fresh C y v pinb y' HC R N)) as (A1 & A2 & _). split; [exact (freach_step C _ _ _ R N)|]. split; [exact A1|lia].
  - split; [exact (freach_step C _ _ _ R N)|]. split; [rewrite (proj1 (f_restricted_kept C y e y' HC R N P X)); exact Q1|].
    destruct (result_dec y e 0) as [X0|X0]; [apply (f_result C y e y' HC R X0 N); exact Q1|].
    destruct (f_ocr C y e y' HC R N P X0); lia.
Qed.
Lemma f_cold C y : build_conf C -> fcold C y -> duty_at_most y 2 5.
Proof. intros HC D. destruct (fcold_inv C y HC D) as (_ & _ & Q). unfold duty_at_most. lia. Qed.
Lemma flast_good_inv C y o : build_conf C -> flast_good C y o -> freach C y /\
  cc_restricted (y_cc y) = match o with None => true | Some v => v <? 6400 end /\
  y_mt y = match o with None => 0 | Some v => v end /\ t_feedback (y_ct y) = match o with None => 0 | Some v => v end.
Proof.
  intros HC D. induction D as [pinb y Hp E|y v pinb y' R N|y o e v y' D (R & Q1 & Q2 & Q3) X N Tv Bv|y o e y' D (R & Q1 & Q2 & Q3) N P X].
  - pose proof (boot_fresh C pinb y HC E) as Fr. destruct (fresh_cc C y Fr) as (A1 & _). destruct (fresh_temp C y Fr) as (A2 & A3). split; [exact (freach_boot C pinb y Hp E)|auto].
  - pose proof (fpower_fresh C y v pinb y' HC R N) as Fr. destruct (fresh_cc C y' Fr) as (A1 & _). destruct (fresh_temp C y' Fr) as (A2 & A3). split; [exact (freach_step C _ _ _ R N)|auto].
  - assert (e = EMeasure) by apply X. subst e. split; [exact (freach_step C _ _ _ R N)|].
    destruct (f_temp C y y' HC R X N) as (w & n & t & p & Tw & (_ & _ & M1 & _ & M2 & _ & _ & _ & M3 & _) & _ & Hp).
    pose proof (temp_code_unique _ _ _ _ _ Tv Tw) as <-. rewrite M1, M2, M3. rewrite (proj2 Hp) by lia. replace (Z.max (-1280) (Z.min 32000 v)) with v by lia. auto.
  - split; [exact (freach_step C _ _ _ R N)|]. destruct (f_restricted_kept C y e y' HC R N P X) as (A1 & A2 & A3). rewrite A1, A2, A3 by congruence. auto.
Qed.
Lemma f_restricted C y o e y' : build_conf C -> flast_good C y o -> (o = None \/ exists v, o = Some v /\ v < 100 * 64) ->
  result y e 0 -> fnext C y e y' -> duty_at_most y' 2 5.
Proof.
  intros HC D H X N. destruct (flast_good_inv C y o HC D) as (R & Q & _).
  assert (Re : cc_restricted (y_cc y) = true) by (rewrite Q; destruct H as [->|(v & -> & H)]; lia).
  destruct (f_result C y e y' HC R X N) as (_ & _ & _ & _ & _ & _ & K). specialize (K Re). unfold duty_at_most. lia.
Qed.
Lemma f_last_good C y o : build_conf C -> flast_good C y o ->
  y_mt y = match o with None => 0 | Some v => v end /\ t_feedback (y_ct y) = match o with None => 0 | Some v => v end.
Proof. intros HC D. apply (flast_good_inv C y o HC D). Qed.

(** ** C65 *)
Lemma f_cascade C y e y' r : build_conf C -> freach C y -> temp_processed y e y' r -> fnext C y e y' ->
  exists dt out a, pid_run (t_pid (y_ct y)) dt r = Some (t_pid (y_ct y'), out) /\ 0 <= out <= 480 * 64 /\
    (out <= 250 * 64 -> nearest_away out 5 a) /\ (250 * 64 <= out -> a = 5 * 640) /\
    p_setpoint (cc_pid (y_cc y')) = (if 480 * 64 <? r then 0 else a).
Proof.
  intros HC R (-> & X2 & X3 & X4 & X5 & X6) N.
  destruct (f_temp C y y' HC R (conj eq_refl (conj X2 X3)) N) as (v & n & t & p & _ & (_ & _ & _ & _ & _ & _ & _ & _ & _ & _ & Q) & _).
  destruct (Q X4 X5) as (dt & out & a & _ & Ep & Ea & Es & Bo). rewrite X6 in *. exists dt, out, a.
  destruct (temp_to_amps_spec out Bo) as (a' & Ea' & _ & A1 & A2). rewrite Ea in Ea'. apply Some_inj in Ea'. subst a'. auto 10.
Qed.
Lemma f_cascade_idle C y e y' : build_conf C -> freach C y -> fnext C y e y' -> is_power e = false ->
  ~ (exists r, temp_processed y e y' r) ->
  p_setpoint (cc_pid (y_cc y')) = p_setpoint (cc_pid (y_cc y)) \/ p_setpoint (cc_pid (y_cc y')) = 0.
Proof.
  intros HC R N P X. destruct (result_dec y e 0) as [X0|X0]; [left; apply (f_result C y e y' HC R X0 N)|].
  pose proof (freach_step C _ _ _ R N) as R'. destruct (result_dec y e 1) as [X1|X1].
  - right. apply (f_link C y' HC R'). assert (e = EMeasure) by apply X1. subst e. destruct (f_temp C y y' HC R X1 N) as (v & n & t & p & _ & _ & En & _).
    destruct (t_enabled (y_ct y)) eqn:E1; [|left; exact En]. destruct (t_emerg (y_ct y')) eqn:E2; [auto|]. destruct X.
    exists (t_feedback (y_ct y')). destruct X1 as (_ & X2 & X3). unfold temp_processed. auto 10.
  - pose proof (freach_s4 C y HC R) as S4. destruct (fnext_all relaxed C HC bok_relaxed y e y' S4 N) as (_ & Cm & _).
    assert (Pn : pending y e = false).
    { destruct (pending y e) eqn:Pn; [|reflexivity]. destruct (pending_cases _ _ _ _ (s4_inv _ _ _ S4) Pn) as [K|K]; [destruct (X0 K)|destruct (X1 K)]. }
    destruct (Cm P Pn) as (_ & _ & _ & _ & [A3|A3]); rewrite A3; auto.
Qed.
Lemma f_processed C y e y' v : build_conf C -> freach C y -> result y e 1 -> t_enabled (y_ct y) = true -> fnext C y e y' ->
  temp_of_code C (s_adj (x_cache (y_set y))) (mean_code y) v -> -20 * 64 <= v <= 500 * 64 -> temp_processed y e y' v.
Proof.
  intros HC R X En N Tv Bv. assert (e = EMeasure) by apply X. subst e.
  destruct (f_temp C y y' HC R X N) as (w & n & t & p & Tw & (_ & _ & _ & M1 & M2 & _) & _ & Hp).
  pose proof (temp_code_unique _ _ _ _ _ Tv Tw) as <-. rewrite (proj2 Hp) in M1, M2 by lia.
  destruct X as (_ & X2 & X3). unfold temp_processed. repeat (split; [assumption || reflexivity|]). rewrite M2. clear - Bv. lia.
Qed.
Lemma f_over_temp C y e y' v : build_conf C -> freach C y -> result y e 1 -> t_enabled (y_ct y) = true -> fnext C y e y' ->
  temp_of_code C (s_adj (x_cache (y_set y))) (mean_code y) v -> 480 * 64 < v <= 500 * 64 -> ftoo_hot C y' /\ pwm_off y'.
Proof.
  intros HC R X En N Tv Bv. assert (H : ftoo_hot C y').
  { eapply fhot_now; [exact R|exact N|eapply f_processed; try eassumption; lia|lia]. }
  split; [exact H|]. apply (f_too_hot C y' HC H).
Qed.

(** ** The executions of SpecSys and SpecRun are among these *)
Lemma dead_fdead C y : dead C y -> fdead C y.
Proof.
  intros D. induction D as [y e y' R T O E X|y e y' D IH O E P T'].
  - exact (fdead_start C y e y' (reach_freach C y R) T (next_fnext C y e y' O E) X).
  - exact (fdead_step C y e y' IH (next_fnext C y e y' O E) P T').
Qed.
Lemma cold_fcold C y : cold C y -> fcold C y.
Proof.
  intros D. induction D as [pinb y Hp E|y v pinb y' R O E|y e y' D IH O E P N].
  - exact (fcold_boot C pinb y Hp E).
  - exact (fcold_power C y v pinb y' (reach_freach C y R) (next_fnext C y _ y' O E)).
  - exact (fcold_step C y e y' IH (next_fnext C y e y' O E) P N).
Qed.
Lemma too_hot_ftoo_hot C y : too_hot C y -> ftoo_hot C y.
Proof.
  intros D. induction D as [y e y' r R O E T G|y e y' D IH O E P G].
  - exact (fhot_now C y e y' r (reach_freach C y R) (next_fnext C y e y' O E) T G).
  - exact (fhot_still C y e y' IH (next_fnext C y e y' O E) P G).
Qed.
Lemma last_good_flast_good C y o : last_good C y o -> flast_good C y o.
Proof.
  intros D. induction D as [pinb y Hp E|y v pinb y' R O E|y o e v y' D IH X E Tv Bv|y o e y' D IH O E P N].
  - exact (flg_boot C pinb y Hp E).
  - exact (flg_power C y v pinb y' (reach_freach C y R) (next_fnext C y _ y' O E)).
  - assert (O : ev_ok C y e) by (destruct X as (-> & _); exact Logic.I). exact (flg_good C y o e v y' IH X (next_fnext C y e y' O E) Tv Bv).
  - exact (flg_other C y o e y' IH (next_fnext C y e y' O E) P N).
Qed.
Lemma f_includes C y : (reach C y -> freach C y) /\ (too_hot C y -> ftoo_hot C y) /\ (dead C y -> fdead C y) /\ (cold C y -> fcold C y) /\
  (forall o, last_good C y o -> flast_good C y o).
Proof.
  split; [apply reach_freach|]. split; [apply too_hot_ftoo_hot|]. split; [apply dead_fdead|]. split; [apply cold_fcold|apply last_good_flast_good].
Qed.
