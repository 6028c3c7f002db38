(** * Interrupts inside the work functions, part 6: one measurement *)
From Coq Require Import ZArith List Bool Lia ZifyBool.
From Verif Require Import Base PBase MConf MUtil MFixpt MScale MRing MFilter MTimer MPid MPwm MTempMap MCurr MSens
  SpecNum SpecPid SpecSmall PNum PSmall PScale PPid SpecCurr PCurr MSettings SpecSettings PSettings PSysSet
  MSseg MDisplay MText MState MTemp MMeas MMenu MMain SpecDisplay PDisplay SpecSys PSys PSysMeas PSysMenu PSysDisp PSysBtn PSysStep PSysRun MFine PFine PFine2 PFine5.
Import ListNotations.
Open Scope Z_scope.
Ltac Zify.zify_post_hook ::= Z.div_mod_to_equations.


(** What a measurement may change, with interrupts in between *)
Definition fine_frame (y y' : sys) : Prop :=
  y_btn y' = y_btn y /\ x_cache (y_set y') = x_cache (y_set y) /\ y_disp y' = y_disp y /\ y_hw y' = y_hw y /\
  y_dbg y' = y_dbg y /\ (exists b, y_menu y' = set_n_upd (y_menu y) b) /\ ct_frame (y_ct y) (y_ct y').
Lemma meas_fine_frame y y' : meas_frame y y' -> fine_frame y y'.
Proof. intros (F1&F2&F3&F4&F5&F6&F7&F8). unfold fine_frame. rewrite F3. auto 10. Qed.
Lemma fine_frame_trans a b c : fine_frame a b -> fine_frame b c -> fine_frame a c.
Proof.
  intros (A1&A3&A4&A5&A6&(x&A7)&A8) (B1&B3&B4&B5&B6&(z&B7)&B8). unfold fine_frame.
  repeat (split; [congruence|]). split; [exists z; rewrite B7, A7; reflexivity|eapply ct_frame_trans; eassumption].
Qed.
Lemma fine_frame_same y y' : y_btn y' = y_btn y -> x_cache (y_set y') = x_cache (y_set y) -> y_disp y' = y_disp y -> y_hw y' = y_hw y ->
  y_dbg y' = y_dbg y -> y_menu y' = y_menu y -> ct_frame (y_ct y) (y_ct y') -> fine_frame y y'.
Proof. intros. unfold fine_frame. repeat (split; [assumption|]). split; [exists (n_upd (y_menu y)); rewrite upd_id; assumption|assumption]. Qed.

Section Meas.
Variables (B : bnds) (C : conf).
Hypothesis HC : build_conf C.
Hypothesis HB : bok B.
Local Notation mok := (mok B C).
Local Notation inv := (inv B C).

Lemma trigger_fine y : inv y -> m_adc (y_meas y) = false ->
  fok (adc_trigger_next_chan_f C y) (fun z => exists n x, mok y n (y_meas y) x /\ z = triggered C (mv y n (y_meas y) x)).
Proof.
  intros I Ha. unfold adc_trigger_next_chan_f. cbv zeta.
  assert (Cf : exists cfg, chan_config C (ring_next (m_chan (y_meas y)) (NR_MEAS_CHANS - 1)) = Some cfg /\ mc_avg_ms cfg = (if m_chan (y_meas y) =? 0 then 50 else 5) /\
    ring_next (m_chan (y_meas y)) (NR_MEAS_CHANS - 1) = 1 - m_chan (y_meas y)).
  { destruct (i_meas _ _ _ I) as (_ & [M2|M2] & _); rewrite M2.
    - exists (meastemp_config (c_smd C)). split; [reflexivity|split; reflexivity].
    - exists meascurr_config. split; [reflexivity|split; reflexivity]. }
  destruct Cf as (cfg & E & Em & Er). rewrite Er in *. eapply fok_step; [exact E|]. set (y1 := set_y_meas y _).
  assert (K1 : core B C y1).
  { destruct (inv_core _ _ _ I) as [N M S]. constructor; try assumption. destruct (i_meas _ _ _ I) as (M1 & M2 & M3 & M4). unfold y1, meas_inv. sy. split; [exact M1|]. lia. }
  apply (fok_point B C HC HB); [exact K1|]. intros n m x O.
  assert (Em1 : m = y_meas y1) by (apply (mo_off _ _ _ _ _ _ O); exact Ha). subst m.
  eapply fok_step; [rewrite Em; apply arm_ok; destruct (m_chan (y_meas y) =? 0); lia|]. apply fok_ret. exists n, x. split.
  - destruct (inv_core _ _ _ I) as [N M S]. destruct O as [O1 O2 O3 O4 O5 O6 O7 O8 O9]. constructor; try assumption; auto. unfold y1 in O4. sy in O4. rewrite O4. exact M.
  - unfold triggered, mv, y1. sy. reflexivity.
Qed.

Definition measured (y y' : sys) (c0 c1 : chan) (raw : Z) : Prop :=
  inv y' /\ fine_frame y y' /\ handover (y_meas y') /\
  m_chan (y_meas y') = 1 - m_chan (y_meas y) /\ m_avail (y_meas y') = false /\ m_count (y_meas y') = 0 /\ m_sum (y_meas y') = 0 /\
  (m_chan (y_meas y) = 1 -> exists c1' v v' p n1 n2 n t, m_chans (y_meas y') = [c0; c1'] /\ y_mc y' = y_mc y /\
     checked2 (meastemp_config (c_smd C)) n1 n2 c1 c1' v v' p /\ temp_effect (redt (set_y_now y n) t) y' v' p /\
     temp_of_code C (s_adj (x_cache (y_set y))) raw v) /\
  (m_chan (y_meas y) = 0 -> exists c0' v v' p n1 n2 n t, m_chans (y_meas y') = [c0'; c1] /\
     checked2 meascurr_config n1 n2 c0 c0' v v' p /\ curr_effect (retimer (set_y_now y n) t) y' v' p /\
     curr_of_code (snd (meascurr_filter_handler y raw)) v /\
     u_filter (y_mc y') = u_filter (y_mc (fst (meascurr_filter_handler y raw))) /\ u_init (y_mc y') = true).

Lemma temp_fine y c0 c1 raw : inv y -> handover (y_meas y) -> m_avail (y_meas y) = true -> m_chans (y_meas y) = [c0; c1] -> m_chan (y_meas y) = 1 ->
  raw_average (y_meas y) = Some raw -> 0 <= raw <= 1023 -> fok (measure_work_f C y) (fun y' => measured y y' c0 c1 raw).
Proof.
  intros I (H1 & H2) Ea Hch Hc Er Hr. rewrite Ea in H1. cbn [negb] in H1. unfold measure_work_f. cbv zeta. rewrite Ea.
  set (y1 := set_y_meas y (set_m_avail (y_meas y) false)).
  assert (I1 : inv y1) by (unfold y1; destruct I; constructor; sy; assumption).
  unfold measure_handle_result_f. apply fok_bind. apply (fok_point B C HC HB); [apply inv_core; exact I1|]. intros n m x O.
  assert (m = y_meas y1) by (apply (mo_off _ _ _ _ _ _ O); exact H1). subst m. pose proof (mv_inv _ _ _ _ _ _ I1 O) as I2. set (y2 := mv y1 n (y_meas y1) x) in *. cbv zeta.
  change (m_chan (y_meas y2)) with (m_chan (y_meas y)). change (m_chans (y_meas y2)) with (m_chans (y_meas y)). rewrite Hc, Hch.
  eapply fok_step with (a := c1); [reflexivity|]. eapply fok_step with (a := meastemp_config (c_smd C)); [reflexivity|]. eapply fok_step; [exact Er|].
  unfold measure_user_filter_handler. change (1 =? MEAS_CHAN_CURRENT) with false. cbv iota beta zeta.
  destruct (temp_phys (c_smd C) raw Hr) as (v & Ev & Bv & Lv). eapply fok_step; [exact Ev|].
  destruct (i_meas _ _ _ I) as ((d0 & d1 & Ech & A0 & A1) & M2 & M3 & M4). rewrite Hch in Ech. injection Ech as <- <-.
  destruct (i_set _ _ _ I) as (_ & R & _). pose proof HB as (HB1 & HB2). pose proof (rng_le _ _ C _ HB2 R) as R'.
  destruct R' as (_ & _ & _ & _ & Had & _). cbn in Had.
  assert (exists w, (if c_adj C then fixpt_sub v (ch_adj c1) else Some v) = Some w /\ temp_of_code C (s_adj (x_cache (y_set y))) raw w) as (w & Ew & Lw).
  { unfold temp_of_code. destruct (c_adj C); [|exists v; rewrite Z.add_0_r; auto]. rewrite A1 in *. rewrite fixpt_sub_eq; [|unfold is_s24; lia|unfold is_s24; lia].
    rewrite sat24_id by lia. eexists. split; [reflexivity|]. rewrite Z.sub_add. exact Lv. }
  eapply fok_step; [exact Ew|].
  eapply fok_seq; [apply (plaus_fine B C HC HB); [apply inv_core; exact I2|destruct (c_smd C); discriminate|destruct (c_smd C); reflexivity]|].
  intros z (n3 & m3 & x3 & n1 & c1' & w' & p & -> & O3 & Ck). cbn iota beta.
  assert (m3 = y_meas y2) by (apply (mo_off _ _ _ _ _ _ O3); exact H1). subst m3. pose proof (mv_inv _ _ _ _ _ _ I2 O3) as I3. set (y3 := mv y2 n3 (y_meas y2) x3) in *.
  change (m_chans (y_meas y3)) with (m_chans (y_meas y)). rewrite Hch. eapply fok_step with (a := [c0; c1']); [reflexivity|].
  assert (Ck' := Ck). destruct Ck' as (Cw & Ca & _).
  change (mc_plaus_neg (meastemp_config (c_smd C))) with (-1280) in Cw. change (mc_plaus_pos (meastemp_config (c_smd C))) with 32000 in Cw.
  assert (Hw' : -1280 <= w' <= 32000) by lia.
  unfold measure_user_result_handler_f. change (1 =? MEAS_CHAN_TEMP) with true. cbv iota.
  set (y4 := set_y_meas y3 _).
  assert (Ec3 : x_cache (y_set y3) = x_cache (y_set y)) by (transitivity (x_cache (y_set y2)); [apply (mo_cache _ _ _ _ _ _ O3)|apply (mo_cache _ _ _ _ _ _ O)]).
  assert (I4 : inv y4).
  { unfold y4. destruct I3. constructor; sy; try assumption. unfold meas_inv. sy. split; [|split; [exact M2|split; [exact M3|exact M4]]].
    exists c0, c1'. split; [reflexivity|]. split; [exact A0|]. rewrite Ca, Ec3. exact A1. }
  eapply fok_mono; [apply (result_temp_fine B C HC HB); [exact I4|exact Hw']|]. intros z (n5 & m5 & x5 & t & O5 & Ez).
  assert (m5 = y_meas y4) by (apply (mo_off _ _ _ _ _ _ O5); exact H1). subst m5.
  pose proof (redt_inv B C _ t (mv_inv _ _ _ _ _ _ I4 O5)) as I5. set (y5 := redt (mv y4 n5 (y_meas y4) x5) t) in *.
  destruct (meastemp_result_ok B C y5 w' p I5 HB Hw') as (y' & X & I' & F & B1 & B2 & B3 & B4 & B5). rewrite Ez in X. apply Some_inj in X. subst y'.
  assert (Em : y_meas z = set_m_chans (y_meas y1) [c0; c1']) by (rewrite B1; reflexivity).
  eapply fok_mono; [apply trigger_fine; [exact I'|rewrite Em; exact H1]|]. intros y' (n6 & x6 & O6 & ->).
  pose proof (mv_inv _ _ _ _ _ _ I' O6) as I6. destruct (trigger_ok B C _ I6) as (_ & I7).
  split; [exact I7|]. split.
  { apply fine_frame_trans with (b := y5).
    - apply fine_frame_same; try reflexivity; [|unfold ct_frame; repeat split]. transitivity (x_cache (y_set y4)); [apply (mo_cache _ _ _ _ _ _ O5)|exact Ec3].
    - eapply fine_frame_trans; [apply meas_fine_frame; exact F|]. apply fine_frame_same; try reflexivity; [apply (mo_cache _ _ _ _ _ _ O6)|unfold ct_frame; repeat split]. }
  unfold triggered, mv. sy. rewrite Em. sy. change (m_avail (y_meas y1)) with false. change (m_chan (y_meas y1)) with (m_chan (y_meas y)). rewrite Hc.
  split; [split; [reflexivity|discriminate]|]. split; [reflexivity|]. split; [reflexivity|]. split; [reflexivity|]. split; [reflexivity|]. split; [|discriminate].
  intros _. exists c1', w, w', p, n1, n3, n5, t. split; [reflexivity|]. split; [exact B2|]. split; [exact Ck|]. split; [|exact Lw].
  unfold temp_effect. split; [exact B3|]. split; [exact B4|exact B5].
Qed.

Lemma curr_fine y c0 c1 raw : inv y -> handover (y_meas y) -> m_avail (y_meas y) = true -> m_chans (y_meas y) = [c0; c1] -> m_chan (y_meas y) = 0 ->
  raw_average (y_meas y) = Some raw -> 0 <= raw <= 1023 -> fok (measure_work_f C y) (fun y' => measured y y' c0 c1 raw).
Proof.
  intros I (H1 & H2) Ea Hch Hc Er Hr. rewrite Ea in H1. cbn [negb] in H1. unfold measure_work_f. cbv zeta. rewrite Ea.
  set (y1 := set_y_meas y (set_m_avail (y_meas y) false)).
  assert (I1 : inv y1) by (unfold y1; destruct I; constructor; sy; assumption).
  unfold measure_handle_result_f. apply fok_bind. apply (fok_point B C HC HB); [apply inv_core; exact I1|]. intros n m x O.
  assert (m = y_meas y1) by (apply (mo_off _ _ _ _ _ _ O); exact H1). subst m. pose proof (mv_inv _ _ _ _ _ _ I1 O) as I2. set (y2 := mv y1 n (y_meas y1) x) in *. cbv zeta.
  change (m_chan (y_meas y2)) with (m_chan (y_meas y)). change (m_chans (y_meas y2)) with (m_chans (y_meas y)). rewrite Hc, Hch.
  eapply fok_step with (a := c0); [reflexivity|]. eapply fok_step with (a := meascurr_config); [reflexivity|]. eapply fok_step; [exact Er|].
  unfold measure_user_filter_handler. change (0 =? MEAS_CHAN_CURRENT) with true. cbv iota.
  destruct (i_mc _ _ _ I) as (U1 & U2).
  assert (exists u' r', meascurr_filter_handler y2 raw = (set_y_mc y2 u', r') /\ mc_inv u' /\ 0 <= r' <= 1023 /\ u_prev u' = u_prev (y_mc y) /\
    meascurr_filter_handler y raw = (set_y_mc y u', r')) as (u' & r' & Ef & Iu & Hr' & Hu' & Ef').
  { unfold meascurr_filter_handler. change (y_mc y2) with (y_mc y). destruct (u_init (y_mc y)).
    - destruct (lp_step 1023 4 raw ltac:(lia) (u_filter (y_mc y)) ltac:(change (2 ^ 4) with 16; lia) Hr ltac:(lia)) as (b & Eb & _ & Bb).
      unfold MEASCURR_FILTER_SHIFT. rewrite Eb. change (2 ^ 4) with 16 in *. unfold MEASURE_MAX_RESULT. eexists _, _. split; [reflexivity|].
      unfold mc_inv. sy. split; [split; lia|]. split; [destruct (b / 16 <? 1023) eqn:F; lia|split; reflexivity].
    - eexists _, _. split; [reflexivity|]. unfold mc_inv, lp_filter_u16_set, u24, MEASURE_MAX_RESULT. sy. split; [split; lia|].
      split; [destruct (raw <? 1023) eqn:F; lia|split; reflexivity]. }
  rewrite Ef. cbv iota beta zeta. destruct (curr_phys r' Hr') as (v & Ev & Bv & Lv). eapply fok_step; [exact Ev|].
  destruct (i_meas _ _ _ I) as ((d0 & d1 & Ech & A0 & A1) & M2 & M3 & M4). rewrite Hch in Ech. injection Ech as <- <-.
  assert (exists w, (if c_adj C then fixpt_sub v (ch_adj c0) else Some v) = Some w /\ w = v) as (w & Ew & Lw).
  { destruct (c_adj C); [|eauto]. rewrite A0, fixpt_sub_eq; [|unfold is_s24; lia|unfold is_s24; lia]. rewrite sat24_id by lia. eexists. split; [reflexivity|lia]. }
  eapply fok_step; [exact Ew|].
  assert (I2' : inv (set_y_mc y2 u')) by (destruct I2; constructor; sy; assumption).
  eapply fok_seq; [apply (plaus_fine B C HC HB); [apply inv_core; exact I2'|discriminate|reflexivity]|].
  intros z (n3 & m3 & x3 & n1 & c0' & w' & p & -> & O3 & Ck). cbn iota beta.
  assert (m3 = y_meas y2) by (apply (mo_off _ _ _ _ _ _ O3); exact H1). subst m3. pose proof (mv_inv _ _ _ _ _ _ I2' O3) as I3. set (y3 := mv (set_y_mc y2 u') n3 (y_meas y2) x3) in *.
  change (m_chans (y_meas y3)) with (m_chans (y_meas y)). rewrite Hch. eapply fok_step with (a := [c0'; c1]); [reflexivity|].
  assert (Ck' := Ck). destruct Ck' as (Cw & Ca & _).
  change (mc_plaus_neg meascurr_config) with 0 in Cw. change (mc_plaus_pos meascurr_config) with 3200 in Cw.
  assert (Hw' : 0 <= w' <= 3200) by lia.
  unfold measure_user_result_handler_f. change (0 =? MEAS_CHAN_TEMP) with false. cbv iota.
  set (y4 := set_y_meas y3 _).
  assert (Ec3 : x_cache (y_set y3) = x_cache (y_set y)) by (transitivity (x_cache (y_set y2)); [apply (mo_cache _ _ _ _ _ _ O3)|apply (mo_cache _ _ _ _ _ _ O)]).
  assert (I4 : inv y4).
  { unfold y4. destruct I3. constructor; sy; try assumption. unfold meas_inv. sy. split; [|split; [exact M2|split; [exact M3|exact M4]]].
    exists c0', c1. split; [reflexivity|]. split; [rewrite Ca; exact A0|]. rewrite Ec3. exact A1. }
  eapply fok_mono; [apply (result_curr_fine B C HC HB); [exact I4|exact Hw']|]. intros z (n5 & m5 & x5 & t & O5 & Ez).
  assert (m5 = y_meas y4) by (apply (mo_off _ _ _ _ _ _ O5); exact H1). subst m5.
  pose proof (retimer_inv B C _ t (mv_inv _ _ _ _ _ _ I4 O5)) as I5. set (y5 := retimer (mv y4 n5 (y_meas y4) x5) t) in *.
  destruct (meascurr_result_ok B C y5 w' p I5 Hw') as (y' & X & I' & F & B1 & B2 & B3 & B4 & B5). rewrite Ez in X. apply Some_inj in X. subst y'.
  assert (Em : y_meas z = set_m_chans (y_meas y1) [c0'; c1]) by (rewrite F; reflexivity).
  eapply fok_mono; [apply trigger_fine; [exact I'|rewrite Em; exact H1]|]. intros y' (n6 & x6 & O6 & ->).
  pose proof (mv_inv _ _ _ _ _ _ I' O6) as I6. destruct (trigger_ok B C _ I6) as (_ & I7).
  split; [exact I7|]. split.
  { apply fine_frame_trans with (b := y5).
    - apply fine_frame_same; try reflexivity; [|unfold ct_frame; repeat split]. transitivity (x_cache (y_set y4)); [apply (mo_cache _ _ _ _ _ _ O5)|exact Ec3].
    - apply fine_frame_trans with (b := z); [apply fine_frame_same; try (rewrite F; reflexivity); rewrite F; unfold ct_frame; repeat split|]. apply fine_frame_same; try reflexivity; [apply (mo_cache _ _ _ _ _ _ O6)|unfold ct_frame; repeat split]. }
  unfold triggered, mv. sy. rewrite Em. sy. change (m_avail (y_meas y1)) with false. change (m_chan (y_meas y1)) with (m_chan (y_meas y)). rewrite Hc.
  split; [split; [reflexivity|discriminate]|]. split; [reflexivity|]. split; [reflexivity|]. split; [reflexivity|]. split; [reflexivity|]. split; [discriminate|].
  intros _. exists c0', w, w', p, n1, n3, n5, t. split; [reflexivity|]. split; [exact Ck|]. rewrite Lw, Ef'. destruct B2 as (B2 & B2'). split; [|split; [exact Lv|split; [sy; exact B2|exact B2']]].
  unfold curr_effect. sy. split; [rewrite F; reflexivity|]. split; [rewrite F; reflexivity|]. split; [rewrite F; reflexivity|]. split; [exact B1|]. split; [exact B3|]. split; [exact B4|].
  change (u_prev (y_mc y5)) with (u_prev u') in B5. rewrite Hu' in B5. exact B5.
Qed.
Lemma measure_fine y c0 c1 : inv y -> handover (y_meas y) -> m_chans (y_meas y) = [c0; c1] ->
  fok (measure_work_f C y) (fun y' => if m_avail (y_meas y) then exists raw, raw_average (y_meas y) = Some raw /\ measured y y' c0 c1 raw else y' = y).
Proof.
  intros I H Hch. destruct (m_avail (y_meas y)) eqn:Ea.
  - destruct (average_ok C (y_meas y) _ (i_meas _ _ _ I) (proj2 H Ea)) as (raw & Er & _ & Hr).
    destruct (i_meas _ _ _ I) as (_ & [Hc|Hc] & _); (eapply fok_mono; [|intros z M; exists raw; split; [exact Er|exact M]]).
    + apply curr_fine; assumption.
    + apply temp_fine; assumption.
  - unfold measure_work_f. rewrite Ea. cbv zeta. apply fok_ret. destruct y as [a b c d [e1 e2 e3 e4 e5 e6 e7] f g h i j k l]. sy in Ea. subst. reflexivity.
Qed.
End Meas.
