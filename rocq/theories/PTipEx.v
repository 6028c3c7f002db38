(** * A case for the tip in the loop *)
From Coq Require Import ZArith List Bool Lia.
From Verif Require Import Base PBase MConf MTimer MPid MPwm MCurr MSettings SpecSettings MState MMeas MMenu MMain SpecSys SpecRun SpecUI SpecLive SpecLoop
  MFine SpecFine MHeat SpecHeat SpecTip PSettingsEx PHeat PHeat2 PTip.
Import ListNotations.
Open Scope Z_scope.

(** An iron that warms by up to 10 degrees per second, lags by 0.1 s, with a sensor error of 2 degrees; the
    main loop as slow as the watchdog allows *)
Definition some_iron : iron := mkIron 80 12500 2000000.
Definition slow_speed : speed := mkSpeed 300 2 20 4 1.
Lemma case_max : iron_ok some_iron /\ speed_ok slow_speed /\ tip_max some_iron slow_speed = 495831840 /\
  tip_max some_iron slow_speed + i_err some_iron <= 500 * 1000000.
Proof. unfold iron_ok, speed_ok, limits_ok, store_ms. cbn. repeat split; lia. Qed.

Lemma tip_units I S C a : 0 <= i_rise I -> forall n t h u l th, tip I S C a t h u l th -> 0 <= u -> u + Z.of_nat n < 126 ->
  zlen l + Z.of_nat n < i_lag I ->
  exists h' l', tip I S C a t h' (u + Z.of_nat n) l' (th + i_rise I * Z.of_nat n) /\ zlen l' = zlen l + Z.of_nat n.
Proof.
  intros R. induction n as [|n IH]; intros t h u l th T U0 U L.
  - exists h, l. replace (u + Z.of_nat 0) with u by lia. replace (th + i_rise I * Z.of_nat 0) with th by lia. split; [exact T|lia].
  - assert (T1 : tip I S C a t (t1_unit (cc_ocr (y_cc (st_y t))) h) (u + 1) ((t, w_pin (t1_unit (cc_ocr (y_cc (st_y t))) h)) :: l) (th + i_rise I)).
    { apply (tip_unit _ _ _ _ _ _ _ _ _ _ T); [unfold UNITS_PER_TICK; lia|]. split; [lia|]. intros [Q _]. rewrite zlen_cons in Q. lia. }
    destruct (IH _ _ _ _ _ T1) as (h' & l' & T2 & Z2); [lia|lia|rewrite zlen_cons; lia|].
    exists h', l'. replace (u + Z.of_nat (Datatypes.S n)) with (u + 1 + Z.of_nat n) by lia.
    replace (th + i_rise I * Z.of_nat (Datatypes.S n)) with (th + i_rise I + i_rise I * Z.of_nat n).
    2:{ rewrite Nat2Z.inj_succ, Z.mul_succ_r. lia. }
    split; [exact T2|]. rewrite Z2, zlen_cons. lia.
Qed.
Definition calmly (y : sys) : bool := t_enabled (y_ct y) && (s_adj (x_cache (y_set y)) =? 0).
Lemma calmly_ok t : calmly (st_y t) = true -> undisturbed 0 t.
Proof. unfold calmly, undisturbed. intros H. apply andb_prop in H. destruct H. split; [assumption|lia]. Qed.
Definition case_check (o : option sys) : bool :=
  match o with
  | Some y =>
    match step conf_m88p y (EAdc 410) with
    | Some y1 =>
      calmly y && (m_count (y_meas y1) =? 1) && calmly y1 && calmly (sys_tick y1) && negb (busy y1) && negb (waiting y1) &&
      (m_count (y_meas (sys_tick y1)) =? 1)
    | None => false
    end
  | None => false
  end.
Lemma case_check_inv o : case_check o = true -> exists y y1, o = Some y /\ step conf_m88p y (EAdc 410) = Some y1 /\ calmly y = true /\ calmly y1 = true /\
  calmly (sys_tick y1) = true /\ busy y1 = false /\ waiting y1 = false /\ m_count (y_meas (sys_tick y1)) = 1.
Proof.
  unfold case_check. destruct o as [y|]; [|discriminate]. destruct (step conf_m88p y (EAdc 410)) as [y1|] eqn:E; [|discriminate].
  intros K. exists y, y1. split; [reflexivity|]. split; [exact E|]. clear E.
  generalize dependent (calmly (sys_tick y1)). generalize dependent (m_count (y_meas (sys_tick y1))). intros n b K.
  destruct (calmly y), (calmly y1), b, (busy y1), (waiting y1), (Z.eqb_spec n 1); cbn in K; rewrite ?andb_false_r in K; try discriminate K; repeat split; assumption.
Qed.
Lemma case_facts : exists y y1, boot conf_m88p (factory_ee conf_m88p) 255 = Some y /\ step conf_m88p y (EAdc 410) = Some y1 /\ calmly y = true /\ calmly y1 = true /\
  calmly (sys_tick y1) = true /\ busy y1 = false /\ waiting y1 = false /\ m_count (y_meas (sys_tick y1)) = 1.
Proof. apply case_check_inv. vm_compute. reflexivity. Qed.
Lemma case_tip_from y y1 : boot conf_m88p (factory_ee conf_m88p) 255 = Some y -> step conf_m88p y (EAdc 410) = Some y1 -> calmly y = true -> calmly y1 = true ->
  calmly (sys_tick y1) = true -> busy y1 = false -> waiting y1 = false -> m_count (y_meas (sys_tick y1)) = 1 ->
  exists t h u l th, tip some_iron slow_speed conf_m88p 0 t h u l th /\ th = 480010080 /\ m_count (y_meas (st_y t)) = 1 /\ v_conv (st_w t) = 0.
Proof.
  intros B E1 K F3 F2 Bz1 Bz2 F.
  set (t0 := start conf_m88p y 255). set (h0 := mkT1 0 0 8191 false).
  assert (U0 : undisturbed 0 t0) by (apply calmly_ok; exact K).
  assert (T0 : tip some_iron slow_speed conf_m88p 0 t0 h0 0 [] (480 * 1000000)).
  { apply tip_start; [|exact U0|lia]. refine (wi_boot (lfirst conf_m88p) (hot_next slow_speed conf_m88p 0) (fun t : station => cc_ocr (y_cc (st_y t))) t0 h0 0 _ _ _); [exists 255, y; split; [unfold is_u8; lia|split; [exact B|reflexivity]]|unfold t1_started, h0; cbn [w_pre w_tcnt w_cmp]; unfold PWMCURR_MAX_DUTY; lia|unfold UNITS_PER_TICK; lia]. }
  set (t1' := advance (hot_lo conf_m88p 0) (hot_hi conf_m88p 0) conf_m88p t0 (EAdc 410) y1).
  assert (F3' : undisturbed 0 t1') by (apply calmly_ok; exact F3).
  assert (F8' : undisturbed 0 (advance (hot_lo conf_m88p 0) (hot_hi conf_m88p 0) conf_m88p t1' ETick (sys_tick y1))) by (apply calmly_ok; exact F2).
  assert (W1 : v_sample (st_w t1') = 0 /\ v_poll (st_w t1') = 0).
  { unfold t1'. cbn [advance st_w watch_step watch_state v_sample v_poll]. unfold watch_adc. destruct (m_adc _); split; reflexivity. }
  destruct W1 as [W1 W2].
  assert (T1 : tip some_iron slow_speed conf_m88p 0 t1' h0 0 [] (480 * 1000000)).
  { apply (tip_event _ _ _ _ _ _ _ _ _ (EAdc 410) _ T0); [|discriminate|reflexivity|exact F3'|].
    - split; [|exists y1; split; [exact E1|split; [discriminate|reflexivity]]]. split; [exact Logic.I|]. split; [lia|]. intros _. cbn. lia.
    - cbn [sensed]. intros _ _ v V. unfold temp_of_code in V. cbn [c_adj c_smd conf_m88p] in V. cbn [i_err some_iron]. unfold MICRO. lia. }
  destruct (tip_units some_iron slow_speed conf_m88p 0 ltac:(cbn; lia) 125 _ _ _ _ _ T1) as (h & l & T2 & Z2); [lia|lia|cbn; lia|].
  assert (T3 := tip_tick some_iron slow_speed conf_m88p 0 t1' h _ l _ (advance (hot_lo conf_m88p 0) (hot_hi conf_m88p 0) conf_m88p t1' ETick (sys_tick y1))
    (480 * 1000000 + 80 * Z.of_nat 125 + 80) T2).
  exists (advance (hot_lo conf_m88p 0) (hot_hi conf_m88p 0) conf_m88p t1' ETick (sys_tick y1)). do 4 eexists. split; [apply T3|].
  - reflexivity.
  - split; [|exists (sys_tick y1); split; [reflexivity|split; [discriminate|reflexivity]]]. split; [exact Logic.I|].
    change (st_y t1') with y1. cbn [on_time]. rewrite W1, W2, Bz1, Bz2. cbn [limits_of l_sample l_poll slow_speed h_sample h_pass].
    repeat split; intros; try lia; discriminate.
  - exact F8'.
  - split; [cbn [i_rise some_iron]; lia|]. intros [Q _]. rewrite zlen_cons, Z2 in Q. cbn in Q. lia.
  - split; [reflexivity|]. split; [|reflexivity]. exact F.
Qed.
Lemma case_tip : exists t h u l th, tip some_iron slow_speed conf_m88p 0 t h u l th /\ th = 480010080 /\ m_count (y_meas (st_y t)) = 1 /\ v_conv (st_w t) = 0.
Proof. destruct case_facts as (y & y1 & A & B & D & E & F & G & H & K). exact (case_tip_from y y1 A B D E F G H K). Qed.
