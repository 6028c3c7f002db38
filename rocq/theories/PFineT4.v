(** * Interrupts inside the work functions, part 12: reaction times *)
From Coq Require Import ZArith List Bool Lia ZifyBool.
From Verif Require Import Base PBase MConf MUtil MFixpt MScale MRing MFilter MTimer MPid MPwm MTempMap MCurr MSens
  SpecNum SpecPid SpecSmall PNum PSmall PScale PPid SpecCurr PCurr MSettings SpecSettings PSettings PSysSet
  MSseg MDisplay MText MState MTemp MMeas MMenu MMain SpecDisplay PDisplay SpecSys SpecRun SpecLive PSys PSysMeas PSysMenu PSysDisp PSysBtn
  Trace PSysStep PSysRun PSysCC PSysSafe PSysLog PSysWin PLive PLive2 MFine SpecFine SpecFineLive PFine PFine2 PFine4 PFine5 PFine6 PFine7 PFine8 PFineT PFineT2 PFineT3.
Import ListNotations.
Open Scope Z_scope.
Ltac Zify.zify_post_hook ::= Z.div_mod_to_equations.

Section FLive2.
Variables (L : limits) (lo hi : Z) (C : conf).
Hypothesis HC : build_conf C.
Hypothesis HL : limits_ok L.
Let fs := fserved L lo hi C.
Let fw := fwd L lo hi C.

(** Induction over single events, the interrupts inside being events of their own *)
Lemma fserved_each (Q : sys -> watch -> Prop) :
  (forall y, freach C y -> fresh C y -> Q y watch_zero) ->
  (forall y e y1 w1 y', freach C y -> sinv4 badj C y -> fs y1 w1 -> Q y1 w1 -> on_time L C y1 w1 e -> fw y e y1 w1 y' -> fs y' (watch_step lo hi y1 w1 e y') ->
     Q y' (watch_step lo hi y1 w1 e y')) ->
  forall y w, fs y w -> Q y w.
Proof.
  intros Q0 Qs y w D. induction D as [pinb y Hp E|y v pinb y' R N Ad|y w e o y1 w1 y' D IH Pa O E].
  - apply Q0; [econstructor; eassumption|eapply boot_fresh; eassumption].
  - apply Q0; [eapply freach_step; eassumption|eapply fpower_fresh; eassumption].
  - assert (D' : fs y' (watch_step lo hi y1 w1 e y')) by (eapply fsrv_step; eassumption).
    assert (D1 : fs y1 w1) by (exact (path_fserved L lo hi C y w _ y1 w1 D Pa)).
    assert (Q1 : Q y1 w1).
    { clear E O D' D1. remember (map irq_event (concat o)) as el eqn:El. generalize dependent (concat o). clear o.
      induction Pa as [y w|y w e0 el y1 y2 w2 O E P IHP]; intros l El; [exact IH|].
      destruct l as [|i l]; [discriminate El|]. cbn [map] in El. injection El as -> ->.
      assert (Ew : fwork C y (irq_event i) [] = Some (y1, [])) by (destruct i; cbn [irq_event fwork]; unfold lift; cbn [irq_event] in E; rewrite E; reflexivity).
      assert (Dn : fs y1 (watch_step lo hi y w (irq_event i) y1)).
      { eapply (fsrv_step L lo hi C y w (irq_event i) [] y w y1); [exact D|constructor|exact O|exact Ew]. }
      apply (IHP Dn) with (l := l); [|reflexivity].
      eapply Qs; [|eapply (fserved_s4 L lo hi C HC HL); exact D|exact D|exact IH|exact O| |exact Dn].
      - exact (fk_reach _ _ _ _ (fp_core _ _ _ _ _ _ (fserved_fprog L lo hi C HC HL y w D))).
      - apply (fwd_ok L lo hi C HC HL y w (irq_event i) [] y w y1); [apply fserved_fprog; assumption|constructor|exact O|exact Ew]. }
    eapply Qs; [|eapply (fserved_s4 L lo hi C HC HL); exact D|exact D1|exact Q1|exact O| |exact D'].
    + exact (fk_reach _ _ _ _ (fp_core _ _ _ _ _ _ (fserved_fprog L lo hi C HC HL y w D))).
    + apply (fwd_ok L lo hi C HC HL y w e o y1 w1 y'); [apply fserved_fprog; assumption|assumption..].
Qed.

Lemma fserved_reach y w : fs y w -> freach C y.
Proof. intros D. exact (fk_reach _ _ _ _ (fp_core _ _ _ _ _ _ (fserved_fprog L lo hi C HC HL y w D))). Qed.
Lemma fwd_mean y e y1 w1 y' : fw y e y1 w1 y' -> e = EMeasure -> mean_code y1 = mean_code y /\ m_avail (y_meas y1) = m_avail (y_meas y) /\ m_chan (y_meas y1) = m_chan (y_meas y).
Proof.
  intros [] Ee. specialize (d_same Ee). apply bare_fields in d_same. destruct d_same as (A1 & A2 & A3 & _ & A5 & _).
  unfold mean_code. rewrite A1, A2, A3, A5. auto.
Qed.
Lemma fwd_result y e y1 w1 y' c : fw y e y1 w1 y' -> (result y e c <-> result y1 e c).
Proof.
  intros D. unfold result. split; intros (E & X2 & X3); destruct (fwd_mean y e y1 w1 y' D E) as (_ & A2 & A3); rewrite ?A2, ?A3 in *; auto.
Qed.
Lemma fmoves y e y1 w1 y' : fw y e y1 w1 y' ->
  let w' := watch_step lo hi y1 w1 e y' in
  (result y e 1 /\ v_last w' = Some (mean_code y) /\ v_temp w' = 0 /\ v_curr w' = v_curr w1 /\ v_steady w' = v_steady w1) \/
  (result y e 0 /\ v_last w' = v_last w1 /\ v_temp w' = v_temp w1 /\ v_curr w' = 0 /\ v_steady w' = v_steady w1) \/
  (e = ETick /\ v_last w' = v_last w1 /\ v_temp w' = v_temp w1 + 1 /\ v_curr w' = v_curr w1 + 1 /\ v_steady w' = v_steady w1 + 1) \/
  ((forall c, ~ result y e c) /\ e <> ETick /\ v_last w' = v_last w1 /\ v_temp w' = v_temp w1 /\ v_curr w' = v_curr w1 /\
   (v_steady w' = v_steady w1 \/ v_steady w' = 0)).
Proof.
  intros D. cbv zeta. pose proof (fwd_mean y e y1 w1 y' D) as Me. assert (Kd := d_pk _ _ _ _ _ _ _ _ _ D). pose proof (fk_reach _ _ _ _ (fp_core _ _ _ _ _ _ (d_prog1 _ _ _ _ _ _ _ _ _ D))) as R1.
  change (watch_step lo hi y1 w1 e y') with (watch_state y1 y' (watch_ev lo hi y1 w1 e)).
  cbn [watch_state v_last v_temp v_curr v_steady].
  destruct Kd as [-> N M|raw -> Ea N _ _|c0 c1 e1 e2 b -> Av N _ _ _ _ _ _ _ _ _|NT NM NA Pj]; cbn [watch_ev].
  - right; right; left. cbn. auto.
  - right; right; right. split; [intros c (Q & _); discriminate Q|]. split; [discriminate|]. unfold watch_adc. rewrite Ea.
    cbn [v_last v_temp v_curr v_steady]. destruct (_ && _); auto 10.
  - destruct (Me eq_refl) as (M1 & M2 & M3). unfold watch_poll. rewrite Av, M1.
    destruct (f_handover C y1 HC R1) as (_ & _ & [Hc|Hc]); rewrite Hc; cbn [Z.eqb Pos.eqb v_last v_temp v_curr v_steady].
    + right; left. unfold result. rewrite <- M2, <- M3. auto 10.
    + left. unfold result. rewrite <- M2, <- M3. auto 10.
  - right; right; right. split; [intros c Q; apply (fwd_result y e y1 w1 y' c D) in Q; destruct Q as (Q1 & Q2 & _); rewrite (NM Q1) in Q2; discriminate Q2|]. split; [exact NT|].
    assert (W : exists p, watch_ev lo hi y1 w1 e = with_poll w1 p).
    { destruct e; cbn [watch_ev]; try (exists (v_poll w1); destruct w1; reflexivity).
      - congruence.
      - unfold watch_adc. rewrite (NA raw eq_refl). exists (v_poll w1). destruct w1; reflexivity.
      - unfold watch_poll. rewrite (NM eq_refl). exists 0. reflexivity. }
    destruct W as (p & Ew). change (match e with ETick => watch_tick w1 | EAdc raw => watch_adc lo hi y1 w1 raw | EMeasure => watch_poll y1 w1 | _ => w1 end) with (watch_ev lo hi y1 w1 e). rewrite Ew. cbn. auto 10.
Qed.

(** ** The last result *)
Lemma fserved_last y w : fs y w -> slow_cycle L + slow_window L < v_steady w -> exists c, v_last w = Some c /\ lo <= c <= hi.
Proof.
  intros D S. pose proof (fserved_fprog L lo hi C HC HL y w D) as Pg. pose proof (fprog_temp L lo hi C HC HL y w Pg) as T.
  pose proof (fp_last _ _ _ _ _ _ Pg) as La. destruct (v_last w) as [c|].
  - exists c. split; [reflexivity|]. apply La. lia.
  - destruct HL as (L1 & L2 & _). unfold slow_window in S. lia.
Qed.

(** ** Over-temperature *)
Lemma fserved_hot y w : fs y w -> forall c v, v_last w = Some c -> v_temp w < v_calm w ->
  temp_of_code C (s_adj (x_cache (y_set y))) c v -> 480 * 64 < v <= 500 * 64 -> hot y = true.
Proof.
  apply (fserved_each (fun y w => forall c v, v_last w = Some c -> v_temp w < v_calm w ->
    temp_of_code C (s_adj (x_cache (y_set y))) c v -> 480 * 64 < v <= 500 * 64 -> hot y = true)); [discriminate|].
  clear y w. intros y e y1 w1 y' R _ D1 IH O D D' c x La T Tv Bv.
  assert (T' : 0 <= v_temp (watch_step lo hi y1 w1 e y')).
  { pose proof (fserved_fprog L lo hi C HC HL _ _ D') as Pg. pose proof (fp_temp _ _ _ _ _ _ Pg). pose proof (fk_pos _ _ _ _ (fp_core _ _ _ _ _ _ Pg)). lia. }
  pose proof (fmoves y e y1 w1 y' D) as Mv. cbv zeta in Mv.
  destruct (calm_move lo hi y1 w1 e y' ltac:(lia)) as (En & Ea & Ec). rewrite Ec in T. rewrite Ea in Tv.
  destruct (d_frame _ _ _ _ _ _ _ _ _ D) as (F1 & F2 & _ & _ & F5 & _). rewrite F1 in En. assert (Hh1 : hot y1 = hot y) by (unfold hot; rewrite F2; reflexivity).
  destruct (f_hot C y e y' HC R (d_next _ _ _ _ _ _ _ _ _ D) (d_power _ _ _ _ _ _ _ _ _ D)) as [(r & Tp & Hh)|(Np & Hh)].
  - destruct Mv as [(X & M1 & M2 & _)|[((_ & _ & X) & _)|[(-> & _)|(N & _)]]];
      [|destruct Tp as (_ & _ & Q & _); rewrite X in Q; discriminate Q|destruct Tp as (Q & _); discriminate Q|destruct Tp as (Q1 & Q2 & Q3 & _); destruct (N 1); repeat split; assumption].
    rewrite M1 in La. injection La as <-. rewrite F5 in Tv.
    pose proof (f_processed C y e y' x HC R X En (d_next _ _ _ _ _ _ _ _ _ D) Tv ltac:(lia)) as G.
    assert (r = x) as -> by (destruct Tp as (_&_&_&_&_&<-), G as (_&_&_&_&_&<-); reflexivity). rewrite Hh. lia.
  - rewrite Hh, <- Hh1. destruct Mv as [(X & M1 & M2 & _)|[((-> & _) & M1 & M2 & _)|[(-> & M1 & M2 & _)|(N & Ne & M1 & M2 & _)]]].
    + exfalso. rewrite M1 in La. injection La as <-. apply (Np x). rewrite F5 in Tv. apply (f_processed C y e y' x HC R X En (d_next _ _ _ _ _ _ _ _ _ D) Tv). lia.
    + assert (La2 : v_last w1 = Some c) by congruence; apply (IH c x); try assumption; lia.
    + assert (La2 : v_last w1 = Some c) by congruence; apply (IH c x); try assumption; lia.
    + assert (La2 : v_last w1 = Some c) by congruence; apply (IH c x); try assumption; destruct e; try lia; congruence.
Qed.
Lemma fserved_over_temp y w : fs y w ->
  slow_cycle L + slow_window L < v_steady w -> slow_cycle L < v_calm w ->
  (forall c v, lo <= c <= hi -> temp_of_code C (s_adj (x_cache (y_set y))) c v -> 480 * 64 < v <= 500 * 64) -> pwm_off y.
Proof.
  intros D S Ca H. destruct (fserved_last y w D S) as (c & La & Bc). destruct (code_temp C (s_adj (x_cache (y_set y))) c) as (v & Tv).
  pose proof (fprog_temp L lo hi C HC HL y w (fserved_fprog L lo hi C HC HL y w D)) as T.
  assert (Hh : hot y = true) by (apply (fserved_hot y w D c v La); [lia|exact Tv|apply (H c v Bc Tv)]).
  apply (f_emerg_off C y HC (fserved_reach y w D)). intros Z. unfold hot in Hh. rewrite Z in Hh. discriminate.
Qed.

(** ** Failed sensor *)
Definition bad_range : Prop := forall adj c v, -99 * 64 <= adj <= 99 * 64 -> lo <= c <= hi -> temp_of_code C adj c v -> v < -20 * 64 \/ 500 * 64 < v.
Definition good_range : Prop := forall adj c v, -99 * 64 <= adj <= 99 * 64 -> lo <= c <= hi -> temp_of_code C adj c v -> -20 * 64 <= v <= 500 * 64.
Definition sens (y : sys) (w : watch) : Prop := exists c0 c1, m_chans (y_meas y) = [c0; c1] /\ t_emerg (y_ct y) = ch_timeout c1 /\
  (ch_timeout c1 = true -> ch_running c1 = true) /\
  (ch_running c1 = true -> ch_timeout c1 = false -> exists t0 a, 0 <= t0 <= 65535 /\ y_now y = u16 (t0 + a) /\ ch_timer c1 = u16 (t0 + 3000) /\
     0 <= a < 3000 + l_poll L + v_temp w /\ (bad_range -> v_steady w - slow_window L - slow_cycle L <= a)) /\
  (forall c, v_last w = Some c -> v_temp w + slow_window L < v_steady w -> (bad_range -> ch_running c1 = true) /\ (good_range -> ch_running c1 = false)).
Lemma barec_fields c c' : barec c' = barec c -> ch_timeout c' = ch_timeout c /\ ch_running c' = ch_running c /\ ch_timer c' = ch_timer c.
Proof. destruct c, c'. unfold barec. cbn. intros E. injection E as -> -> ->. auto. Qed.
Lemma barec_two y' c0 c1 : map barec (m_chans (y_meas y')) = [barec c0; barec c1] -> exists d0 d1, m_chans (y_meas y') = [d0; d1] /\ barec d0 = barec c0 /\ barec d1 = barec c1.
Proof.
  destruct (m_chans (y_meas y')) as [|d0 [|d1 [|]]]; try discriminate. intros E. apply (two_inj (barec d0) (barec d1)) in E. exists d0, d1. tauto.
Qed.
Lemma fsens y w : fs y w -> sens y w.
Proof.
  apply fserved_each.
  - intros z R (x & k & a & p & -> & _). exists (mkChan 0 false false 0), (mkChan (if c_adj C then s_adj (x_cache x) else 0) false false 0).
    split; [reflexivity|]. split; [reflexivity|]. split; [discriminate|]. split; discriminate.
  - clear y w. intros y e y1 w1 y' R Sb D1 (c0 & c1 & Ech & Em & Tr & Ti & La) O D D'.
    pose proof (fserved_fprog L lo hi C HC HL _ _ D') as Pg'. pose proof (fserved_fprog L lo hi C HC HL _ _ D1) as Pg1.
    pose proof (fmoves y e y1 w1 y' D) as Mv. cbv zeta in Mv. set (w' := watch_step lo hi y1 w1 e y') in *. clearbody w'.
    destruct (d_frame _ _ _ _ _ _ _ _ _ D) as (F1 & F2 & _ & _ & F5 & F6). pose proof (d_next _ _ _ _ _ _ _ _ _ D) as N. pose proof (d_power _ _ _ _ _ _ _ _ _ D) as Pw.
    pose proof (fprog_temp L lo hi C HC HL _ _ Pg1) as Tb. pose proof (fp_temp _ _ _ _ _ _ Pg1) as (_ & Tp). pose proof (fk_pos _ _ _ _ (fp_core _ _ _ _ _ _ Pg1)) as (Ap & _).
    pose proof (fp_steady _ _ _ _ _ _ Pg1) as Sp. pose proof (fp_last _ _ _ _ _ _ Pg1) as La1. pose proof (fp_last _ _ _ _ _ _ Pg') as La'.
    assert (HLs := HL). destruct HLs as (L1 & L2 & _ & _ & L5). assert (Wp : 50 <= slow_window L /\ 55 <= slow_cycle L <= 2055) by (unfold slow_window, slow_cycle; lia).
    pose proof (freach_s4 C y HC R) as S4.
    destruct (fnext_all badj C HC bok_badj y e y' Sb N) as (_ & Cm & Pd).
    destruct (result_dec y e 1) as [X|X].
    + assert (e = EMeasure) by apply X. subst e. assert (X1 := X). apply (fwd_result y EMeasure y1 w1 y' 1 D) in X1. destruct X1 as (_ & X1a & X1c).
      destruct Mv as [(_ & M1 & M2 & M3 & M4)|[((_ & _ & Z) & _)|[(Z & _)|(Z & _)]]]; [|destruct X as (_ & _ & X); congruence|discriminate Z|destruct (Z 1 X)].
      destruct (d_pk _ _ _ _ _ _ _ _ _ D) as [Z _ _|raw0 Z _ _ _ _|k0 k1 e1 e2 b _ _ Nn _ _ _ _ _ Ek Be1 Be2 Kch|_ NM _ _]; [discriminate Z|discriminate Z| |rewrite (NM eq_refl) in X1a; discriminate X1a].
      rewrite Ech in Ek. apply two_inj in Ek. destruct Ek as (<- & <-). rewrite X1c in Kch. cbn [Z.eqb] in Kch.
      destruct X as (_ & X2 & X3). destruct (Pd X2) as (q0 & q1 & raw & Er & _ & _ & _ & _ & _ & _ & _ & Ht & _).
      destruct (Ht X3) as (d1 & v & v' & p & n1 & n2 & n & t & Ech' & _ & Ck & Ef & Tv). rewrite (raw_mean _ _ _ _ Sb X2 Er) in Tv. clear Ht Pd Cm.
      rewrite Ech' in Kch. cbn [map] in Kch. apply two_inj in Kch. destruct Kch as (_ & Kd).
      assert (Kf : ch_running d1 = negb b /\ (b = true -> ch_timeout d1 = false) /\
        (b = false -> ch_timer d1 = (if ch_running c1 then ch_timer c1 else u16 (u16 (y_now y1 - e1) + 3000)) /\
           ch_timeout d1 = ch_timeout c1 || timer_expired (u16 (y_now y1 - e2)) (ch_timer d1))).
      { clear - Kd. destruct d1 as [ad to ru ti], c1 as [ad1 to1 ru1 ti1]. unfold barec, recheck in Kd. cbn in Kd |- *. destruct b; injection Kd as -> -> ->; cbn; repeat split; try discriminate. }
      destruct Kf as (Kr & Kt & Kb). clear Kd. destruct Ck as (_ & _ & Ck & Cp).
      change (mc_plaus_neg (meastemp_config (c_smd C))) with (-1280) in *. change (mc_plaus_pos (meastemp_config (c_smd C))) with 32000 in *.
      assert (Eb : b = (-1280 <=? v) && (v <=? 32000)).
      { rewrite Ck in Kr. destruct ((-1280 <=? v) && (v <=? 32000)); cbn in Kr; destruct b; cbn in Kr; congruence. }
      assert (Adj := s4_adj C y Sb). destruct Ef as (_ & _ & _ & Ef & _).
      change (t_emerg (y_ct (redt (set_y_now y n) t))) with (t_emerg (y_ct y)) in Ef. rewrite F1 in Em.
      clear Ck. exists q0, d1. split; [exact Ech'|]. rewrite M1, M2 in *. rewrite M4 in *. destruct b.
      * specialize (Kt eq_refl). rewrite Kt, <- Eb in Cp. subst p. cbn [negb] in Kr.
        split; [congruence|]. split; [congruence|]. split; [congruence|]. intros c Ec. injection Ec as <-. intros Ls. specialize (La' Ls). split; [|auto].
        intros Bd. exfalso. destruct (Bd _ _ _ Adj La' Tv); lia.
      * destruct (Kb eq_refl) as (Kb1 & Kb2). cbn [negb] in Kr. rewrite <- Eb in Cp. clear Kt.
        split; [|split; [auto|split]].
        -- rewrite Ef. destruct (ch_timeout d1); subst p; [reflexivity|]. destruct (ch_timeout c1); [discriminate Kb2|exact Em].
        -- intros _ Nt. rewrite Nt in Kb2. symmetry in Kb2. apply orb_false_iff in Kb2. destruct Kb2 as (Kb2 & Kb3).
           pose proof (i_now _ _ _ (s4_inv _ _ _ (freach_s4 C y1 HC (fserved_reach y1 w1 D1)))) as In. unfold is_u16 in In.
           destruct (ch_running c1) eqn:Ru.
           ++ destruct (Ti eq_refl Kb2) as (t0 & a & T1 & T2 & T3 & T4 & T5). exists t0, a. split; [exact T1|]. split; [congruence|]. split; [congruence|].
              assert (Ex : a < 3000 + l_poll L).
              { rewrite Kb1, T3, T2 in Kb3. replace (u16 (u16 (t0 + a) - e2)) with (u16 (t0 + (a - e2))) in Kb3 by (unfold u16; clear; lia).
                change (timer_expired (counter (t0 + (a - e2))) (counter (t0 + 3000)) = false) in Kb3. rewrite timer_expired_eq in Kb3.
                clear - Kb3 Be1 Be2 T4 Tb Wp L1 L2 L5. lia. }
              split; [lia|]. intros Bd. specialize (T5 Bd). lia.
           ++ exists (u16 (y_now y1 - e1)), e1. split; [unfold u16; clear; lia|]. split; [rewrite Nn; unfold u16; clear - In; lia|]. split; [exact Kb1|]. split; [lia|].
              intros Bd. destruct (Z_lt_ge_dec (v_temp w1 + slow_window L) (v_steady w1)) as [Lt|Ge]; [|lia].
              destruct (v_last w1) as [c|]; [|lia]. destruct (La c eq_refl Lt) as (Q & _). discriminate (Q Bd).
        -- intros c Ec. injection Ec as <-. intros Ls. specialize (La' Ls). split; [auto|]. intros Gd. exfalso. pose proof (Gd _ _ _ Adj La' Tv). lia.
    + assert (Em' : t_emerg (y_ct y') = t_emerg (y_ct y)).
      { destruct (pending y e) eqn:Pn; [|apply (Cm Pw eq_refl)]. destruct (pending_cases _ _ _ _ (s4_inv _ _ _ S4) Pn) as [Y|Y]; [|destruct (X Y)].
        apply (f_result C y e y' HC R Y N). }
      assert (Ed : exists d0 d1, m_chans (y_meas y') = [d0; d1] /\ barec d1 = barec c1).
      { destruct (d_pk _ _ _ _ _ _ _ _ _ D) as [_ _ M|raw0 _ _ _ _ M|k0 k1 e1 e2 b Ee Av _ _ _ _ _ _ Ek _ _ Kch|_ _ _ M].
        - apply bare_fields in M. destruct M as (_ & _ & _ & _ & _ & _ & M). rewrite Ech in M. destruct (barec_two y' c0 c1 M) as (d0 & d1 & Q1 & _ & Q2). eauto.
        - rewrite Ech in M. destruct (barec_two y' c0 c1 M) as (d0 & d1 & Q1 & _ & Q2). eauto.
        - rewrite Ech in Ek. apply two_inj in Ek. destruct Ek as (<- & <-). destruct (m_chan (y_meas y1) =? 0) eqn:Hz.
          + destruct (m_chans (y_meas y')) as [|d0 [|d1 [|]]]; try discriminate Kch. apply (two_inj (barec d0) (barec d1)) in Kch. exists d0, d1. tauto.
          + exfalso. apply X. apply (fwd_result y e y1 w1 y' 1 D). unfold result. destruct (f_handover C y1 HC (fserved_reach y1 w1 D1)) as (_ & _ & Hc). split; [exact Ee|]. split; [exact Av|]. lia.
        - apply pj_same in M. destruct M as (_ & _ & _ & _ & _ & _ & _ & M). rewrite Ech in M. destruct (barec_two y' c0 c1 M) as (d0 & d1 & Q1 & _ & Q2). eauto. }
      destruct Ed as (d0 & d1 & Ech' & Bd1). apply barec_fields in Bd1. destruct Bd1 as (B1 & B2 & B3).
      assert (Mt : exists z, (z = 0 \/ z = 1) /\ y_now y' = u16 (y_now y1 + z) /\ v_last w' = v_last w1 /\ v_temp w' = v_temp w1 + z /\ (v_steady w' = v_steady w1 + z \/ v_steady w' = 0)).
      { pose proof (i_now _ _ _ (s4_inv _ _ _ (freach_s4 C y1 HC (fserved_reach y1 w1 D1)))) as In. unfold is_u16 in In.
        assert (N0 : y_now y1 = u16 (y_now y1 + 0)) by (unfold u16; lia).
        destruct (d_pk _ _ _ _ _ _ _ _ _ D) as [Ee N1 _|raw0 Ee _ N1 _ _|k0 k1 e1 e2 b Ee _ N1 _ _ _ _ _ _ _ _ _|Ne _ _ Pj];
          [exists 1|exists 0|exists 0|exists 0; apply pj_same in Pj; destruct Pj as (N1 & _)].
        all: destruct Mv as [(Z & _)|[((Z & _) & M1 & M2 & M3 & M4)|[(Z & M1 & M2 & M3 & M4)|(_ & Z & M1 & M2 & M3 & M4)]]]; try (destruct (X Z)); try congruence.
        all: split; [lia|]; split; [congruence|]; split; [exact M1|]; split; [lia|]; first [left; lia|destruct M4; [left; lia|right; assumption]]. }
      destruct Mt as (z & Hz & Nz & M1 & M2 & M4). exists d0, d1. split; [exact Ech'|]. rewrite B1, B2, B3, M1, M2. split; [congruence|]. split; [exact Tr|]. split.
      * intros Q1 Q2. destruct (Ti Q1 Q2) as (t0 & a & T1 & T2 & T3 & T4 & T5). exists t0, (a + z). split; [exact T1|]. split; [rewrite Nz, T2; unfold u16; clear; lia|].
        split; [exact T3|]. split; [lia|]. intros Bd. specialize (T5 Bd). destruct M4; lia.
      * intros c Ec Lt. apply (La c Ec). destruct M4; lia.
Qed.

Definition ffail_time : Z := 3000 + l_poll L + slow_window L + 2 * slow_cycle L.
Lemma fserved_fault y w : fs y w -> bad_range -> ffail_time < v_steady w -> t_emerg (y_ct y) = true.
Proof.
  intros D Bd S. destruct (fsens y w D) as (c0 & c1 & _ & Em & _ & Ti & La). rewrite Em. destruct (ch_timeout c1) eqn:To; [reflexivity|exfalso].
  pose proof (fserved_fprog L lo hi C HC HL y w D) as Pg. pose proof (fprog_temp L lo hi C HC HL _ _ Pg) as Tb. unfold ffail_time in S.
  assert (HLs := HL). destruct HLs as (L1 & L2 & _). assert (Wp : 50 <= slow_window L /\ 55 <= slow_cycle L) by (unfold slow_window, slow_cycle; lia).
  destruct (fserved_last y w D ltac:(lia)) as (c & Ec & _). destruct (La c Ec ltac:(lia)) as (Ru & _). destruct (Ti (Ru Bd) eq_refl) as (t0 & a & _ & _ & _ & T4 & T5).
  specialize (T5 Bd). lia.
Qed.
Lemma fserved_fine y w : fs y w -> good_range -> slow_cycle L + slow_window L < v_steady w -> t_emerg (y_ct y) = false.
Proof.
  intros D Gd S. destruct (fsens y w D) as (c0 & c1 & _ & Em & Tr & _ & La). rewrite Em.
  pose proof (fserved_fprog L lo hi C HC HL y w D) as Pg. pose proof (fprog_temp L lo hi C HC HL _ _ Pg) as Tb.
  destruct (fserved_last y w D ltac:(lia)) as (c & Ec & _). destruct (La c Ec ltac:(lia)) as (_ & Ru).
  destruct (ch_timeout c1) eqn:To; [|reflexivity]. rewrite (Ru Gd) in Tr. discriminate (Tr eq_refl).
Qed.
Lemma fserved_failed y w : fs y w -> 0 <= v_failed w /\ (v_curr w < v_failed w -> 7372 <= cc_ocr (y_cc y)) /\ (bad_range -> v_steady w <= ffail_time + 1 + v_failed w).
Proof.
  apply (fserved_each (fun y w => 0 <= v_failed w /\ (v_curr w < v_failed w -> 7372 <= cc_ocr (y_cc y)) /\ (bad_range -> v_steady w <= ffail_time + 1 + v_failed w))).
  - intros z _ _. cbn [v_failed v_curr v_steady watch_zero]. destruct HL as (L1 & L2 & _). unfold ffail_time, slow_window, slow_cycle. split; [lia|]. split; intros; lia.
  - clear y w. intros y e y1 w1 y' R _ D1 (IH1 & IH2 & IH3) O D D'.
    pose proof (fmoves y e y1 w1 y' D) as Mv. cbv zeta in Mv. pose proof (failed_move lo hi y1 w1 e y') as Fm. set (w' := watch_step lo hi y1 w1 e y') in *.
    destruct (d_frame _ _ _ _ _ _ _ _ _ D) as (F1 & F2 & _). pose proof (d_next _ _ _ _ _ _ _ _ _ D) as N. pose proof (d_power _ _ _ _ _ _ _ _ _ D) as Pw.
    pose proof (fserved_fault y' w' D') as Fl. pose proof (fserved_fault y1 w1 D1) as Fl1. pose proof (fserved_fprog L lo hi C HC HL y1 w1 D1) as Pg. pose proof (fserved_fprog L lo hi C HC HL y' w' D') as Pg'.
    pose proof (fp_curr _ _ _ _ _ _ Pg') as ((Cb & _) & _). pose proof (fp_steady _ _ _ _ _ _ Pg) as Sp.
    assert (Tk : match e with ETick => 1 | _ => 0 end = 0 \/ match e with ETick => 1 | _ => 0 end = 1) by (destruct e; lia).
    clearbody w'. split; [rewrite Fm; destruct (_ && _); lia|]. split.
    + intros Q. rewrite Fm in Q. destruct (t_emerg (y_ct y1)) eqn:T0; [destruct (t_emerg (y_ct y')) eqn:T1|]; cbn [andb] in Q; try lia. rewrite F1 in T0.
      destruct (result_dec y e 0) as [X|X].
      * destruct (f_result C y e y' HC R X N) as (_ & _ & _ & _ & A2 & _). apply A2. apply (f_link C y HC R). auto.
      * assert (Q' : v_curr w1 < v_failed w1).
        { destruct Mv as [((-> & _) & _ & _ & M3 & _)|[(Z & _)|[(-> & _ & _ & M3 & _)|(_ & Ne & _ & _ & M3 & _)]]]; [|destruct (X Z)| |]; [lia|lia|destruct e; try lia; congruence]. }
        specialize (IH2 Q'). rewrite F2 in IH2. destruct (f_ocr C y e y' HC R N Pw X); lia.
    + intros Bd. specialize (IH3 Bd). specialize (Fl Bd). specialize (Fl1 Bd). rewrite Fm.
      assert (M4 : v_steady w' <= Z.max 0 (v_steady w1 + match e with ETick => 1 | _ => 0 end)).
      { destruct Mv as [((-> & _) & _ & _ & _ & M4)|[((-> & _) & _ & _ & _ & M4)|[(-> & _ & _ & _ & M4)|(_ & _ & _ & _ & _ & [M4|M4])]]]; lia. }
      destruct (t_emerg (y_ct y')) eqn:T1.
      * destruct (t_emerg (y_ct y1)) eqn:T0; cbn [andb]; [unfold ffail_time in *; destruct HL as (L1 & L2 & _); unfold slow_window, slow_cycle in *; lia|].
        assert (v_steady w1 <= ffail_time) by (destruct (Z_le_gt_dec (v_steady w1) ffail_time); [assumption|discriminate (Fl1 ltac:(lia))]).
        unfold ffail_time in *; destruct HL as (L1 & L2 & _); unfold slow_window, slow_cycle in *; lia.
      * rewrite andb_false_r. destruct (Z_le_gt_dec (v_steady w') ffail_time); [lia|discriminate (Fl ltac:(lia))].
Qed.
Lemma fserved_dead y w : fs y w -> bad_range -> 3001 + l_poll L + slow_window L + 3 * slow_cycle L < v_steady w ->
  t_emerg (y_ct y) = true /\ p_setpoint (cc_pid (y_cc y)) = 0 /\ duty_at_most y 1 10.
Proof.
  intros D Bd S. destruct (fserved_failed y w D) as (_ & Fo & Fb). specialize (Fb Bd). unfold ffail_time in Fb.
  pose proof (fprog_curr L lo hi C HC HL y w (fserved_fprog L lo hi C HC HL y w D)) as Cb.
  assert (Em : t_emerg (y_ct y) = true).
  { apply (fserved_fault y w D Bd). unfold ffail_time. destruct HL as (L1 & L2 & _). unfold slow_cycle in *. lia. }
  split; [exact Em|]. split; [apply (f_link C y HC (fserved_reach y w D)); auto|]. unfold duty_at_most. specialize (Fo ltac:(lia)). lia.
Qed.
End FLive2.
