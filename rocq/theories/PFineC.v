(** * Interrupts inside the work functions: a cold iron is heated *)
From Coq Require Import ZArith List Bool Lia ZifyBool.
From Verif Require Import Base PBase MConf MUtil MFixpt MScale MRing MFilter MTimer MPid MPwm MTempMap MCurr MSens
  SpecNum SpecPid SpecSmall PNum PSmall PScale PPid SpecCurr PCurr MSettings SpecSettings PSettings PSysSet
  MSseg MDisplay MText MState MTemp MMeas MMenu MMain SpecDisplay PDisplay SpecSys SpecRun SpecLive PSys PSysMeas PSysMenu PSysDisp PSysBtn
  Trace PSysStep PSysRun PSysCC PSysSafe PSysProp PSysLog PSysWin PLive PLive2 SpecControl PControl PMem PDemand SpecWarm PWarm PCool
  MFine SpecFine SpecFineLive PFine PFine2 PFine4 PFine5 PFine6 PFine7 PFine8 PFineT PFineT2 PFineT3 PFineT4 PFineT5 SpecFineWarm PFineW PFineW2 PFineD.
Import ListNotations.
Open Scope Z_scope.
Ltac Zify.zify_post_hook ::= Z.div_mod_to_equations.

(** ** The PWM compare value (see PDemand.ocr_kept) *)
Section Kept.
Variable C : conf.
Lemma run_ok1 y r o y' o' : contrtemp_run_f C y r o = Some (y', o') -> ok1 (y_cc y) (y_cc y').
Proof.
  intros E. unfold contrtemp_run_f in E. destruct (negb _); [apply ret_inv in E; destruct E as (-> & _); intros _; reflexivity|].
  destruct (t_emerg _); [apply ret_inv in E; destruct E as (-> & _); intros _; reflexivity|].
  fb E. apply pt_keep in E0. destruct E0 as (A1 & _). fv E. clear E0. fb E. apply pt_keep in E0. destruct E0 as (B1 & _). cbv zeta in E. fv E. destruct a2 as [p out]. clear E0. fv E. clear E0.
  set (fc := if CONTRTEMP_POSLIM <? r then _ else _) in E. destruct fc as [f cur]. fv E. rename E0 into K. apply ret_inv in E. destruct E as (-> & _).
  cbn [y_cc set_y_cc] in *. rewrite B1, A1 in K. intros Z. unfold contrcurr_set_setpoint in *. cbn [cc_emerg cc_set_pid cc_ocr] in *.
  unfold contrcurr_set_emerg in K. destruct (negb (f =? cc_emerg (y_cc y))) eqn:Q; [destruct (negb (f =? 0)) eqn:Q0|].
  - exfalso. unfold cc_pwm in K. cbn in K. apply Some_inj in K. subst. cbn [cc_emerg cc_set_ocr cc_set_emerg] in Z. subst f. discriminate Q0.
  - apply Some_inj in K. subst. reflexivity.
  - apply Some_inj in K. subst. reflexivity.
Qed.
Lemma feed_ok1 y r o y' o' : contrtemp_set_feedback_f C y r o = Some (y', o') -> ok1 (y_cc y) (y_cc y').
Proof. unfold contrtemp_set_feedback_f. cbv zeta. intros H. apply run_ok1 in H. destruct (negb _); exact H. Qed.
Lemma result_ok1 y v p o y' o' : meastemp_result_handler_f C y v p o = Some (y', o') -> ok1 (y_cc y) (y_cc y').
Proof.
  unfold meastemp_result_handler_f. cbv zeta. intros H. destruct p.
  - apply feed_ok1 in H. eapply ok01; [|exact H]. sy. destruct (ok0_set_emerg y false) as (A & B). split; assumption.
  - apply feed_ok1 in H. exact H.
  - apply ret_inv in H. destruct H as (-> & _). intros _. apply ok0_set_emerg.
Qed.
Lemma measure_ok1 y o y' o' : is_u16 (y_now y) -> m_avail (y_meas y) = true -> m_chan (y_meas y) = 1 -> measure_work_f C y o = Some (y', o') -> ok1 (y_cc y) (y_cc y').
Proof.
  intros Hn Hv Hc E. unfold measure_work_f in E. cbv zeta in E. rewrite Hv in E. set (y0 := set_y_meas y (set_m_avail (y_meas y) false)) in E.
  fb E. rename a into z, o0 into oz. unfold measure_handle_result_f in E0. fb E0. rename a into y1.
  destruct (pt_all C y0 _ _ _ Hn E1) as (l1 & U1 & A1 & A2 & A3 & A4). clear E1. change (m_chan (y_meas y0)) with (m_chan (y_meas y)) in A4. rewrite Hc in A4.
  change (y_now y0) with (y_now y) in A1. change (y_cc y0) with (y_cc y) in A3. cbv zeta in E0. rewrite A4 in E0. fv E0. clear E1. fv E0. clear E1. fv E0. clear E1.
  unfold measure_user_filter_handler in E0. change (1 =? MEAS_CHAN_CURRENT) with false in E0. cbv iota in E0. fv E0. clear E1. fv E0. clear E1. fb E0. destruct a4 as [z2 [[ch' v'] p]].
  assert (H1 : is_u16 (y_now y1)) by (rewrite A1; unfold is_u16, u16; lia). destruct (plaus_all C _ _ _ _ _ _ _ _ H1 E1) as (l2 & U2 & B1 & B2 & B3). clear E1.
  fv E0. clear E1. unfold measure_user_result_handler_f in E0. change (1 =? MEAS_CHAN_TEMP) with true in E0. cbv iota in E0.
  apply result_ok1 in E0. match type of E0 with ok1 ?a _ => change a with (y_cc z2) in E0 end.
  unfold adc_trigger_next_chan_f in E. cbv zeta in E. fv E. clear E1. fb E. rename a6 into z4. apply pt_keep in E1. destruct E1 as (Q & _).
  fv E. apply ret_inv in E. destruct E as (-> & _). change (y_cc (set_y_meas z4 _)) with (y_cc z4). 
  assert (Q' : y_cc z4 = y_cc z) by exact Q. rewrite Q', <- A3, <- B3. exact E0.
Qed.
Lemma focr_kept y e o y' : build_conf C -> freach C y -> fwork C y e o = Some (y', []) -> fnext C y e y' -> is_power e = false -> ~ result y e 0 ->
  cc_emerg (y_cc y') = 0 -> cc_ocr (y_cc y') = cc_ocr (y_cc y).
Proof.
  intros HC R E N P X Z. pose proof (freach_s4 C y HC R) as S4. pose proof (i_now _ _ _ (s4_inv _ _ _ S4)) as In.
  destruct (pending y e) eqn:Pn.
  - destruct (pending_cases _ _ _ _ (s4_inv _ _ _ S4) Pn) as [Y|(-> & X2 & X3)]; [destruct (X Y)|]. cbn [fwork] in E. exact (measure_ok1 y o y' [] In X2 X3 E Z).
  - destruct (fnext_all relaxed C HC bok_relaxed y e y' S4 N) as (_ & Cm & _). destruct (Cm P Pn) as (_ & _ & _ & _ & [Q|Q]); rewrite Q; reflexivity.
Qed.
End Kept.

Section FCold.
Variables (L : limits) (lo hi chi : Z) (C : conf) (W : Z).
Hypothesis HC : build_conf C.
Hypothesis HL : limits_ok L.
Let fs := fserved L lo hi C.
Let fw := fwd L lo hi C.
Variables (vlo vhi : Z).
Hypothesis HV : -20 * 64 <= vlo <= vhi /\ vhi <= 500 * 64 /\ 187 * 64 <= W - vhi /\ W - vlo < 2 * (W - vhi).
Let rg (y : sys) : Prop := forall c v, lo <= c <= hi -> temp_of_code C (s_adj (x_cache (y_set y))) c v -> vlo <= v <= vhi.
(** The temperature controller (see PWarm.want_good) *)
Definition ct1 (y : sys) : Prop := 2 * pe y <= W - vlo + 1 /\ t_emerg (y_ct y) = false.
Definition cgood (y : sys) (w : watch) (n : Z) : Prop :=
  0 <= n /\ 0 <= v_calm w /\
  (v_temp w < n -> v_temp w < v_calm w -> v_temp w + slow_window L < v_steady w -> rg y ->
     ct1 y /\ exists k, 0 <= k <= v_temp w + l_poll L /\ t_dt (y_ct y) = u16 (y_now y - k)) /\
  (v_temp w + slow_cycle L < n -> v_temp w + slow_cycle L < v_calm w -> v_temp w + slow_cycle L + slow_window L < v_steady w -> rg y ->
     p_setpoint (cc_pid (y_cc y)) = 3200 /\ hot y = false).
Lemma cgood_fresh y : freach C y -> fresh C y -> cgood y watch_zero 0.
Proof.
  intros R Fr. assert (Sp : 50 <= slow_window L /\ 55 <= slow_cycle L <= 2055) by (destruct HL as (L1 & L2 & _ & _ & L5); unfold slow_window, slow_cycle; lia).
  unfold cgood. cbn [v_temp v_calm v_curr v_steady watch_zero]. repeat split; lia.
Qed.
Lemma cgood_step : fstepped L lo hi chi C W cgood.
Proof.
  assert (Sp : 50 <= slow_window L /\ 55 <= slow_cycle L <= 2055) by (destruct HL as (L1 & L2 & _ & _ & L5); unfold slow_window, slow_cycle; lia).
  assert (Lp : 0 <= l_poll L <= 1000) by (destruct HL as (L1 & L2 & _ & _ & L5); lia).
    intros y w n e o y1 w1 n1 y' R D (Gn & Gc & G1 & _) D1 (Gn1 & Gc1 & H1 & H2) Du Tl O E _ Fw D'.
    pose proof (fserved_fprog L lo hi C HC HL _ _ D') as Pg'. pose proof (fserved_fprog L lo hi C HC HL _ _ D1) as Pg1. pose proof (fserved_fprog L lo hi C HC HL _ _ D) as Pg.
    pose proof (fmoves L lo hi C HC y e y1 w1 y' Fw) as Mv. cbv zeta in Mv.
    pose proof (calm_move lo hi y1 w1 e y') as Cm. pose proof (calm_on lo hi y1 w1 e y') as Cn. pose proof (calm_bound L lo hi C y1 w1 e y' Gc1) as Cb. pose proof (eager_bound L lo hi C W y1 n1 e y' Gn1) as Eb.
    assert (Hn : 0 < eager_step C W y1 n1 e y' -> eager C W y1 = true /\ eager_step C W y1 n1 e y' = n1 + match e with ETick => 1 | _ => 0 end).
    { unfold eager_step. destruct (eager C W y1); [|cbn; lia]. destruct (eager C W y'); cbn [andb]; [auto|lia]. }
    set (w' := watch_step lo hi y1 w1 e y') in *. clearbody w'. set (n' := eager_step C W y1 n1 e y') in *. clearbody n'.
    pose proof (fprog_temp L lo hi C HC HL _ _ Pg1) as Tb. pose proof (fprog_curr L lo hi C HC HL _ _ Pg1) as Kb.
    assert (Tp : 0 <= v_temp w1 /\ 0 <= v_temp w).
    { destruct (fp_temp _ _ _ _ _ _ Pg1) as (_ & Q1). destruct (fp_temp _ _ _ _ _ _ Pg) as (_ & Q2). pose proof (fk_pos _ _ _ _ (fp_core _ _ _ _ _ _ Pg1)) as (Q3 & _).
      pose proof (fk_pos _ _ _ _ (fp_core _ _ _ _ _ _ Pg)) as (Q4 & _). lia. }
    assert (Cp : 0 <= v_curr w1 /\ 0 <= v_curr w') by (split; [apply (fp_curr _ _ _ _ _ _ Pg1)|apply (fp_curr _ _ _ _ _ _ Pg')]).
    destruct (d_frame _ _ _ _ _ _ _ _ _ Fw) as (F1 & F2 & _ & _ & F5 & _). pose proof (d_next _ _ _ _ _ _ _ _ _ Fw) as N. pose proof (d_power _ _ _ _ _ _ _ _ _ Fw) as Pw.
    destruct Du as [T0 Tn Tt Ts Tc Te]. specialize (Tc Gc). specialize (Te Gn). set (T := ticks (concat o)) in *.
    assert (Rr : rg y' -> s_adj (x_cache (y_set y')) = s_adj (x_cache (y_set y1)) -> rg y1 /\ rg y).
    { intros Rg Ea. split; intros c x Bc Tx; apply (Rg c x Bc); rewrite Ea; [exact Tx|rewrite F5; exact Tx]. }
    pose proof (freach_s4 C y HC R) as S4. pose proof (i_now _ _ _ (s4_inv _ _ _ S4)) as In. unfold is_u16 in In.
    assert (Eg1 : eager C W y1 = eager C W y) by (unfold eager, used_gains; rewrite F1, F5; reflexivity).
    split; [lia|]. split; [lia|].
    destruct (result_dec y e 1) as [X|X].
    + assert (e = EMeasure) by apply X. subst e. cbn [fwork] in E.
      destruct Mv as [(_ & M1 & M2 & M3 & M4)|[((_ & _ & Z) & _)|[(Z & _)|(Z & _)]]]; [|destruct X as (_ & _ & X); congruence|discriminate Z|destruct (Z 1 X)].
      assert (Nn : y_now y' = y_now y1).
      { assert (X1 := X). apply (fwd_result L lo hi C y EMeasure y1 w1 y' 1 Fw) in X1. destruct X1 as (_ & X1a & _).
        destruct (d_pk _ _ _ _ _ _ _ _ _ Fw) as [Z _ _|raw0 Z _ _ _ _|k0 k1 e1 e2 b _ _ Nn _ _ _ _ _ _ _ _ _|_ NM _ _]; [discriminate Z|discriminate Z|exact Nn|rewrite (NM eq_refl) in X1a; discriminate X1a]. }
      assert (K : 0 < n' -> 0 < v_calm w' -> slow_window L < v_steady w' -> rg y' -> ct1 y' /\ (exists k, 0 <= k <= l_poll L /\ t_dt (y_ct y') = u16 (y_now y' - k)) /\
        (slow_cycle L < n' -> slow_cycle L < v_calm w' -> slow_cycle L + slow_window L < v_steady w' -> p_setpoint (cc_pid (y_cc y')) = 3200 /\ hot y' = false)).      { intros Q1 Q2 Q3 Rg. destruct (Hn Q1) as (Eg & En). destruct (Cm Q2) as (On & Ea & Ec). destruct (Rr Rg Ea) as (Rg1 & Rg0). rewrite F1 in On. rewrite Eg1 in Eg.
        pose proof (fp_last _ _ _ _ _ _ Pg') as La. rewrite M1, M2 in La. specialize (La ltac:(lia)).
        destruct (code_temp C (s_adj (x_cache (y_set y))) (mean_code y)) as (v & Tv). assert (Bv : vlo <= v <= vhi) by exact (Rg0 _ _ La Tv).
        pose proof (f_processed C y EMeasure y' v HC R X On N Tv ltac:(lia)) as Tpr. pose proof Tpr as (_ & X2 & X3 & _ & Em & Ef).
        assert (Iu : is_u16 (y_now y)) by exact In.
        destruct (measure_ran C y o y' [] Iu X2 X3 E On Em) as (l & U & Rn). apply uses_all in U. subst l.
        destruct Rn as (d & d2 & dt & out & a & B1 & B2 & Ed & Ep & Ea' & Et & Es). rewrite Ef in *. fold T in B2.
        destruct (run_law C y dt v y' out a (s4_inv _ _ _ S4) ltac:(lia) Ep Ea') as (Ps & _ & A2). cbv zeta in Ps.
        destruct (eager_inv C W y Eg) as (Ew & K1 & K2 & K3). pose proof (set_range_inv C y (s4_inv _ _ _ S4)) as Bw. rewrite Ew in *.
        split; [split; [|exact Em]|split].
        - destruct Ps as (P' & KE & A & D0 & _ & _ & _ & _ & _ & _ & (q & (N1 & _) & Eq)). assert (Se : sat24 (W - v) = W - v) by (unfold sat24; lia). rewrite Se in N1.
          unfold pe. rewrite Eq. clear - N1 Bv HV Bw. unfold sat24. lia.
        - exists (T - d2). split; [lia|]. rewrite Nn, Tn, Et. unfold u16. lia.
        - intros J1 J2 J3. destruct G1 as ((G1 & _) & k & Bk & Gk); [lia|lia|lia|exact Rg0|].
          assert (Bd : 0 <= dt).
          { rewrite Gk in Ed. destruct (clock_dt (u16 (y_now y + d)) (k + d)) as (dt' & Ed' & _ & Bd); [unfold is_u16, u16; lia|lia|].
            replace (u16 (u16 (y_now y + d) - (k + d))) with (u16 (y_now y - k)) in Ed' by (unfold u16; lia). rewrite Ed in Ed'. apply Some_inj in Ed'. subst dt'. exact Bd. }
          assert (Bp : -8388608 <= p_prev_e (t_pid (y_ct y))) by (destruct (i_ct _ _ _ (s4_inv _ _ _ S4)) as (_ & _ & _ & Be & _); unfold is_s24 in Be; lia).
          unfold pe in G1.
          destruct (full_demand _ _ _ W _ (p_prev_e (t_pid (y_ct y))) dt v _ _ _ K1 K2 K3 Bd Bw ltac:(lia) ltac:(lia) ltac:(lia) Bp Ps) as (Bo & _).
          rewrite Es. replace (30720 <? v) with false by lia. split; [exact (A2 Bo)|].
          destruct (f_hot C y EMeasure y' HC R N Pw) as [(r & Tr & ->)|(Nt & _)]; [|destruct (Nt v Tpr)].
          destruct Tr as (_ & _ & _ & _ & _ & <-). rewrite Ef. lia. }
      rewrite M2. split.
      * intros Q1 Q2 Q3 Rg. destruct (K ltac:(lia) ltac:(lia) ltac:(lia) Rg) as (K1 & (k & Bk & K2) & _). split; [exact K1|]. exists k. split; [lia|exact K2].
      * intros Q1 Q2 Q3 Rg. destruct (K ltac:(lia) ltac:(lia) ltac:(lia) Rg) as (_ & _ & K3). apply K3; lia.
    + (* every other event *)
      destruct (other_keep C HC y e o y' R E N Pw X) as (Kt & Ke). destruct (fother_heat C HC y e y' R N Pw X) as (_ & Kh & Km).
      assert (Mt : exists z, z = match e with ETick => 1 | _ => 0 end /\ y_now y' = u16 (y_now y1 + z) /\ v_temp w' = v_temp w1 + z /\ v_steady w' <= v_steady w1 + z).
      { pose proof (i_now _ _ _ (s4_inv _ _ _ (freach_s4 C y1 HC (fserved_reach L lo hi C HC HL y1 w1 D1)))) as In1. unfold is_u16 in In1.
        assert (N0 : y_now y1 = u16 (y_now y1 + 0)) by (unfold u16; lia). pose proof (fp_steady _ _ _ _ _ _ Pg1) as Ss.
        destruct (d_pk _ _ _ _ _ _ _ _ _ Fw) as [Ee N1 _|raw0 Ee _ N1 _ _|k0 k1 e1 e2 b Ee _ N1 _ _ _ _ _ _ _ _ _|Ne _ _ Pj];
          [exists 1|exists 0|exists 0|exists 0; apply pj_same in Pj; destruct Pj as (N1 & _)].
        all: destruct Mv as [(Z & _)|[((Z & _) & M1 & M2 & M3 & M4)|[(Z & M1 & M2 & M3 & M4)|(_ & Z & M1 & M2 & M3 & M4)]]]; try (destruct (X Z)); try congruence.
        all: split; [destruct e; congruence|]; split; [congruence|]; lia. }
      destruct Mt as (z & Ez & Nz & M2 & M4). rewrite <- Ez in *. assert (Hz : z = 0 \/ z = 1) by (destruct e; lia). clear Ez.
      split.
      * intros Q1 Q2 Q3 Rg. destruct (Hn ltac:(lia)) as (_ & En). destruct (Cm ltac:(lia)) as (_ & Ea & Ec). destruct (Rr Rg Ea) as (Rg1 & _).
        destruct H1 as ((A1 & A2) & k & Bk & A3); [lia|lia|lia|exact Rg1|].
        assert (Pe1 : pe y1 = pe y) by (unfold pe; rewrite F1; reflexivity).
        split; [split; [|rewrite Km, <- F1; exact A2]|].
        -- destruct Ke as [Ke|Ke]; rewrite Ke; [rewrite <- Pe1; exact A1|]. clear - HV. lia.
        -- destruct Kt as [Kt|(d & Bd & Kt)]; [exists (k + z)|exists (T - d + z)]; (split; [lia|]).
           ++ rewrite Kt, <- F1, A3, Nz. unfold u16. lia.
           ++ rewrite Kt, Nz, Tn. unfold u16. lia.
      * intros Q1 Q2 Q3 Rg. destruct (Hn ltac:(lia)) as (_ & En). destruct (Cm ltac:(lia)) as (_ & Ea & Ec). destruct (Rr Rg Ea) as (Rg1 & _).
        destruct H2 as (Z1 & Z2); [lia|lia|lia|exact Rg1|].
        assert (On : t_enabled (y_ct y) = true) by (rewrite <- F1; apply (Cm ltac:(lia))). specialize (Cn ltac:(lia)).
        split; [|rewrite Kh; unfold hot in *; rewrite <- F2; exact Z2].
        destruct (pending y e) eqn:Pn.
        -- destruct (pending_cases _ _ _ _ (s4_inv _ _ _ S4) Pn) as [Y|Y]; [|destruct (X Y)]. destruct (f_result C y e y' HC R Y N) as (_ & _ & _ & Q & _). rewrite Q, <- F2. exact Z1.
        -- rewrite (fevent_d C y e o y' HC R Pw Pn E On Cn), <- F2. exact Z1.
Qed.
Lemma cgood_all y w n : fwanting L lo hi chi C W y w n -> cgood y w n.
Proof. apply (fwanting_each L lo hi chi C W HC HL); [exact cgood_fresh|exact cgood_step]. Qed.
Lemma fcold y w n : fwanting L lo hi chi C W y w n -> rg y ->
  2 * slow_cycle L < n -> 2 * slow_cycle L < v_calm w -> 2 * slow_cycle L + slow_window L < v_steady w -> p_setpoint (cc_pid (y_cc y)) = 3200 /\ hot y = false.
Proof.
  intros D Rg. destruct (cgood_all y w n D) as (_ & _ & _ & G2). pose proof (fserved_fprog L lo hi C HC HL y w (fwanting_fserved L lo hi chi C W y w n D)) as Pg.
  pose proof (fprog_temp L lo hi C HC HL _ _ Pg) as Tb. intros Q1 Q2 Q3. apply G2; try assumption; lia.
Qed.
End FCold.
