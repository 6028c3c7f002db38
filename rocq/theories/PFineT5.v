(** * Interrupts inside the work functions, part 13: overheating of any measure *)
From Coq Require Import ZArith List Bool Lia ZifyBool.
From Verif Require Import Base PBase MConf MUtil MFixpt MScale MRing MFilter MTimer MPid MPwm MTempMap MCurr MSens
  SpecNum SpecPid SpecSmall PNum PSmall PScale PPid SpecCurr PCurr MSettings SpecSettings PSettings PSysSet
  MSseg MDisplay MText MState MTemp MMeas MMenu MMain SpecDisplay PDisplay SpecSys SpecRun SpecLive PSys PSysMeas PSysMenu PSysDisp PSysBtn
  Trace PSysStep PSysRun PSysCC PSysSafe PSysLog PSysWin PLive PLive2 MFine SpecFine SpecFineLive PFine PFine2 PFine4 PFine5 PFine6 PFine7 PFine8 PFineT PFineT2 PFineT3 PFineT4.
Import ListNotations.
Open Scope Z_scope.
Ltac Zify.zify_post_hook ::= Z.div_mod_to_equations.

Section FLive3.
Variables (L : limits) (lo hi : Z) (C : conf).
Hypothesis HC : build_conf C.
Hypothesis HL : limits_ok L.
Let fs := fserved L lo hi C.
Let fw := fwd L lo hi C.
Variable adj0 : Z.
Hypothesis Hot : forall c v, lo <= c <= hi -> temp_of_code C adj0 c v -> 480 * 64 < v.
Let mm (w : watch) : Z := Z.min (v_steady w) (v_calm w).
Definition glow (y : sys) : Prop := hot y = true /\ 30720 < y_mt y.
Definition heat (y : sys) (w : watch) : Prop := exists c0 c1, m_chans (y_meas y) = [c0; c1] /\ t_emerg (y_ct y) = ch_timeout c1 /\
  (ch_running c1 = true -> ch_timeout c1 = false -> exists t0 a, 0 <= t0 <= 65535 /\ y_now y = u16 (t0 + a) /\ ch_timer c1 = u16 (t0 + 3000) /\
     0 <= a < 3000 + l_poll L + v_temp w /\ (glow y \/ (s_adj (x_cache (y_set y)) = adj0 -> mm w - slow_window L - slow_cycle L <= a))) /\
  (forall c, v_last w = Some c -> s_adj (x_cache (y_set y)) = adj0 -> v_temp w + slow_window L < mm w -> glow y \/ ch_running c1 = true).
Lemma fwd_calm y1 w1 e y' : 0 < v_calm (watch_step lo hi y1 w1 e y') -> t_enabled (y_ct y1) = true /\
  s_adj (x_cache (y_set y')) = s_adj (x_cache (y_set y1)) /\ v_calm (watch_step lo hi y1 w1 e y') = v_calm w1 + (match e with ETick => 1 | _ => 0 end).
Proof. apply calm_move. Qed.
Lemma fother_heat y e y' : freach C y -> fnext C y e y' -> is_power e = false -> ~ result y e 1 -> y_mt y' = y_mt y /\ hot y' = hot y /\ t_emerg (y_ct y') = t_emerg (y_ct y).
Proof.
  intros R N Pw X. pose proof (freach_s4 C y HC R) as S4. destruct (fnext_all relaxed C HC bok_relaxed y e y' S4 N) as (_ & Cm & _).
  assert (Hh : hot y' = hot y).
  { destruct (f_hot C y e y' HC R N Pw) as [(r & (Q1 & Q2 & Q3 & _) & _)|(_ & Q)]; [destruct X; repeat split; assumption|exact Q]. }
  destruct (pending y e) eqn:Pn.
  - destruct (pending_cases _ _ _ _ (s4_inv _ _ _ S4) Pn) as [Y|Y]; [|destruct (X Y)]. destruct (f_result C y e y' HC R Y N) as (Q1 & _ & Q2 & _). auto.
  - destruct (Cm Pw eq_refl) as (_ & Q1 & Q2 & _). auto.
Qed.
Lemma fheat y w : fs y w -> heat y w.
Proof.
  apply (fserved_each L lo hi C HC HL).
  - intros z R (x & k & a & p & -> & _). exists (mkChan 0 false false 0), (mkChan (if c_adj C then s_adj (x_cache x) else 0) false false 0).
    split; [reflexivity|]. split; [reflexivity|]. split; discriminate.
  - clear y w. intros y e y1 w1 y' R Sb D1 (c0 & c1 & Ech & Em & Ti & La) O D D'.
    pose proof (fserved_fprog L lo hi C HC HL _ _ D') as Pg'. pose proof (fserved_fprog L lo hi C HC HL _ _ D1) as Pg1.
    pose proof (fmoves L lo hi C HC y e y1 w1 y' D) as Mv. cbv zeta in Mv. pose proof (fwd_calm y1 w1 e y') as Ca. set (w' := watch_step lo hi y1 w1 e y') in *. clearbody w'.
    destruct (d_frame _ _ _ _ _ _ _ _ _ D) as (F1 & F2 & F3 & _ & F5 & F6). pose proof (d_next _ _ _ _ _ _ _ _ _ D) as N. pose proof (d_power _ _ _ _ _ _ _ _ _ D) as Pw.
    pose proof (fprog_temp L lo hi C HC HL _ _ Pg1) as Tb. pose proof (fp_temp _ _ _ _ _ _ Pg1) as (_ & Tp). pose proof (fk_pos _ _ _ _ (fp_core _ _ _ _ _ _ Pg1)) as (Ap & _).
    pose proof (fp_steady _ _ _ _ _ _ Pg1) as Sp. pose proof (fp_last _ _ _ _ _ _ Pg1) as La1. pose proof (fp_last _ _ _ _ _ _ Pg') as La'.
    assert (HLs := HL). destruct HLs as (L1 & L2 & _ & _ & L5). assert (Wp : 50 <= slow_window L /\ 55 <= slow_cycle L <= 2055) by (unfold slow_window, slow_cycle; lia).
    pose proof (freach_s4 C y HC R) as S4. assert (Hy1 : hot y1 = hot y) by (unfold hot; rewrite F2; reflexivity).
    destruct (fnext_all badj C HC bok_badj y e y' Sb N) as (_ & _ & Pd).
    destruct (result_dec y e 1) as [X|X].
    + assert (e = EMeasure) by apply X. subst e. assert (X1 := X). apply (fwd_result L lo hi C y EMeasure y1 w1 y' 1 D) in X1. destruct X1 as (_ & X1a & X1c).
      destruct Mv as [(_ & M1 & M2 & M3 & M4)|[((_ & _ & Z) & _)|[(Z & _)|(Z & _)]]]; [|destruct X as (_ & _ & X); congruence|discriminate Z|destruct (Z 1 X)].
      destruct (d_pk _ _ _ _ _ _ _ _ _ D) as [Z _ _|raw0 Z _ _ _ _|k0 k1 e1 e2 b _ _ Nn _ _ _ _ _ Ek Be1 Be2 Kch|_ NM _ _]; [discriminate Z|discriminate Z| |rewrite (NM eq_refl) in X1a; discriminate X1a].
      rewrite Ech in Ek. apply two_inj in Ek. destruct Ek as (<- & <-). rewrite X1c in Kch. cbn [Z.eqb] in Kch.
      destruct X as (_ & X2 & X3). destruct (Pd X2) as (q0 & q1 & raw & Er & _ & _ & _ & _ & _ & _ & _ & Ht & _).
      destruct (Ht X3) as (d1 & v & v' & p & n1 & n2 & n & t & Ech' & _ & Ck & Ef & Tv). rewrite (raw_mean _ _ _ _ Sb X2 Er) in Tv. clear Ht Pd.
      rewrite Ech' in Kch. cbn [map] in Kch. apply two_inj in Kch. destruct Kch as (_ & Kd).
      assert (Kf : ch_running d1 = negb b /\ (b = true -> ch_timeout d1 = false) /\
        (b = false -> ch_timer d1 = (if ch_running c1 then ch_timer c1 else u16 (u16 (y_now y1 - e1) + 3000)) /\
           ch_timeout d1 = ch_timeout c1 || timer_expired (u16 (y_now y1 - e2)) (ch_timer d1))).
      { clear - Kd. destruct d1 as [ad to ru ti], c1 as [ad1 to1 ru1 ti1]. unfold barec, recheck in Kd. cbn in Kd |- *. destruct b; injection Kd as -> -> ->; cbn; repeat split; try discriminate. }
      destruct Kf as (Kr & Kt & Kb). clear Kd. destruct Ck as (Cv & _ & Ck & Cp).
      change (mc_plaus_neg (meastemp_config (c_smd C))) with (-1280) in *. change (mc_plaus_pos (meastemp_config (c_smd C))) with 32000 in *.
      assert (Eb : b = (-1280 <=? v) && (v <=? 32000)).
      { rewrite Ck in Kr. destruct ((-1280 <=? v) && (v <=? 32000)); cbn in Kr; destruct b; cbn in Kr; congruence. }
      destruct Ef as (E1 & E2 & E3 & Ef & E4 & _).
      change (t_emerg (y_ct (redt (set_y_now y n) t))) with (t_emerg (y_ct y)) in Ef. change (t_enabled (y_ct (redt (set_y_now y n) t))) with (t_enabled (y_ct y)) in *.
      change (y_mt (redt (set_y_now y n) t)) with (y_mt y) in *. change (hot (redt (set_y_now y n) t)) with (hot y) in *. rewrite F1 in Em, Ca.
      clear Ck. exists q0, d1. split; [exact Ech'|]. unfold mm in *. rewrite M1, M2 in *. rewrite M4 in *. destruct b.
      * specialize (Kt eq_refl). rewrite Kt, <- Eb in Cp. subst p. cbn [negb] in Kr.
        split; [congruence|]. split; [congruence|]. intros c Ec. injection Ec as <-. intros Ad Ls. left. destruct (Ca ltac:(lia)) as (En & Ea & _).
        specialize (La' ltac:(lia)). rewrite <- F5, <- Ea, Ad in Tv. specialize (Hot _ _ La' Tv).
        assert (v' = v) by lia. subst v'. destruct (E1 En Ef) as (Q & _). unfold glow. rewrite Q, E4, E3. lia.
      * destruct (Kb eq_refl) as (Kb1 & Kb2). cbn [negb] in Kr. rewrite <- Eb in Cp. clear Kt.
        split; [|split].
        -- rewrite Ef. destruct (ch_timeout d1); subst p; [reflexivity|]. destruct (ch_timeout c1); [discriminate Kb2|exact Em].
        -- intros _ Nt. rewrite Nt in Kb2, Cp. subst p. symmetry in Kb2. apply orb_false_iff in Kb2. destruct Kb2 as (Kb2 & Kb3).
           pose proof (i_now _ _ _ (s4_inv _ _ _ (freach_s4 C y1 HC (fserved_reach L lo hi C HC HL y1 w1 D1)))) as In. unfold is_u16 in In.
           assert (Gl : glow y1 -> glow y').
           { unfold glow. rewrite Hy1, F3, E3. intros (G1 & G2). split; [|exact G2]. destruct (t_enabled (y_ct y)) eqn:En; [|rewrite E2 by auto; exact G1].
             assert (Et : t_emerg (y_ct y') = false) by congruence. destruct (E1 eq_refl Et) as (Q & _). rewrite Q, E4. lia. }
           assert (Cl : v_calm w' <= Z.max 0 (v_calm w1)) by (destruct (Z_lt_ge_dec 0 (v_calm w')) as [Lt|Ge]; [destruct (Ca Lt) as (_ & _ & Q); lia|lia]).
           destruct (ch_running c1) eqn:Ru.
           ++ destruct (Ti eq_refl Kb2) as (t0 & a & T1 & T2 & T3 & T4 & T5). exists t0, a. split; [exact T1|]. split; [congruence|]. split; [congruence|].
              assert (Ex : a < 3000 + l_poll L).
              { rewrite Kb1, T3, T2 in Kb3. replace (u16 (u16 (t0 + a) - e2)) with (u16 (t0 + (a - e2))) in Kb3 by (unfold u16; clear; lia).
                change (timer_expired (counter (t0 + (a - e2))) (counter (t0 + 3000)) = false) in Kb3. rewrite timer_expired_eq in Kb3.
                clear - Kb3 Be1 Be2 T4 Tb Wp L1 L2 L5. lia. }
              split; [lia|]. destruct T5 as [G|T5]; [left; exact (Gl G)|right]. intros Ad.
              destruct (Z_lt_ge_dec 0 (v_calm w')) as [Lt|Ge]; [|lia]. destruct (Ca Lt) as (_ & Ea & Ec). rewrite Ea in Ad. specialize (T5 Ad). lia.
           ++ exists (u16 (y_now y1 - e1)), e1. split; [unfold u16; clear; lia|]. split; [rewrite Nn; unfold u16; clear - In; lia|]. split; [exact Kb1|]. split; [lia|].
              destruct (Z_lt_ge_dec (slow_cycle L + slow_window L) (Z.min (v_steady w1) (v_calm w'))) as [Lt|Ge]; [|right; intros; lia].
              destruct (Ca ltac:(lia)) as (_ & Ea & Ec).
              destruct (v_last w1) as [c|]; [|lia]. destruct (Z.eq_dec (s_adj (x_cache (y_set y'))) adj0) as [Ad|Ad]; [|right; intros; contradiction].
              left. rewrite Ea in Ad. destruct (La c eq_refl Ad ltac:(lia)) as [G|G]; [exact (Gl G)|discriminate G].
        -- auto.
    + destruct (fother_heat y e y' R N Pw X) as (Hm & Hh & Em').
      assert (Ed : exists d0 d1, m_chans (y_meas y') = [d0; d1] /\ barec d1 = barec c1).
      { destruct (d_pk _ _ _ _ _ _ _ _ _ D) as [_ _ M|raw0 _ _ _ _ M|k0 k1 e1 e2 b Ee Av _ _ _ _ _ _ Ek _ _ Kch|_ _ _ M].
        - apply bare_fields in M. destruct M as (_ & _ & _ & _ & _ & _ & M). rewrite Ech in M. destruct (barec_two L lo hi C y' c0 c1 M) as (d0 & d1 & Q1 & _ & Q2). eauto.
        - rewrite Ech in M. destruct (barec_two L lo hi C y' c0 c1 M) as (d0 & d1 & Q1 & _ & Q2). eauto.
        - rewrite Ech in Ek. apply two_inj in Ek. destruct Ek as (<- & <-). destruct (m_chan (y_meas y1) =? 0) eqn:Hz.
          + destruct (m_chans (y_meas y')) as [|d0 [|d1 [|]]]; try discriminate Kch. apply (two_inj (barec d0) (barec d1)) in Kch. exists d0, d1. tauto.
          + exfalso. apply X. apply (fwd_result L lo hi C y e y1 w1 y' 1 D). unfold result. destruct (f_handover C y1 HC (fserved_reach L lo hi C HC HL y1 w1 D1)) as (_ & _ & Hc).
            split; [exact Ee|]. split; [exact Av|]. lia.
        - apply pj_same in M. destruct M as (_ & _ & _ & _ & _ & _ & _ & M). rewrite Ech in M. destruct (barec_two L lo hi C y' c0 c1 M) as (d0 & d1 & Q1 & _ & Q2). eauto. }
      destruct Ed as (d0 & d1 & Ech' & Bd1). apply barec_fields in Bd1. destruct Bd1 as (B1 & B2 & B3).
      assert (Mt : exists z, z = match e with ETick => 1 | _ => 0 end /\ y_now y' = u16 (y_now y1 + z) /\ v_last w' = v_last w1 /\ v_temp w' = v_temp w1 + z /\ (v_steady w' = v_steady w1 + z \/ v_steady w' = 0)).
      { pose proof (i_now _ _ _ (s4_inv _ _ _ (freach_s4 C y1 HC (fserved_reach L lo hi C HC HL y1 w1 D1)))) as In. unfold is_u16 in In.
        assert (N0 : y_now y1 = u16 (y_now y1 + 0)) by (unfold u16; lia).
        destruct (d_pk _ _ _ _ _ _ _ _ _ D) as [Ee N1 _|raw0 Ee _ N1 _ _|k0 k1 e1 e2 b Ee _ N1 _ _ _ _ _ _ _ _ _|Ne _ _ Pj];
          [exists 1|exists 0|exists 0|exists 0; apply pj_same in Pj; destruct Pj as (N1 & _)].
        all: destruct Mv as [(Z & _)|[((Z & _) & M1 & M2 & M3 & M4)|[(Z & M1 & M2 & M3 & M4)|(_ & Z & M1 & M2 & M3 & M4)]]]; try (destruct (X Z)); try congruence.
        all: split; [destruct e; congruence|]; split; [congruence|]; split; [exact M1|]; split; [lia|]; first [left; lia|destruct M4; [left; lia|right; assumption]]. }
      destruct Mt as (z & Ez & Nz & M1 & M2 & M4). exists d0, d1. split; [exact Ech'|]. rewrite B1, B2, B3, M1, M2. split; [congruence|].
      assert (Gl : glow y1 -> glow y') by (unfold glow; rewrite Hy1, F3, Hm, Hh; auto). rewrite <- Ez in Ca. assert (Hz : z = 0 \/ z = 1) by (destruct e; lia). clear Ez.
      unfold mm in *. split.
      * intros Q1 Q2. destruct (Ti Q1 Q2) as (t0 & a & T1 & T2 & T3 & T4 & T5). exists t0, (a + z). split; [exact T1|]. split; [rewrite Nz, T2; unfold u16; clear; lia|].
        split; [exact T3|]. split; [lia|]. destruct T5 as [G|T5]; [left; exact (Gl G)|right]. intros Ad.
        destruct (Z_lt_ge_dec 0 (v_calm w')) as [Lt|Ge]; [|lia]. destruct (Ca Lt) as (_ & Ea & Ec). rewrite Ea in Ad. specialize (T5 Ad). destruct M4; lia.
      * intros c Ec Ad Lt. destruct (Ca ltac:(lia)) as (_ & Ea & Ecl). rewrite Ea in Ad. destruct (La c Ec Ad) as [G|G]; [destruct M4; lia|left; exact (Gl G)|right; exact G].
Qed.
Lemma fheat_fault y w : fs y w -> s_adj (x_cache (y_set y)) = adj0 -> ffail_time L < mm w -> hot y = true \/ t_emerg (y_ct y) = true.
Proof.
  intros D Ad S. destruct (fheat y w D) as (c0 & c1 & _ & Em & Ti & La). rewrite Em. destruct (ch_timeout c1) eqn:To; [right; reflexivity|left].
  pose proof (fserved_fprog L lo hi C HC HL y w D) as Pg. pose proof (fprog_temp L lo hi C HC HL _ _ Pg) as Tb. unfold ffail_time in S.
  assert (HLs := HL). destruct HLs as (L1 & L2 & _). assert (Wp : 50 <= slow_window L /\ 55 <= slow_cycle L) by (unfold slow_window, slow_cycle; lia). unfold mm in *.
  destruct (fserved_last L lo hi C HC HL y w D ltac:(lia)) as (c & Ec & _). destruct (La c Ec Ad ltac:(lia)) as [(G & _)|Ru]; [exact G|].
  destruct (Ti Ru eq_refl) as (t0 & a & _ & _ & _ & T4 & [(G & _)|T5]); [exact G|]. specialize (T5 Ad). lia.
Qed.
Lemma fheat_failed y w : fs y w -> s_adj (x_cache (y_set y)) = adj0 -> hot y = true \/ mm w <= ffail_time L + 1 + v_failed w.
Proof.
  apply (fserved_each L lo hi C HC HL (fun y w => s_adj (x_cache (y_set y)) = adj0 -> hot y = true \/ mm w <= ffail_time L + 1 + v_failed w)).
  - intros z _ _ _. right. unfold mm. cbn [v_failed v_calm v_steady watch_zero]. destruct HL as (L1 & L2 & _). unfold ffail_time, slow_window, slow_cycle. lia.
  - clear y w. intros y e y1 w1 y' R _ D1 IH O D D' Ad.
    assert (Fp : 0 <= v_failed (watch_step lo hi y1 w1 e y')) by apply (fserved_failed L lo hi C HC HL _ _ D').
    assert (Ft : 3000 < ffail_time L) by (destruct HL as (L1 & L2 & _); unfold ffail_time, slow_window, slow_cycle; lia).
    pose proof (fmoves L lo hi C HC y e y1 w1 y' D) as Mv. cbv zeta in Mv. pose proof (failed_move lo hi y1 w1 e y') as Fm. pose proof (fwd_calm y1 w1 e y') as Ca. set (w' := watch_step lo hi y1 w1 e y') in *.
    destruct (d_frame _ _ _ _ _ _ _ _ _ D) as (F1 & F2 & _). pose proof (d_next _ _ _ _ _ _ _ _ _ D) as N. pose proof (d_power _ _ _ _ _ _ _ _ _ D) as Pw.
    pose proof (fheat_fault y' w' D' Ad) as Fl. pose proof (fheat_fault y1 w1 D1) as Fl1. clearbody w'.
    destruct (Z_le_gt_dec (mm w') (ffail_time L)) as [Le|Gt]; [right; lia|]. destruct (Fl ltac:(lia)) as [Q|T1]; [left; exact Q|]. unfold mm in *.
    destruct (Ca ltac:(lia)) as (_ & Ea & Ec). rewrite Ea in Ad. specialize (Fl1 Ad). specialize (IH Ad). rewrite Fm, T1, andb_true_r.
    assert (M4 : v_steady w' <= Z.max 0 (v_steady w1 + match e with ETick => 1 | _ => 0 end)).
    { destruct Mv as [((-> & _) & _ & _ & _ & M4)|[((-> & _) & _ & _ & _ & M4)|[(-> & _ & _ & _ & M4)|(_ & Ne & _ & _ & _ & [M4|M4])]]]; try lia. destruct e; lia. }
    assert (Hh : hot y1 = true -> hot y' = true).
    { intros H1. destruct (f_hot C y e y' HC R N Pw) as [(r & (_ & _ & _ & _ & Q & _) & _)|(_ & Q)]; [congruence|]. rewrite Q. unfold hot in *. rewrite <- F2. exact H1. }
    destruct IH as [IH|IH]; [left; exact (Hh IH)|].
    assert (Tk : match e with ETick => 1 | _ => 0 end = 0 \/ match e with ETick => 1 | _ => 0 end = 1) by (destruct e; lia).
    destruct (t_emerg (y_ct y1)) eqn:T0; cbn [andb]; [right; lia|].
    destruct (Z_le_gt_dec (Z.min (v_steady w1) (v_calm w1)) (ffail_time L)) as [Le|Gt1]; [right; lia|]. destruct (Fl1 ltac:(lia)) as [Q|Q]; [left; exact (Hh Q)|discriminate Q].
Qed.
Lemma fserved_overheat y w : fs y w -> s_adj (x_cache (y_set y)) = adj0 ->
  3001 + l_poll L + slow_window L + 3 * slow_cycle L < v_steady w -> 3001 + l_poll L + slow_window L + 3 * slow_cycle L < v_calm w ->
  pwm_off y \/ t_emerg (y_ct y) = true /\ p_setpoint (cc_pid (y_cc y)) = 0 /\ duty_at_most y 1 10.
Proof.
  intros D Ad S Ca. pose proof (fserved_reach L lo hi C HC HL y w D) as R.
  assert (Off : hot y = true -> pwm_off y).
  { intros Hh. apply (f_emerg_off C y HC R). intros Z. unfold hot in Hh. rewrite Z in Hh. discriminate. }
  destruct (fheat_failed y w D Ad) as [Hh|Hf]; [left; exact (Off Hh)|]. unfold mm in Hf.
  assert (HLs := HL). destruct HLs as (L1 & L2 & _).
  destruct (fheat_fault y w D Ad) as [Hh|Em]; [unfold mm, ffail_time, slow_window, slow_cycle in *; lia|left; exact (Off Hh)|right].
  split; [exact Em|]. split; [apply (f_link C y HC R); auto|]. destruct (fserved_failed L lo hi C HC HL y w D) as (_ & Fo & _).
  pose proof (fprog_curr L lo hi C HC HL y w (fserved_fprog L lo hi C HC HL y w D)) as Cb. unfold ffail_time in Hf. specialize (Fo ltac:(lia)). unfold duty_at_most. lia.
Qed.
End FLive3.
