(** * Interrupts inside the work functions: a cold iron is heated, the current controller *)
From Coq Require Import ZArith List Bool Lia ZifyBool.
From Verif Require Import Base PBase MConf MUtil MFixpt MScale MRing MFilter MTimer MPid MPwm MTempMap MCurr MSens
  SpecNum SpecPid SpecSmall PNum PSmall PScale PPid SpecCurr PCurr MSettings SpecSettings PSettings PSysSet
  MSseg MDisplay MText MState MTemp MMeas MMenu MMain SpecDisplay PDisplay SpecSys SpecRun SpecLive PSys PSysMeas PSysMenu PSysDisp PSysBtn
  Trace PSysStep PSysRun PSysCC PSysSafe PSysProp PSysLog PSysWin PLive PLive2 SpecControl PControl PMem PDemand SpecWarm PWarm PCool
  MFine SpecFine SpecFineLive PFine PFine2 PFine4 PFine5 PFine6 PFine7 PFine8 PFineT PFineT2 PFineT3 PFineT4 PFineT5 SpecFineWarm PFineW PFineW2 PFineD PFineC.
Import ListNotations.
Open Scope Z_scope.
Ltac Zify.zify_post_hook ::= Z.div_mod_to_equations.

Section FHeat.
Variables (L : limits) (lo hi chi : Z) (C : conf) (W : Z).
Hypothesis HC : build_conf C.
Hypothesis HL : limits_ok L.
Hypothesis HX : 0 <= chi <= 203.
Let fs := fserved L lo hi C.
Let fw := fwd L lo hi C.
Definition cbuf (y : sys) : option Z := if u_init (y_mc y) then Some (u_filter (y_mc y)) else None.
Definition csteady (y : sys) : Prop :=
  (m_chan (y_meas y) = 0 -> 0 <= m_sum (y_meas y) <= chi * m_count (y_meas y)) /\
  match cbuf y with None => True | Some b => 0 <= b <= 16 * chi + 15 end /\
  Z.testbit (cc_emerg (y_cc y)) 0 = false /\ tame (src_of (cc_rstate (y_cc y))) (cc_model (y_cc y)) (cc_prev_y (y_cc y)).
Lemma flags_range y : freach C y -> 0 <= cc_emerg (y_cc y) <= 3.
Proof. intros R. destruct (i_cc _ _ _ (s4_inv _ _ _ (freach_s4 C y HC R))) as (_ & _ & F & _). exact F. Qed.

(** A result of the current channel (see PWarm.curr_result) *)
Lemma fcurr_result y y' : freach C y -> csteady y -> result y EMeasure 0 -> fnext C y EMeasure y' ->
  csteady y' /\ (hot y = false -> p_setpoint (cc_pid (y_cc y)) = 3200 -> cc_emerg (y_cc y') = 0 /\ cc_ocr (y_cc y') <= 4915).
Proof.
  intros R (S1 & Bf & S3 & S4') X N. pose proof X as (_ & X2 & X3). pose proof (freach_s4 C y HC R) as S4. pose proof (freach_step C _ _ _ R N) as R'.
  destruct (f_handover C y HC R) as (_ & Hn & _). specialize (Hn X2). specialize (S1 X3). pose proof (mean_chi chi y Hn S1) as Bm.
  destruct (fnext_all relaxed C HC bok_relaxed y _ y' S4 N) as (_ & _ & Pd). destruct (Pd X2) as (q0 & q1 & raw & Er & _ & _ & _ & Mc & _ & _ & _ & _ & Hc).
  destruct (Hc X3) as (c0' & v & v' & p & n1 & n2 & n & t & _ & Ck & Ef & Tv & Uf & Ui). clear Hc Pd.
  assert (Br : 0 <= raw <= 1023).
  { destruct S4 as [I _ (_ & H) _]. destruct (average_ok C (y_meas y) _ (i_meas _ _ _ I) (H X2)) as (r & Er2 & _ & Br). rewrite Er in Er2. apply Some_inj in Er2. subst r. exact Br. }
  assert (Fo : match cbuf y with None => u_init (y_mc y) = false | Some b => u_init (y_mc y) = true /\ u_filter (y_mc y) = b /\ 0 <= b <= 16368 end).
  { unfold cbuf. destruct (i_mc _ _ _ (s4_inv _ _ _ S4)) as (_ & Bm0). destruct (u_init (y_mc y)); auto. }
  destruct (PSysLog.lp_step (y_mc y) raw (cbuf y) Br Fo y eq_refl) as (Q1 & Q2 & _). rewrite Q1 in Tv. rewrite Q2 in Uf.
  rewrite (raw_mean _ _ _ _ S4 X2 Er) in *. destruct (lp_range chi (cbuf y) (mean_code y) Bm Bf) as (Ba & Bc).
  assert (Fb : cbuf y' = Some (lp_acc (cbuf y) (mean_code y))) by (unfold cbuf at 1; rewrite Ui, Uf; reflexivity).
  destruct (curr_code_exists (lp_code (cbuf y) (mean_code y)) ltac:(lia)) as (v0 & Tv0 & Bv). pose proof (curr_code_unique _ _ _ Tv Tv0) as <-. clear Tv0.
  destruct Ck as (Ev & _ & Ec & Ep). change (mc_plaus_neg meascurr_config) with 0 in *. change (mc_plaus_pos meascurr_config) with 3200 in *.
  replace ((0 <=? v) && (v <=? 3200)) with true in * by lia. subst c0'. cbn [ch_timeout] in Ep. subst p. assert (Hv : v' = v) by lia. clear Ev. subst v'.
  destruct Ef as (_ & _ & _ & Hh & Es & Ee & d & Em & Ef & _).
  set (c := y_cc (retimer (set_y_now y n) t)) in *. assert (Ic : cc_inv c /\ cc_enabled c = true).
  { destruct (i_cc _ _ _ (s4_inv _ _ _ S4)) as (I0 & E0 & _). split; [exact I0|exact E0]. }
  destruct Ic as (Ic & En). change (hot y' = hot y) in Hh.
  destruct (emerg_keeps _ _ _ Em) as (G1 & G2 & G3 & G4 & G5 & G6 & G7). destruct (set_emerg_ok c (cc_emerg (y_cc y')) Ic) as (d2 & Ed2 & Id & Md & _). rewrite Em in Ed2. apply Some_inj in Ed2. subst d2.
  assert (F0 : Z.testbit (cc_emerg (y_cc y')) 0 = false).
  { rewrite Ee. rewrite Z.land_spec. change (Z.testbit (u8 (Z.lnot EMERG_UNPLAUS_FEEDBACK)) 0) with false. apply andb_false_r. }
  assert (Bp : 0 <= cc_prev_y c <= 3200) by apply Ic.
  assert (Bs : 0 <= p_setpoint (cc_pid c) <= 3200) by (destruct Ic as ((_ & _ & _ & _ & _ & W0 & _) & _); exact W0).
  assert (Bp' : 0 <= cc_prev_y (y_cc y')) by (pose proof (i_cc _ _ _ (s4_inv _ _ _ (freach_s4 C y' HC R'))) as ((_ & _ & B0 & _) & _); apply B0).
  assert (Run : cc_emerg (y_cc y') = 0 -> tame (src_of (cc_rstate (y_cc y'))) (cc_model (y_cc y')) (cc_prev_y (y_cc y')) /\
     (p_setpoint (cc_pid c) = 3200 -> cc_ocr (y_cc y') <= 4915)).
  { intros Z0. unfold contrcurr_set_feedback in Ef. set (d1 := if negb (v =? cc_feedback d) then cc_set_feedback d v else d) in *.
    assert (K : cc_pid d1 = cc_pid d /\ cc_rstate d1 = cc_rstate d /\ cc_model d1 = cc_model d /\ cc_prev_y d1 = cc_prev_y d /\ cc_timer d1 = cc_timer d /\
      cc_restricted d1 = cc_restricted d /\ cc_enabled d1 = cc_enabled d /\ cc_emerg d1 = cc_emerg d /\ cc_ocr d1 = cc_ocr d).
    { subst d1. destruct (negb _); cbn; auto 10. }
    destruct K as (K1 & K2 & K3 & K4 & K5 & K6 & K7 & K8 & K9).
    destruct (run_source (y_now (retimer (set_y_now y n) t)) d1 v (y_cc y')) as (used & dt & out & T1 & T2 & _ & T4 & T5 & (_ & T6)); [unfold cc_inv in *; rewrite K1, K2, K3, K4, K9; exact Id|lia|congruence|congruence|exact Ef|].
    rewrite K1, K2, K3, K4, K6, G1, G2, G3, G4, G6 in *.
    destruct (tame_step _ _ _ _ _ _ _ _ _ _ _ _ _ (cc_prev_y (y_cc y')) S4' Bp Bv Bs T1 T4) as (_ & Tm & Bo).
    { split; [exact Bp'|]. rewrite T5. destruct (cc_restricted c); lia. }
    rewrite T2. split; [exact Tm|]. intros Sp. specialize (Bo Sp). assert (1280 <= cc_prev_y (y_cc y')) by (rewrite T5; destruct (cc_restricted c); lia). lia. }
  split.
  - split; [rewrite Mc, X3; discriminate|]. split; [rewrite Fb; exact Ba|]. split; [exact F0|].
    destruct (Z.eq_dec (cc_emerg (y_cc y')) 0) as [Z0|Z0]; [apply Run; exact Z0|].
    destruct (set_feedback_ok (y_now (retimer (set_y_now y n) t)) d v Id ltac:(lia)) as (d3 & E3 & _ & _ & _ & _ & _ & _ & F1 & _). rewrite Ef in E3. apply Some_inj in E3. subst d3.
    rewrite F1 by (right; rewrite Md; exact Z0). cbn [cc_rstate cc_model cc_prev_y cc_set_feedback]. rewrite G2, G3, G4. exact S4'.
  - intros Hc Sp. assert (Z0 : cc_emerg (y_cc y') = 0) by (apply no_flags; [apply flags_range; exact R'|exact F0|fold (hot y'); congruence]).
    split; [exact Z0|]. apply Run; [exact Z0|exact Sp].
Qed.
Lemma csteady_fresh y : freach C y -> fresh C y -> csteady y.
Proof.
  intros R F. destruct (fresh_window C y F) as (_ & _ & _ & Ac & _). destruct (fresh_cc C y F) as (_ & _ & Ae & _).
  assert (K : u_init (y_mc y) = false /\ cc_rstate (y_cc y) = REnabled) by (destruct F as (x & k & a & p & -> & _); unfold booted; cbn [y_cc y_mc]; vm_compute; auto).
  destruct K as (K1 & K2). unfold csteady, cbuf. rewrite Ac, Ae, K1, K2. split; [discriminate|]. split; [exact Logic.I|]. split; [reflexivity|exact Logic.I].
Qed.
Lemma csteady_step : fstepped L lo hi chi C W (fun y _ _ => csteady y).
Proof.
    intros y w n e o y1 w1 n1 y' R D Q D1 (S1 & Bf & S3 & S4') Du Tl O E Hx Fw D'.
    destruct (d_frame _ _ _ _ _ _ _ _ _ Fw) as (F1 & F2 & _ & F4 & F5 & _). pose proof (d_next _ _ _ _ _ _ _ _ _ Fw) as N. pose proof (d_power _ _ _ _ _ _ _ _ _ Fw) as Pw.
    destruct (result_dec y e 0) as [X|X].
    + assert (e = EMeasure) by apply X. subst e. apply (fcurr_result y y' R Q X N).
    + pose proof (freach_s4 C y HC R) as S4. destruct (fnext_all relaxed C HC bok_relaxed y e y' S4 N) as (_ & Cm & Pd).
      assert (Sm : y_mc y' = y_mc y /\ Z.testbit (cc_emerg (y_cc y')) 0 = Z.testbit (cc_emerg (y_cc y)) 0 /\ ck (y_cc y) (y_cc y')).
      { destruct (pending y e) eqn:Pn.
        - destruct (pending_cases _ _ _ _ (s4_inv _ _ _ S4) Pn) as [Y|(_ & Y2 & Y3)]; [destruct (X Y)|].
          destruct (Pd eq_refl) as (q0 & q1 & raw & _ & _ & _ & _ & _ & _ & _ & _ & Ht & _).
          destruct (Ht Y3) as (d1 & v & v' & p & n3 & n2 & n0 & t & _ & Em' & _ & (_ & _ & _ & _ & _ & _ & _ & (ops & K1 & _ & K2 & K3) & _) & _).
          split; [exact Em'|]. split; [exact K3|]. exact (quiet_keeps ops _ _ _ _ K1 K2).
        - destruct (Cm Pw eq_refl) as (Q1 & _ & _ & _ & [Q2|Q2]); (split; [exact Q1|]); rewrite Q2; (split; [reflexivity|repeat split]). }
      destruct Sm as (Smc & Sem & (_ & C2 & C3 & C4)).
      unfold csteady, cbuf. rewrite Smc, Sem, C2, C3, C4, <- F2, <- F4. split; [|split; [exact Bf|split; assumption]].
      destruct (d_pk _ _ _ _ _ _ _ _ _ Fw) as [Ee _ M|raw0 Ee Ea _ (A1 & A2 & _ & A4 & _) _|k0 k1 e1 e2 b Ee Av _ _ Kc Ks _ _ _ _ _ _|Ne NM NA Pj].
      * apply bare_fields in M. destruct M as (A1 & A2 & A3 & _). rewrite A1, A2, A3. exact S1.
      * subst e. rewrite A1, A2, A4. intros Z. specialize (S1 Z). specialize (Hx raw0 eq_refl Z). cbn [on_time] in O. lia.
      * rewrite Kc, Ks. lia.
      * apply pj_same in Pj. destruct Pj as (_ & A1 & A2 & A3 & _). rewrite A1, A2, A3. exact S1.
Qed.

(** The PWM (see PWarm.want_pwm) *)
Variables (vlo vhi : Z).
Hypothesis HV : -20 * 64 <= vlo <= vhi /\ vhi <= 500 * 64 /\ 187 * 64 <= W - vhi /\ W - vlo < 2 * (W - vhi).
Let rg (y : sys) : Prop := forall c v, lo <= c <= hi -> temp_of_code C (s_adj (x_cache (y_set y))) c v -> vlo <= v <= vhi.
Definition cpwm (y : sys) (w : watch) (n : Z) : Prop :=
  v_curr w + 2 * slow_cycle L < n -> v_curr w + 2 * slow_cycle L < v_calm w -> v_curr w + 2 * slow_cycle L + slow_window L < v_steady w -> rg y ->
     cc_emerg (y_cc y) = 0 /\ cc_ocr (y_cc y) <= 4915.
Lemma cpwm_all y w n : fwanting L lo hi chi C W y w n -> csteady y /\ cgood L lo hi C W vlo vhi y w n /\ cpwm y w n.
Proof.
  revert y w n. assert (Sp : 50 <= slow_window L /\ 55 <= slow_cycle L <= 2055) by (destruct HL as (L1 & L2 & _ & _ & L5); unfold slow_window, slow_cycle; lia).
  apply (fwanting_each L lo hi chi C W HC HL (fun y w n => csteady y /\ cgood L lo hi C W vlo vhi y w n /\ cpwm y w n)).
  - intros y R Fr. split; [exact (csteady_fresh y R Fr)|]. split; [exact (cgood_fresh L lo hi C W HL vlo vhi y R Fr)|].
    unfold cpwm. cbn [v_curr watch_zero]. lia.
  - intros y w n e o y1 w1 n1 y' R D (A1 & A2 & A3) D1 (B1 & B2 & B3) Du Tl O E Hx Fw D'.
    pose proof (csteady_step y w n e o y1 w1 n1 y' R D A1 D1 B1 Du Tl O E Hx Fw D') as St'. cbv beta in St'.
    pose proof (cgood_step L lo hi chi C W HC HL vlo vhi HV y w n e o y1 w1 n1 y' R D A2 D1 B2 Du Tl O E Hx Fw D') as Gd'.
    split; [exact St'|]. split; [exact Gd'|]. pose proof (freach_step C _ _ _ R (d_next _ _ _ _ _ _ _ _ _ Fw)) as R'.
    pose proof (fserved_fprog L lo hi C HC HL _ _ D') as Pg'. pose proof (fserved_fprog L lo hi C HC HL _ _ D1) as Pg1.
    pose proof (fprog_temp L lo hi C HC HL _ _ Pg') as Tb'. pose proof (fprog_temp L lo hi C HC HL _ _ Pg1) as Tb.
    pose proof (fp_curr _ _ _ _ _ _ Pg') as Cp'. pose proof (fp_curr _ _ _ _ _ _ Pg1) as Cp1. pose proof (fp_steady _ _ _ _ _ _ Pg1) as Ss.
    pose proof (fmoves L lo hi C HC y e y1 w1 y' Fw) as Mv. cbv zeta in Mv. pose proof (calm_move lo hi y1 w1 e y') as Cm.
    assert (Hn : 0 < eager_step C W y1 n1 e y' -> eager_step C W y1 n1 e y' = n1 + match e with ETick => 1 | _ => 0 end).
    { unfold eager_step. destruct (eager C W y1); [|cbn; lia]. destruct (eager C W y'); cbn [andb]; [auto|lia]. }
    destruct (d_frame _ _ _ _ _ _ _ _ _ Fw) as (F1 & F2 & _ & _ & F5 & _). pose proof (d_next _ _ _ _ _ _ _ _ _ Fw) as N. pose proof (d_power _ _ _ _ _ _ _ _ _ Fw) as Pw.
    destruct B2 as (_ & _ & _ & G1). destruct Gd' as (_ & _ & _ & G2).
    set (w' := watch_step lo hi y1 w1 e y') in *. clearbody w'. set (n' := eager_step C W y1 n1 e y') in *. clearbody n'.
    intros Q1 Q2 Q3 Rg. specialize (Hn ltac:(lia)). destruct (Cm ltac:(lia)) as (On & Ea & Ec).
    assert (Rg1 : rg y1) by (intros c x Bc Tx; apply (Rg c x Bc); rewrite Ea; exact Tx).
    destruct (result_dec y e 0) as [X|X].
    + assert (e = EMeasure) by apply X. subst e. destruct (fcurr_result y y' R A1 X N) as (_ & K).
      destruct Mv as [((_ & _ & X0) & _)|[(_ & _ & M2 & M3 & M4)|[(Q & _)|(Q & _)]]]; [destruct X as (_ & _ & X); congruence| |discriminate Q|destruct (Q 0 X)].
      destruct G1 as (W1 & W2); [lia|lia|lia|exact Rg1|]. unfold hot in W2. rewrite F2 in W1, W2. apply K; assumption.
    + destruct (G2 ltac:(lia) ltac:(lia) ltac:(lia) Rg) as (_ & W2). destruct St' as (_ & _ & Z0 & _).
      assert (Ze : cc_emerg (y_cc y') = 0) by (apply no_flags; [apply flags_range; exact R'|exact Z0|exact W2]). split; [exact Ze|].
      rewrite (focr_kept C y e o y' HC R E N Pw X Ze), <- F2. apply B3; [| | |exact Rg1];
        (destruct Mv as [((-> & _) & _ & _ & M3 & M4)|[(Q & _)|[(-> & _ & _ & M3 & M4)|(_ & Ne & _ & _ & M3 & M4)]]]; [lia|destruct (X Q)|lia|destruct e; try congruence; lia]).
Qed.
Lemma fheats y w n : fwanting L lo hi chi C W y w n -> rg y ->
  3 * slow_cycle L < n -> 3 * slow_cycle L < v_calm w -> 3 * slow_cycle L + slow_window L < v_steady w -> cc_emerg (y_cc y) = 0 /\ cc_ocr (y_cc y) <= 4915.
Proof.
  intros D Rg. destruct (cpwm_all y w n D) as (_ & _ & G). pose proof (fserved_fprog L lo hi C HC HL y w (fwanting_fserved L lo hi chi C W y w n D)) as Pg.
  pose proof (fprog_curr L lo hi C HC HL _ _ Pg) as Tb. intros Q1 Q2 Q3. apply G; try assumption; lia.
Qed.
End FHeat.
