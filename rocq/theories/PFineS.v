(** * Interrupts inside the work functions: the reaction to a failing current sensor *)
From Coq Require Import ZArith List Bool Lia ZifyBool.
From Verif Require Import Base PBase MConf MUtil MFixpt MScale MRing MFilter MTimer MPid MPwm MTempMap MCurr MSens
  SpecNum SpecPid SpecSmall PNum PSmall PScale PPid SpecCurr PCurr MSettings SpecSettings PSettings PSysSet
  MSseg MDisplay MText MState MTemp MMeas MMenu MMain SpecDisplay PDisplay SpecSys SpecRun SpecLive PSys PSysMeas PSysMenu PSysDisp PSysBtn
  Trace PSysStep PSysRun PSysCC PSysSafe PSysLog PSysWin PLive PLive2 MFine SpecFine SpecFineLive PFine PFine2 PFine4 PFine5 PFine6 PFine7 PFine8 PFineT PFineT2 PFineT3
  PFineT4 SpecSense PSense SpecFineSense.
Import ListNotations.
Open Scope Z_scope.
Ltac Zify.zify_post_hook ::= Z.div_mod_to_equations.

Section FSense.
Variables (L : limits) (lo hi : Z) (C : conf).
Hypothesis HC : build_conf C.
Hypothesis HL : limits_ok L.
Hypothesis Hr : 0 <= lo /\ lo <= hi <= 1023.
Let fs := fserved L 0 1023 C.
Let fw := fwd L 0 1023 C.

Lemma spath_path y w s l y1 w1 s1 : spath L lo hi C y w s l y1 w1 s1 -> path L 0 1023 C y w l y1 w1.
Proof. intros D. induction D; econstructor; eassumption. Qed.
Lemma fsensed_fserved y w s : fsensed L lo hi C y w s -> fs y w.
Proof.
  intros D. induction D as [pinb y Hp E|y v pinb y' R N Ad|y w s e o y1 w1 s1 y' D IH Pa O E].
  - eapply fsrv_boot; eassumption.
  - eapply fsrv_power; eassumption.
  - eapply fsrv_step; [exact IH|exact (spath_path _ _ _ _ _ _ _ Pa)|exact O|exact E].
Qed.

(** Induction over single events, the interrupts inside being events of their own *)
Lemma fsensed_each (Q : sys -> watch -> Z -> Prop) :
  (forall y, freach C y -> fresh C y -> Q y watch_zero 0) ->
  (forall y e y1 w1 s1 y', freach C y -> sinv4 badj C y -> fs y1 w1 -> Q y1 w1 s1 -> on_time L C y1 w1 e -> fw y e y1 w1 y' ->
     fs y' (watch_step 0 1023 y1 w1 e y') -> Q y' (watch_step 0 1023 y1 w1 e y') (sense_step lo hi y1 s1 e)) ->
  forall y w s, fsensed L lo hi C y w s -> Q y w s.
Proof.
  intros Q0 Qs y w s D. induction D as [pinb y Hp E|y v pinb y' R N Ad|y w s e o y1 w1 s1 y' D IH Pa O E].
  - apply Q0; [econstructor; eassumption|eapply boot_fresh; eassumption].
  - apply Q0; [eapply freach_step; eassumption|eapply fpower_fresh; eassumption].
  - pose proof (fsensed_fserved _ _ _ D) as D0. pose proof (spath_path _ _ _ _ _ _ _ Pa) as Pp.
    assert (D' : fs y' (watch_step 0 1023 y1 w1 e y')) by (eapply fsrv_step; eassumption).
    assert (D1 : fs y1 w1) by (exact (path_fserved L 0 1023 C y w _ y1 w1 D0 Pp)).
    assert (Q1 : Q y1 w1 s1).
    { clear E O D' D1 Pp D. remember (map irq_event (concat o)) as el eqn:El. generalize dependent (concat o). clear o.
      induction Pa as [y w s|y w s e0 el y1 y2 w2 s2 O E P IHP]; intros l El; [exact IH|].
      destruct l as [|i l]; [discriminate El|]. cbn [map] in El. injection El as -> ->.
      assert (Ew : fwork C y (irq_event i) [] = Some (y1, [])) by (destruct i; cbn [irq_event fwork]; unfold lift; cbn [irq_event] in E; rewrite E; reflexivity).
      assert (Dn : fs y1 (watch_step 0 1023 y w (irq_event i) y1)).
      { eapply (fsrv_step L 0 1023 C y w (irq_event i) [] y w y1); [exact D0|constructor|exact O|exact Ew]. }
      apply IHP with (l := l); [|exact Dn|reflexivity].
      eapply Qs; [|eapply (fserved_s4 L 0 1023 C HC HL); exact D0|exact D0|exact IH|exact O| |exact Dn].
      - exact (fk_reach _ _ _ _ (fp_core _ _ _ _ _ _ (fserved_fprog L 0 1023 C HC HL y w D0))).
      - apply (fwd_ok L 0 1023 C HC HL y w (irq_event i) [] y w y1); [apply fserved_fprog; assumption|constructor|exact O|exact Ew]. }
    eapply Qs; [|eapply (fserved_s4 L 0 1023 C HC HL); exact D0|exact D1|exact Q1|exact O| |exact D'].
    + exact (fk_reach _ _ _ _ (fp_core _ _ _ _ _ _ (fserved_fprog L 0 1023 C HC HL y w D0))).
    + apply (fwd_ok L 0 1023 C HC HL y w e o y1 w1 y'); [apply fserved_fprog; assumption|assumption..].
Qed.

(** Age of the window in progress *)
Lemma age_step y e y1 w1 y' : fw y e y1 w1 y' -> let w' := watch_step 0 1023 y1 w1 e y' in
  (exists c, result y e c) /\ v_age w' = 0 \/ (forall c, ~ result y e c) /\ v_age w' = v_age w1 + (if match e with ETick => true | _ => false end then 1 else 0).
Proof.
  intros D. cbv zeta. pose proof (d_pk _ _ _ _ _ _ _ _ _ D) as Kd.
  change (watch_step 0 1023 y1 w1 e y') with (watch_state y1 y' (watch_ev 0 1023 y1 w1 e)). cbn [watch_state v_age].
  destruct Kd as [-> N M|raw -> Ea N _ _|c0 c1 e1 e2 b -> Av N _ _ _ _ _ _ _ _ _|NT NM NA Pj]; cbn [watch_ev].
  - right. split; [intros c (Q & _); discriminate Q|]. reflexivity.
  - right. split; [intros c (Q & _); discriminate Q|]. unfold watch_adc. rewrite Ea. cbn [v_age]. lia.
  - left. split; [exists (m_chan (y_meas y1)); apply (fwd_result L 0 1023 C y EMeasure y1 w1 y' _ D); repeat split; assumption|].
    unfold watch_poll. rewrite Av. destruct (_ =? 1); reflexivity.
  - right. split; [intros c Q; apply (fwd_result L 0 1023 C y e y1 w1 y' c D) in Q; destruct Q as (Q1 & Q2 & _); rewrite (NM Q1) in Q2; discriminate Q2|].
    assert (W : v_age (watch_ev 0 1023 y1 w1 e) = v_age w1).
    { destruct e; cbn [watch_ev]; try reflexivity; [congruence| |].
      - unfold watch_adc. rewrite (NA raw eq_refl). reflexivity.
      - unfold watch_poll. rewrite (NM eq_refl). reflexivity. }
    change (match e with ETick => watch_tick w1 | EAdc raw => watch_adc 0 1023 y1 w1 raw | EMeasure => watch_poll y1 w1 | _ => w1 end) with (watch_ev 0 1023 y1 w1 e).
    rewrite W. destruct e; try lia. congruence.
Qed.

(** ** The filter *)
Definition fbuf (y : sys) : option Z := if u_init (y_mc y) then Some (u_filter (y_mc y)) else None.
Definition fbuf_ok (y : sys) : Prop := match fbuf y with None => True | Some b => 0 <= b <= 16368 end.
Definition filt (y : sys) (w : watch) (s : Z) : Prop :=
  0 <= s /\ fbuf_ok y /\
  (m_chan (y_meas y) = 0 -> v_age w < s -> lo * m_count (y_meas y) <= m_sum (y_meas y) <= hi * m_count (y_meas y)) /\
  forall n, v_curr w + settle_ms L n < s -> held lo hi (fbuf y) (S n).
Lemma fbuf_mc y y' : y_mc y' = y_mc y -> fbuf y' = fbuf y.
Proof. intros E. unfold fbuf. rewrite E. reflexivity. Qed.
Lemma fbuf_lp y : fbuf_ok y -> match fbuf y with None => u_init (y_mc y) = false | Some b => u_init (y_mc y) = true /\ u_filter (y_mc y) = b /\ 0 <= b <= 16368 end.
Proof. unfold fbuf_ok, fbuf. destruct (u_init (y_mc y)); auto. Qed.
(** The filter after a result of the current channel *)
Lemma filt_result y w s : filt y w s -> m_chan (y_meas y) = 0 -> 0 < m_count (y_meas y) -> v_age w <= slow_window L -> 0 <= v_curr w <= slow_cycle L ->
  forall n, settle_ms L n < s -> held lo hi (Some (lp_acc (fbuf y) (mean_code y))) (S n) /\ shown_min lo (S n) <= lp_code (fbuf y) (mean_code y) <= shown_max hi (S n).
Proof.
  intros (S0 & Fo & Hw & Hf) Hc Hn Ks Cb n Q.
  assert (Bm : lo <= mean_code y <= hi).
  { unfold mean_code. apply (mean_between L lo hi); [exact Hn|]. apply Hw; [exact Hc|]. unfold settle_ms in Q.
    destruct (slow_pos L HL) as (_ & G). assert (0 <= Z.of_nat n * slow_cycle L) by (apply Z.mul_nonneg_nonneg; lia). lia. }
  apply held_next; [exact Hr| |exact Bm]. unfold fbuf_ok in Fo. destruct n as [|n].
  - destruct (fbuf y) as [b|]; [|reflexivity]. cbn [settled]. lia.
  - rewrite settle_next in Q. specialize (Hf n ltac:(lia)). destruct (fbuf y); [exact Hf|destruct Hf].
Qed.

(** ** The check *)
Definition bad_curr (n : nat) : Prop := forall c v, shown_min lo (S n) <= c <= shown_max hi (S n) -> curr_of_code c v -> v < 0 \/ 5 * 640 < v.
Definition good_curr (n : nat) : Prop := forall c v, shown_min lo (S n) <= c <= shown_max hi (S n) -> curr_of_code c v -> 0 <= v <= 5 * 640.
Definition csens (y : sys) (w : watch) (s : Z) : Prop := exists c0 c1, m_chans (y_meas y) = [c0; c1] /\ Z.testbit (cc_emerg (y_cc y)) 0 = ch_timeout c0 /\
  (ch_timeout c0 = true -> ch_running c0 = true) /\
  (ch_running c0 = true -> ch_timeout c0 = false -> exists t0 a, 0 <= t0 <= 65535 /\ y_now y = u16 (t0 + a) /\ ch_timer c0 = u16 (t0 + 3000) /\
     0 <= a < 3000 + l_poll L + v_curr w /\ (forall n, bad_curr n -> s - settle_ms L n - slow_cycle L <= a)) /\
  (forall n, v_curr w + settle_ms L n < s -> (bad_curr n -> ch_running c0 = true) /\ (good_curr n -> ch_running c0 = false)).
Lemma fcurr y w s : fsensed L lo hi C y w s -> filt y w s /\ csens y w s.
Proof.
  revert y w s. apply (fsensed_each (fun y w s => filt y w s /\ csens y w s)).
  - intros y R Fr. destruct (fresh_flags C y Fr) as (A1 & _ & A2 & A5 & c0 & c1 & A3 & A4 & _). injection A4 as F1 F2 F3. cbn [v_curr v_age watch_zero].
    assert (Sp : forall n, 50 <= settle_ms L n) by (intros n; apply settle_pos; exact HL). split.
    + split; [lia|]. unfold fbuf_ok, fbuf. rewrite A5. split; [exact Logic.I|]. split; [intros _ Q; cbn in Q; lia|]. intros n Q. specialize (Sp n). cbn in Q. lia.
    + exists c0, c1. split; [exact A3|]. rewrite A2, F1, F2. split; [reflexivity|]. split; [discriminate|]. split; [discriminate|]. intros n Q. specialize (Sp n). cbn in Q. lia.
  - intros y e y1 w1 s y' R Sb D1 (Fi & c0 & c1 & Ech & Em & Tr & Ti & La) O D D'.
    pose proof (fserved_fprog L 0 1023 C HC HL _ _ D') as Pg'. pose proof (fserved_fprog L 0 1023 C HC HL _ _ D1) as Pg1.
    pose proof (fmoves L 0 1023 C HC y e y1 w1 y' D) as Mv. cbv zeta in Mv. pose proof (age_step y e y1 w1 y' D) as Ag. cbv zeta in Ag. set (w' := watch_step 0 1023 y1 w1 e y') in *. clearbody w'.
    destruct (d_frame _ _ _ _ _ _ _ _ _ D) as (F1 & F2 & _ & F4 & F5 & F6). pose proof (d_next _ _ _ _ _ _ _ _ _ D) as N. pose proof (d_power _ _ _ _ _ _ _ _ _ D) as Pw.
    pose proof (fprog_curr L 0 1023 C HC HL _ _ Pg1) as Cb. pose proof (fp_curr _ _ _ _ _ _ Pg1) as Cp.
    pose proof (fk_pos _ _ _ _ (fp_core _ _ _ _ _ _ Pg1)) as (Ap & _).
    assert (HLs := HL). destruct HLs as (L1 & L2 & _ & _ & L5). assert (Wp : 50 <= slow_window L /\ 55 <= slow_cycle L <= 2055) by (unfold slow_window, slow_cycle; lia).
    assert (Sp : forall n, 50 <= settle_ms L n) by (intros n; apply settle_pos; exact HL).
    pose proof (freach_s4 C y HC R) as S4.
    destruct (fnext_all badj C HC bok_badj y e y' Sb N) as (_ & Cm & Pd).
    destruct (result_dec y e 0) as [X|X].
    + assert (e = EMeasure) by apply X. subst e. assert (X1 := X). apply (fwd_result L 0 1023 C y EMeasure y1 w1 y' 0 D) in X1. destruct X1 as (_ & X1a & X1c).
      destruct Mv as [((_ & _ & Z) & _)|[(_ & _ & _ & M3 & _)|[(Z & _)|(Z & _)]]]; [destruct X as (_ & _ & X); congruence| |discriminate Z|destruct (Z 0 X)].
      destruct (d_pk _ _ _ _ _ _ _ _ _ D) as [Z _ _|raw0 Z _ _ _ _|k0 k1 e1 e2 b _ _ Nn Nc _ _ _ _ Ek Be1 Be2 Kch|_ NM _ _]; [discriminate Z|discriminate Z| |rewrite (NM eq_refl) in X1a; discriminate X1a].
      rewrite Ech in Ek. apply two_inj in Ek. destruct Ek as (<- & <-). rewrite X1c in Kch, Nc. cbn [Z.eqb] in Kch.
      destruct (fwd_mean L 0 1023 C y EMeasure y1 w1 y' D eq_refl) as (Me & _).
      assert (Hn : 0 < m_count (y_meas y1)) by (apply (f_handover C y1 HC (fserved_reach L 0 1023 C HC HL y1 w1 D1)); exact X1a).
      assert (Ks : v_age w1 <= slow_window L).
      { pose proof (fcore_age _ _ _ _ (fp_core _ _ _ _ _ _ Pg1)) as Ka. rewrite X1c in Ka. change (averaging_ms 0) with 5 in Ka. unfold slow_window. lia. }
      pose proof (filt_result y1 w1 s Fi X1c Hn Ks ltac:(lia)) as Sh. destruct Fi as (S0 & _ & _ & _).
      destruct X as (_ & X2 & X3). destruct (Pd X2) as (q0 & q1 & raw & Er & _ & _ & _ & _ & _ & _ & _ & _ & Hc).
      destruct (Hc X3) as (d0 & v & v' & p & n1 & n2 & n & t & Ech' & Ck & Ef & Tv & Uf & Ui). clear Hc Pd Cm.
      assert (Br : 0 <= raw <= 1023).
      { destruct Sb as [I _ (_ & H) _]. destruct (average_ok C (y_meas y) _ (i_meas _ _ _ I) (H X2)) as (r & Er2 & _ & Br). rewrite Er in Er2. apply Some_inj in Er2. subst r. exact Br. }
      assert (Fo : fbuf_ok y) by (unfold fbuf_ok, fbuf; destruct (i_mc _ _ _ (s4_inv _ _ _ Sb)) as (_ & Bf); destruct (u_init (y_mc y)); [exact Bf|exact Logic.I]).
      destruct (PSysLog.lp_step (y_mc y) raw (fbuf y) Br (fbuf_lp y Fo) y eq_refl) as (Q1 & Q2 & Q3). rewrite Q1 in Tv. rewrite Q2 in Uf.
      rewrite (raw_mean _ _ _ _ Sb X2 Er) in *. rewrite (fbuf_mc y y1 F4), Me in Sh.
      assert (Fb : fbuf y' = Some (lp_acc (fbuf y) (mean_code y))) by (unfold fbuf at 1; rewrite Ui, Uf; reflexivity).
      cbn [sense_step]. split.
      { split; [exact S0|]. split; [unfold fbuf_ok; rewrite Fb; exact Q3|]. split; [rewrite Nc; discriminate|]. rewrite M3, Fb. intros m Hm. apply (Sh m). lia. }
      rewrite Ech' in Kch. cbn [map] in Kch. apply two_inj in Kch. destruct Kch as (Kd & _).
      assert (Kf : ch_running d0 = negb b /\ (b = true -> ch_timeout d0 = false) /\
        (b = false -> ch_timer d0 = (if ch_running c0 then ch_timer c0 else u16 (u16 (y_now y1 - e1) + 3000)) /\
           ch_timeout d0 = ch_timeout c0 || timer_expired (u16 (y_now y1 - e2)) (ch_timer d0))).
      { clear - Kd. destruct d0 as [ad to ru ti], c0 as [ad1 to1 ru1 ti1]. unfold barec, recheck in Kd. cbn in Kd |- *. destruct b; injection Kd as -> -> ->; cbn; repeat split; try discriminate. }
      destruct Kf as (Kr & Kt & Kb). clear Kd. destruct Ck as (_ & _ & Ck & Cq).
      change (mc_plaus_neg meascurr_config) with 0 in *. change (mc_plaus_pos meascurr_config) with 3200 in *.
      assert (Eb : b = (0 <=? v) && (v <=? 3200)).
      { rewrite Ck in Kr. destruct ((0 <=? v) && (v <=? 3200)); cbn in Kr; destruct b; cbn in Kr; congruence. }
      destruct Ef as (_ & _ & _ & _ & _ & Ef & _).
      change (cc_emerg (y_cc (retimer (set_y_now y n) t))) with (cc_emerg (y_cc y)) in Ef. rewrite F2 in Em. change EMERG_UNPLAUS_FEEDBACK with 1 in Ef.
      destruct (i_cc _ _ _ (s4_inv _ _ _ S4)) as (_ & _ & If & _). destruct (bit0_ops _ If) as (Z1 & Z2).
      clear Ck. exists d0, q1. split; [exact Ech'|]. rewrite M3. rewrite <- Eb in Cq. destruct b; cbn [negb] in Kr.
      * specialize (Kt eq_refl). rewrite Kt in *. subst p.
        split; [rewrite Ef; exact Z2|]. split; [congruence|]. split; [congruence|]. intros m Lm. split; [|auto].
        intros Bd. exfalso. destruct (Sh m ltac:(lia)) as (_ & Bc). destruct (Bd _ _ Bc Tv); lia.
      * destruct (Kb eq_refl) as (Kb1 & Kb2). clear Kt.
        split; [|split; [auto|split]].
        -- rewrite Ef. destruct (ch_timeout d0); subst p; [exact Z1|]. destruct (ch_timeout c0); [discriminate Kb2|exact Em].
        -- intros _ Nt. rewrite Nt in Kb2. symmetry in Kb2. apply orb_false_iff in Kb2. destruct Kb2 as (Kb2 & Kb3).
           pose proof (i_now _ _ _ (s4_inv _ _ _ (freach_s4 C y1 HC (fserved_reach L 0 1023 C HC HL y1 w1 D1)))) as In. unfold is_u16 in In.
           destruct (ch_running c0) eqn:Ru.
           ++ destruct (Ti eq_refl Kb2) as (t0 & a & T1 & T2 & T3 & T4 & T5). exists t0, a. split; [exact T1|]. split; [congruence|]. split; [congruence|].
              assert (Ex : a < 3000 + l_poll L).
              { rewrite Kb1, T3, T2 in Kb3. replace (u16 (u16 (t0 + a) - e2)) with (u16 (t0 + (a - e2))) in Kb3 by (unfold u16; clear; lia).
                change (timer_expired (counter (t0 + (a - e2))) (counter (t0 + 3000)) = false) in Kb3. rewrite timer_expired_eq in Kb3.
                clear - Kb3 Be1 Be2 T4 Cb Wp L1 L2 L5. lia. }
              split; [lia|]. exact T5.
           ++ exists (u16 (y_now y1 - e1)), e1. split; [unfold u16; clear; lia|]. split; [rewrite Nn; unfold u16; clear - In; lia|]. split; [exact Kb1|]. split; [lia|].
              intros m Bd. destruct (Z_lt_ge_dec (v_curr w1 + settle_ms L m) s) as [Lt|Ge]; [|lia].
              destruct (La m Lt) as (Q & _). discriminate (Q Bd).
        -- intros m Lm. split; [auto|]. intros Gd. exfalso. destruct (Sh m ltac:(lia)) as (_ & Bc). pose proof (Gd _ _ Bc Tv). lia.
    + assert (Sm : y_mc y' = y_mc y /\ Z.testbit (cc_emerg (y_cc y')) 0 = Z.testbit (cc_emerg (y_cc y)) 0).
      { destruct (pending y e) eqn:Pn.
        - destruct (pending_cases _ _ _ _ (s4_inv _ _ _ S4) Pn) as [Y|(_ & Y2 & Y3)]; [destruct (X Y)|].
          destruct (Pd eq_refl) as (q0 & q1 & raw & _ & _ & _ & _ & _ & _ & _ & _ & Ht & _).
          destruct (Ht Y3) as (d1 & v & v' & p & n1 & n2 & n & t & _ & Em' & _ & (_ & _ & _ & _ & _ & _ & _ & (ops & _ & _ & _ & Q) & _) & _).
          split; [exact Em'|exact Q].
        - destruct (Cm Pw eq_refl) as (Q1 & _ & _ & _ & [Q2|Q2]); (split; [exact Q1|]); rewrite Q2; reflexivity. }
      destruct Sm as (Smc & Sem).
      assert (Ed : exists d0 d1, m_chans (y_meas y') = [d0; d1] /\ barec d0 = barec c0).
      { destruct (d_pk _ _ _ _ _ _ _ _ _ D) as [_ _ M|raw0 _ _ _ _ M|k0 k1 e1 e2 b Ee Av _ _ _ _ _ _ Ek _ _ Kch|_ _ _ M].
        - apply bare_fields in M. destruct M as (_ & _ & _ & _ & _ & _ & M). rewrite Ech in M. destruct (barec_two L 0 1023 C y' c0 c1 M) as (d0 & d1 & Q1 & Q2 & _). eauto.
        - rewrite Ech in M. destruct (barec_two L 0 1023 C y' c0 c1 M) as (d0 & d1 & Q1 & Q2 & _). eauto.
        - rewrite Ech in Ek. apply two_inj in Ek. destruct Ek as (<- & <-). destruct (m_chan (y_meas y1) =? 0) eqn:Hz.
          + exfalso. apply X. apply (fwd_result L 0 1023 C y e y1 w1 y' 0 D). unfold result. split; [exact Ee|]. split; [exact Av|]. lia.
          + destruct (m_chans (y_meas y')) as [|d0 [|d1 [|]]]; try discriminate Kch. apply (two_inj (barec d0) (barec d1)) in Kch. exists d0, d1. tauto.
        - apply pj_same in M. destruct M as (_ & _ & _ & _ & _ & _ & _ & M). rewrite Ech in M. destruct (barec_two L 0 1023 C y' c0 c1 M) as (d0 & d1 & Q1 & Q2 & _). eauto. }
      destruct Ed as (d0 & d1 & Ech' & Bd1). apply barec_fields in Bd1. destruct Bd1 as (B1 & B2 & B3).
      set (s' := sense_step lo hi y1 s e) in *. destruct Fi as (S0 & Fo & Hw & Hf).
      assert (Mt : exists z, (z = 0 \/ z = 1) /\ y_now y' = u16 (y_now y1 + z) /\ v_curr w' = v_curr w1 + z /\ (s' = s + z \/ s' = 0)).
      { pose proof (i_now _ _ _ (s4_inv _ _ _ (freach_s4 C y1 HC (fserved_reach L 0 1023 C HC HL y1 w1 D1)))) as In. unfold is_u16 in In.
        assert (N0 : y_now y1 = u16 (y_now y1 + 0)) by (unfold u16; lia).
        destruct (d_pk _ _ _ _ _ _ _ _ _ D) as [Ee N1 _|raw0 Ee _ N1 _ _|k0 k1 e1 e2 b Ee _ N1 _ _ _ _ _ _ _ _ _|Ne _ _ Pj];
          [exists 1|exists 0|exists 0|exists 0; apply pj_same in Pj; destruct Pj as (N1 & _)].
        all: destruct Mv as [((Z & _) & _ & _ & M3 & _)|[(Z & _)|[(Z & _ & _ & M3 & _)|(_ & Z & _ & _ & M3 & _)]]]; try (destruct (X Z)); try congruence.
        all: split; [lia|]; split; [congruence|]; split; [lia|]; unfold s'; destruct e; try discriminate; try congruence; cbn [sense_step]; try destruct (_ && _); lia. }
      assert (Wn : m_chan (y_meas y') = 0 -> v_age w' < s' -> lo * m_count (y_meas y') <= m_sum (y_meas y') <= hi * m_count (y_meas y')).
      { assert (No : (forall c, ~ result y e c) -> v_age w' = v_age w1 + (if match e with ETick => true | _ => false end then 1 else 0)).
        { intros Q. destruct Ag as [((c & Z) & _)|(_ & Z)]; [destruct (Q c Z)|exact Z]. }
        destruct (d_pk _ _ _ _ _ _ _ _ _ D) as [Ee _ M|raw0 Ee Ea _ (D1' & D2' & _ & D4' & _) _|k0 k1 e1 e2 b Ee Av _ _ Kc Ks _ _ _ _ _ _|Ne NM NA Pj].
        - subst e. rewrite (No ltac:(intros c (Z & _); discriminate Z)). apply bare_fields in M. destruct M as (A1 & A2 & A3 & _). rewrite A1, A2, A3. unfold s'. cbn [sense_step]. intros Z Sa. apply Hw; [exact Z|lia].
        - subst e. rewrite (No ltac:(intros c (Z & _); discriminate Z)). rewrite D4', D1', D2'. unfold s'. cbn [sense_step]. rewrite Ea. cbn [andb]. intros Z Sa.
          rewrite Z in Sa. cbn [Z.eqb andb] in Sa. destruct ((lo <=? raw0) && (raw0 <=? hi)) eqn:Rg; cbn [negb] in Sa; [|lia]. specialize (Hw Z ltac:(lia)). clear - Rg Hw. lia.
        - rewrite Kc, Ks. intros _ _. lia.
        - rewrite No.
          2:{ intros c Q; apply (fwd_result L 0 1023 C y e y1 w1 y' c D) in Q; destruct Q as (Q1 & Q2 & _); rewrite (NM Q1) in Q2; discriminate Q2. }
          apply pj_same in Pj. destruct Pj as (_ & A1 & A2 & A3 & _). rewrite A1, A2, A3. intros Z Sa. apply Hw; [exact Z|].
          unfold s' in Sa. destruct e; cbn [sense_step] in Sa; try lia. rewrite (NA raw eq_refl) in Sa. cbn [andb] in Sa. lia. }
      clearbody s'. destruct Mt as (z & Hz & Nz & M2 & M4). split.
      { split; [lia|]. unfold fbuf_ok in *. rewrite (fbuf_mc y1 y') by congruence. split; [exact Fo|]. split; [exact Wn|]. intros n Q. pose proof (Sp n). apply Hf. lia. }
      exists d0, d1. split; [exact Ech'|]. rewrite B1, B2, B3, M2. split; [congruence|]. split; [exact Tr|]. split.
      * intros Q1 Q2. destruct (Ti Q1 Q2) as (t0 & a & T1 & T2 & T3 & T4 & T5). exists t0, (a + z). split; [exact T1|]. split; [rewrite Nz, T2; unfold u16; clear; lia|].
        split; [exact T3|]. split; [lia|]. intros n Bd. specialize (T5 n Bd). pose proof (Sp n). lia.
      * intros n Lt. pose proof (Sp n). apply (La n). lia.
Qed.

Lemma fsensed_fault y w s n : fsensed L lo hi C y w s -> bad_curr n -> 3000 + l_poll L + settle_ms L n + 2 * slow_cycle L < s ->
  Z.testbit (cc_emerg (y_cc y)) 0 = true /\ pwm_off y.
Proof.
  intros D Bd S. pose proof (fsensed_fserved _ _ _ D) as Dv. destruct (fcurr y w s D) as (_ & c0 & c1 & _ & Em & _ & Ti & La).
  pose proof (fprog_curr L 0 1023 C HC HL _ _ (fserved_fprog L 0 1023 C HC HL y w Dv)) as Tb.
  assert (HLs := HL). destruct HLs as (L1 & L2 & _). assert (Wp : 55 <= slow_cycle L) by (unfold slow_cycle; lia).
  assert (K : Z.testbit (cc_emerg (y_cc y)) 0 = true).
  { rewrite Em. destruct (ch_timeout c0) eqn:To; [reflexivity|exfalso]. destruct (La n ltac:(lia)) as (Ru & _).
    destruct (Ti (Ru Bd) eq_refl) as (t0 & a & _ & _ & _ & T4 & T5). specialize (T5 n Bd). lia. }
  split; [exact K|]. apply (f_emerg_off C y HC (fserved_reach L 0 1023 C HC HL y w Dv)). intros Z. rewrite Z in K. discriminate K.
Qed.
Lemma fsensed_fine y w s n : fsensed L lo hi C y w s -> good_curr n -> settle_ms L n + slow_cycle L < s -> Z.testbit (cc_emerg (y_cc y)) 0 = false.
Proof.
  intros D Gd S. pose proof (fsensed_fserved _ _ _ D) as Dv. destruct (fcurr y w s D) as (_ & c0 & c1 & _ & Em & Tr & _ & La). rewrite Em.
  pose proof (fprog_curr L 0 1023 C HC HL _ _ (fserved_fprog L 0 1023 C HC HL y w Dv)) as Tb.
  destruct (La n ltac:(lia)) as (_ & Ru). destruct (ch_timeout c0) eqn:To; [|reflexivity]. rewrite (Ru Gd) in Tr. discriminate (Tr eq_refl).
Qed.
End FSense.
