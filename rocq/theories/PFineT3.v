(** * Interrupts inside the work functions, part 11: executions with bounded delays *)
From Coq Require Import ZArith List Bool Lia ZifyBool.
From Verif Require Import Base PBase MConf MUtil MFixpt MScale MRing MFilter MTimer MPid MPwm MTempMap MCurr MSens
  SpecNum SpecPid SpecSmall PNum PSmall PScale PPid SpecCurr PCurr MSettings SpecSettings PSettings PSysSet
  MSseg MDisplay MText MState MTemp MMeas MMenu MMain SpecDisplay PDisplay SpecSys SpecRun SpecLive PSys PSysMeas PSysMenu PSysDisp PSysBtn
  Trace PSysStep PSysRun PSysCC PSysSafe PSysWin PLive MFine SpecFine SpecFineLive PFine PFine2 PFine4 PFine5 PFine6 PFine7 PFine8 PFineT PFineT2.
Import ListNotations.
Open Scope Z_scope.
Ltac Zify.zify_post_hook ::= Z.div_mod_to_equations.

Lemma fwork_fstep C y e o y' o' : fwork C y e o = Some (y', o') -> fstep C y e o = Some y'.
Proof. intros E. unfold fstep. change (('(z, _) <- fwork C y e o ;; Some z) = Some y'). rewrite E. reflexivity. Qed.
Lemma fwork_plain C y e o y' : plain e = true -> fwork C y e o = Some (y', []) -> o = [] /\ step C y e = Some y'.
Proof.
  intros P E. assert (E' : lift (step C y e) o = Some (y', [])) by (destruct e; try discriminate P; exact E).
  apply lift_inv in E'. destruct E' as (E1 & E2). auto.
Qed.

(** What an event does to clock and measurement; [P]: the longest time inside. *)
Inductive pk (P : Z) (y : sys) (e : event) (y' : sys) : Prop :=
  | pk_tick : e = ETick -> y_now y' = u16 (y_now y + 1) -> bare (y_meas y') = bare (y_meas y) -> pk P y e y'
  | pk_adc raw : e = EAdc raw -> m_adc (y_meas y) = true -> y_now y' = y_now y -> sampled y raw y' ->
      map barec (m_chans (y_meas y')) = map barec (m_chans (y_meas y)) -> pk P y e y'
  | pk_result c0 c1 e1 e2 b : e = EMeasure -> m_avail (y_meas y) = true -> y_now y' = y_now y -> m_chan (y_meas y') = 1 - m_chan (y_meas y) ->
      m_count (y_meas y') = 0 -> m_sum (y_meas y') = 0 -> m_timer (y_meas y') = u16 (y_now y + averaging_ms (1 - m_chan (y_meas y))) ->
      m_avail (y_meas y') = false -> m_chans (y_meas y) = [c0; c1] -> 0 <= e2 <= e1 -> e1 <= P ->
      map barec (m_chans (y_meas y')) =
        (if m_chan (y_meas y) =? 0 then [recheck b (u16 (y_now y - e1)) (u16 (y_now y - e2)) (barec c0); barec c1]
         else [barec c0; recheck b (u16 (y_now y - e1)) (u16 (y_now y - e2)) (barec c1)]) -> pk P y e y'
  | pk_other : e <> ETick -> (e = EMeasure -> m_avail (y_meas y) = false) -> (forall raw, e = EAdc raw -> m_adc (y_meas y) = false) ->
      pj y' = pj y -> pk P y e y'.

(** An interrupt *)
Definition is_irq (e : event) : bool := match e with ETick | EAdc _ | EReady | EDone => true | _ => false end.
Definition frame (y y' : sys) : Prop :=
  y_ct y' = y_ct y /\ y_cc y' = y_cc y /\ y_mt y' = y_mt y /\ y_mc y' = y_mc y /\ x_cache (y_set y') = x_cache (y_set y) /\ m_chans (y_meas y') = m_chans (y_meas y).
Lemma frame_refl y : frame y y.
Proof. unfold frame. repeat split. Qed.
Lemma frame_trans a b c : frame a b -> frame b c -> frame a c.
Proof. unfold frame. intros (?&?&?&?&?&?) (?&?&?&?&?&?). repeat split; congruence. Qed.
Lemma irq_frame C y e y' : build_conf C -> freach C y -> is_irq e = true -> step C y e = Some y' -> frame y y'.
Proof.
  intros HC R. pose proof (freach_s4 C y HC R) as [I _ _ _].
  destruct e; try discriminate; intros _; cbn [step]; intros E.
  - apply Some_inj in E. subst. unfold frame. repeat split.
  - apply Some_inj in E. subst. destruct (m_adc (y_meas y)); [|apply frame_refl]. unfold adc_isr, frame. cbv zeta. destruct (timer_expired _ _); repeat split.
  - destruct (x_eerie (y_set y)) eqn:Ee; [|apply Some_inj in E; subst; apply frame_refl].
    destruct (x_busy (y_set y)) eqn:Eb; [apply Some_inj in E; subst; apply frame_refl|].
    destruct (set_ready C HC relaxed (y_set y) (i_set _ _ _ I) (proj2 bok_relaxed) Ee Eb) as (x' & E' & Sx & Ec & _). rewrite E' in E. cbn [bind] in E.
    apply Some_inj in E. subst. unfold frame. repeat split. exact Ec.
  - apply Some_inj in E. subst. unfold frame. repeat split. cbn. unfold ee_prog_done. destruct (x_busy _) as [[? ?]|]; reflexivity.
Qed.
Lemma plain_pk P C y e y' : build_conf C -> freach C y -> ev_ok C y e -> is_power e = false -> plain e = true -> step C y e = Some y' -> pk P y e y'.
Proof.
  intros HC R O Pw Pl E. pose proof (freach_s4 C y HC R) as [I Ro H S].
  destruct e; try discriminate Pw; try discriminate Pl; cbn [step] in E.
  - apply Some_inj in E. subst y'. apply pk_tick; reflexivity.
  - apply Some_inj in E. destruct (m_adc (y_meas y)) eqn:Ea; subst y'.
    + destruct (adc_isr_ok relaxed C y raw I H Ea (proj1 O) (proj2 O)) as (_ & _ & A1 & A2 & A3 & _ & _ & A4 & A5).
      eapply pk_adc; [reflexivity|exact Ea| |unfold sampled; auto 10|]; unfold adc_isr; cbv zeta; destruct (timer_expired _ _); reflexivity.
    + apply pk_other; try discriminate; auto.
  - apply pk_other; try discriminate. destruct (x_eerie (y_set y)); [|apply Some_inj in E; subst; reflexivity].
    destruct (x_busy (y_set y)); [apply Some_inj in E; subst; reflexivity|].
    destruct (ee_ready_isr C (y_set y)) as [x|]; [|discriminate E]. cbn [bind] in E. apply Some_inj in E. subst. reflexivity.
  - apply pk_other; try discriminate. apply Some_inj in E. subst y'. reflexivity.
  - apply pk_other; try discriminate. unfold sys_display_work in E. destruct (display_work _ _ _) as [[h d]|]; [|discriminate E]. cbn [bind] in E. apply Some_inj in E. subst y'. reflexivity.
  - apply pk_other; try discriminate. apply Some_inj in E. subst y'. reflexivity.
Qed.

Section FLive.
Variables (L : limits) (lo hi : Z) (C : conf).
Hypothesis HC : build_conf C.
Hypothesis HL : limits_ok L.
Let A := l_sample L.
Let B := l_poll L.
Let F := l_rate L.

Record fcore (y : sys) (w : watch) : Prop := mkFCore {
  fk_reach : freach C y;
  fk_age : exists t0, 0 <= t0 <= 65535 /\ y_now y = u16 (t0 + v_age w) /\ m_timer (y_meas y) = u16 (t0 + averaging_ms (m_chan (y_meas y)));
  fk_pos : 0 <= v_age w /\ 0 <= v_sample w /\ 0 <= v_poll w <= B /\ 0 <= v_conv w <= F;
  fk_open : m_adc (y_meas y) = true -> v_sample w <= A /\ v_age w - v_sample w < averaging_ms (m_chan (y_meas y));
  fk_full : m_adc (y_meas y) = false -> v_age w < averaging_ms (m_chan (y_meas y)) + A + v_poll w;
  fk_count : m_count (y_meas y) <= F * v_age w + v_conv w
}.
Lemma fcore_age y w : fcore y w -> v_age w <= averaging_ms (m_chan (y_meas y)) + A + B.
Proof.
  intros K. destruct (m_adc (y_meas y)) eqn:E; [pose proof (fk_open _ _ K E)|pose proof (fk_full _ _ K E)]; pose proof (fk_pos _ _ K); lia.
Qed.
Lemma fcore_slow y w : fcore y w -> v_age w <= slow_window L.
Proof. intros K. pose proof (fcore_age y w K). pose proof (avg_le L (m_chan (y_meas y))). unfold slow_window. fold A B. lia. Qed.
Lemma fcore_ev y w e : fcore y w -> on_time L C y w e -> ev_ok C y e /\ is_power e = false.
Proof.
  intros K O. destruct e; cbn [on_time ev_ok is_power] in *; try (split; [exact O|reflexivity]); [split; [exact I|reflexivity]| |destruct O].
  split; [|reflexivity]. split; [apply O|]. pose proof (fk_count _ _ K). pose proof (fcore_slow _ _ K) as S. pose proof (fk_pos _ _ K) as (P1 & _ & _ & P2 & P3).
  destruct HL as (_ & _ & Hf & Hm & _). fold F A B in Hf, Hm. unfold slow_window in S. fold A B in S.
  assert (F * v_age w <= F * (50 + A + B)) by (apply Z.mul_le_mono_nonneg_l; lia). lia.
Qed.
Lemma fcore_boot y : freach C y -> fresh C y -> fcore y watch_zero.
Proof.
  intros R Fr. destruct (fresh_window C y Fr) as (_ & A2 & A3 & A4 & A5 & A6). destruct (f_handover C y HC R) as (H & _). rewrite A3 in H. cbn in H.
  destruct HL as (L1 & L2 & L3 & _). fold A B F in L1, L2, L3. constructor; cbn; try assumption; try lia.
  - exists 0. rewrite A4, A5, A6. split; [lia|]. split; reflexivity.
  - rewrite A4. unfold averaging_ms. cbn. intros. lia.
  - congruence.
Qed.
Lemma state_fcore y y0 y1 w : fcore y w -> fcore y (watch_state y0 y1 w).
Proof. intros []. constructor; assumption. Qed.
Lemma pj_same y y' : pj y' = pj y -> y_now y' = y_now y /\ m_chan (y_meas y') = m_chan (y_meas y) /\ m_count (y_meas y') = m_count (y_meas y) /\ m_sum (y_meas y') = m_sum (y_meas y) /\
  m_timer (y_meas y') = m_timer (y_meas y) /\ m_avail (y_meas y') = m_avail (y_meas y) /\ m_adc (y_meas y') = m_adc (y_meas y) /\ map barec (m_chans (y_meas y')) = map barec (m_chans (y_meas y)).
Proof. intros E. apply pj_inv in E. destruct E as (E1 & E2). apply bare_fields in E2. split; [exact E1|exact E2]. Qed.
Lemma fcore_pk P y w e y' : fcore y w -> on_time L C y w e -> pk P y e y' -> freach C y' -> fcore y' (watch_ev lo hi y w e).
Proof.
  intros K O Kd R'. destruct HL as (L1 & L2 & L3 & _ & L5). fold A B F in L1, L2, L3, L5. pose proof (avg_le L (m_chan (y_meas y))) as Av.
  destruct (f_handover C y HC (fk_reach _ _ K)) as (H & _ & Hc). destruct (f_handover C y' HC R') as (H' & _).
  pose proof (fcore_age _ _ K) as Ka. destruct K as [R (t0 & W1 & W2 & W3) (P1 & P2 & P3 & P4) Ko Kf Kc].
  destruct Kd as [-> N M|raw -> Ea N (D1 & D2 & D3 & D4 & D5) _|c0 c1 e1 e2 b -> Pn N A1 A2 A3 A4 A5 _ _ _ _|NT NM NA Pj].
  - apply bare_fields in M. destruct M as (D5 & D2 & D1 & D6 & D3 & D4 & _). cbn [on_time watch_ev] in *. fold A B in O.
    constructor; cbn; rewrite ?D5, ?D4, ?D2; try assumption; try lia.
    + exists t0. split; [exact W1|]. rewrite N, D6, W2, W3. split; [unfold u16; clear; lia|reflexivity].
    + intros Q. specialize (Ko Q). destruct O as (O & _). specialize (O Q). lia.
  - specialize (Ko Ea). cbn [on_time] in O. destruct O as (_ & O). specialize (O Ea). fold F in O.
    rewrite W2, W3 in D3. rewrite expired_age in D3 by lia. rewrite D3 in H'.
    cbn [watch_ev]. unfold watch_adc. rewrite Ea. constructor; cbn; rewrite ?D4, ?H', ?D2; try assumption; try lia.
    exists t0. split; [exact W1|]. rewrite N, D5. split; [exact W2|exact W3].
  - cbn [watch_ev]. unfold watch_poll. rewrite Pn. rewrite A5 in H'. cbn in H'. pose proof (avg_le L (m_chan (y_meas y'))) as Av'.
    pose proof (i_now _ _ _ (s4_inv _ _ _ (freach_s4 C y HC R))) as In. unfold is_u16 in In.
    assert (X : exists t1, 0 <= t1 <= 65535 /\ y_now y' = u16 (t1 + 0) /\ m_timer (y_meas y') = u16 (t1 + averaging_ms (m_chan (y_meas y')))).
    { exists (y_now y). split; [lia|]. rewrite N, A4, A1, Z.add_0_r. split; [symmetry; apply u16_id; lia|reflexivity]. }
    destruct (m_chan (y_meas y) =? 1); constructor; cbn; try assumption; try lia; intros; congruence || lia.
  - apply pj_same in Pj. destruct Pj as (N & D5 & D2 & D1 & D6 & D3 & D4 & _).
    assert (X : exists t1, 0 <= t1 <= 65535 /\ y_now y' = u16 (t1 + v_age w) /\ m_timer (y_meas y') = u16 (t1 + averaging_ms (m_chan (y_meas y')))).
    { exists t0. rewrite N, D6, D5. auto. }
    destruct e as [|raw| | | | | | | |]; cbn [watch_ev]; try (constructor; rewrite ?D5, ?D4, ?D2; try assumption; rewrite ?D5, ?D6, ?N; eauto; fail).
    + congruence.
    + unfold watch_adc. rewrite (NA raw eq_refl). constructor; rewrite ?D4, ?D2; try assumption; rewrite ?D5; auto.
    + unfold watch_poll. rewrite (NM eq_refl) in *. cbn in H. constructor; cbn; rewrite ?D4, ?D2; try assumption; rewrite ?D5; try assumption; try lia; intros; congruence.
Qed.

(** ** Progress *)
Record fprog (y : sys) (w : watch) : Prop := mkFProg {
  fp_core : fcore y w;
  fp_temp : (m_chan (y_meas y) = 0 -> v_temp w = v_age w) /\ v_age w <= v_temp w <= v_age w + 5 + A + B;
  fp_curr : 0 <= v_curr w <= v_age w + 50 + A + B /\ (m_chan (y_meas y) = 1 -> v_curr w <= v_age w);
  fp_steady : 0 <= v_steady w;
  fp_window : m_chan (y_meas y) = 1 -> v_age w < v_steady w ->
    lo * m_count (y_meas y) <= m_sum (y_meas y) <= hi * m_count (y_meas y);
  fp_last : match v_last w with
           | None => v_steady w <= v_temp w
           | Some c => v_temp w + slow_window L < v_steady w -> lo <= c <= hi
           end
}.
Lemma fprog_temp y w : fprog y w -> v_temp w <= slow_cycle L.
Proof.
  intros Pg. pose proof (fcore_age _ _ (fp_core _ _ Pg)) as K. destruct (fp_temp _ _ Pg) as (T0 & T1).
  destruct (f_handover C y HC (fk_reach _ _ (fp_core _ _ Pg))) as (_ & _ & [Hc|Hc]); rewrite Hc in K; (change (averaging_ms 0) with 5 in K || change (averaging_ms 1) with 50 in K);
    unfold slow_cycle; fold A B; [specialize (T0 Hc)|]; destruct HL as (L1 & L2 & _); fold A B in L1, L2; lia.
Qed.
Lemma fprog_curr y w : fprog y w -> v_curr w <= slow_cycle L.
Proof.
  intros Pg. pose proof (fcore_age _ _ (fp_core _ _ Pg)) as K. destruct (fp_curr _ _ Pg) as (T0 & T1).
  destruct (f_handover C y HC (fk_reach _ _ (fp_core _ _ Pg))) as (_ & _ & [Hc|Hc]); rewrite Hc in K; (change (averaging_ms 0) with 5 in K || change (averaging_ms 1) with 50 in K);
    unfold slow_cycle; fold A B; [|specialize (T1 Hc)]; destruct HL as (L1 & L2 & _); fold A B in L1, L2; lia.
Qed.
Lemma fprog_boot y : freach C y -> fresh C y -> fprog y watch_zero.
Proof.
  intros R Fr. pose proof (fcore_boot y R Fr) as K. destruct HL as (L1 & L2 & _). fold A B in L1, L2.
  constructor; cbn [v_age v_temp v_curr v_last v_steady watch_zero watch_tick with_poll]; try assumption; try lia.
Qed.
Lemma fprog_pk P y w e y' : fprog y w -> on_time L C y w e -> pk P y e y' -> freach C y' -> fprog y' (watch_ev lo hi y w e).
Proof.
  intros Pg O Kd R'. pose proof (fcore_pk P y w e y' (fp_core _ _ Pg) O Kd R') as K'.
  pose proof (fcore_age _ _ (fp_core _ _ Pg)) as Ka. pose proof (fcore_slow _ _ (fp_core _ _ Pg)) as Ks.
  destruct (fk_pos _ _ (fp_core _ _ Pg)) as (P1 & _). pose proof (fk_reach _ _ (fp_core _ _ Pg)) as R.
  destruct HL as (L1 & L2 & _). fold A B in L1, L2. destruct (f_handover C y HC R) as (_ & Hn & Hc).
  destruct Pg as [K (T0 & T1) (U0 & U1) S0 Sw La].
  destruct Kd as [-> N M|raw -> Ea N (D1 & D2 & D3 & D4 & D5) _|c0 c1 e1 e2 b -> Av N A4 A2 A3 _ A5 _ _ _ _|NT NM NA Pj].
  - apply bare_fields in M. destruct M as (D5 & D2 & D1 & D6 & D3 & D4 & _). cbn [watch_ev] in *.
    constructor; cbn [v_age v_temp v_curr v_last v_steady watch_zero watch_tick with_poll]; rewrite ?D5, ?D1, ?D2; try assumption; try lia.
    destruct (v_last w); lia.
  - cbn [on_time watch_ev] in *. destruct O as (Br & _). unfold watch_adc in *. rewrite Ea in *. constructor; cbn [v_age v_temp v_curr v_last v_steady watch_zero watch_tick with_poll]; rewrite ?D4; try assumption; try lia.
    + destruct (_ && _); lia.
    + intros Q. rewrite Q in *. cbn [Z.eqb Pos.eqb andb]. rewrite D1, D2. destruct ((lo <=? raw) && (raw <=? hi)) eqn:Rg; cbn [negb]; [|lia].
      intros Sa. specialize (Sw eq_refl Sa). lia.
    + destruct (v_last w); destruct (_ && _); cbn; try lia; auto.
  - specialize (Hn Av). cbn [watch_ev] in *. unfold watch_poll in *. rewrite Av in *. destruct Hc as [Hc|Hc]; rewrite Hc in *; cbn [Z.eqb Z.sub Z.opp Z.add Pos.eqb Z.pos_sub] in *.
    + change (averaging_ms 0) with 5 in Ka. constructor; cbn [v_age v_temp v_curr v_last v_steady]; rewrite ?A4, ?A2, ?A3; try assumption; try lia.
    + change (averaging_ms 1) with 50 in Ka. constructor; cbn [v_age v_temp v_curr v_last v_steady]; rewrite ?A4, ?A2, ?A3; try assumption; try lia.
      intros Q. unfold mean_code. apply (mean_between L); [exact Hn|]. apply Sw; [reflexivity|lia].
  - apply pj_same in Pj. destruct Pj as (N & D5 & D2 & D1 & D6 & D3 & D4 & _).
    assert (W : exists p, watch_ev lo hi y w e = with_poll w p).
    { destruct e; cbn [watch_ev]; try (exists (v_poll w); destruct w; reflexivity).
      - congruence.
      - unfold watch_adc. rewrite (NA raw eq_refl). exists (v_poll w). destruct w; reflexivity.
      - unfold watch_poll. rewrite (NM eq_refl). exists 0. reflexivity. }
    destruct W as (p & Ew). rewrite Ew in *.
    constructor; cbn [v_age v_temp v_curr v_last v_steady watch_zero watch_tick with_poll]; rewrite ?D5, ?D1, ?D2; first [assumption | split; assumption].
Qed.
Lemma state_fprog y y0 y1 w : fprog y w -> fprog y (watch_state y0 y1 w).
Proof. intros []. constructor; [apply state_fcore|..]; assumption. Qed.

(** ** Interrupts only *)
Lemma ev_ok_okb y i : ev_ok C y (irq_event i) -> ev_okb C y (irq_event i) = true.
Proof. destruct i; cbn; intros O; try reflexivity. lia. Qed.
Lemma irq_events y w l y1 w1 : fprog y w -> path L lo hi C y w (map irq_event l) y1 w1 ->
  fprog y1 w1 /\ frame y y1 /\ fires C y l = Some y1 /\ v_poll w1 = v_poll w + ticks l.
Proof.
  intros Pg D. remember (map irq_event l) as el eqn:El. revert l El. induction D as [y w|y w e el y1 y' w' O E D IH]; intros l El.
  - destruct l; [|discriminate El]. split; [exact Pg|]. split; [apply frame_refl|]. split; [reflexivity|cbn; lia].
  - destruct l as [|i l]; [discriminate El|]. cbn [map] in El. injection El as -> ->.
    destruct (fcore_ev y w _ (fp_core _ _ Pg) O) as (Oe & Pw). pose proof (fk_reach _ _ (fp_core _ _ Pg)) as R.
    assert (Ii : is_irq (irq_event i) = true /\ plain (irq_event i) = true) by (destruct i; split; reflexivity). destruct Ii as (Ii & Pl).
    assert (R1 : freach C y1) by (eapply freach_step; [exact R|apply next_fnext; eassumption]).
    pose proof (plain_pk 0 C y _ y1 HC R Oe Pw Pl E) as Kd. pose proof (irq_frame C y _ y1 HC R Ii E) as Fr.
    assert (Pg1 : fprog y1 (watch_step lo hi y w (irq_event i) y1)) by (apply (state_fprog y1 y y1); eapply fprog_pk; eassumption).
    destruct (IH Pg1 l eq_refl) as (Q1 & Q2 & Q3 & Q4). split; [exact Q1|]. split; [eapply frame_trans; eassumption|]. split.
    + cbn [fires]. unfold fire. rewrite (ev_ok_okb y i Oe), E. exact Q3.
    + rewrite Q4. destruct i; cbn [ticks irq_event]; unfold watch_step, watch_state; cbn [v_poll watch_tick]; try lia.
      unfold watch_adc. destruct (m_adc _); cbn [v_poll]; lia.
Qed.

(** ** One event with interrupts inside *)
Record fwd (y : sys) (e : event) (y1 : sys) (w1 : watch) (y' : sys) : Prop := mkFwd {
  d_next : fnext C y e y';
  d_prog1 : fprog y1 w1;
  d_frame : frame y y1;
  d_pk : pk B y1 e y';
  d_same : e = EMeasure -> bare (y_meas y1) = bare (y_meas y);
  d_power : is_power e = false
}.
Lemma ev_frame y y1 e : plain e = false -> ev_ok C y1 e -> ev_ok C y e.
Proof. destruct e; try discriminate; intros _; cbn; auto. Qed.
Lemma fwd_ok y w e o y1 w1 y' : fprog y w -> path L lo hi C y w (map irq_event (concat o)) y1 w1 -> on_time L C y1 w1 e ->
  fwork C y e o = Some (y', []) -> fwd y e y1 w1 y'.
Proof.
  intros Pg D O E. destruct (irq_events y w _ y1 w1 Pg D) as (Pg1 & Fr & Fs & Pl). pose proof (fk_reach _ _ (fp_core _ _ Pg)) as R.
  destruct (fcore_ev y1 w1 e (fp_core _ _ Pg1) O) as (Oe & Pw). pose proof (fwork_fstep _ _ _ _ _ _ E) as Es.
  pose proof (fires_pj C _ _ _ Fs) as Pj. pose proof (freach_s4 C y HC R) as S4. destruct (f_handover C y HC R) as (Hh & _ & Hc).
  pose proof (i_now _ _ _ (s4_inv _ _ _ S4)) as In.
  destruct (plain e) eqn:Ple.
  - destruct (fwork_plain C y e o y' Ple E) as (-> & Ep). cbn in D. inversion D; subst. constructor; try assumption.
    + apply next_fnext; assumption.
    + eapply plain_pk; eassumption.
    + reflexivity.
  - assert (N : fnext C y e y') by (split; [apply (ev_frame y y1 e Ple Oe)|exists o; exact Es]).
    assert (Oth : tr (fwork C y e) y -> e <> EMeasure -> pk B y1 e y').
    { intros T Ne. destruct (T _ _ _ E) as (l & U & P). apply uses_all in U. subst l. rewrite <- Pj in P. apply pk_other; try (destruct e; discriminate); try assumption; try contradiction. }
    destruct e; try discriminate Ple.
    + cbn [fwork] in E. destruct (m_avail (y_meas y)) eqn:Av.
      * cbn [negb] in Hh. destruct (i_meas _ _ _ (s4_inv _ _ _ S4)) as ((c0 & c1 & Ech & _) & _).
        destruct (measure_tr C y o y' [] c0 c1 In Hh Av Hc Ech E) as (l & d1 & d2 & b & U & B1 & B2 & N' & A1 & A2 & A3 & A4 & A5 & A6 & A7).
        apply uses_all in U. subst l. unfold pj in Pj at 2. rewrite pfires_off in Pj by assumption. apply pj_inv in Pj. destruct Pj as (N1 & M1).
        assert (M1' := M1). apply bare_fields in M1'. destruct M1' as (D1 & D2 & D3 & D4 & D5 & D6 & D7).
        change (m_chan (bare (y_meas y))) with (m_chan (y_meas y)) in *.
        constructor; try assumption; [|intros _; exact M1].
        pose proof (fk_pos _ _ (fp_core _ _ Pg1)) as (_ & _ & Pp & _). pose proof (fk_pos _ _ (fp_core _ _ Pg)) as (_ & _ & Pp0 & _).
        destruct Fr as (_ & _ & _ & _ & _ & Fc).
        eapply (pk_result B y1 EMeasure y' c0 c1 (ticks (concat o) - d1) (ticks (concat o) - d2) b); try reflexivity; rewrite ?D1, ?D5, ?N1; try assumption; try lia; try congruence.
        rewrite A7. unfold barec.
        replace (u16 (u16 (y_now y + ticks (concat o)) - (ticks (concat o) - d1))) with (u16 (y_now y + d1)) by (unfold u16; clear; lia).
        replace (u16 (u16 (y_now y + ticks (concat o)) - (ticks (concat o) - d2))) with (u16 (y_now y + d2)) by (unfold u16; clear; lia). reflexivity.
      * unfold measure_work_f in E. cbv zeta in E. rewrite Av in E. apply ret_inv in E. destruct E as (E & Eo). subst o. cbn in D. inversion D; subst.
        constructor; try assumption; [|reflexivity]. apply pk_other; try discriminate; [auto|]. unfold pj. f_equal. destruct (y_meas y1). cbn in Av. subst. reflexivity.
    + constructor; try assumption; [|discriminate]. apply Oth; [apply menu_work_tr|discriminate].
    + constructor; try assumption; [|discriminate]. apply Oth; [apply buttons_work_tr|discriminate].
Qed.
Lemma fserved_fprog y w : fserved L lo hi C y w -> fprog y w.
Proof.
  intros D. induction D as [pinb y Hp E|y v pinb y' R N Ad|y w e o y1 w1 y' D IH Pa O E].
  - apply fprog_boot; [econstructor; eassumption|eapply boot_fresh; eassumption].
  - apply fprog_boot; [eapply freach_step; eassumption|eapply fpower_fresh; eassumption].
  - pose proof (fwd_ok y w e o y1 w1 y' IH Pa O E) as []. apply (state_fprog y' y1 y').
    eapply fprog_pk; try eassumption. eapply freach_step; [exact (fk_reach _ _ (fp_core _ _ IH))|exact d_next0].
Qed.
Lemma fserved_s4 y w : fserved L lo hi C y w -> sinv4 badj C y.
Proof.
  intros D. induction D as [pinb y Hp E|y v pinb y' R N Ad|y w e o y1 w1 y' D IH Pa O E].
  - apply s4_strict_badj. apply (reach1_s4 C y HC). econstructor; eassumption.
  - apply s4_relaxed_badj; [apply (freach_s4 C y' HC); eapply freach_step; eassumption|lia].
  - destruct (fwd_ok y w e o y1 w1 y' (fserved_fprog y w D) Pa O E). destruct (fnext_all badj C HC bok_badj y e y' IH d_next0) as (S1 & _).
    rewrite d_power0 in S1. exact S1.
Qed.
(** The state that the interrupts alone would have led to *)
Lemma path_fserved y w l y1 w1 : fserved L lo hi C y w -> path L lo hi C y w (map irq_event l) y1 w1 -> fserved L lo hi C y1 w1.
Proof.
  intros D P. remember (map irq_event l) as el eqn:El. revert l El. induction P as [y w|y w e el y1 y' w' O E P IH]; intros l El; [exact D|].
  destruct l as [|i l]; [discriminate El|]. cbn [map] in El. injection El as -> ->. apply (IH) with (l := l); [|reflexivity].
  eapply (fsrv_step L lo hi C y w (irq_event i) [] y w y1); [exact D|constructor|exact O|]. destruct i; cbn [irq_event fwork]; unfold lift; cbn [irq_event] in E; rewrite E; reflexivity.
Qed.
End FLive.
