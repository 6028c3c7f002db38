(** * Executions with bounded delays: progress of the measurement and reaction times *)
From Coq Require Import ZArith List Bool Lia ZifyBool.
From Verif Require Import Base PBase MConf MUtil MFixpt MScale MRing MFilter MTimer MPid MPwm MTempMap MCurr MSens
  SpecNum SpecPid SpecSmall PNum PSmall PScale PPid SpecCurr PCurr MSettings SpecSettings PSettings PSysSet
  MSseg MDisplay MText MState MTemp MMeas MMenu MMain SpecDisplay SpecSys SpecRun SpecLive PSys PSysMeas PSysMenu PSysDisp PSysBtn
  PSysStep PSysRun PSysCC PSysSafe PSysLog PSysWin.
Import ListNotations.
Open Scope Z_scope.
Ltac Zify.zify_post_hook ::= Z.div_mod_to_equations.

Definition badj : bnds := mkB 6399 767 30975 (-6336) 6336.
Lemma bok_badj : bok badj. Proof. split; unfold le_b; cbn; lia. Qed.
Lemma s4_strict_badj C y : sinv4 strict C y -> sinv4 badj C y.
Proof.
  intros [I Ro H S]. constructor; try assumption. destruct I. constructor; try assumption.
  destruct i_set as (X1 & X2 & X3). split; [exact X1|]. split; [|exact X3]. eapply rng_le; [|exact X2]. unfold le_b; cbn; lia.
Qed.
Lemma s4_relaxed_badj C y : sinv4 relaxed C y -> -6336 <= s_adj (x_cache (y_set y)) <= 6336 -> sinv4 badj C y.
Proof.
  intros [I Ro H S] A. constructor; try assumption. destruct I. constructor; try assumption.
  destruct i_set as (X1 & X2 & X3). split; [exact X1|]. split; [|exact X3].
  destruct X2 as (Y1&Y2&Y3&Y4&Y5&Y6&Y7). split; [exact Y1|]. split; [exact Y2|]. split; [exact Y3|]. split; [exact Y4|]. split; [exact A|]. auto.
Qed.
Lemma s4_adj C y : sinv4 badj C y -> -6336 <= s_adj (x_cache (y_set y)) <= 6336.
Proof. intros S. destruct (i_set _ _ _ (s4_inv _ _ _ S)) as (_ & (_&_&_&_&A&_) & _). exact A. Qed.

Section Live.
Variables (L : limits) (lo hi : Z) (C : conf).
Hypothesis HC : build_conf C.
Hypothesis HL : limits_ok L.
Let A := l_sample L.
Let B := l_poll L.
Let F := l_rate L.

Record core (y : sys) (w : watch) : Prop := mkCore {
  k_reach : reach C y;
  k_age : window_age C y (v_age w);
  k_pos : 0 <= v_age w /\ 0 <= v_sample w /\ 0 <= v_poll w <= B /\ 0 <= v_conv w <= F;
  k_open : m_adc (y_meas y) = true -> v_sample w <= A /\ v_age w - v_sample w < averaging_ms (m_chan (y_meas y));
  k_full : m_adc (y_meas y) = false -> v_age w < averaging_ms (m_chan (y_meas y)) + A + v_poll w;
  k_count : m_count (y_meas y) <= F * v_age w + v_conv w
}.
Lemma core_age y w : core y w -> v_age w <= averaging_ms (m_chan (y_meas y)) + A + B.
Proof.
  intros K. destruct (m_adc (y_meas y)) eqn:E; [pose proof (k_open _ _ K E)|pose proof (k_full _ _ K E)]; pose proof (k_pos _ _ K); lia.
Qed.
Lemma avg_le c : 5 <= averaging_ms c <= 50.
Proof. unfold averaging_ms. destruct (c =? 1); lia. Qed.
Lemma core_slow y w : core y w -> v_age w <= slow_window L.
Proof. intros K. pose proof (core_age y w K). pose proof (avg_le (m_chan (y_meas y))). unfold slow_window. fold A B. lia. Qed.
Lemma core_ev y w e : core y w -> on_time L C y w e -> ev_ok C y e /\ is_power e = false.
Proof.
  intros K O. destruct e; cbn [on_time ev_ok is_power] in *; try (split; [exact O|reflexivity]); [split; [exact I|reflexivity]| |destruct O].
  split; [|reflexivity]. split; [apply O|]. pose proof (k_count _ _ K). pose proof (core_slow _ _ K) as S. pose proof (k_pos _ _ K) as (P1 & _ & _ & P2 & P3).
  destruct HL as (_ & _ & Hf & Hm & _). fold F A B in Hf, Hm. unfold slow_window in S. fold A B in S.
  assert (F * v_age w <= F * (50 + A + B)) by (apply Z.mul_le_mono_nonneg_l; lia). lia.
Qed.
Lemma core_boot y : reach C y -> fresh C y -> window_age C y 0 -> core y watch_zero.
Proof.
  intros R Fr W. destruct (fresh_window C y Fr) as (_ & A2 & A3 & A4 & _). destruct (sys_handover C y HC R) as (H & _). rewrite A3 in H. cbn in H.
  destruct HL as (L1 & L2 & L3 & _). fold A B F in L1, L2, L3. constructor; cbn; try assumption; try lia; rewrite ?A4; unfold averaging_ms; cbn; intros; try congruence; lia.
Qed.
Lemma state_core y y0 y1 w : core y w -> core y (watch_state y0 y1 w).
Proof. intros []. constructor; assumption. Qed.
Definition watch_ev (y : sys) (w : watch) (e : event) : watch :=
  match e with
  | ETick => watch_tick w
  | EAdc raw => watch_adc lo hi y w raw
  | EMeasure => watch_poll y w
  | _ => w
  end.
Lemma core_step y w e y' : core y w -> on_time L C y w e -> step C y e = Some y' -> core y' (watch_ev y w e).
Proof.
  intros K O E. destruct (core_ev y w e K O) as (Oe & P). assert (R' : reach C y') by (econstructor; [apply (k_reach _ _ K)|exact Oe|exact E]).
  destruct HL as (L1 & L2 & L3 & _ & L5). fold A B F in L1, L2, L3, L5. pose proof (avg_le (m_chan (y_meas y))) as Av.
  destruct (sys_handover C y HC (k_reach _ _ K)) as (H & _ & Hc). destruct (sys_handover C y' HC R') as (H' & _).
  pose proof (core_age _ _ K) as Ka. destruct K as [R W (P1 & P2 & P3 & P4) Ko Kf Kc].
  destruct (pending y e) eqn:Pn.
  - pose proof (pending_result y e Pn) as X. destruct (sys_once C y e y' _ HC R X E) as (A1 & A2 & A3 & A4).
    destruct e; try discriminate Pn. cbn [pending] in Pn. cbn [watch_ev]. unfold watch_poll. rewrite Pn. rewrite A1 in H'. cbn in H'.
    assert (W' : window_age C y' 0) by (eapply wa_result; eassumption). pose proof (avg_le (m_chan (y_meas y'))) as Av'.
    destruct (m_chan (y_meas y) =? 1); constructor; cbn; try assumption; try lia; intros; congruence || lia.
  - pose proof (step_window C y e y' HC R Oe P Pn E) as D.
    destruct D as [(raw & -> & Ea & (_ & D2 & D3 & D4 & _))|(Na & D1 & D2 & D3 & D4 & D5 & D6)].
    + assert (W' : window_age C y' (v_age w)).
      { eapply wa_other; [exact W|exact Oe|exact E|reflexivity|discriminate|]. intros c X. apply result_pending in X. discriminate X. }
      destruct (sys_window_end C y (v_age w) raw y' HC W Oe Ea E) as (G1 & G2); [lia|].
      specialize (Ko Ea). cbn [on_time] in O. destruct O as (_ & O). specialize (O Ea). fold F in O.
      cbn [watch_ev]. unfold watch_adc. rewrite Ea. constructor; cbn; rewrite ?D4, ?G2, ?D2; try assumption; try lia.
    + destruct e as [| | | | | | | | |]; cbn [watch_ev].
      * (* tick *)
        cbn [on_time] in O. fold A B in O.
        assert (W' : window_age C y' (v_age w + 1)) by (eapply wa_tick; eassumption).
        constructor; cbn; rewrite ?D5, ?D4, ?D2; try assumption; try lia.
        intros Q. specialize (Ko Q). destruct O as (O & _). specialize (O Q). lia.
      * (* a conversion while the converter is off *)
        pose proof (Na raw eq_refl) as Ea. unfold watch_adc. rewrite Ea.
        assert (W' : window_age C y' (v_age w)).
        { eapply wa_other; [exact W|exact Oe|exact E|reflexivity|discriminate|]. intros c X. apply result_pending in X. discriminate X. }
        constructor; rewrite ?D5, ?D4, ?D2; try assumption; lia.
      * assert (W' : window_age C y' (v_age w)).
        { eapply wa_other; [exact W|exact Oe|exact E|reflexivity|discriminate|]. intros c X. apply result_pending in X. discriminate X. }
        constructor; rewrite ?D5, ?D4, ?D2; try assumption; lia.
      * assert (W' : window_age C y' (v_age w)).
        { eapply wa_other; [exact W|exact Oe|exact E|reflexivity|discriminate|]. intros c X. apply result_pending in X. discriminate X. }
        constructor; rewrite ?D5, ?D4, ?D2; try assumption; lia.
      * cbn [pending] in Pn. unfold watch_poll. rewrite Pn.
        assert (W' : window_age C y' (v_age w)).
        { eapply wa_other; [exact W|exact Oe|exact E|reflexivity|discriminate|]. intros c X. apply result_pending in X. cbn in X. congruence. }
        rewrite Pn in H. cbn in H. constructor; cbn; rewrite ?D5, ?D4, ?D2; try assumption; try lia; intros; congruence.
      * assert (W' : window_age C y' (v_age w)).
        { eapply wa_other; [exact W|exact Oe|exact E|reflexivity|discriminate|]. intros c X. apply result_pending in X. discriminate X. }
        constructor; rewrite ?D5, ?D4, ?D2; try assumption; lia.
      * assert (W' : window_age C y' (v_age w)).
        { eapply wa_other; [exact W|exact Oe|exact E|reflexivity|discriminate|]. intros c X. apply result_pending in X. discriminate X. }
        constructor; rewrite ?D5, ?D4, ?D2; try assumption; lia.
      * assert (W' : window_age C y' (v_age w)).
        { eapply wa_other; [exact W|exact Oe|exact E|reflexivity|discriminate|]. intros c X. apply result_pending in X. discriminate X. }
        constructor; rewrite ?D5, ?D4, ?D2; try assumption; lia.
      * assert (W' : window_age C y' (v_age w)).
        { eapply wa_other; [exact W|exact Oe|exact E|reflexivity|discriminate|]. intros c X. apply result_pending in X. discriminate X. }
        constructor; rewrite ?D5, ?D4, ?D2; try assumption; lia.
      * discriminate P.
Qed.

(** The four kinds of events as seen by the stopwatches. *)
Definition with_poll (w : watch) (p : Z) : watch :=
  mkWatch (v_age w) (v_sample w) p (v_conv w) (v_temp w) (v_curr w) (v_last w) (v_steady w) (v_calm w) (v_failed w).
Lemma kinds y w e y' : core y w -> on_time L C y w e -> step C y e = Some y' ->
  (result y e (m_chan (y_meas y)) /\ watch_ev y w e = watch_poll y w) \/
  (exists raw, e = EAdc raw /\ m_adc (y_meas y) = true /\ sampled y raw y' /\ watch_ev y w e = watch_adc lo hi y w raw) \/
  (pending y e = false /\ same_window (y_meas y) (y_meas y') /\
   (e = ETick /\ watch_ev y w e = watch_tick w \/ e <> ETick /\ exists p, watch_ev y w e = with_poll w p)).
Proof.
  intros K O E. destruct (core_ev y w e K O) as (Oe & P). destruct (pending y e) eqn:Pn.
  - left. pose proof (pending_result y e Pn) as X. split; [exact X|]. destruct X as (-> & _). reflexivity.
  - right. destruct (step_window C y e y' HC (k_reach _ _ K) Oe P Pn E) as [(raw & -> & Ea & D)|(Na & D)].
    + left. exists raw. auto.
    + right. split; [reflexivity|]. split; [exact D|]. assert (Id : exists p, w = with_poll w p) by (exists (v_poll w); destruct w; reflexivity).
      destruct e; try (right; split; [discriminate|exact Id]); cbn [watch_ev].
      * left. auto.
      * right. split; [discriminate|]. unfold watch_adc. rewrite (Na raw eq_refl). exact Id.
      * right. split; [discriminate|]. unfold watch_poll. cbn in Pn. rewrite Pn. exists 0. reflexivity.
Qed.

(** ** C68: progress *)
Record prog (y : sys) (w : watch) : Prop := mkProg {
  p_core : core y w;
  p_temp : (m_chan (y_meas y) = 0 -> v_temp w = v_age w) /\ v_age w <= v_temp w <= v_age w + 5 + A + B;
  p_curr : 0 <= v_curr w <= v_age w + 50 + A + B /\ (m_chan (y_meas y) = 1 -> v_curr w <= v_age w);
  p_steady : 0 <= v_steady w;
  p_window : m_chan (y_meas y) = 1 -> v_age w < v_steady w ->
    lo * m_count (y_meas y) <= m_sum (y_meas y) <= hi * m_count (y_meas y);
  p_last : match v_last w with
           | None => v_steady w <= v_temp w
           | Some c => v_temp w + slow_window L < v_steady w -> lo <= c <= hi
           end
}.
Lemma prog_temp y w : prog y w -> v_temp w <= slow_cycle L.
Proof.
  intros Pg. pose proof (core_age _ _ (p_core _ _ Pg)) as K. destruct (p_temp _ _ Pg) as (T0 & T1).
  destruct (sys_handover C y HC (k_reach _ _ (p_core _ _ Pg))) as (_ & _ & [Hc|Hc]); rewrite Hc in K; (change (averaging_ms 0) with 5 in K || change (averaging_ms 1) with 50 in K);
    unfold slow_cycle; fold A B; [specialize (T0 Hc)|]; destruct HL as (L1 & L2 & _); fold A B in L1, L2; lia.
Qed.
Lemma prog_curr y w : prog y w -> v_curr w <= slow_cycle L.
Proof.
  intros Pg. pose proof (core_age _ _ (p_core _ _ Pg)) as K. destruct (p_curr _ _ Pg) as (T0 & T1).
  destruct (sys_handover C y HC (k_reach _ _ (p_core _ _ Pg))) as (_ & _ & [Hc|Hc]); rewrite Hc in K; (change (averaging_ms 0) with 5 in K || change (averaging_ms 1) with 50 in K);
    unfold slow_cycle; fold A B; [|specialize (T1 Hc)]; destruct HL as (L1 & L2 & _); fold A B in L1, L2; lia.
Qed.
Lemma prog_boot y : reach C y -> fresh C y -> window_age C y 0 -> prog y watch_zero.
Proof.
  intros R Fr W. pose proof (core_boot y R Fr W) as K. destruct HL as (L1 & L2 & _). fold A B in L1, L2.
  constructor; cbn [v_age v_temp v_curr v_last v_steady watch_zero watch_tick with_poll]; try assumption; try lia.
Qed.
Lemma mean_between s c : 0 < c -> lo * c <= s <= hi * c -> lo <= s / c <= hi.
Proof. intros Hc H. split; [apply Z.div_le_lower_bound; lia|apply Z.div_le_upper_bound; lia]. Qed.
Lemma prog_step y w e y' : prog y w -> on_time L C y w e -> step C y e = Some y' -> prog y' (watch_ev y w e).
Proof.
  intros Pg O E. pose proof (core_step y w e y' (p_core _ _ Pg) O E) as K'. pose proof (kinds y w e y' (p_core _ _ Pg) O E) as D.
  pose proof (core_age _ _ (p_core _ _ Pg)) as Ka. pose proof (core_slow _ _ (p_core _ _ Pg)) as Ks.
  destruct (k_pos _ _ (p_core _ _ Pg)) as (P1 & _). pose proof (k_reach _ _ (p_core _ _ Pg)) as R.
  destruct HL as (L1 & L2 & _). fold A B in L1, L2. destruct (sys_handover C y HC R) as (_ & Hn & Hc).
  destruct Pg as [K (T0 & T1) (U0 & U1) S0 Sw La].
  destruct D as [(X & Ew)|[(raw & -> & Ea & (D1 & D2 & D3 & D4 & _) & Ew)|(Pn & (D1 & D2 & D3 & D4 & D5 & _) & [(-> & Ew)|(Ne & p & Ew)])]];
    rewrite Ew in *; clear Ew.
  - destruct (sys_once C y e y' _ HC R X E) as (A1 & A2 & A3 & A4). assert (X' := X). destruct X' as (_ & Av & _).
    specialize (Hn Av). unfold watch_poll in *. rewrite Av in *. destruct Hc as [Hc|Hc]; rewrite Hc in *; cbn [Z.eqb Z.sub Z.opp Z.add Pos.eqb Z.pos_sub] in *.
    + change (averaging_ms 0) with 5 in Ka. constructor; cbn [v_age v_temp v_curr v_last v_steady]; rewrite ?A4, ?A2, ?A3; try assumption; try lia.
    + change (averaging_ms 1) with 50 in Ka. constructor; cbn [v_age v_temp v_curr v_last v_steady]; rewrite ?A4, ?A2, ?A3; try assumption; try lia.
      intros Q. unfold mean_code. apply mean_between; [exact Hn|]. apply Sw; [reflexivity|lia].
  - cbn [on_time] in O. destruct O as (Br & _). unfold watch_adc in *. rewrite Ea in *. constructor; cbn [v_age v_temp v_curr v_last v_steady watch_zero watch_tick with_poll]; rewrite ?D4; try assumption; try lia.
    + destruct (_ && _); lia.
    + intros Q. rewrite Q in *. cbn [Z.eqb Pos.eqb andb]. rewrite D1, D2. destruct ((lo <=? raw) && (raw <=? hi)) eqn:Rg; cbn [negb]; [|lia].
      intros Sa. specialize (Sw eq_refl Sa). lia.
    + destruct (v_last w); destruct (_ && _); cbn; try lia; auto.
  - constructor; cbn [v_age v_temp v_curr v_last v_steady watch_zero watch_tick with_poll]; rewrite ?D5, ?D1, ?D2; try assumption; try lia.
    destruct (v_last w); lia.
  - constructor; cbn [v_age v_temp v_curr v_last v_steady watch_zero watch_tick with_poll]; rewrite ?D5, ?D1, ?D2; first [assumption | split; assumption].
Qed.
Lemma state_prog y y0 y1 w : prog y w -> prog y (watch_state y0 y1 w).
Proof. intros []. constructor; [apply state_core|..]; assumption. Qed.
Lemma served_prog y w : served L lo hi C y w -> prog y w.
Proof.
  intros D. induction D as [pinb y Hp E|y v pinb y' R O E Ad|y w e y' D IH O E].
  - apply prog_boot.
    + econstructor; eassumption.
    + eapply boot_fresh; eassumption.
    + econstructor; eassumption.
  - assert (R' : reach C y') by (econstructor; eassumption). apply prog_boot.
    + exact R'.
    + exact (power_fresh C y v pinb y' HC R O E).
    + exact (wa_power C y v pinb y' R O E).
  - apply state_prog. eapply prog_step; eassumption.
Qed.
Lemma served_s4 y w : served L lo hi C y w -> sinv4 badj C y.
Proof.
  intros D. induction D as [pinb y Hp E|y v pinb y' R O E Ad|y w e y' D IH O E].
  - apply s4_strict_badj. apply (reach1_s4 C y HC). econstructor; eassumption.
  - apply s4_relaxed_badj; [apply (reach_s4 C y' HC); econstructor; eassumption|lia].
  - destruct (core_ev y w e (p_core _ _ (served_prog y w D)) O) as (Oe & P).
    destruct (step_ok badj C y e HC bok_badj IH Oe) as (y1 & E1 & S1). rewrite E in E1. apply Some_inj in E1. subst y1. rewrite P in S1. exact S1.
Qed.
End Live.
