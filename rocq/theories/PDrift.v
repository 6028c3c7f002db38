(** * The integral action of the temperature controller over many runs *)
From Coq Require Import ZArith List Bool Lia ZifyBool.
From Verif Require Import Base PBase MConf MUtil MFixpt MScale MRing MFilter MTimer MPid MPwm MTempMap MCurr MSens
  SpecNum SpecPid SpecSmall PNum PSmall PScale PPid SpecCurr PCurr MSettings SpecSettings PSettings PSysSet
  MSseg MDisplay MText MState MTemp MMeas MMenu MMain SpecDisplay SpecSys SpecRun SpecLive PSys PSysMeas PSysMenu PSysDisp PSysBtn
  PSysStep PSysRun PSysCC PSysSafe PSysProp PSysLog PSysWin PLive PLive2 SpecControl PControl PMem PControlEx PDemand PWarm PCool SpecDrift.
Import ListNotations.
Open Scope Z_scope.
Ltac Zify.zify_post_hook ::= Z.div_mod_to_equations.

Section Drift.
Variables (L : limits) (lo hi : Z) (C : conf) (W b vlo vhi : Z).
Hypothesis HC : build_conf C.
Hypothesis HL : limits_ok L.

Lemma track_served y w n : tracking L lo hi C W b y w n -> served L lo hi C y w.
Proof. intros D. induction D; [econstructor 1|econstructor 2|econstructor 3]; eassumption. Qed.

(** ** Results of the temperature channel are at least 55 ms apart *)
Definition spaced (y : sys) (w : watch) : Prop :=
  (m_avail (y_meas y) = true -> averaging_ms (m_chan (y_meas y)) <= v_age w) /\
  (m_chan (y_meas y) = 1 -> v_last w <> None -> v_age w + 5 <= v_temp w).
Lemma spaced_state y w y0 y1 : spaced y w -> spaced y (watch_state y0 y1 w).
Proof. intros H. exact H. Qed.
Lemma served_spaced y w : served L lo hi C y w -> spaced y w.
Proof.
  intros D. induction D as [pinb y Hp E|y v pinb y' R O E Ad|y w e y' D IH O E].
  - destruct (fresh_window C y (boot_fresh C pinb y HC E)) as (_ & _ & A3 & _). split; [rewrite A3; discriminate|]. intros _ Q. destruct Q. reflexivity.
  - destruct (fresh_window C y' (power_fresh C y v pinb y' HC R O E)) as (_ & _ & A3 & _). split; [rewrite A3; discriminate|]. intros _ Q. destruct Q. reflexivity.
  - change (watch_step lo hi y w e y') with (watch_state y y' (watch_ev lo hi y w e)). apply spaced_state.
    pose proof (served_prog L lo hi C HC HL y w D) as Pg. pose proof (p_core _ _ _ _ _ _ Pg) as K.
    pose proof (served_reach L lo hi C HC HL y w D) as R. destruct (served_ev L lo hi C HC HL y w e D O) as (Oe & P).
    pose proof (kinds L lo hi C HC HL y w e y' K O E) as Kd. destruct IH as (S1 & S2).
    pose proof (core_age L C y w K) as Ka. assert (Av : 5 <= averaging_ms (m_chan (y_meas y)) <= 50) by (unfold averaging_ms; destruct (_ =? 1); lia).
    pose proof (p_temp _ _ _ _ _ _ Pg) as (T0 & T1). destruct HL as (_ & _ & _ & _ & L5).
    destruct Kd as [(X & Ew)|[(raw & -> & Ea & (D1 & D2 & D3 & D4 & _) & Ew)|(Pn & (D1 & D2 & D3 & D4 & D5 & _) & [(-> & Ew)|(Ne & p & Ew)])]]; rewrite Ew; clear Ew.
    + destruct (sys_once C y e y' _ HC R X E) as (A1 & A2 & A3 & A4). pose proof X as (_ & Xa & _). unfold watch_poll. rewrite Xa.
      specialize (S1 Xa). destruct (sys_handover C y HC R) as (_ & _ & [Hc|Hc]); rewrite Hc in *; cbn [Z.eqb Pos.eqb].
      * split; [rewrite A1; discriminate|]. cbn [v_age v_temp v_last]. intros _ _. rewrite (T0 eq_refl). change (averaging_ms 0) with 5 in S1. lia.
      * split; [rewrite A1; discriminate|]. rewrite A4. cbn. discriminate.
    + unfold watch_adc. rewrite Ea. unfold spaced. cbn [v_age v_temp v_last]. rewrite D4. split; [|exact S2]. intros Q.
      destruct (sys_window_end C y (v_age w) raw y' HC (k_age _ _ _ _ K) Oe Ea E ltac:(lia)) as (H & _). rewrite H in Q. lia.
    + unfold spaced, watch_tick. cbn [v_age v_temp v_last]. rewrite D5. split.
      * intros Q. assert (m_avail (y_meas y) = true) by congruence. specialize (S1 H). lia.
      * intros Q1 Q2. specialize (S2 Q1 Q2). lia.
    + unfold spaced in *. cbn [v_age v_temp v_last with_poll]. rewrite D5. split; [|exact S2]. intros Q. apply S1. congruence.
Qed.

(** ** The temperature controller, for any property of its runs *)
Definition in_range (y : sys) : Prop :=
  forall c v, lo <= c <= hi -> temp_of_code C (s_adj (x_cache (y_set y))) c v -> vlo <= v <= vhi.
Hypothesis HV : -20 * 64 <= vlo <= vhi /\ vhi <= 500 * 64.
Variables (LV : Z -> Z -> Prop) (PE : Z -> Prop) (OUT : Z -> Z -> Prop).
Hypothesis H0 : forall i, -1920 <= i <= 5120 -> LV 0 i.
Hypothesis HS : forall k_p k_i k_d I0 E0 dt r out I1 E1, 96 <= k_p -> 19 <= k_i -> 0 <= k_d -> 0 <= W <= 30975 -> vlo <= r <= vhi ->
  Z.abs E0 <= 32768 -> -1920 <= I0 <= 5120 ->
  pid_step k_p k_i k_d 128 (-30 * 64) (80 * 64) 0 (480 * 64) W I0 E0 dt r out I1 E1 ->
  PE E1 /\ forall k a, 0 <= k -> LV k I0 -> PE E0 -> 4 <= dt -> (out <= 250 * 64 -> nearest_away out 5 a) -> (250 * 64 <= out -> a = 5 * 640) ->
    LV (k + 1) I1 /\ OUT (k + 1) (if 480 * 64 <? r then 0 else a).
Definition good (y : sys) (w : watch) (n : Z) : Prop :=
  0 <= n /\ forall k, 0 <= k ->
  v_temp w + k * slow_cycle L < n -> v_temp w + k * slow_cycle L < v_calm w -> v_temp w + k * slow_cycle L + slow_window L < v_steady w -> in_range y ->
  (PE (p_prev_e (t_pid (y_ct y))) /\ LV k (p_integr (t_pid (y_ct y))) /\ t_emerg (y_ct y) = false /\ t_dt (y_ct y) = u16 (y_now y - v_temp w)) /\
  (1 <= k -> OUT k (p_setpoint (cc_pid (y_cc y)))).

Lemma keen_inv y : keen C W b y = true ->
  wanted_setpoint (x_cache (y_set y)) (c_idle C && t_idle (y_ct y)) = W /\ t_boost (y_ct y) = b /\
  96 <= kp (used_gains C y) /\ 19 <= ki (used_gains C y) /\ 0 <= kd (used_gains C y).
Proof. unfold keen. lia. Qed.
Lemma pid_range y : reach C y -> Z.abs (p_prev_e (t_pid (y_ct y))) <= 32768 /\ -1920 <= p_integr (t_pid (y_ct y)) <= 5120.
Proof.
  intros R. destruct (i_ct _ _ _ (s4_inv _ _ _ (reach_s4 C y HC R))) as (_ & _ & _ & Be & Bi & _). split; assumption.
Qed.
(** A result of the temperature channel. *)
Lemma drift_result y w n e y' : served L lo hi C y w -> good y w n -> result y e 1 -> on_time L C y w e -> step C y e = Some y' ->
  keen C W b y = true -> t_enabled (y_ct y) = true -> 0 < v_calm w ->
  s_adj (x_cache (y_set y')) = s_adj (x_cache (y_set y)) -> slow_window L < v_steady (watch_step lo hi y w e y') -> in_range y' ->
  forall k, 0 <= k -> k * slow_cycle L < n -> k * slow_cycle L < v_calm w -> k * slow_cycle L + slow_window L < v_steady w ->
  (PE (p_prev_e (t_pid (y_ct y'))) /\ LV k (p_integr (t_pid (y_ct y'))) /\ t_emerg (y_ct y') = false /\ t_dt (y_ct y') = u16 (y_now y' - 0)) /\
  (1 <= k -> OUT k (p_setpoint (cc_pid (y_cc y')))).
Proof.
  intros D (Gn & G1) X O E Eg En Ca Ea St Rg k Hk H1 H2 H3.
  pose proof (served_reach L lo hi C HC HL y w D) as R. destruct (served_ev L lo hi C HC HL y w e D O) as (Oe & P).
  assert (D' : served L lo hi C y' (watch_step lo hi y w e y')) by (econstructor; eassumption).
  pose proof (served_reach L lo hi C HC HL y' _ D') as R'.
  assert (Xe : e = EMeasure) by apply X. subst e.
  destruct (moves L lo hi C HC HL y w EMeasure y' D O E) as [(_ & M1 & M2 & M3 & M4)|[((_ & _ & X0) & _)|[(Q & _)|(Q & _)]]];
    [|destruct X as (_ & _ & X); congruence|discriminate Q|destruct (Q 1 X)].
  pose proof (p_last _ _ _ _ _ _ (served_prog L lo hi C HC HL y' _ D')) as La. rewrite M1, M2 in La. specialize (La St).
  destruct (code_temp C (s_adj (x_cache (y_set y))) (mean_code y)) as (v & Tv).
  assert (Bv : vlo <= v <= vhi) by (apply (Rg (mean_code y) v La); rewrite Ea; exact Tv).
  pose proof (good_processed C y EMeasure y' v HC R X En E Tv ltac:(lia)) as Tp.
  destruct (temp_law_dt C y EMeasure y' v HC R Tp E) as (dt & out & a & Ps & Ed & A1 & A2 & A3).
  destruct (keen_inv y Eg) as (Ew & _ & K1 & K2 & K3). pose proof (set_range C HC y R) as Bw. rewrite Ew in *.
  destruct (pid_range y R) as (Bp & Bi). destruct (pid_range y' R') as (_ & Bi').
  pose proof Tp as (_ & _ & X3 & _ & Em & Ef).
  assert (Hn : y_now y' = y_now y /\ t_dt (y_ct y') = y_now y).
  { pose proof X as (_ & X2 & _). destruct (step_pending relaxed C y EMeasure y' HC bok_relaxed (reach_s4 C y HC R) X2 E) as (c0 & c1 & raw & _ & _ & _ & (Fn & _) & _ & _ & _ & _ & Ht & _).
    destruct (Ht X3) as (c1' & v0 & v' & p & _ & _ & _ & (_ & _ & _ & _ & _ & _ & _ & _ & _ & Td & _) & _). rewrite Td, En, Em. cbn. auto. }
  destruct Hn as (Hn1 & Hn2).
  pose proof (i_now _ _ _ (s4_inv _ _ _ (reach_s4 C y HC R))) as Bn. unfold is_u16 in Bn.
  destruct (HS _ _ _ _ _ _ _ _ _ _ K1 K2 K3 Bw Bv Bp Bi Ps) as (Pe & Nx).
  assert (Dt : t_dt (y_ct y') = u16 (y_now y' - 0)).
  { rewrite Hn1, Hn2, Z.sub_0_r. unfold u16. rewrite Z.mod_small by lia. reflexivity. }
  destruct (Z.eq_dec k 0) as [->|Nk].
  - split; [|lia]. split; [exact Pe|]. split; [apply H0; exact Bi'|]. split; [exact Em|exact Dt].
  - pose proof (served_prog L lo hi C HC HL y w D) as Pg. pose proof (prog_temp L lo hi C HC HL y w Pg) as Tb.
    assert (Rg0 : in_range y) by (intros c x Bc Tx; apply (Rg c x Bc); rewrite Ea; exact Tx).
    destruct (G1 (k - 1) ltac:(lia)) as ((P0 & V0 & _ & T0) & _); [lia|lia|lia|exact Rg0|].
    destruct (served_spaced y w D) as (S1 & S2). pose proof X as (_ & X2 & _). specialize (S1 X2). rewrite X3 in S1. change (averaging_ms 1) with 50 in S1.
    pose proof (slow_pos L HL) as Sp.
    assert (Nl : v_last w <> None).
    { intros Q. pose proof (p_last _ _ _ _ _ _ Pg) as Lp. rewrite Q in Lp. assert (slow_cycle L <= k * slow_cycle L) by (clear - Sp Nk Hk; nia). lia. }
    specialize (S2 X3 Nl).
    destruct (clock_dt (y_now y) (v_temp w) Bn ltac:(lia)) as (dt' & Ed' & Mq & Bd). rewrite T0, Ed' in Ed. apply Some_inj in Ed. subst dt'.
    destruct (Nx (k - 1) a ltac:(lia) V0 P0) as (V1 & O1); [unfold ms_to_q6 in Mq; lia|exact A1|exact A2|].
    replace (k - 1 + 1) with k in * by lia. rewrite A3. auto 10.
Qed.
Lemma track_good y w n : tracking L lo hi C W b y w n -> good y w n.
Proof.
  intros D. pose proof (slow_pos L HL) as Sp.
  assert (Kp : forall k, 0 <= k -> 0 <= k * slow_cycle L) by (intros; apply Z.mul_nonneg_nonneg; lia).
  induction D as [pinb y Hp E|y v pinb y' R O E Ad|y w n e y' D IH O E].
  - unfold good. cbn [v_temp v_calm watch_zero]. split; [lia|]. intros k Hk. specialize (Kp k Hk). lia.
  - unfold good. cbn [v_temp v_calm watch_zero]. split; [lia|]. intros k Hk. specialize (Kp k Hk). lia.
  - pose proof (track_served y w n D) as S. pose proof (served_reach L lo hi C HC HL y w S) as R. destruct (served_ev L lo hi C HC HL y w e S O) as (Oe & P).
    pose proof IH as (Gn & G1).
    pose proof (served_prog L lo hi C HC HL y w S) as Pg. pose proof (p_steady _ _ _ _ _ _ Pg) as Sb.
    assert (Tp0 : 0 <= v_temp w).
    { destruct (p_temp _ _ _ _ _ _ Pg) as (_ & T1). destruct (k_pos _ _ _ _ (p_core _ _ _ _ _ _ Pg)) as (K0 & _). lia. }
    set (n' := if keen C W b y && keen C W b y' then n + match e with ETick => 1 | _ => 0 end else 0).
    assert (Hn : 0 < n' -> keen C W b y = true /\ keen C W b y' = true /\ n' = n + match e with ETick => 1 | _ => 0 end).
    { unfold n'. destruct (keen C W b y); [|cbn; lia]. destruct (keen C W b y'); cbn [andb]; [auto|lia]. }
    assert (Gn' : 0 <= n') by (unfold n'; destruct (_ && _); destruct e; lia). clearbody n'.
    pose proof (calm_move lo hi y w e y') as Cm. pose proof (calm_on lo hi y w e y') as Cn.
    assert (Rr : in_range y' -> s_adj (x_cache (y_set y')) = s_adj (x_cache (y_set y)) -> in_range y) by (intros Rg Ea c x Bc Tx; apply (Rg c x Bc); rewrite Ea; exact Tx).
    assert (Wr := drift_result y w n e y' S IH).
    pose proof (moves L lo hi C HC HL y w e y' S O E) as M. cbv zeta in M. set (w' := watch_step lo hi y w e y') in *. clearbody w'.
    split; [exact Gn'|]. intros k Hk H1 H2 H3 Rg. pose proof (Kp k Hk) as Bk. set (kk := k * slow_cycle L) in *.
    destruct M as [(X & _ & M2 & M3 & M4)|M].
    + assert (e = EMeasure) by apply X. subst e. rewrite M2, M4 in *. destruct (Hn ltac:(lia)) as (Eg & _ & En). destruct (Cm ltac:(lia)) as (On & Ea & Ec).
      apply Wr; try assumption; fold kk; lia.
    + assert (N1 : ~ result y e 1).
      { destruct M as [((_ & _ & X0) & _)|[(-> & _)|(Q & _)]]; [intros (_ & _ & Z); congruence|intros (Z & _); discriminate Z|apply Q]. }
      assert (Np : forall r, ~ temp_processed y e y' r) by (intros r (Z1 & Z2 & Z3 & _); apply N1; repeat split; assumption).
      set (d := match e with ETick => 1 | _ => 0 end) in *.
      assert (Mt : v_temp w' = v_temp w + d /\ (v_steady w' <= v_steady w + d \/ v_steady w' = 0)).
      { unfold d. destruct M as [((-> & _) & _ & M2 & _ & M4)|[(-> & _ & M2 & _ & M4)|(_ & Ne & _ & M2 & _ & M4)]]; try (destruct e; try congruence); lia. }
      destruct Mt as (M2 & M4).
      assert (Bd : 0 <= d <= 1) by (unfold d; destruct e; lia).
      assert (K : t_enabled (y_ct y) = true -> t_enabled (y_ct y') = true ->
        t_emerg (y_ct y') = t_emerg (y_ct y) /\ t_dt (y_ct y') = t_dt (y_ct y) /\ y_now y' = u16 (y_now y + d)).
      { intros En En'. pose proof (reach_s4 C y HC R) as S4. pose proof (i_now _ _ _ (s4_inv _ _ _ S4)) as Bn. unfold is_u16 in Bn.
        destruct (pending y e) eqn:Pn.
        - destruct (pending_cases _ _ _ _ (s4_inv _ _ _ S4) Pn) as [(X1 & X2 & X3)|X]; [|destruct (N1 X)].
          destruct (step_pending relaxed C y e y' HC bok_relaxed S4 Pn E) as (c0 & c1 & raw & _ & _ & _ & (Fn & _) & _ & _ & _ & _ & _ & Hcc).
          destruct (Hcc X3) as (c0' & v & v' & p & _ & _ & (Ec & _) & _). rewrite Ec, Fn. unfold d. rewrite X1. split; [reflexivity|]. split; [reflexivity|].
          rewrite Z.add_0_r. unfold u16. rewrite Z.mod_small by lia. reflexivity.
        - destruct (step_calm relaxed C y e y' HC bok_relaxed S4 Oe P Pn E) as (A1 & _ & _ & _ & _ & A2 & _).
          destruct (event_d C y e y' HC R Oe P Pn E En En') as (_ & A3). split; [exact A2|]. split; [exact A3|]. rewrite A1. unfold d.
          destruct e; try (rewrite Z.add_0_r; unfold u16; rewrite Z.mod_small by lia); reflexivity. }
      destruct (Hn ltac:(lia)) as (Eg & Eg' & En). destruct (Cm ltac:(lia)) as (On & Ea & Ec). specialize (Cn ltac:(lia)).
      destruct (K On Cn) as (K1 & K2 & K3). pose proof (Rr Rg Ea) as Rg0.
      destruct (G1 k Hk) as ((A1 & A2 & A3 & A4) & A5); [fold kk; lia|fold kk; lia|fold kk; lia|exact Rg0|].
      destruct (keen_inv y Eg) as (_ & B1 & _). destruct (keen_inv y' Eg') as (_ & B2 & _).
      assert (Mm : memory (t_pid (y_ct y')) = memory (t_pid (y_ct y))).
      { destruct (temp_memory C y e y' HC R Oe P E Np) as ([Mm|Mm] & Ch & _); [exact Mm|].
        assert (De : memory (t_pid (y_ct y')) = memory (t_pid (y_ct y)) \/ memory (t_pid (y_ct y')) <> memory (t_pid (y_ct y))).
        { destruct (memory (t_pid (y_ct y'))) as (a1 & a2). destruct (memory (t_pid (y_ct y))) as (b1 & b2). destruct (Z.eq_dec a1 b1); [|right; congruence].
          destruct (Z.eq_dec a2 b2); [left|right]; congruence. }
        destruct De as [De|De]; [exact De|]. destruct (Ch De On) as [Q|Q]; congruence. }
      unfold memory in Mm. injection Mm; intros Q1 Q2. rewrite Q1, Q2, K1, K2, K3, M2.
      split; [split; [exact A1|split; [exact A2|split; [exact A3|rewrite A4; clear; unfold u16; lia]]]|].
      intros Hk1. rewrite (demand_kept C y e y' HC R Oe P E) by (intros (r & Z); exact (Np r Z)). rewrite Cn, K1, A3. cbn. exact (A5 Hk1).
Qed.
Lemma track_demand y w n k : tracking L lo hi C W b y w n -> in_range y -> 1 <= k ->
  (k + 1) * slow_cycle L < n -> (k + 1) * slow_cycle L < v_calm w -> (k + 1) * slow_cycle L + slow_window L < v_steady w ->
  OUT k (p_setpoint (cc_pid (y_cc y))).
Proof.
  intros D Rg Hk H1 H2 H3. destruct (track_good y w n D) as (_ & G).
  pose proof (prog_temp L lo hi C HC HL y w (served_prog L lo hi C HC HL y w (track_served y w n D))). apply (G k); try assumption; lia.
Qed.
End Drift.
