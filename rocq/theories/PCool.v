(** * An iron hotter than its set-point is not heated *)
From Coq Require Import ZArith List Bool Lia ZifyBool.
From Verif Require Import Base PBase MConf MUtil MFixpt MScale MRing MFilter MTimer MPid MPwm MTempMap MCurr MSens
  SpecNum SpecPid SpecSmall PNum PSmall PScale PPid SpecCurr PCurr MSettings SpecSettings PSettings PSysSet
  MSseg MDisplay MText MState MTemp MMeas MMenu MMain SpecDisplay SpecSys SpecRun SpecLive PSys PSysMeas PSysMenu PSysDisp PSysBtn
  PSysStep PSysRun PSysCC PSysSafe PSysProp PSysLog PSysWin PLive PLive2 SpecControl PControl PMem PControlEx PDemand SpecWarm PWarm.
Import ListNotations.
Open Scope Z_scope.
Ltac Zify.zify_post_hook ::= Z.div_mod_to_equations.

(** ** One run of the temperature controller *)
Lemma zero_demand k_p k_i k_d W I0 E0 dt r out I1 E1 : 96 <= k_p -> 0 <= k_i -> 0 <= k_d -> 0 <= dt -> 0 <= W <= 30975 -> -1280 <= r <= 32000 ->
  54 * 64 <= r - W -> W - r <= E0 -> E0 <= 8388607 ->
  pid_step k_p k_i k_d 128 (-30 * 64) (80 * 64) 0 (480 * 64) W I0 E0 dt r out I1 E1 -> out = 0.
Proof.
  intros Kp Ki Kd Dt Bw Br He Ee El (P & KE & A & D & QP & QK & QA & QI & QD & Qy & QE). cbv zeta in *.
  assert (Se : sat24 (W - r) = W - r) by (unfold sat24; lia). rewrite Se in *.
  assert (Sd : sat24 (W - r - E0) <= 0) by (unfold sat24; lia).
  assert (Bp : 3456 <= r - W <= 32000) by lia.
  replace (W - r) with (- (r - W)) in * by lia. set (e := r - W) in *. clearbody e.
  assert (BP : P <= -5184).
  { destruct QP as (q & N & ->). unfold nearest_up in N. assert (96 * 3456 <= k_p * e) by (apply Z.mul_le_mono_nonneg; lia). rewrite Z.mul_opp_r in N. unfold sat24. lia. }
  assert (BI : I1 <= 5120) by (subst I1; unfold limit; lia).
  assert (BI2 : -1920 <= I1) by (subst I1; unfold limit; lia).
  assert (BD : D <= 1).
  { destruct QD as [(Nz & m & q & N1 & N2 & ->)|(_ & B)]; [|lia]. set (s := sat24 (- e - E0)) in *. assert (0 <= - s * k_d) by (apply Z.mul_nonneg_nonneg; lia).
    rewrite Z.mul_opp_l in H. unfold nearest_up in N1. assert (m <= 0) by lia. destruct N2 as (N2 & N2'). assert (0 < dt) by lia. assert (Hq : q <= 0).
    { destruct (Z_lt_le_dec 0 q) as [Lt|]; [exfalso|assumption]. assert (1 * dt <= q * dt) by (apply Z.mul_le_mono_nonneg_r; lia). lia. }
    unfold sat24. lia. }
  subst out. unfold limit, sat24. lia.
Qed.

Section Cool.
Variables (L : limits) (lo hi chi : Z) (C : conf) (W vlo vhi : Z).
Hypothesis HC : build_conf C.
Hypothesis HL : limits_ok L.
Lemma prev_range_hi y : reach C y -> p_prev_e (t_pid (y_ct y)) <= 8388607.
Proof.
  intros R. pose proof (s4_inv _ _ _ (reach_s4 C y HC R)) as I. destruct (i_ct _ _ _ I) as (_ & _ & _ & Be & _). unfold is_s24 in Be. lia.
Qed.
(** *** The temperature controller *)
Definition in_range (y : sys) : Prop :=
  forall c v, lo <= c <= hi -> temp_of_code C (s_adj (x_cache (y_set y))) c v -> vlo <= v <= vhi.
Hypothesis HV : -20 * 64 <= vlo <= vhi /\ vhi <= 500 * 64 /\ 54 * 64 <= vlo - W /\ vhi - W < 2 * (vlo - W).
Definition t1 (y : sys) : Prop := W - vhi - 1 <= 2 * p_prev_e (t_pid (y_ct y)) /\ t_emerg (y_ct y) = false.
Definition good (y : sys) (w : watch) (n : Z) : Prop :=
  0 <= n /\
  (v_temp w < n -> v_temp w < v_calm w -> v_temp w + slow_window L < v_steady w -> in_range y ->
     t1 y /\ t_dt (y_ct y) = u16 (y_now y - v_temp w)) /\
  (v_temp w + slow_cycle L < n -> v_temp w + slow_cycle L < v_calm w -> v_temp w + slow_cycle L + slow_window L < v_steady w -> in_range y ->
     p_setpoint (cc_pid (y_cc y)) = 0).

(** A result of the temperature channel. *)
Lemma cool_result y w n e y' : served L lo hi C y w -> good y w n -> result y e 1 -> on_time L C y w e -> step C y e = Some y' ->
  eager C W y = true -> t_enabled (y_ct y) = true -> 0 < v_calm w ->
  s_adj (x_cache (y_set y')) = s_adj (x_cache (y_set y)) -> 0 + slow_window L < v_steady (watch_step lo hi y w e y') -> in_range y' ->
  (t1 y' /\ t_dt (y_ct y') = u16 (y_now y' - 0)) /\
  (slow_cycle L < n -> slow_cycle L < v_calm w -> slow_cycle L + slow_window L < v_steady w -> p_setpoint (cc_pid (y_cc y')) = 0).
Proof.
  intros D (Gn & G1 & _) X O E Eg En Ca Ea St Rg.
  pose proof (served_reach L lo hi C HC HL y w D) as R. destruct (served_ev L lo hi C HC HL y w e D O) as (Oe & P).
  assert (D' : served L lo hi C y' (watch_step lo hi y w e y')) by (econstructor; eassumption).
  assert (Xe : e = EMeasure) by apply X. subst e.
  destruct (moves L lo hi C HC HL y w EMeasure y' D O E) as [(_ & M1 & M2 & M3 & M4)|[((_ & _ & X0) & _)|[(Q & _)|(Q & _)]]];
    [|destruct X as (_ & _ & X); congruence|discriminate Q|destruct (Q 1 X)].
  pose proof (p_last _ _ _ _ _ _ (served_prog L lo hi C HC HL y' _ D')) as La. rewrite M1, M2 in La. specialize (La St).
  destruct (code_temp C (s_adj (x_cache (y_set y))) (mean_code y)) as (v & Tv).
  assert (Bv : vlo <= v <= vhi) by (apply (Rg (mean_code y) v La); rewrite Ea; exact Tv).
  pose proof (good_processed C y EMeasure y' v HC R X En E Tv ltac:(lia)) as Tp.
  destruct (temp_law_dt C y EMeasure y' v HC R Tp E) as (dt & out & a & Ps & Ed & A1 & A2 & A3).
  destruct (eager_inv C W y Eg) as (Ew & K1 & K2 & K3). pose proof (set_range C HC y R) as Bw. rewrite Ew in *.
  pose proof (prev_range_hi y R) as Bp.
  pose proof Tp as (_ & _ & X3 & _ & Em & Ef).
  assert (Hn : y_now y' = y_now y /\ t_dt (y_ct y') = y_now y).
  { destruct X as (_ & X2 & _). destruct (step_pending relaxed C y EMeasure y' HC bok_relaxed (reach_s4 C y HC R) X2 E) as (c0 & c1 & raw & _ & _ & _ & (Fn & _) & _ & _ & _ & _ & Ht & _).
    destruct (Ht X3) as (c1' & v0 & v' & p & _ & _ & _ & (_ & _ & _ & _ & _ & _ & _ & _ & _ & Td & _) & _). rewrite Td, En, Em. cbn. auto. }
  destruct Hn as (Hn1 & Hn2).
  pose proof (i_now _ _ _ (s4_inv _ _ _ (reach_s4 C y HC R))) as Bn. unfold is_u16 in Bn.
  assert (Pe : W - vhi - 1 <= 2 * p_prev_e (t_pid (y_ct y'))).
  { destruct Ps as (P' & KE & A & D0 & _ & _ & _ & _ & _ & _ & (q & (N1 & _) & ->)). assert (Se : sat24 (W - v) = W - v) by (unfold sat24; lia). rewrite Se in N1.
    clear - N1 Bv HV Bw. unfold sat24. lia. }
  split; [split; [split; [exact Pe|exact Em]|]|].
  - rewrite Hn1, Hn2, Z.sub_0_r. unfold u16. rewrite Z.mod_small by lia. reflexivity.
  - intros H1 H2 H3. pose proof (prog_temp L lo hi C HC HL y w (served_prog L lo hi C HC HL y w D)) as Tb.
    assert (Rg0 : in_range y) by (intros c x Bc Tx; apply (Rg c x Bc); rewrite Ea; exact Tx).
    destruct G1 as ((G1 & _) & G2); [lia|lia|lia|exact Rg0|].
    pose proof (slow_pos L HL) as Sp.
    assert (Tp0 : 0 <= v_temp w).
    { destruct (p_temp _ _ _ _ _ _ (served_prog L lo hi C HC HL y w D)) as (_ & T1). destruct (k_pos _ _ _ _ (p_core _ _ _ _ _ _ (served_prog L lo hi C HC HL y w D))) as (K0 & _). lia. }
    destruct (clock_dt (y_now y) (v_temp w) Bn ltac:(lia)) as (dt' & Ed' & _ & Bd). rewrite G2, Ed' in Ed. apply Some_inj in Ed. subst dt'.
    pose proof (zero_demand _ _ _ W _ (p_prev_e (t_pid (y_ct y))) dt v _ _ _ K1 K2 K3 Bd Bw ltac:(lia) ltac:(lia) ltac:(lia) Bp Ps) as Bo.
    rewrite A3. destruct (480 * 64 <? v); [reflexivity|]. subst out. destruct (A1 ltac:(lia)) as (N1 & N2). clear - N1 N2. lia.
Qed.
Lemma want_good y w n : wanting L lo hi chi C W y w n -> good y w n.
Proof.
  intros D. induction D as [pinb y Hp E|y v pinb y' R O E Ad|y w n e y' D IH O E Hc].
  - unfold good. cbn [v_temp v_calm watch_zero]. split; [lia|]. split; [lia|]. intros; pose proof (slow_pos L HL); lia.
  - unfold good. cbn [v_temp v_calm watch_zero]. split; [lia|]. split; [lia|]. intros; pose proof (slow_pos L HL); lia.
  - pose proof (want_served L lo hi chi C W y w n D) as S. pose proof (served_reach L lo hi C HC HL y w S) as R. destruct (served_ev L lo hi C HC HL y w e S O) as (Oe & P).
    pose proof (slow_pos L HL) as Sp. pose proof IH as (Gn & G1 & G2).
    pose proof (served_prog L lo hi C HC HL y w S) as Pg. pose proof (p_steady _ _ _ _ _ _ Pg) as Sb.
    assert (Tp0 : 0 <= v_temp w).
    { destruct (p_temp _ _ _ _ _ _ Pg) as (_ & T1). destruct (k_pos _ _ _ _ (p_core _ _ _ _ _ _ Pg)) as (K0 & _). lia. }
    set (n' := if eager C W y && eager C W y' then n + match e with ETick => 1 | _ => 0 end else 0).
    assert (Hn : 0 < n' -> eager C W y = true /\ n' = n + match e with ETick => 1 | _ => 0 end).
    { unfold n'. destruct (eager C W y); [|cbn; lia]. destruct (eager C W y'); cbn [andb]; [auto|lia]. }
    assert (Gn' : 0 <= n') by (unfold n'; destruct (_ && _); destruct e; lia). clearbody n'.
    pose proof (calm_move lo hi y w e y') as Cm. pose proof (calm_on lo hi y w e y') as Cn.
    assert (Rr : in_range y' -> s_adj (x_cache (y_set y')) = s_adj (x_cache (y_set y)) -> in_range y) by (intros Rg Ea c x Bc Tx; apply (Rg c x Bc); rewrite Ea; exact Tx).
    assert (Wr := cool_result y w n e y' S IH).
    pose proof (moves L lo hi C HC HL y w e y' S O E) as M. cbv zeta in M. set (w' := watch_step lo hi y w e y') in *. clearbody w'.
    split; [exact Gn'|]. destruct M as [(X & _ & M2 & M3 & M4)|M].
    + assert (e = EMeasure) by apply X. subst e. rewrite M2, M4 in *. split.
      * intros H1 H2 H3 Rg. destruct (Hn H1) as (Eg & En). destruct (Cm H2) as (On & Ea & Ec). apply Wr; try assumption; lia.
      * intros H1 H2 H3 Rg. destruct (Hn ltac:(lia)) as (Eg & En). destruct (Cm ltac:(lia)) as (On & Ea & Ec).
        apply Wr; try assumption; lia.
    + (* every other event *)
      assert (N1 : ~ result y e 1).
      { destruct M as [((_ & _ & X0) & _)|[(-> & _)|(Q & _)]]; [intros (_ & _ & Z); congruence|intros (Z & _); discriminate Z|apply Q]. }
      assert (Np : forall r, ~ temp_processed y e y' r) by (intros r (Z1 & Z2 & Z3 & _); apply N1; repeat split; assumption).
      set (d := match e with ETick => 1 | _ => 0 end) in *.
      assert (Mt : v_temp w' = v_temp w + d /\ (v_steady w' <= v_steady w + d \/ v_steady w' = 0)).
      { unfold d. destruct M as [((-> & _) & _ & M2 & _ & M4)|[(-> & _ & M2 & _ & M4)|(_ & Ne & _ & M2 & _ & M4)]]; try (destruct e; try congruence); lia. }
      destruct Mt as (M2 & M4).
      assert (Bd : 0 <= d <= 1) by (unfold d; destruct e; lia).
      assert (K : t_enabled (y_ct y) = true -> t_enabled (y_ct y') = true ->
        t_emerg (y_ct y') = t_emerg (y_ct y) /\ t_dt (y_ct y') = t_dt (y_ct y) /\ y_now y' = u16 (y_now y + d)).
      { intros En En'. pose proof (reach_s4 C y HC R) as S4. pose proof (i_now _ _ _ (s4_inv _ _ _ S4)) as Bn. unfold is_u16 in Bn.
        destruct (pending y e) eqn:Pn.
        - destruct (pending_cases _ _ _ _ (s4_inv _ _ _ S4) Pn) as [(X1 & X2 & X3)|X]; [|destruct (N1 X)].
          destruct (step_pending relaxed C y e y' HC bok_relaxed S4 Pn E) as (c0 & c1 & raw & _ & _ & _ & (Fn & _) & _ & _ & _ & _ & _ & Hcc).
          destruct (Hcc X3) as (c0' & v & v' & p & _ & _ & (Ec & _) & _). rewrite Ec, Fn. unfold d. rewrite X1. split; [reflexivity|]. split; [reflexivity|].
          rewrite Z.add_0_r. unfold u16. rewrite Z.mod_small by lia. reflexivity.
        - destruct (step_calm relaxed C y e y' HC bok_relaxed S4 Oe P Pn E) as (A1 & _ & _ & _ & _ & A2 & _).
          destruct (event_d C y e y' HC R Oe P Pn E En En') as (_ & A3). split; [exact A2|]. split; [exact A3|]. rewrite A1. unfold d.
          destruct e; try (rewrite Z.add_0_r; unfold u16; rewrite Z.mod_small by lia); reflexivity. }
      split.
      * intros H1 H2 H3 Rg. destruct (Hn ltac:(lia)) as (Eg & En). destruct (Cm ltac:(lia)) as (On & Ea & Ec). specialize (Cn ltac:(lia)).
        destruct (K On Cn) as (K1 & K2 & K3). destruct G1 as ((A1 & A2) & A3); [lia|lia|lia|exact (Rr Rg Ea)|].
        destruct (temp_memory C y e y' HC R Oe P E Np) as ([Mm|Mm] & _); unfold memory in Mm; injection Mm; intros Q1 Q2;
          (split; [split; [rewrite Q1; clear - A1 HV; lia|congruence]|]); rewrite K2, K3, M2, A3; clear; unfold u16; lia.
      * intros H1 H2 H3 Rg. destruct (Hn ltac:(lia)) as (Eg & En). destruct (Cm ltac:(lia)) as (On & Ea & Ec). specialize (Cn ltac:(lia)).
        destruct (K On Cn) as (K1 & K2 & K3). pose proof (Rr Rg Ea) as Rg0.
        destruct G1 as ((_ & A2) & _); [lia|lia|lia|exact Rg0|]. pose proof (G2 ltac:(lia) ltac:(lia) ltac:(lia) Rg0) as B1.
        rewrite (demand_kept C y e y' HC R Oe P E) by (intros (r & Z); exact (Np r Z)). rewrite Cn, K1, A2. cbn. exact B1.
Qed.
Lemma cool_demand y w n : wanting L lo hi chi C W y w n -> in_range y ->
  2 * slow_cycle L < n -> 2 * slow_cycle L < v_calm w -> 2 * slow_cycle L + slow_window L < v_steady w ->
  p_setpoint (cc_pid (y_cc y)) = 0.
Proof.
  intros D Rg H1 H2 H3. destruct (want_good y w n D) as (_ & _ & G).
  pose proof (prog_temp L lo hi C HC HL y w (served_prog L lo hi C HC HL y w (want_served L lo hi chi C W y w n D))). apply G; try assumption; lia.
Qed.

(** *** The current controller *)
Lemma cool_ocr y w n : wanting L lo hi chi C W y w n ->
  v_curr w + 2 * slow_cycle L < n -> v_curr w + 2 * slow_cycle L < v_calm w -> v_curr w + 2 * slow_cycle L + slow_window L < v_steady w -> in_range y ->
  7372 <= cc_ocr (y_cc y).
Proof.
  intros D. induction D as [pinb y Hp E|y v pinb y' R O E Ad|y w n e y' D IH O E Hc].
  - cbn [v_curr watch_zero]. pose proof (slow_pos L HL). lia.
  - cbn [v_curr watch_zero]. pose proof (slow_pos L HL). lia.
  - pose proof (want_served L lo hi chi C W y w n D) as S. pose proof (served_reach L lo hi C HC HL y w S) as R. destruct (served_ev L lo hi C HC HL y w e S O) as (Oe & P).
    pose proof (slow_pos L HL) as Sp. pose proof (cool_demand y w n D) as Wd.
    pose proof (served_prog L lo hi C HC HL y w S) as Pg. pose proof (p_steady _ _ _ _ _ _ Pg) as Sb. destruct (p_curr _ _ _ _ _ _ Pg) as ((Cb & _) & _).
    set (n' := if eager C W y && eager C W y' then n + match e with ETick => 1 | _ => 0 end else 0) in *.
    assert (Hn : 0 < n' -> n' = n + match e with ETick => 1 | _ => 0 end).
    { unfold n'. destruct (eager C W y); [|cbn; lia]. destruct (eager C W y'); cbn [andb]; [auto|lia]. }
    clearbody n'. pose proof (calm_move lo hi y w e y') as Cm.
    assert (Rr : in_range y' -> s_adj (x_cache (y_set y')) = s_adj (x_cache (y_set y)) -> in_range y) by (intros Rg Ea c x Bc Tx; apply (Rg c x Bc); rewrite Ea; exact Tx).
    pose proof (moves L lo hi C HC HL y w e y' S O E) as M. cbv zeta in M. set (w' := watch_step lo hi y w e y') in *. clearbody w'.
    intros H1 H2 H3 Rg.
    assert (Pc' : 0 <= v_curr w') by (destruct M as [(_ & _ & _ & M3 & _)|[(_ & _ & _ & M3 & _)|[(_ & _ & _ & M3 & _)|(_ & _ & _ & _ & M3 & _)]]]; lia).
    specialize (Hn ltac:(lia)). destruct (Cm ltac:(lia)) as (On & Ea & Ec). pose proof (Rr Rg Ea) as Rg0.
    destruct (result_dec y e 0) as [X|X].
    + assert (e = EMeasure) by apply X. subst e. destruct (result_cc C y EMeasure y' HC R X E) as (_ & _ & K).
      destruct M as [((_ & _ & X0) & _)|[(_ & _ & M2 & M3 & M4)|[(Q & _)|(Q & _)]]]; [destruct X as (_ & _ & X); congruence| |discriminate Q|destruct (Q 0 X)].
      apply K. apply (Wd Rg0); lia.
    + rewrite (ocr_kept C y e y' HC R Oe P X E). destruct (cc_emerg (y_cc y') =? 0); [|lia]. apply IH; [| | |exact Rg0];
        (destruct M as [((-> & _) & _ & _ & M3 & M4)|[(Q & _)|[(-> & _ & _ & M3 & M4)|(_ & Ne & _ & _ & M3 & M4)]]]; [lia|destruct (X Q)|lia|destruct e; try congruence; lia]).
Qed.
Lemma cool_pwm y w n : wanting L lo hi chi C W y w n -> in_range y ->
  3 * slow_cycle L < n -> 3 * slow_cycle L < v_calm w -> 3 * slow_cycle L + slow_window L < v_steady w ->
  7372 <= cc_ocr (y_cc y).
Proof.
  intros D Rg H1 H2 H3. pose proof (prog_curr L lo hi C HC HL y w (served_prog L lo hi C HC HL y w (want_served L lo hi chi C W y w n D))).
  apply (cool_ocr y w n D); try assumption; lia.
Qed.
End Cool.
Lemma hot_demand L lo hi chi C W vlo vhi y w n : build_conf C -> limits_ok L ->
  -20 * 64 <= vlo <= vhi -> vhi <= 500 * 64 -> 54 * 64 <= vlo - W -> vhi - W < 2 * (vlo - W) ->
  wanting L lo hi chi C W y w n ->
  (forall c x, lo <= c <= hi -> temp_of_code C (s_adj (x_cache (y_set y))) c x -> vlo <= x <= vhi) ->
  2 * slow_cycle L < n -> 2 * slow_cycle L < v_calm w -> 2 * slow_cycle L + slow_window L < v_steady w ->
  p_setpoint (cc_pid (y_cc y)) = 0.
Proof.
  intros HC HL V1 V2 V3 V4 D Rg H1 H2 H3. exact (cool_demand L lo hi chi C W vlo vhi HC HL (conj V1 (conj V2 (conj V3 V4))) y w n D Rg H1 H2 H3).
Qed.
Lemma hot_rests L lo hi chi C W vlo vhi y w n : build_conf C -> limits_ok L ->
  -20 * 64 <= vlo <= vhi -> vhi <= 500 * 64 -> 54 * 64 <= vlo - W -> vhi - W < 2 * (vlo - W) ->
  wanting L lo hi chi C W y w n ->
  (forall c x, lo <= c <= hi -> temp_of_code C (s_adj (x_cache (y_set y))) c x -> vlo <= x <= vhi) ->
  3 * slow_cycle L < n -> 3 * slow_cycle L < v_calm w -> 3 * slow_cycle L + slow_window L < v_steady w ->
  duty_at_most y 1 10.
Proof.
  intros HC HL V1 V2 V3 V4 D Rg H1 H2 H3. pose proof (cool_pwm L lo hi chi C W vlo vhi HC HL (conj V1 (conj V2 (conj V3 V4))) y w n D Rg H1 H2 H3).
  unfold duty_at_most. lia.
Qed.
