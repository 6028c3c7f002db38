(** * A cold iron is heated *)
From Coq Require Import ZArith List Bool Lia ZifyBool.
From Verif Require Import Base PBase MConf MUtil MFixpt MScale MRing MFilter MTimer MPid MPwm MTempMap MCurr MSens
  SpecNum SpecPid SpecSmall PNum PSmall PScale PPid SpecCurr PCurr MSettings SpecSettings PSettings PSysSet
  MSseg MDisplay MText MState MTemp MMeas MMenu MMain SpecDisplay SpecSys SpecRun SpecLive PSys PSysMeas PSysMenu PSysDisp PSysBtn
  PSysStep PSysRun PSysCC PSysSafe PSysProp PSysLog PSysWin PLive PLive2 SpecControl PControl PMem PControlEx PDemand SpecWarm.
Import ListNotations.
Open Scope Z_scope.
Ltac Zify.zify_post_hook ::= Z.div_mod_to_equations.

(** ** One run of the temperature controller *)
Lemma full_demand k_p k_i k_d W I0 E0 dt r out I1 E1 : 96 <= k_p -> 0 <= k_i -> 0 <= k_d -> 0 <= dt -> 0 <= W <= 30975 -> -1280 <= r <= 32000 ->
  187 * 64 <= W - r -> E0 <= W - r -> -8388608 <= E0 ->
  pid_step k_p k_i k_d 128 (-30 * 64) (80 * 64) 0 (480 * 64) W I0 E0 dt r out I1 E1 -> 250 * 64 <= out /\ 2 * E1 <= W - r + 1 /\ 0 <= E1.
Proof.
  intros Kp Ki Kd Dt Bw Br He Ee El (P & KE & A & D & QP & QK & QA & QI & QD & Qy & QE). cbv zeta in *.
  assert (Se : sat24 (W - r) = W - r) by (unfold sat24; lia). rewrite Se in *.
  assert (Sd : 0 <= sat24 (W - r - E0)) by (unfold sat24; lia).
  set (e := W - r) in *. clearbody e.
  assert (BP : 17952 <= P).
  { destruct QP as (q & N & ->). unfold nearest_up in N. assert (96 * 11968 <= k_p * e) by (apply Z.mul_le_mono_nonneg; lia). unfold sat24. lia. }
  assert (BI : -1920 <= I1) by (subst I1; unfold limit; lia).
  assert (BI2 : I1 <= 5120) by (subst I1; unfold limit; lia).
  assert (BD : -1 <= D).
  { destruct QD as [(Nz & m & q & N1 & N2 & ->)|(_ & B)]; [|lia]. assert (0 <= sat24 (e - E0) * k_d) by (apply Z.mul_nonneg_nonneg; lia).
    unfold nearest_up in N1. assert (0 <= m) by lia. destruct N2 as (N2 & _). assert (0 < dt) by lia. assert (Hq : 0 <= q).
    { destruct (Z_lt_le_dec q 0) as [Lt|]; [exfalso|assumption]. assert (q * dt <= -1 * dt) by (apply Z.mul_le_mono_nonneg_r; lia). lia. }
    unfold sat24. lia. }
  split; [|].
  - subst out. unfold limit, sat24. lia.
  - destruct QE as (q & (N1 & N2) & ->). unfold sat24. lia.
Qed.

(** ** The current controller *)
Definition tame (s : src) (M cmd : Z) : Prop :=
  match s with
  | Real => True
  | Model => 0 <= M /\ (M <= 3200 \/ exists q, nearest_away M 16 q /\ 0 <= q <= 2200 /\ 64 * cmd <= 115 * (3200 - q) + 64 * 322)
  | Resync => 0 <= M <= 52800
  end.
Lemma tame_step s M cmd r M' used w I0 E0 dt out I1 E1 cmd' : tame s M cmd -> 0 <= cmd <= 3200 -> 0 <= r <= 2200 -> 0 <= w <= 3200 ->
  source_step s M cmd r M' used ->
  pid_step 115 128 0 128 (-320) 320 0 3200 w I0 E0 dt used out I1 E1 -> 0 <= cmd' <= out ->
  0 <= used <= 2200 /\ tame (src_next s r used) M' cmd' /\ (w = 3200 -> 1280 <= out).
Proof.
  intros T Bc Br Bw S (P & KE & A & D & QP & QK & QA & QI & QD & Qy & QE) Bo.
  assert (U : 0 <= used <= 2200 /\ (src_next s r used = Model -> 0 <= M' /\ (M' <= 3200 \/ nearest_away M' 16 used)) /\
    (src_next s r used = Resync -> 0 <= M' <= 52800)).
  { destruct s; cbn [source_step tame src_next] in *.
    - destruct S as (-> & ->). destruct (1152 <=? r) eqn:?; split; [lia| |lia|]; split; try discriminate. intros _. lia.
    - destruct T as (T0 & T). destruct (1088 <? r) eqn:Hr.
      + destruct S as (q & (N1 & N1') & -> & N2). assert (Bu : 0 <= used <= 2200 /\ 0 <= M - q + cmd).
        { destruct T as [T|(q' & (N3 & N3') & Bq & Bcm)].
          - destruct N2 as (N2 & _). lia.
          - assert (q = q') by lia. subst q'. destruct N2 as (N2 & _). lia. }
        split; [lia|]. split; [|discriminate]. intros _. split; [lia|]. right. exact N2.
      + assert (BM : M <= 52800) by (destruct T as [T|(q' & (N3 & _) & Bq & _)]; lia).
        destruct S as (q & (N1 & N1') & -> & (N2 & N2')). split; [lia|]. split; [destruct (_ <? 64); discriminate|]. lia.
    - destruct S as (q & (N1 & N1') & -> & (N2 & N2')). split; [lia|]. split; [destruct (_ <? 64); discriminate|]. lia. }
  destruct U as (Bu & UM & UR). cbv zeta in *. assert (Se : sat24 (w - used) = w - used) by (unfold sat24; lia). rewrite Se in *.
  assert (HD : -1 <= D <= 1).
  { destruct QD as [(Nz & m & q & N1 & N2 & ->)|(_ & B)]; [|lia]. unfold nearest_up in N1. rewrite Z.mul_0_r in N1. assert (m = 0) by lia. subst m.
    destruct N2 as (N2 & _). assert (q = 0) by (destruct (Z_lt_le_dec q 1); [destruct (Z_lt_le_dec q 0)|]; nia). subst q. unfold sat24. lia. }
  assert (HI : -320 <= I1 <= 320) by (subst I1; unfold limit; lia).
  destruct QP as (p & N & ->). unfold nearest_up in N. assert (Sp : sat24 p = p) by (unfold sat24; lia). rewrite Sp in *.
  assert (Sq : sat24 (sat24 (p + I1) + D) = p + I1 + D) by (unfold sat24; lia). rewrite Sq in Qy. unfold limit in Qy.
  split; [exact Bu|]. split.
  - destruct (src_next s r used); cbn [tame]; [exact Logic.I| |apply UR; reflexivity]. destruct (UM eq_refl) as (U1 & [U2|U2]); split; try exact U1; [left; exact U2|].
    right. exists used. split; [exact U2|]. split; [exact Bu|]. lia.
  - intros ->. lia.
Qed.

Section Warm.
Variables (L : limits) (lo hi chi : Z) (C : conf) (W vlo vhi : Z).
Hypothesis HC : build_conf C.
Hypothesis HL : limits_ok L.

Lemma want_served y w n : wanting L lo hi chi C W y w n -> served L lo hi C y w.
Proof. intros D. induction D; [econstructor 1|econstructor 2|econstructor 3]; eassumption. Qed.

(** *** The temperature controller *)
Definition in_range (y : sys) : Prop :=
  forall c v, lo <= c <= hi -> temp_of_code C (s_adj (x_cache (y_set y))) c v -> vlo <= v <= vhi.
Hypothesis HV : -20 * 64 <= vlo <= vhi /\ vhi <= 500 * 64 /\ 187 * 64 <= W - vhi /\ W - vlo < 2 * (W - vhi).
Definition t1 (y : sys) : Prop := 2 * p_prev_e (t_pid (y_ct y)) <= W - vlo + 1 /\ t_emerg (y_ct y) = false.
Definition good (y : sys) (w : watch) (n : Z) : Prop :=
  0 <= n /\
  (v_temp w < n -> v_temp w < v_calm w -> v_temp w + slow_window L < v_steady w -> in_range y ->
     t1 y /\ t_dt (y_ct y) = u16 (y_now y - v_temp w)) /\
  (v_temp w + slow_cycle L < n -> v_temp w + slow_cycle L < v_calm w -> v_temp w + slow_cycle L + slow_window L < v_steady w -> in_range y ->
     p_setpoint (cc_pid (y_cc y)) = 3200 /\ hot y = false).

Lemma eager_inv y : eager C W y = true ->
  wanted_setpoint (x_cache (y_set y)) (c_idle C && t_idle (y_ct y)) = W /\ 96 <= kp (used_gains C y) /\ 0 <= ki (used_gains C y) /\ 0 <= kd (used_gains C y).
Proof. unfold eager. lia. Qed.
Lemma calm_on y w e y' : 0 < v_calm (watch_step lo hi y w e y') -> t_enabled (y_ct y') = true.
Proof.
  change (watch_step lo hi y w e y') with (watch_state y y' (watch_ev lo hi y w e)). cbn [watch_state v_calm].
  destruct (t_enabled (y_ct y')); [reflexivity|]. rewrite andb_false_r. cbn. lia.
Qed.
Lemma set_range y : reach C y -> 0 <= wanted_setpoint (x_cache (y_set y)) (c_idle C && t_idle (y_ct y)) <= 30975.
Proof.
  intros R. rewrite <- (sys_setpoint C y HC R). unfold pid_get_setpoint. pose proof (s4_inv _ _ _ (reach_s4 C y HC R)) as I.
  destruct (i_ct _ _ _ I) as (_ & _ & _ & _ & _ & (ap & Eap & Esp) & _).
  destruct (i_set _ _ _ I) as (_ & Rg & _). pose proof Rg as (_ & Bid & _). destruct (rng_preset_get relaxed C _ Rg) as (a2 & Ea2 & Ba2).
  rewrite Eap in Ea2. apply Some_inj in Ea2. subst a2. cbn in Ba2, Bid.
  clear - Esp Ba2 Bid. rewrite Esp. destruct (c_idle C && t_idle (y_ct y) && _); assumption.
Qed.
Lemma prev_range y : reach C y -> -8388608 <= p_prev_e (t_pid (y_ct y)).
Proof.
  intros R. pose proof (s4_inv _ _ _ (reach_s4 C y HC R)) as I. destruct (i_ct _ _ _ I) as (_ & _ & _ & Be & _). unfold is_s24 in Be. lia.
Qed.
(** A result of the temperature channel. *)
Lemma warm_result y w n e y' : served L lo hi C y w -> good y w n -> result y e 1 -> on_time L C y w e -> step C y e = Some y' ->
  eager C W y = true -> t_enabled (y_ct y) = true -> 0 < v_calm w ->
  s_adj (x_cache (y_set y')) = s_adj (x_cache (y_set y)) -> 0 + slow_window L < v_steady (watch_step lo hi y w e y') -> in_range y' ->
  (t1 y' /\ t_dt (y_ct y') = u16 (y_now y' - 0)) /\
  (slow_cycle L < n -> slow_cycle L < v_calm w -> slow_cycle L + slow_window L < v_steady w -> p_setpoint (cc_pid (y_cc y')) = 3200 /\ hot y' = false).
Proof.
  intros D (Gn & G1 & _) X O E Eg En Ca Ea St Rg.
  pose proof (served_reach L lo hi C HC HL y w D) as R. destruct (served_ev L lo hi C HC HL y w e D O) as (Oe & P).
  assert (D' : served L lo hi C y' (watch_step lo hi y w e y')) by (econstructor; eassumption).
  assert (Xe : e = EMeasure) by apply X. subst e.
  destruct (moves L lo hi C HC HL y w EMeasure y' D O E) as [(_ & M1 & M2 & M3 & M4)|[((_ & _ & X0) & _)|[(Q & _)|(Q & _)]]];
    [|destruct X as (_ & _ & X); congruence|discriminate Q|destruct (Q 1 X)].
  pose proof (p_last _ _ _ _ _ _ (served_prog L lo hi C HC HL y' _ D')) as La. rewrite M1, M2 in La. specialize (La St).
  destruct (code_temp C (s_adj (x_cache (y_set y))) (mean_code y)) as (v & Tv).
  assert (Bv : vlo <= v <= vhi) by (apply (Rg (mean_code y) v La); rewrite Ea; exact Tv).
  pose proof (good_processed C y EMeasure y' v HC R X En E Tv ltac:(lia)) as Tp.
  destruct (temp_law_dt C y EMeasure y' v HC R Tp E) as (dt & out & a & Ps & Ed & A1 & A2 & A3).
  destruct (eager_inv y Eg) as (Ew & K1 & K2 & K3). pose proof (set_range y R) as Bw. rewrite Ew in *.
  pose proof (prev_range y R) as Bp.
  pose proof Tp as (_ & _ & X3 & _ & Em & Ef).
  assert (Hn : y_now y' = y_now y /\ t_dt (y_ct y') = y_now y).
  { destruct X as (_ & X2 & _). destruct (step_pending relaxed C y EMeasure y' HC bok_relaxed (reach_s4 C y HC R) X2 E) as (c0 & c1 & raw & _ & _ & _ & (Fn & _) & _ & _ & _ & _ & Ht & _).
    destruct (Ht X3) as (c1' & v0 & v' & p & _ & _ & _ & (_ & _ & _ & _ & _ & _ & _ & _ & _ & Td & _) & _). rewrite Td, En, Em. cbn. auto. }
  destruct Hn as (Hn1 & Hn2).
  pose proof (i_now _ _ _ (s4_inv _ _ _ (reach_s4 C y HC R))) as Bn. unfold is_u16 in Bn.
  assert (Pe : 2 * p_prev_e (t_pid (y_ct y')) <= W - vlo + 1).
  { destruct Ps as (P' & KE & A & D0 & _ & _ & _ & _ & _ & _ & (q & (N1 & _) & ->)). assert (Se : sat24 (W - v) = W - v) by (unfold sat24; lia). rewrite Se in N1.
    clear - N1 Bv HV Bw. unfold sat24. lia. }
  split; [split; [split; [exact Pe|exact Em]|]|].
  - rewrite Hn1, Hn2, Z.sub_0_r. unfold u16. rewrite Z.mod_small by lia. reflexivity.
  - intros H1 H2 H3. pose proof (prog_temp L lo hi C HC HL y w (served_prog L lo hi C HC HL y w D)) as Tb.
    assert (Rg0 : in_range y) by (intros c x Bc Tx; apply (Rg c x Bc); rewrite Ea; exact Tx).
    destruct G1 as ((G1 & _) & G2); [lia|lia|lia|exact Rg0|].
    pose proof (slow_pos L HL) as Sp.
    assert (Tp0 : 0 <= v_temp w).
    { destruct (p_temp _ _ _ _ _ _ (served_prog L lo hi C HC HL y w D)) as (_ & T1). destruct (k_pos _ _ _ _ (p_core _ _ _ _ _ _ (served_prog L lo hi C HC HL y w D))) as (K0 & _). lia. }
    destruct (clock_dt (y_now y) (v_temp w) Bn ltac:(lia)) as (dt' & Ed' & _ & Bd). rewrite G2, Ed' in Ed. apply Some_inj in Ed. subst dt'.
    destruct (full_demand _ _ _ W _ (p_prev_e (t_pid (y_ct y))) dt v _ _ _ K1 K2 K3 Bd Bw ltac:(lia) ltac:(lia) ltac:(lia) Bp Ps) as (Bo & _).
    rewrite A3. replace (480 * 64 <? v) with false by lia. split; [apply A2; exact Bo|].
    destruct (step_hot C y EMeasure y' HC R Oe P E) as [(r & Tr & ->)|(N & _)]; [|destruct (N v Tp)].
    destruct Tr as (_ & _ & _ & _ & _ & <-). rewrite Ef. lia.
Qed.
Lemma want_good y w n : wanting L lo hi chi C W y w n -> good y w n.
Proof.
  intros D. induction D as [pinb y Hp E|y v pinb y' R O E Ad|y w n e y' D IH O E Hc].
  - unfold good. cbn [v_temp v_calm watch_zero]. split; [lia|]. split; [lia|]. intros; pose proof (slow_pos L HL); lia.
  - unfold good. cbn [v_temp v_calm watch_zero]. split; [lia|]. split; [lia|]. intros; pose proof (slow_pos L HL); lia.
  - pose proof (want_served y w n D) as S. pose proof (served_reach L lo hi C HC HL y w S) as R. destruct (served_ev L lo hi C HC HL y w e S O) as (Oe & P).
    pose proof (slow_pos L HL) as Sp. pose proof IH as (Gn & G1 & G2).
    pose proof (served_prog L lo hi C HC HL y w S) as Pg. pose proof (p_steady _ _ _ _ _ _ Pg) as Sb.
    assert (Tp0 : 0 <= v_temp w).
    { destruct (p_temp _ _ _ _ _ _ Pg) as (_ & T1). destruct (k_pos _ _ _ _ (p_core _ _ _ _ _ _ Pg)) as (K0 & _). lia. }
    set (n' := if eager C W y && eager C W y' then n + match e with ETick => 1 | _ => 0 end else 0).
    assert (Hn : 0 < n' -> eager C W y = true /\ n' = n + match e with ETick => 1 | _ => 0 end).
    { unfold n'. destruct (eager C W y); [|cbn; lia]. destruct (eager C W y'); cbn [andb]; [auto|lia]. }
    assert (Gn' : 0 <= n') by (unfold n'; destruct (_ && _); destruct e; lia). clearbody n'.
    pose proof (calm_move lo hi y w e y') as Cm. pose proof (calm_on y w e y') as Cn.
    assert (Rr : in_range y' -> s_adj (x_cache (y_set y')) = s_adj (x_cache (y_set y)) -> in_range y) by (intros Rg Ea c x Bc Tx; apply (Rg c x Bc); rewrite Ea; exact Tx).
    assert (Wr := warm_result y w n e y' S IH).
    pose proof (moves L lo hi C HC HL y w e y' S O E) as M. cbv zeta in M. set (w' := watch_step lo hi y w e y') in *. clearbody w'.
    split; [exact Gn'|]. destruct M as [(X & _ & M2 & M3 & M4)|M].
    + assert (e = EMeasure) by apply X. subst e. rewrite M2, M4 in *. split.
      * intros H1 H2 H3 Rg. destruct (Hn H1) as (Eg & En). destruct (Cm H2) as (On & Ea & Ec). apply Wr; try assumption; lia.
      * intros H1 H2 H3 Rg. destruct (Hn ltac:(lia)) as (Eg & En). destruct (Cm ltac:(lia)) as (On & Ea & Ec).
        apply Wr; try assumption; lia.
    + (* every other event *)
      assert (N1 : ~ result y e 1).
      { destruct M as [((_ & _ & X0) & _)|[(-> & _)|(Q & _)]]; [intros (_ & _ & Z); congruence|intros (Z & _); discriminate Z|apply Q]. }
      assert (Np : forall r, ~ temp_processed y e y' r) by (intros r (Z1 & Z2 & Z3 & _); apply N1; repeat split; assumption).
      set (d := match e with ETick => 1 | _ => 0 end) in *.
      assert (Mt : v_temp w' = v_temp w + d /\ (v_steady w' <= v_steady w + d \/ v_steady w' = 0)).
      { unfold d. destruct M as [((-> & _) & _ & M2 & _ & M4)|[(-> & _ & M2 & _ & M4)|(_ & Ne & _ & M2 & _ & M4)]]; try (destruct e; try congruence); lia. }
      destruct Mt as (M2 & M4).
      assert (Bd : 0 <= d <= 1) by (unfold d; destruct e; lia).
      assert (K : t_enabled (y_ct y) = true -> t_enabled (y_ct y') = true ->
        t_emerg (y_ct y') = t_emerg (y_ct y) /\ t_dt (y_ct y') = t_dt (y_ct y) /\ y_now y' = u16 (y_now y + d)).
      { intros En En'. pose proof (reach_s4 C y HC R) as S4. pose proof (i_now _ _ _ (s4_inv _ _ _ S4)) as Bn. unfold is_u16 in Bn.
        destruct (pending y e) eqn:Pn.
        - destruct (pending_cases _ _ _ _ (s4_inv _ _ _ S4) Pn) as [(X1 & X2 & X3)|X]; [|destruct (N1 X)].
          destruct (step_pending relaxed C y e y' HC bok_relaxed S4 Pn E) as (c0 & c1 & raw & _ & _ & _ & (Fn & _) & _ & _ & _ & _ & _ & Hcc).
          destruct (Hcc X3) as (c0' & v & v' & p & _ & _ & (Ec & _) & _). rewrite Ec, Fn. unfold d. rewrite X1. split; [reflexivity|]. split; [reflexivity|].
          rewrite Z.add_0_r. unfold u16. rewrite Z.mod_small by lia. reflexivity.
        - destruct (step_calm relaxed C y e y' HC bok_relaxed S4 Oe P Pn E) as (A1 & _ & _ & _ & _ & A2 & _).
          destruct (event_d C y e y' HC R Oe P Pn E En En') as (_ & A3). split; [exact A2|]. split; [exact A3|]. rewrite A1. unfold d.
          destruct e; try (rewrite Z.add_0_r; unfold u16; rewrite Z.mod_small by lia); reflexivity. }
      split.
      * intros H1 H2 H3 Rg. destruct (Hn ltac:(lia)) as (Eg & En). destruct (Cm ltac:(lia)) as (On & Ea & Ec). specialize (Cn ltac:(lia)).
        destruct (K On Cn) as (K1 & K2 & K3). destruct G1 as ((A1 & A2) & A3); [lia|lia|lia|exact (Rr Rg Ea)|].
        destruct (temp_memory C y e y' HC R Oe P E Np) as ([Mm|Mm] & _); unfold memory in Mm; injection Mm; intros Q1 Q2;
          (split; [split; [rewrite Q1; clear - A1 HV; lia|congruence]|]); rewrite K2, K3, M2, A3; clear; unfold u16; lia.
      * intros H1 H2 H3 Rg. destruct (Hn ltac:(lia)) as (Eg & En). destruct (Cm ltac:(lia)) as (On & Ea & Ec). specialize (Cn ltac:(lia)).
        destruct (K On Cn) as (K1 & K2 & K3). pose proof (Rr Rg Ea) as Rg0.
        destruct G1 as ((_ & A2) & _); [lia|lia|lia|exact Rg0|]. destruct G2 as (B1 & B2); [lia|lia|lia|exact Rg0|].
        split.
        -- rewrite (demand_kept C y e y' HC R Oe P E) by (intros (r & Z); exact (Np r Z)). rewrite Cn, K1, A2. cbn. exact B1.
        -- destruct (step_hot C y e y' HC R Oe P E) as [(r & Tr & _)|(_ & ->)]; [destruct (Np r Tr)|exact B2].
Qed.
Lemma warm_demand y w n : wanting L lo hi chi C W y w n -> in_range y ->
  2 * slow_cycle L < n -> 2 * slow_cycle L < v_calm w -> 2 * slow_cycle L + slow_window L < v_steady w ->
  p_setpoint (cc_pid (y_cc y)) = 3200 /\ hot y = false.
Proof.
  intros D Rg H1 H2 H3. destruct (want_good y w n D) as (_ & _ & G).
  pose proof (prog_temp L lo hi C HC HL y w (served_prog L lo hi C HC HL y w (want_served y w n D))). apply G; try assumption; lia.
Qed.

(** *** The current controller *)
Hypothesis HX : 0 <= chi <= 203.
Lemma fresh_real y : fresh C y -> cc_rstate (y_cc y) = REnabled.
Proof. intros (x & k & a & p & -> & _). unfold booted. cbn [y_cc]. vm_compute. reflexivity. Qed.
Lemma curr_code_exists c : 0 <= c <= 203 -> exists v, curr_of_code c v /\ 0 <= v <= 2200.
Proof. intros B. exists ((2 * c * 704 + 65) / 130). unfold curr_of_code. lia. Qed.
Definition steady (y : sys) : Prop :=
  (m_chan (y_meas y) = 0 -> 0 <= m_sum (y_meas y) <= chi * m_count (y_meas y)) /\
  (exists T f h, curr_log C y T f h /\ match f with None => True | Some b => 0 <= b <= 16 * chi + 15 end) /\
  Z.testbit (cc_emerg (y_cc y)) 0 = false /\ tame (src_of (cc_rstate (y_cc y))) (cc_model (y_cc y)) (cc_prev_y (y_cc y)).
Lemma cc_flags y : reach C y -> 0 <= cc_emerg (y_cc y) <= 3.
Proof. intros R. destruct (i_cc _ _ _ (s4_inv _ _ _ (reach_s4 C y HC R))) as (_ & _ & F & _). exact F. Qed.
Lemma no_flags f : 0 <= f <= 3 -> Z.testbit f 0 = false -> Z.testbit f 1 = false -> f = 0.
Proof. intros B. assert (D : f = 0 \/ f = 1 \/ f = 2 \/ f = 3) by lia. destruct D as [->|[->|[->| ->]]]; cbn; congruence. Qed.
Lemma mean_chi y : 0 < m_count (y_meas y) -> 0 <= m_sum (y_meas y) <= chi * m_count (y_meas y) -> 0 <= mean_code y <= chi.
Proof. intros Hc H. unfold mean_code. split; [apply Z.div_le_lower_bound; lia|apply Z.div_le_upper_bound; lia]. Qed.
Lemma lp_range f m : 0 <= m <= chi -> match f with None => True | Some b => 0 <= b <= 16 * chi + 15 end ->
  0 <= lp_acc f m <= 16 * chi + 15 /\ 0 <= lp_code f m <= chi.
Proof. intros Bm F. unfold lp_code, lp_acc. destruct f as [b|]; lia. Qed.
(** A result of the current channel. *)
Lemma curr_result y y' : reach C y -> steady y -> result y EMeasure 0 -> step C y EMeasure = Some y' ->
  steady y' /\ (hot y = false -> p_setpoint (cc_pid (y_cc y)) = 3200 -> cc_emerg (y_cc y') = 0 /\ cc_ocr (y_cc y') <= 4915).
Proof.
  intros R (S1 & (T & f & h & Cl & Bf) & S3 & S4') X E. pose proof X as (_ & X2 & X3). pose proof (reach_s4 C y HC R) as S4.
  destruct (sys_handover C y HC R) as (_ & Hn & _). specialize (Hn X2). specialize (S1 X3). pose proof (mean_chi y Hn S1) as Bm.
  destruct (lp_range f (mean_code y) Bm Bf) as (Ba & Bc). destruct (curr_code_exists _ (conj (proj1 Bc) (Z.le_trans _ _ _ (proj2 Bc) (proj2 HX)))) as (v & Tv & Bv).
  destruct (proj1 (logs_exist C y HC R)) as (o & Lg). assert (R' : reach C y') by exact (reach_step C y EMeasure y' R Logic.I E).
  destruct (sys_once C y EMeasure y' 0 HC R X E) as (_ & _ & _ & A4).
  assert (Cl' : curr_log C y' T (Some (lp_acc f (mean_code y))) ((T, v) :: h)) by (econstructor; eassumption).
  destruct (curr_law C y T f h o v y' HC Cl Lg X E Tv) as (Law & Keep). cbv zeta in *.
  assert (Er : last_current ((T, v) :: h) = v) by (unfold last_current; cbn [find snd]; replace ((0 <=? v) && (v <=? 5 * 640)) with true by lia; reflexivity).
  rewrite Er in Law.
  assert (Fl : Z.testbit (cc_emerg (y_cc y')) 0 = false /\ hot y' = hot y).
  { destruct (curr_log_inv C y T f h HC Cl) as (_ & _ & _ & Qf & _).
    destruct (step_pending relaxed C y EMeasure y' HC bok_relaxed S4 X2 E) as (e0 & e1 & raw & _ & Era & Br & _ & _ & _ & _ & _ & _ & Hc).
    destruct (Hc X3) as (c0' & u & v' & p & _ & Ck & (_ & _ & _ & Hh & _ & Ee & _) & Tw & _).
    destruct (PSysLog.lp_step _ _ f Br Qf y eq_refl) as (L1 & _). rewrite L1 in Tw.
    rewrite (raw_mean _ _ _ _ S4 X2 Era) in *. pose proof (curr_code_unique _ _ _ Tv Tw) as <-.
    destruct Ck as (_ & _ & Ec & Ep). change (mc_plaus_neg meascurr_config) with 0 in *. change (mc_plaus_pos meascurr_config) with 3200 in *.
    replace ((0 <=? v) && (v <=? 3200)) with true in * by lia. subst c0'. cbn [ch_timeout] in Ep. subst p. split; [|exact Hh].
    rewrite Ee. rewrite Z.land_spec. change (Z.testbit (u8 (Z.lnot EMERG_UNPLAUS_FEEDBACK)) 0) with false. apply andb_false_r. }
  destruct Fl as (F0 & F1). pose proof (i_cc _ _ _ (s4_inv _ _ _ S4)) as ((_ & _ & Bp & _) & _). pose proof (s4_inv _ _ _ (reach_s4 C y' HC R')) as I'.
  pose proof (i_cc _ _ _ I') as ((_ & _ & Bp' & _) & _).
  assert (Bs : 0 <= p_setpoint (cc_pid (y_cc y)) <= 3200).
  { pose proof (i_cc _ _ _ (s4_inv _ _ _ S4)) as ((Ci & _) & _). destruct Ci as (_ & _ & _ & _ & _ & W0 & _). exact W0. }
  assert (Run : cc_emerg (y_cc y') = 0 -> tame (src_of (cc_rstate (y_cc y'))) (cc_model (y_cc y')) (cc_prev_y (y_cc y')) /\
     (p_setpoint (cc_pid (y_cc y)) = 3200 -> cc_ocr (y_cc y') <= 4915)).
  { intros Z0. destruct (Law Z0) as (used & dt & out & Q1 & Q2 & _ & Q3 & Q4 & (_ & Q5)).
    destruct (tame_step _ _ _ _ _ _ _ _ _ _ _ _ _ (cc_prev_y (y_cc y')) S4' Bp Bv Bs Q1 Q3) as (_ & Tm & Bo).
    { split; [apply Bp'|]. rewrite Q4. destruct (cold_limited o); lia. }
    rewrite Q2. split; [exact Tm|]. intros Sp. specialize (Bo Sp). assert (1280 <= cc_prev_y (y_cc y')) by (rewrite Q4; destruct (cold_limited o); lia). lia. }
  split.
  - split; [rewrite A4; discriminate|]. split; [exists T, (Some (lp_acc f (mean_code y))), ((T, v) :: h); split; assumption|]. split; [exact F0|].
    destruct (Z.eq_dec (cc_emerg (y_cc y')) 0) as [Z0|Z0]; [apply Run; exact Z0|]. destruct (Keep Z0) as (_ & -> & -> & ->). exact S4'.
  - intros Hh Sp. assert (Z0 : cc_emerg (y_cc y') = 0) by (apply no_flags; [apply cc_flags; exact R'|exact F0|fold (hot y'); congruence]).
    split; [exact Z0|]. apply Run; assumption.
Qed.
Lemma other_bit0 y e y' : reach C y -> ev_ok C y e -> is_power e = false -> step C y e = Some y' -> ~ result y e 0 ->
  Z.testbit (cc_emerg (y_cc y')) 0 = Z.testbit (cc_emerg (y_cc y)) 0.
Proof.
  intros R O P E N. pose proof (reach_s4 C y HC R) as S4. destruct (pending y e) eqn:Pn.
  - destruct (pending_cases _ _ _ _ (s4_inv _ _ _ S4) Pn) as [X|(X1 & X2 & X3)]; [destruct (N X)|].
    destruct (step_pending relaxed C y e y' HC bok_relaxed S4 Pn E) as (c0 & c1 & raw & _ & _ & _ & _ & _ & _ & _ & _ & Ht & _).
    destruct (Ht X3) as (c1' & v & v' & p & _ & _ & _ & (_ & _ & _ & _ & _ & _ & _ & (ops & _ & _ & _ & Q) & _) & _). exact Q.
  - destruct (step_calm relaxed C y e y' HC bok_relaxed S4 O P Pn E) as (_ & _ & _ & _ & _ & _ & _ & [(A2 & _)|(A2 & _)]); rewrite A2; reflexivity.
Qed.
Lemma want_steady y w n : wanting L lo hi chi C W y w n -> steady y.
Proof.
  intros D. induction D as [pinb y Hp E|y v pinb y' R O E Ad|y w n e y' D IH O E Hc].
  - pose proof (boot_fresh C pinb y HC E) as F. destruct (fresh_window C y F) as (_ & _ & _ & Ac & _). destruct (fresh_cc C y F) as (_ & _ & Ae & _).
    unfold steady. rewrite Ac, Ae, (fresh_real y F). split; [discriminate|]. split; [exists 0, None, []; split; [econstructor; eassumption|exact Logic.I]|]. split; [reflexivity|exact Logic.I].
  - pose proof (power_fresh C y v pinb y' HC R O E) as F. destruct (fresh_window C y' F) as (_ & _ & _ & Ac & _). destruct (fresh_cc C y' F) as (_ & _ & Ae & _).
    unfold steady. rewrite Ac, Ae, (fresh_real y' F). split; [discriminate|]. split; [exists 0, None, []; split; [exact (ul_power C y v pinb y' R O E)|exact Logic.I]|]. split; [reflexivity|exact Logic.I].
  - pose proof (want_served y w n D) as S. pose proof (served_reach L lo hi C HC HL y w S) as R. destruct (served_ev L lo hi C HC HL y w e S O) as (Oe & P).
    destruct (result_dec y e 0) as [X|X].
    + assert (e = EMeasure) by apply X. subst e. apply (curr_result y y' R IH X E).
    + destruct IH as (S1 & (T & f & h & Cl & Bf) & S3 & S4). destruct (curr_memory C y e y' HC R Oe P E X) as (_ & M1 & M2 & M3).
      unfold steady. rewrite M1, M2, M3, (other_bit0 y e y' R Oe P E X). split; [|split; [|split; assumption]].
      * destruct (pending y e) eqn:Pn.
        -- pose proof (pending_result y e Pn) as Xp. destruct (sys_handover C y HC R) as (_ & _ & [Q|Q]); rewrite Q in Xp; [destruct (X Xp)|].
           destruct (sys_once C y e y' 1 HC R Xp E) as (_ & A2 & A3 & _). rewrite A2, A3. lia.
        -- destruct (step_window C y e y' HC R Oe P Pn E) as [(raw & -> & Ea & (D1 & D2 & D3 & D4 & _))|(Na & (D1 & D2 & D3 & D4 & D5 & _))].
           ++ rewrite D1, D2, D4. intros Q. specialize (S1 Q). specialize (Hc raw eq_refl Q). cbn [on_time] in O. lia.
           ++ rewrite D1, D2, D5. exact S1.
      * assert (De : e = ETick \/ e <> ETick) by (destruct e; auto; right; discriminate).
        destruct De as [->|Ne]; [exists (T + 1), f, h; split; [econstructor; eassumption|exact Bf]|exists T, f, h; split; [econstructor; eassumption|exact Bf]].
Qed.
Lemma want_pwm y w n : wanting L lo hi chi C W y w n ->
  v_curr w + 2 * slow_cycle L < n -> v_curr w + 2 * slow_cycle L < v_calm w -> v_curr w + 2 * slow_cycle L + slow_window L < v_steady w -> in_range y ->
  cc_emerg (y_cc y) = 0 /\ cc_ocr (y_cc y) <= 4915.
Proof.
  intros D. induction D as [pinb y Hp E|y v pinb y' R O E Ad|y w n e y' D IH O E Hc].
  - cbn [v_curr watch_zero]. pose proof (slow_pos L HL). lia.
  - cbn [v_curr watch_zero]. pose proof (slow_pos L HL). lia.
  - assert (D' := want_step L lo hi chi C W y w n e y' D O E Hc).
    pose proof (want_served y w n D) as S. pose proof (served_reach L lo hi C HC HL y w S) as R. destruct (served_ev L lo hi C HC HL y w e S O) as (Oe & P).
    pose proof (slow_pos L HL) as Sp. pose proof (want_steady y w n D) as St. pose proof (want_steady y' _ _ D') as St'. pose proof (warm_demand y w n D) as Wd. pose proof (warm_demand y' _ _ D') as Wd'.
    assert (R' : reach C y') by exact (reach_step C y e y' R Oe E).
    pose proof (served_prog L lo hi C HC HL y w S) as Pg. pose proof (p_steady _ _ _ _ _ _ Pg) as Sb. destruct (p_curr _ _ _ _ _ _ Pg) as ((Cb & _) & _).
    set (n' := if eager C W y && eager C W y' then n + match e with ETick => 1 | _ => 0 end else 0) in *.
    assert (Hn : 0 < n' -> n' = n + match e with ETick => 1 | _ => 0 end).
    { unfold n'. destruct (eager C W y); [|cbn; lia]. destruct (eager C W y'); cbn [andb]; [auto|lia]. }
    clearbody n'. clear D'. pose proof (calm_move lo hi y w e y') as Cm.
    assert (Rr : in_range y' -> s_adj (x_cache (y_set y')) = s_adj (x_cache (y_set y)) -> in_range y) by (intros Rg Ea c x Bc Tx; apply (Rg c x Bc); rewrite Ea; exact Tx).
    pose proof (moves L lo hi C HC HL y w e y' S O E) as M. cbv zeta in M. set (w' := watch_step lo hi y w e y') in *. clearbody w'.
    intros H1 H2 H3 Rg.
    assert (Pc' : 0 <= v_curr w') by (destruct M as [(_ & _ & _ & M3 & _)|[(_ & _ & _ & M3 & _)|[(_ & _ & _ & M3 & _)|(_ & _ & _ & _ & M3 & _)]]]; lia).
    specialize (Hn ltac:(lia)). destruct (Cm ltac:(lia)) as (On & Ea & Ec). pose proof (Rr Rg Ea) as Rg0.
    destruct (result_dec y e 0) as [X|X].
    + assert (e = EMeasure) by apply X. subst e. destruct (curr_result y y' R St X E) as (_ & K).
      destruct M as [((_ & _ & X0) & _)|[(_ & _ & M2 & M3 & M4)|[(Q & _)|(Q & _)]]]; [destruct X as (_ & _ & X); congruence| |discriminate Q|destruct (Q 0 X)].
      destruct (Wd Rg0) as (W1 & W2); [lia|lia|lia|]. apply K; assumption.
    + destruct (Wd' Rg) as (_ & W2); [lia|lia|lia|]. destruct St' as (_ & _ & Z0 & _).
      assert (Ze : cc_emerg (y_cc y') = 0) by (apply no_flags; [apply cc_flags; exact R'|exact Z0|exact W2]). split; [exact Ze|].
      rewrite (ocr_kept C y e y' HC R Oe P X E), Ze. cbn. apply IH; [| | |exact Rg0];
        (destruct M as [((-> & _) & _ & _ & M3 & M4)|[(Q & _)|[(-> & _ & _ & M3 & M4)|(_ & Ne & _ & _ & M3 & M4)]]]; [lia|destruct (X Q)|lia|destruct e; try congruence; lia]).
Qed.
Lemma warm_pwm y w n : wanting L lo hi chi C W y w n -> in_range y ->
  3 * slow_cycle L < n -> 3 * slow_cycle L < v_calm w -> 3 * slow_cycle L + slow_window L < v_steady w ->
  cc_emerg (y_cc y) = 0 /\ cc_ocr (y_cc y) <= 4915.
Proof.
  intros D Rg H1 H2 H3. pose proof (prog_curr L lo hi C HC HL y w (served_prog L lo hi C HC HL y w (want_served y w n D))).
  apply (want_pwm y w n D); try assumption; lia.
Qed.
End Warm.
Lemma cold_demand L lo hi chi C W vlo vhi y w n : build_conf C -> limits_ok L ->
  -20 * 64 <= vlo <= vhi -> vhi <= 500 * 64 -> 187 * 64 <= W - vhi -> W - vlo < 2 * (W - vhi) ->
  wanting L lo hi chi C W y w n ->
  (forall c x, lo <= c <= hi -> temp_of_code C (s_adj (x_cache (y_set y))) c x -> vlo <= x <= vhi) ->
  2 * slow_cycle L < n -> 2 * slow_cycle L < v_calm w -> 2 * slow_cycle L + slow_window L < v_steady w ->
  p_setpoint (cc_pid (y_cc y)) = 5 * 640 /\ hot y = false.
Proof.
  intros HC HL V1 V2 V3 V4 D Rg H1 H2 H3. exact (warm_demand L lo hi chi C W vlo vhi HC HL (conj V1 (conj V2 (conj V3 V4))) y w n D Rg H1 H2 H3).
Qed.
Lemma cold_heats L lo hi chi C W vlo vhi y w n : build_conf C -> limits_ok L ->
  -20 * 64 <= vlo <= vhi -> vhi <= 500 * 64 -> 187 * 64 <= W - vhi -> W - vlo < 2 * (W - vhi) -> 0 <= chi <= 203 ->
  wanting L lo hi chi C W y w n ->
  (forall c x, lo <= c <= hi -> temp_of_code C (s_adj (x_cache (y_set y))) c x -> vlo <= x <= vhi) ->
  3 * slow_cycle L < n -> 3 * slow_cycle L < v_calm w -> 3 * slow_cycle L + slow_window L < v_steady w ->
  cc_emerg (y_cc y) = 0 /\ cc_ocr (y_cc y) <= 4915.
Proof.
  intros HC HL V1 V2 V3 V4 HX D Rg H1 H2 H3. exact (warm_pwm L lo hi chi C W vlo vhi HC HL (conj V1 (conj V2 (conj V3 V4))) HX y w n D Rg H1 H2 H3).
Qed.
