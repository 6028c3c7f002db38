(** * Interrupts inside the work functions: an iron hotter than its set-point is not heated *)
From Coq Require Import ZArith List Bool Lia ZifyBool.
From Verif Require Import Base PBase MConf MUtil MFixpt MScale MRing MFilter MTimer MPid MPwm MTempMap MCurr MSens
  SpecNum SpecPid SpecSmall PNum PSmall PScale PPid SpecCurr PCurr MSettings SpecSettings PSettings PSysSet
  MSseg MDisplay MText MState MTemp MMeas MMenu MMain SpecDisplay PDisplay SpecSys SpecRun SpecLive PSys PSysMeas PSysMenu PSysDisp PSysBtn
  Trace PSysStep PSysRun PSysCC PSysSafe PSysProp PSysLog PSysWin PLive PLive2 SpecControl PControl SpecWarm PWarm PCool
  MFine SpecFine SpecFineLive PFine PFine2 PFine4 PFine5 PFine6 PFine7 PFine8 PFineT PFineT2 PFineT3 PFineT4 PFineT5 SpecFineWarm PFineW.
Import ListNotations.
Open Scope Z_scope.
Ltac Zify.zify_post_hook ::= Z.div_mod_to_equations.

(** ** The law of the controller (see PControl.temp_law_dt) *)
Lemma set_range_inv C y : inv relaxed C y -> 0 <= wanted_setpoint (x_cache (y_set y)) (c_idle C && t_idle (y_ct y)) <= 30975.
Proof.
  intros I. rewrite <- (sys_setpoint_inv C y I). unfold pid_get_setpoint.
  destruct (i_ct _ _ _ I) as (_ & _ & _ & _ & _ & (ap & Eap & Esp) & _).
  destruct (i_set _ _ _ I) as (_ & Rg & _). pose proof Rg as (_ & Bid & _). destruct (rng_preset_get relaxed C _ Rg) as (a2 & Ea2 & Ba2).
  rewrite Eap in Ea2. apply Some_inj in Ea2. subst a2. cbn in Ba2, Bid.
  clear - Esp Ba2 Bid. rewrite Esp. destruct (c_idle C && t_idle (y_ct y) && _); assumption.
Qed.
Lemma run_law C y dt r y' out a : inv relaxed C y -> -1280 <= r <= 32000 -> pid_run (t_pid (y_ct y)) dt r = Some (t_pid (y_ct y'), out) -> temp_to_amps out = Some a ->
  let k := used_gains C y in
  pid_step (kp k) (ki k) (kd k) 128 (-30 * 64) (80 * 64) 0 (480 * 64)
      (wanted_setpoint (x_cache (y_set y)) (c_idle C && t_idle (y_ct y)))
      (p_integr (t_pid (y_ct y))) (p_prev_e (t_pid (y_ct y))) dt r out
      (p_integr (t_pid (y_ct y'))) (p_prev_e (t_pid (y_ct y'))) /\
  (out <= 250 * 64 -> nearest_away out 5 a) /\ (250 * 64 <= out -> a = 5 * 640).
Proof.
  intros I Br Ep Ea k. pose proof (sys_setpoint_inv C y I) as Sp. unfold pid_get_setpoint in Sp. pose proof (set_range_inv C y I) as Bs. rewrite <- Sp in *.
  destruct (i_ct _ _ _ I) as (G & _ & (L1 & L2 & L3 & L4) & Be & Bi & _).
  assert (Gk : k = p_k (t_pid (y_ct y))) by (unfold k, used_gains; exact (zget_nth _ _ _ _ G)).
  assert (Gd : d_decay_div (p_k (t_pid (y_ct y))) = 128).
  { destruct (i_set _ _ _ I) as (_ & Rg & _). destruct (rng_gain_get relaxed C _ _ Rg (bm_valid _ _ _ I)) as (k0 & Ek & (_ & _ & _ & _ & D)).
    rewrite G in Ek. apply Some_inj in Ek. subst k0. apply D. reflexivity. }
  assert (K := pid_run_step (t_pid (y_ct y)) dt r (t_pid (y_ct y')) out).
  rewrite L1, L2, L3, L4 in K. unfold pid_lims_ok in K. rewrite L1, L2, L3, L4 in K. rewrite Gk.
  assert (S : pid_step (kp (p_k (t_pid (y_ct y)))) (ki (p_k (t_pid (y_ct y)))) (kd (p_k (t_pid (y_ct y)))) 128 (-30 * 64) (80 * 64) 0 (480 * 64) (p_setpoint (t_pid (y_ct y)))
      (p_integr (t_pid (y_ct y))) (p_prev_e (t_pid (y_ct y))) dt r out (p_integr (t_pid (y_ct y'))) (p_prev_e (t_pid (y_ct y')))).
  { apply K; try (unfold is_s24; clear - Bs Br Be Bi; lia); [exact Gd|exact Ep]. }
  split; [exact S|]. destruct (temp_to_amps_spec out) as (a' & Ea' & _ & A1 & A2).
  { destruct S as (P & KE & A & D & _ & _ & _ & _ & _ & Qy & _). cbv zeta in Qy. subst out. unfold limit. lia. }
  rewrite Ea in Ea'. apply Some_inj in Ea'. subst a'. split; [exact A1|exact A2].
Qed.

Section FWarm.
Variables (L : limits) (lo hi chi : Z) (C : conf) (W : Z).
Hypothesis HC : build_conf C.
Hypothesis HL : limits_ok L.
Let fs := fserved L lo hi C.
Let fw := fwd L lo hi C.

Lemma wpath_path y w n l y1 w1 n1 : wpath L lo hi chi C W y w n l y1 w1 n1 -> path L lo hi C y w l y1 w1.
Proof. intros D. induction D; econstructor; eassumption. Qed.
Lemma fwanting_fserved y w n : fwanting L lo hi chi C W y w n -> fs y w.
Proof.
  intros D. induction D as [pinb y Hp E|y v pinb y' R N Ad|y w n e o y1 w1 n1 y' D IH Pa O E Hx].
  - eapply fsrv_boot; eassumption.
  - eapply fsrv_power; eassumption.
  - eapply fsrv_step; [exact IH|exact (wpath_path _ _ _ _ _ _ _ Pa)|exact O|exact E].
Qed.

(** What the interrupts inside do to the stopwatches *)
Record during (T : Z) (y : sys) (w : watch) (n : Z) (y1 : sys) (w1 : watch) (n1 : Z) : Prop := mkDuring {
  g_pos : 0 <= T;
  g_now : y_now y1 = u16 (y_now y + T);
  g_temp : v_temp w1 = v_temp w + T;
  g_steady : v_steady w1 <= v_steady w + T;
  g_calm : 0 <= v_calm w -> 0 <= v_calm w1 <= v_calm w + T;
  g_n : 0 <= n -> 0 <= n1 <= n + T
}.
Lemma calm_bound y w e y' : 0 <= v_calm w -> 0 <= v_calm (watch_step lo hi y w e y') <= v_calm w + match e with ETick => 1 | _ => 0 end.
Proof.
  intros P. assert (K := calm_move lo hi y w e y'). assert (Z : v_calm (watch_step lo hi y w e y') = 0 \/ v_calm (watch_step lo hi y w e y') = v_calm w + match e with ETick => 1 | _ => 0 end).
  { change (watch_step lo hi y w e y') with (watch_state y y' (watch_ev lo hi y w e)) in *. cbn [watch_state v_calm] in *.
    destruct (t_enabled (y_ct y) && t_enabled (y_ct y') && _); [|auto]. right. destruct e; cbn [watch_ev watch_tick v_calm]; try lia.
    - unfold watch_adc. destruct (m_adc _); cbn [v_calm]; lia.
    - unfold watch_poll. destruct (m_avail _); [destruct (_ =? _)|]; cbn [v_calm]; lia. }
  assert (0 <= match e with ETick => 1 | _ => 0 end) by (destruct e; lia). lia.
Qed.
Lemma eager_bound y n e y' : 0 <= n -> 0 <= eager_step C W y n e y' <= n + match e with ETick => 1 | _ => 0 end.
Proof. intros P. unfold eager_step. destruct (_ && _); destruct e; lia. Qed.
Lemma during_ok y w n l y1 w1 n1 : fs y w -> wpath L lo hi chi C W y w n (map irq_event l) y1 w1 n1 -> during (ticks l) y w n y1 w1 n1.
Proof.
  intros D Pa. remember (map irq_event l) as el eqn:El. revert l El.
  induction Pa as [y w n|y w n e0 el y1 y2 w2 n2 O E Hx P IHP]; intros l El.
  - destruct l; [|discriminate El]. pose proof (i_now _ _ _ (s4_inv _ _ _ (freach_s4 C y HC (fserved_reach L lo hi C HC HL y w D)))) as In.
    constructor; cbn [ticks]; try lia. unfold is_u16, u16 in *. lia.
  - destruct l as [|i l]; [discriminate El|]. cbn [map] in El. injection El as -> ->.
    assert (Ew : fwork C y (irq_event i) [] = Some (y1, [])) by (destruct i; cbn [irq_event fwork]; unfold lift; cbn [irq_event] in E; rewrite E; reflexivity).
    assert (Dn : fs y1 (watch_step lo hi y w (irq_event i) y1)).
    { eapply (fsrv_step L lo hi C y w (irq_event i) [] y w y1); [exact D|constructor|exact O|exact Ew]. }
    destruct (IHP Dn l eq_refl) as [H1 H2 H3 H4 H5 H6].
    assert (Fw : fw y (irq_event i) y w y1) by (apply (fwd_ok L lo hi C HC HL y w (irq_event i) [] y w y1); [apply fserved_fprog; assumption|constructor|exact O|exact Ew]).
    pose proof (fmoves L lo hi C HC y _ y w y1 Fw) as Mv. cbv zeta in Mv. pose proof (calm_bound y w (irq_event i) y1) as Cb. pose proof (eager_bound y n (irq_event i) y1) as Eb.
    pose proof (fp_steady _ _ _ _ _ _ (fserved_fprog L lo hi C HC HL y w D)) as Sp.
    set (w' := watch_step lo hi y w (irq_event i) y1) in *. clearbody w'. set (n' := eager_step C W y n (irq_event i) y1) in *. clearbody n'.
    assert (Tk : ticks (i :: l) = match irq_event i with ETick => 1 | _ => 0 end + ticks l) by (destruct i; reflexivity).
    assert (Nn : y_now y1 = u16 (y_now y + match irq_event i with ETick => 1 | _ => 0 end)).
    { assert (Ef : fires C y [i] = Some y1).
      { destruct (irq_events L lo hi C HC HL y w [i] y1 (watch_step lo hi y w (irq_event i) y1)) as (_ & _ & Ef & _); [apply fserved_fprog; assumption| |exact Ef].
        cbn [map]. econstructor; [exact O|exact E|constructor]. }
      pose proof (i_now _ _ _ (s4_inv _ _ _ (freach_s4 C y HC (fserved_reach L lo hi C HC HL y w D)))) as In.
      destruct (fires_tk C y [i] y1 In Ef) as (Nw & _). rewrite Nw. destruct i; reflexivity. }
    assert (Bt : 0 <= match irq_event i with ETick => 1 | _ => 0 end) by (destruct i; cbn; lia).
    assert (Mt : v_temp w' = v_temp w + match irq_event i with ETick => 1 | _ => 0 end /\ v_steady w' <= v_steady w + match irq_event i with ETick => 1 | _ => 0 end).
    { destruct Mv as [((Z & _) & _)|[((Z & _) & _)|[(Z & _ & M2 & _ & M4)|(_ & Z & _ & M2 & _ & M4)]]]; [destruct i; discriminate Z|destruct i; discriminate Z|rewrite Z; lia|].
      destruct i; cbn [irq_event] in *; try congruence; lia. }
    set (t := match irq_event i with ETick => 1 | _ => 0 end) in *. clearbody t. constructor; rewrite ?Tk; try lia.
    rewrite H2, Nn. unfold u16. lia.
Qed.

Definition fstepped (Q : sys -> watch -> Z -> Prop) : Prop :=
  forall y w n e o y1 w1 n1 y', freach C y -> fs y w -> Q y w n -> fs y1 w1 -> Q y1 w1 n1 -> during (ticks (concat o)) y w n y1 w1 n1 -> ticks (concat o) <= l_poll L ->
    on_time L C y1 w1 e -> fwork C y e o = Some (y', []) -> (forall raw, e = EAdc raw -> m_chan (y_meas y1) = 0 -> raw <= chi) -> fw y e y1 w1 y' ->
    fs y' (watch_step lo hi y1 w1 e y') -> Q y' (watch_step lo hi y1 w1 e y') (eager_step C W y1 n1 e y').
Lemma fwanting_each (Q : sys -> watch -> Z -> Prop) : (forall y, freach C y -> fresh C y -> Q y watch_zero 0) -> fstepped Q ->
  forall y w n, fwanting L lo hi chi C W y w n -> Q y w n.
Proof.
  intros Q0 Qs y w n D. induction D as [pinb y Hp E|y v pinb y' R N Ad|y w n e o y1 w1 n1 y' D IH Pa O E Hx].
  - apply Q0; [econstructor; eassumption|eapply boot_fresh; eassumption].
  - apply Q0; [eapply freach_step; eassumption|eapply fpower_fresh; eassumption].
  - pose proof (fwanting_fserved _ _ _ D) as D0. pose proof (wpath_path _ _ _ _ _ _ _ Pa) as Pp.
    assert (D' : fs y' (watch_step lo hi y1 w1 e y')) by (eapply fsrv_step; eassumption).
    assert (D1 : fs y1 w1) by (exact (path_fserved L lo hi C y w _ y1 w1 D0 Pp)).
    pose proof (during_ok _ _ _ _ _ _ _ D0 Pa) as Du.
    assert (Q1 : Q y1 w1 n1).
    { clear E O Hx D' D1 Pp D Du. remember (map irq_event (concat o)) as el eqn:El. generalize dependent (concat o). clear o.
      induction Pa as [y w n|y w n e0 el y1 y2 w2 n2 O E Hx P IHP]; intros l El; [exact IH|].
      destruct l as [|i l]; [discriminate El|]. cbn [map] in El. injection El as -> ->.
      assert (Ew : fwork C y (irq_event i) [] = Some (y1, [])) by (destruct i; cbn [irq_event fwork]; unfold lift; cbn [irq_event] in E; rewrite E; reflexivity).
      assert (Dn : fs y1 (watch_step lo hi y w (irq_event i) y1)).
      { eapply (fsrv_step L lo hi C y w (irq_event i) [] y w y1); [exact D0|constructor|exact O|exact Ew]. }
      apply IHP with (l := l); [|exact Dn|reflexivity].
      eapply (Qs y w n (irq_event i) [] y w n y1); try assumption.
      - exact (fserved_reach L lo hi C HC HL y w D0).
      - apply (during_ok y w n [] y w n D0). constructor.
      - cbn. apply HL.
      - apply (fwd_ok L lo hi C HC HL y w (irq_event i) [] y w y1); [apply fserved_fprog; assumption|constructor|exact O|exact Ew]. }
    eapply (Qs y w n e o y1 w1 n1 y'); try assumption.
    + exact (fserved_reach L lo hi C HC HL y w D0).
    + destruct (irq_events L lo hi C HC HL y w _ y1 w1 (fserved_fprog L lo hi C HC HL y w D0) Pp) as (Pg1 & _ & _ & Pl).
      pose proof (fk_pos _ _ _ _ (fp_core _ _ _ _ _ _ Pg1)) as (_ & _ & Pp1 & _).
      pose proof (fk_pos _ _ _ _ (fp_core _ _ _ _ _ _ (fserved_fprog L lo hi C HC HL y w D0))) as (_ & _ & Pp0 & _). lia.
    + apply (fwd_ok L lo hi C HC HL y w e o y1 w1 y'); [apply fserved_fprog; assumption|assumption..].
Qed.

(** An event that is not a result of the temperature channel *)
Lemma other_keep y e o y' : freach C y -> fwork C y e o = Some (y', []) -> fnext C y e y' -> is_power e = false -> ~ result y e 1 ->
  (t_dt (y_ct y') = t_dt (y_ct y) \/ exists d, 0 <= d <= ticks (concat o) /\ t_dt (y_ct y') = u16 (y_now y + d)) /\ (pe y' = pe y \/ pe y' = 0).
Proof.
  intros R E N Pw X. pose proof (freach_s4 C y HC R) as S4. pose proof (i_now _ _ _ (s4_inv _ _ _ S4)) as In.
  assert (Same : y_ct y' = y_ct y -> (t_dt (y_ct y') = t_dt (y_ct y) \/ exists d, 0 <= d <= ticks (concat o) /\ t_dt (y_ct y') = u16 (y_now y + d)) /\ (pe y' = pe y \/ pe y' = 0)).
  { intros Ec. unfold pe. rewrite Ec. auto. }
  assert (Work : ks (fwork C y e) y -> (t_dt (y_ct y') = t_dt (y_ct y) \/ exists d, 0 <= d <= ticks (concat o) /\ t_dt (y_ct y') = u16 (y_now y + d)) /\ (pe y' = pe y \/ pe y' = 0)).
  { intros K0. destruct (K0 _ _ _ In E) as (l & U & _ & P2 & P3). apply uses_all in U. subst l. auto. }
  destruct (plain e) eqn:Pl.
  - apply Same. destruct (fwork_plain C y e o y' Pl E) as (_ & Ep). destruct e; try discriminate Pl; try discriminate Pw; cbn [step] in Ep.
    + apply Some_inj in Ep. subst y'. reflexivity.
    + apply Some_inj in Ep. subst y'. destruct (m_adc (y_meas y)); [|reflexivity]. unfold adc_isr. cbv zeta. destruct (timer_expired _ _); reflexivity.
    + destruct (x_eerie (y_set y)); [|apply Some_inj in Ep; subst; reflexivity]. destruct (x_busy (y_set y)); [apply Some_inj in Ep; subst; reflexivity|].
      destruct (ee_ready_isr C (y_set y)) as [x|]; [|discriminate Ep]. cbn [bind] in Ep. apply Some_inj in Ep. subst. reflexivity.
    + apply Some_inj in Ep. subst y'. reflexivity.
    + unfold sys_display_work in Ep. destruct (display_work _ _ _) as [[h d]|]; [|discriminate Ep]. cbn [bind] in Ep. apply Some_inj in Ep. subst y'. reflexivity.
    + apply Some_inj in Ep. subst y'. reflexivity.
  - destruct e; try discriminate Pl.
    + apply Same. destruct (m_avail (y_meas y)) eqn:Av.
      * assert (Pn : pending y EMeasure = true) by exact Av. destruct (pending_cases _ _ _ _ (s4_inv _ _ _ S4) Pn) as [X0|X1]; [|destruct (X X1)].
        destruct (fnext_all relaxed C HC bok_relaxed y _ y' S4 N) as (_ & _ & Pd). destruct (Pd Pn) as (c0 & c1 & raw & _ & _ & _ & _ & _ & _ & _ & _ & _ & Hc).
        destruct X0 as (_ & _ & X3). destruct (Hc X3) as (c0' & v & v' & p & n1 & n2 & n & t & _ & _ & Ef & _). destruct Ef as (Ect & _). exact Ect.
      * cbn [fwork] in E. unfold measure_work_f in E. cbv zeta in E. rewrite Av in E. apply ret_inv in E. destruct E as (-> & _). reflexivity.
    + apply Work. apply menu_work_ks.
    + apply Work. apply buttons_work_ks.
Qed.

Variables (vlo vhi : Z).
Hypothesis HV : -20 * 64 <= vlo <= vhi /\ vhi <= 500 * 64 /\ 54 * 64 <= vlo - W /\ vhi - W < 2 * (vlo - W).
Let rg (y : sys) : Prop := forall c v, lo <= c <= hi -> temp_of_code C (s_adj (x_cache (y_set y))) c v -> vlo <= v <= vhi.
Definition ft1 (y : sys) : Prop := W - vhi - 1 <= 2 * pe y /\ t_emerg (y_ct y) = false.
Definition fgood (y : sys) (w : watch) (n : Z) : Prop :=
  0 <= n /\ 0 <= v_calm w /\
  (v_temp w < n -> v_temp w < v_calm w -> v_temp w + slow_window L < v_steady w -> rg y ->
     ft1 y /\ exists k, 0 <= k <= v_temp w + l_poll L /\ t_dt (y_ct y) = u16 (y_now y - k)) /\
  (v_temp w + slow_cycle L < n -> v_temp w + slow_cycle L < v_calm w -> v_temp w + slow_cycle L + slow_window L < v_steady w -> rg y ->
     p_setpoint (cc_pid (y_cc y)) = 0) /\
  (v_curr w + 2 * slow_cycle L < n -> v_curr w + 2 * slow_cycle L < v_calm w -> v_curr w + 2 * slow_cycle L + slow_window L < v_steady w -> rg y ->
     7372 <= cc_ocr (y_cc y)).
Lemma fgood_all y w n : fwanting L lo hi chi C W y w n -> fgood y w n.
Proof.
  revert y w n. assert (Sp : 50 <= slow_window L /\ 55 <= slow_cycle L <= 2055) by (destruct HL as (L1 & L2 & _ & _ & L5); unfold slow_window, slow_cycle; lia).
  assert (Lp : 0 <= l_poll L <= 1000) by (destruct HL as (L1 & L2 & _ & _ & L5); lia).
  apply fwanting_each.
  - intros y R Fr. unfold fgood. cbn [v_temp v_calm v_curr v_steady watch_zero]. repeat split; try lia.
  - intros y w n e o y1 w1 n1 y' R D (Gn & Gc & G1 & _ & _) D1 (Gn1 & Gc1 & H1 & H2 & H3) Du Tl O E _ Fw D'.
    pose proof (fserved_fprog L lo hi C HC HL _ _ D') as Pg'. pose proof (fserved_fprog L lo hi C HC HL _ _ D1) as Pg1. pose proof (fserved_fprog L lo hi C HC HL _ _ D) as Pg.
    pose proof (fmoves L lo hi C HC y e y1 w1 y' Fw) as Mv. cbv zeta in Mv.
    pose proof (calm_move lo hi y1 w1 e y') as Cm. pose proof (calm_on lo hi y1 w1 e y') as Cn. pose proof (calm_bound y1 w1 e y' Gc1) as Cb. pose proof (eager_bound y1 n1 e y' Gn1) as Eb.
    assert (Hn : 0 < eager_step C W y1 n1 e y' -> eager C W y1 = true /\ eager_step C W y1 n1 e y' = n1 + match e with ETick => 1 | _ => 0 end).
    { unfold eager_step. destruct (eager C W y1); [|cbn; lia]. destruct (eager C W y'); cbn [andb]; [auto|lia]. }
    set (w' := watch_step lo hi y1 w1 e y') in *. clearbody w'. set (n' := eager_step C W y1 n1 e y') in *. clearbody n'.
    pose proof (fprog_temp L lo hi C HC HL _ _ Pg1) as Tb. pose proof (fprog_curr L lo hi C HC HL _ _ Pg1) as Kb.
    assert (Tp : 0 <= v_temp w1 /\ 0 <= v_temp w).
    { destruct (fp_temp _ _ _ _ _ _ Pg1) as (_ & Q1). destruct (fp_temp _ _ _ _ _ _ Pg) as (_ & Q2). pose proof (fk_pos _ _ _ _ (fp_core _ _ _ _ _ _ Pg1)) as (Q3 & _).
      pose proof (fk_pos _ _ _ _ (fp_core _ _ _ _ _ _ Pg)) as (Q4 & _). lia. }
    assert (Cp : 0 <= v_curr w1 /\ 0 <= v_curr w') by (split; [apply (fp_curr _ _ _ _ _ _ Pg1)|apply (fp_curr _ _ _ _ _ _ Pg')]).
    destruct (d_frame _ _ _ _ _ _ _ _ _ Fw) as (F1 & F2 & _ & _ & F5 & _). pose proof (d_next _ _ _ _ _ _ _ _ _ Fw) as N. pose proof (d_power _ _ _ _ _ _ _ _ _ Fw) as Pw.
    destruct Du as [T0 Tn Tt Ts Tc Te]. specialize (Tc Gc). specialize (Te Gn). set (T := ticks (concat o)) in *.
    assert (Rr : rg y' -> s_adj (x_cache (y_set y')) = s_adj (x_cache (y_set y1)) -> rg y1 /\ rg y).
    { intros Rg Ea. split; intros c x Bc Tx; apply (Rg c x Bc); rewrite Ea; [exact Tx|rewrite F5; exact Tx]. }
    pose proof (freach_s4 C y HC R) as S4. pose proof (i_now _ _ _ (s4_inv _ _ _ S4)) as In. unfold is_u16 in In.
    assert (Eg1 : eager C W y1 = eager C W y) by (unfold eager, used_gains; rewrite F1, F5; reflexivity).
    (* the current controller *)
    assert (Oc : v_curr w' + 2 * slow_cycle L < n' -> v_curr w' + 2 * slow_cycle L < v_calm w' -> v_curr w' + 2 * slow_cycle L + slow_window L < v_steady w' -> rg y' -> 7372 <= cc_ocr (y_cc y')).
    { intros Q1 Q2 Q3 Rg. destruct (Hn ltac:(lia)) as (_ & En). destruct (Cm ltac:(lia)) as (_ & Ea & Ec). destruct (Rr Rg Ea) as (Rg1 & _).
      destruct (result_dec y e 0) as [X|X].
      - assert (e = EMeasure) by apply X. subst e. destruct (f_result C y EMeasure y' HC R X N) as (_ & _ & _ & _ & K & _). apply K. rewrite <- F2.
        destruct Mv as [((_ & _ & Z) & _)|[(_ & _ & M2 & M3 & M4)|[(Z & _)|(Z & _)]]]; [destruct X as (_ & _ & X); congruence| |discriminate Z|destruct (Z 0 X)].
        apply H2; try assumption; lia.
      - destruct (f_ocr C y e y' HC R N Pw X) as [Q|Q]; rewrite Q; [|lia]. rewrite <- F2.
        destruct Mv as [((-> & _) & _ & M2 & M3 & M4)|[(Z & _)|[(-> & _ & M2 & M3 & M4)|(_ & Z & _ & M2 & M3 & M4)]]]; [|destruct (X Z)| |]; apply H3; try assumption; try lia;
          destruct e; try congruence; lia. }
    split; [lia|]. split; [lia|].
    destruct (result_dec y e 1) as [X|X].
    + assert (e = EMeasure) by apply X. subst e. cbn [fwork] in E.
      destruct Mv as [(_ & M1 & M2 & M3 & M4)|[((_ & _ & Z) & _)|[(Z & _)|(Z & _)]]]; [|destruct X as (_ & _ & X); congruence|discriminate Z|destruct (Z 1 X)].
      assert (Nn : y_now y' = y_now y1).
      { assert (X1 := X). apply (fwd_result L lo hi C y EMeasure y1 w1 y' 1 Fw) in X1. destruct X1 as (_ & X1a & _).
        destruct (d_pk _ _ _ _ _ _ _ _ _ Fw) as [Z _ _|raw0 Z _ _ _ _|k0 k1 e1 e2 b _ _ Nn _ _ _ _ _ _ _ _ _|_ NM _ _]; [discriminate Z|discriminate Z|exact Nn|rewrite (NM eq_refl) in X1a; discriminate X1a]. }
      assert (K : 0 < n' -> 0 < v_calm w' -> slow_window L < v_steady w' -> rg y' -> ft1 y' /\ (exists k, 0 <= k <= l_poll L /\ t_dt (y_ct y') = u16 (y_now y' - k)) /\
        (slow_cycle L < n' -> slow_cycle L < v_calm w' -> slow_cycle L + slow_window L < v_steady w' -> p_setpoint (cc_pid (y_cc y')) = 0)).
      { intros Q1 Q2 Q3 Rg. destruct (Hn Q1) as (Eg & En). destruct (Cm Q2) as (On & Ea & Ec). destruct (Rr Rg Ea) as (Rg1 & Rg0). rewrite F1 in On. rewrite Eg1 in Eg.
        pose proof (fp_last _ _ _ _ _ _ Pg') as La. rewrite M1, M2 in La. specialize (La ltac:(lia)).
        destruct (code_temp C (s_adj (x_cache (y_set y))) (mean_code y)) as (v & Tv). assert (Bv : vlo <= v <= vhi) by exact (Rg0 _ _ La Tv).
        pose proof (f_processed C y EMeasure y' v HC R X On N Tv ltac:(lia)) as (_ & X2 & X3 & _ & Em & Ef).
        assert (Iu : is_u16 (y_now y)) by exact In.
        destruct (measure_ran C y o y' [] Iu X2 X3 E On Em) as (l & U & Rn). apply uses_all in U. subst l.
        destruct Rn as (d & d2 & dt & out & a & B1 & B2 & Ed & Ep & Ea' & Et & Es). rewrite Ef in *. fold T in B2.
        destruct (run_law C y dt v y' out a (s4_inv _ _ _ S4) ltac:(lia) Ep Ea') as (Ps & A1 & _). cbv zeta in Ps.
        destruct (eager_inv C W y Eg) as (Ew & K1 & K2 & K3). pose proof (set_range_inv C y (s4_inv _ _ _ S4)) as Bw. rewrite Ew in *.
        split; [split; [|exact Em]|split].
        - destruct Ps as (P' & KE & A & D0 & _ & _ & _ & _ & _ & _ & (q & (N1 & _) & Eq)). assert (Se : sat24 (W - v) = W - v) by (unfold sat24; lia). rewrite Se in N1.
          unfold pe. rewrite Eq. clear - N1 Bv HV Bw. unfold sat24. lia.
        - exists (T - d2). split; [lia|]. rewrite Nn, Tn, Et. unfold u16. lia.
        - intros J1 J2 J3. destruct G1 as ((G1 & _) & k & Bk & Gk); [lia|lia|lia|exact Rg0|].
          assert (Bd : 0 <= dt).
          { rewrite Gk in Ed. destruct (clock_dt (u16 (y_now y + d)) (k + d)) as (dt' & Ed' & _ & Bd); [unfold is_u16, u16; lia|lia|].
            replace (u16 (u16 (y_now y + d) - (k + d))) with (u16 (y_now y - k)) in Ed' by (unfold u16; lia). rewrite Ed in Ed'. apply Some_inj in Ed'. subst dt'. exact Bd. }
          assert (Bp : p_prev_e (t_pid (y_ct y)) <= 8388607) by (destruct (i_ct _ _ _ (s4_inv _ _ _ S4)) as (_ & _ & _ & Be & _); unfold is_s24 in Be; lia).
          unfold pe in G1.
          pose proof (zero_demand _ _ _ W _ (p_prev_e (t_pid (y_ct y))) dt v _ _ _ K1 K2 K3 Bd Bw ltac:(lia) ltac:(lia) ltac:(lia) Bp Ps) as Bo.
          rewrite Es. destruct (30720 <? v); [reflexivity|]. subst out. destruct (A1 ltac:(lia)) as (N1 & N2). clear - N1 N2. lia. }
      rewrite M2. split; [|split; [|exact Oc]].
      * intros Q1 Q2 Q3 Rg. destruct (K ltac:(lia) ltac:(lia) ltac:(lia) Rg) as (K1 & (k & Bk & K2) & _). split; [exact K1|]. exists k. split; [lia|exact K2].
      * intros Q1 Q2 Q3 Rg. destruct (K ltac:(lia) ltac:(lia) ltac:(lia) Rg) as (_ & _ & K3). apply K3; lia.
    + (* every other event *)
      destruct (other_keep y e o y' R E N Pw X) as (Kt & Ke). destruct (fother_heat C HC y e y' R N Pw X) as (_ & _ & Km).
      assert (Mt : exists z, z = match e with ETick => 1 | _ => 0 end /\ y_now y' = u16 (y_now y1 + z) /\ v_temp w' = v_temp w1 + z /\ v_steady w' <= v_steady w1 + z).
      { pose proof (i_now _ _ _ (s4_inv _ _ _ (freach_s4 C y1 HC (fserved_reach L lo hi C HC HL y1 w1 D1)))) as In1. unfold is_u16 in In1.
        assert (N0 : y_now y1 = u16 (y_now y1 + 0)) by (unfold u16; lia). pose proof (fp_steady _ _ _ _ _ _ Pg1) as Ss.
        destruct (d_pk _ _ _ _ _ _ _ _ _ Fw) as [Ee N1 _|raw0 Ee _ N1 _ _|k0 k1 e1 e2 b Ee _ N1 _ _ _ _ _ _ _ _ _|Ne _ _ Pj];
          [exists 1|exists 0|exists 0|exists 0; apply pj_same in Pj; destruct Pj as (N1 & _)].
        all: destruct Mv as [(Z & _)|[((Z & _) & M1 & M2 & M3 & M4)|[(Z & M1 & M2 & M3 & M4)|(_ & Z & M1 & M2 & M3 & M4)]]]; try (destruct (X Z)); try congruence.
        all: split; [destruct e; congruence|]; split; [congruence|]; lia. }
      destruct Mt as (z & Ez & Nz & M2 & M4). rewrite <- Ez in *. assert (Hz : z = 0 \/ z = 1) by (destruct e; lia). clear Ez.
      split; [|split; [|exact Oc]].
      * intros Q1 Q2 Q3 Rg. destruct (Hn ltac:(lia)) as (_ & En). destruct (Cm ltac:(lia)) as (_ & Ea & Ec). destruct (Rr Rg Ea) as (Rg1 & _).
        destruct H1 as ((A1 & A2) & k & Bk & A3); [lia|lia|lia|exact Rg1|].
        assert (Pe1 : pe y1 = pe y) by (unfold pe; rewrite F1; reflexivity).
        split; [split; [|rewrite Km, <- F1; exact A2]|].
        -- destruct Ke as [Ke|Ke]; rewrite Ke; [rewrite <- Pe1; exact A1|]. clear - HV. lia.
        -- destruct Kt as [Kt|(d & Bd & Kt)]; [exists (k + z)|exists (T - d + z)]; (split; [lia|]).
           ++ rewrite Kt, <- F1, A3, Nz. unfold u16. lia.
           ++ rewrite Kt, Nz, Tn. unfold u16. lia.
      * intros Q1 Q2 Q3 Rg. destruct (Hn ltac:(lia)) as (_ & En). destruct (Cm ltac:(lia)) as (_ & Ea & Ec). destruct (Rr Rg Ea) as (Rg1 & _).
        assert (Z1 : p_setpoint (cc_pid (y_cc y1)) = 0) by (apply H2; try assumption; lia). rewrite F2 in Z1.
        destruct (f_cascade_idle C y e y' HC R N Pw) as [Q|Q]; [intros (r & J1 & J2 & J3 & _); apply X; repeat split; assumption|congruence|exact Q].
Qed.
Lemma fcool y w n : fwanting L lo hi chi C W y w n -> rg y ->
  (2 * slow_cycle L < n -> 2 * slow_cycle L < v_calm w -> 2 * slow_cycle L + slow_window L < v_steady w -> p_setpoint (cc_pid (y_cc y)) = 0) /\
  (3 * slow_cycle L < n -> 3 * slow_cycle L < v_calm w -> 3 * slow_cycle L + slow_window L < v_steady w -> 7372 <= cc_ocr (y_cc y)).
Proof.
  intros D Rg. destruct (fgood_all y w n D) as (_ & _ & _ & G2 & G3). pose proof (fserved_fprog L lo hi C HC HL y w (fwanting_fserved y w n D)) as Pg.
  pose proof (fprog_temp L lo hi C HC HL _ _ Pg) as Tb. pose proof (fprog_curr L lo hi C HC HL _ _ Pg) as Kb. split; intros Q1 Q2 Q3; [apply G2|apply G3]; try assumption; lia.
Qed.
End FWarm.
