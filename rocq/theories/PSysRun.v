(** * Invariant of the running firmware, part 7: power-up and all events *)
From Coq Require Import ZArith List Bool Lia ZifyBool.
From Verif Require Import Base PBase MConf MUtil MFixpt MScale MRing MFilter MTimer MPid MPwm MTempMap MCurr MSens
  SpecNum SpecPid SpecSmall PNum PSmall PScale PPid SpecCurr PCurr MSettings SpecSettings PSettings PSysSet
  MSseg MDisplay MText MState MTemp MMeas MMenu MMain SpecDisplay PDisplay SpecSys PSys PSysMeas PSysMenu PSysDisp PSysBtn PSysStep.
Import ListNotations.
Open Scope Z_scope.
Ltac Zify.zify_post_hook ::= Z.div_mod_to_equations.

(** ** Power-up *)
Definition hw1 : hw := y_hw (buttons_init (sys_reset (fun _ => 0))).
Definition hd (dbg : bool) : option (hw * disp) :=
  if dbg then
    '(h, d) <- display_enable 0 (set_h_tx hw1 false) disp_zero true ;;
    display_init 0 (set_h_tx h false) d
  else display_init 0 hw1 disp_zero.
Lemma hd_eq dbg : hd dbg = hd false.
Proof. destruct dbg; [|reflexivity]. vm_compute. reflexivity. Qed.
Definition hd1 : hw * disp := match hd false with Some p => p | None => (hw1, disp_zero) end.
Lemma hd1_eq : hd false = Some hd1.
Proof. vm_compute. reflexivity. Qed.

Definition pwm_pins (h : hw) : hw := let h := set_h_portb h (or8 (h_portb h) 2) in set_h_ddrb h (or8 (h_ddrb h) 2).
(** Registers and display at the start of the main loop; [p]: the SET button was held. *)
Definition hd2 (p : bool) : hw * disp :=
  let h := pwm_pins (fst hd1) in
  if p then match display_enable 0 h (snd hd1) false with
            | Some (h, d) => (unused_pins_init (set_h_tx h true), d)
            | None => (h, disp_zero)
            end
  else (unused_pins_init h, snd hd1).
Lemma hd2_disp p : disp_inv (snd (hd2 p)) /\ d_enabled (snd (hd2 p)) = negb p /\ h_tx (fst (hd2 p)) = p /\ io_ok (fst (hd2 p)) (snd (hd2 p)).
Proof.
  destruct p.
  - split; [|vm_compute; repeat split].
    change (snd (hd2 true)) with (ltac:(let r := eval vm_compute in (snd (hd2 true)) in exact r)).
    unfold disp_inv. cbn. split; [lia|]. eexists _, _, _, _. split; [reflexivity|]. cbn. unfold dd_ok, is_u8. cbn. repeat split; lia.
  - split; [|].
    change (snd (hd2 false)) with (ltac:(let r := eval vm_compute in (snd (hd2 false)) in exact r)).
    unfold disp_inv. cbn. split; [lia|]. eexists _, _, _, _. split; [reflexivity|]. cbn. unfold dd_ok, is_u8. cbn. repeat split; lia.
    vm_compute. repeat split; try discriminate. left. split; reflexivity.
Qed.

Definition cc1 : cc := match contrcurr_init 0 cc_zero with Some c => c | None => cc_zero end.
Lemma cc1_eq : contrcurr_init 0 cc_zero = Some cc1.
Proof. vm_compute. reflexivity. Qed.
Definition cc2 : cc := pwmcurr_init (contrcurr_set_setpoint cc1 0).
Lemma cc2_ok : cc_sys cc2 /\ cc_emerg cc2 = 0 /\ cc_ocr cc2 = 8191 /\ p_setpoint (cc_pid cc2) = 0 /\ cc_restricted cc2 = true.
Proof.
  change cc2 with (ltac:(let r := eval vm_compute in cc2 in exact r)).
  unfold cc_sys, cc_inv, cpid_inv, model_ok. cbn. repeat split; try lia; try discriminate.
Qed.

Definition ct1 (k : pid_k) (a : Z) : ct :=
  mkCt true false false 0 0 false
    (pid_set_setpoint (pid_init pid_zero k CONTRTEMP_NEGLIM_I CONTRTEMP_POSLIM_I CONTRTEMP_NEGLIM CONTRTEMP_POSLIM) a) 0 0.
Definition meas1 (C : conf) (s : settings) : meas :=
  mkMeas [mkChan 0 false false 0; mkChan (if c_adj C then s_adj s else 0) false false 0] 1 0 0 50 false true.
Definition booted (C : conf) (x : sst) (k : pid_k) (a : Z) (p : bool) : sys :=
  mkSys 0 (mkBtn 0 0) cc2 (ct1 k a) (meas1 C (x_cache x)) (mkMcur false 0 0) 0
        (mkMenu (if p then MENU_DEBUG else MENU_CURTEMP) 0 RAMP_NONE 0 0 None 0 0 false true) x (snd (hd2 p)) (fst (hd2 p)) p.
Definition hdt (h : hw) (d : disp) (p : bool) : hw * disp :=
  let h := pwm_pins h in
  if p then match display_enable 0 h d false with
            | Some (h, d) => (unused_pins_init (set_h_tx h true), d)
            | None => (h, disp_zero)
            end
  else (unused_pins_init h, d).
Lemma boot_tail C ee x k a pinb h d c :
  zget (s_k (x_cache x)) 0 = Some k -> zget (s_preset (x_cache x)) (s_active (x_cache x)) = Some a ->
  contrcurr_init 0 cc_zero = Some c -> display_enable 0 (pwm_pins h) d false <> None ->
  let p := c_debug C && button_is_pressed pinb BUTTON_SET in
  (y <- meastemp_init C (meascurr_init (measure_init (set_y_hw (set_y_disp (set_y_set (sys_reset ee) x) d) h))) ;;
   c <- contrcurr_init (y_now y) (y_cc y) ;;
   y <- contrtemp_init C (set_y_cc y c) ;;
   y <- menu_init C (sys_pwmcurr_init y) pinb ;;
   measure_start C (set_y_hw y (unused_pins_init (y_hw y)))) =
  Some (mkSys 0 (mkBtn 0 0) (pwmcurr_init (contrcurr_set_setpoint c 0)) (ct1 k a) (meas1 C (x_cache x)) (mkMcur false 0 0) 0
        (mkMenu (if p then MENU_DEBUG else MENU_CURTEMP) 0 RAMP_NONE 0 0 None 0 0 false true) x (snd (hdt h d p)) (fst (hdt h d p)) p).
Proof.
  intros Ek Ea Ec Hd p.
  assert (Z1 : meascurr_init (measure_init (set_y_hw (set_y_disp (set_y_set (sys_reset ee) x) d) h)) =
    mkSys 0 (mkBtn 0 0) cc_zero (mkCt false false false 0 0 false pid_zero 0 0) meas_zero (mkMcur false 0 0) 0
        (mkMenu MENU_CURTEMP 0 RAMP_NONE 0 0 None 0 0 false false) x d h false) by reflexivity.
  rewrite Z1. clear Z1.
  set (m := mkMeas [mkChan 0 false false 0; mkChan (if c_adj C then s_adj (x_cache x) else 0) false false 0] 0 0 0 0 false false).
  assert (M : meastemp_init C (mkSys 0 (mkBtn 0 0) cc_zero (mkCt false false false 0 0 false pid_zero 0 0) meas_zero (mkMcur false 0 0) 0
        (mkMenu MENU_CURTEMP 0 RAMP_NONE 0 0 None 0 0 false false) x d h false) =
        Some (mkSys 0 (mkBtn 0 0) cc_zero (mkCt false false false 0 0 false pid_zero 0 0) m (mkMcur false 0 0) 0
        (mkMenu MENU_CURTEMP 0 RAMP_NONE 0 0 None 0 0 false false) x d h false)).
  { unfold meastemp_init, measure_adjust_set, m. destruct (c_adj C); reflexivity. }
  rewrite M. clear M. sy. rewrite Ec. sy. unfold set_y_cc. sy.
  assert (T : contrtemp_init C (mkSys 0 (mkBtn 0 0) c (mkCt false false false 0 0 false pid_zero 0 0) m (mkMcur false 0 0) 0
        (mkMenu MENU_CURTEMP 0 RAMP_NONE 0 0 None 0 0 false false) x d h false) =
        Some (mkSys 0 (mkBtn 0 0) (contrcurr_set_setpoint c 0) (ct1 k a) m (mkMcur false 0 0) 0
        (mkMenu MENU_CURTEMP 0 RAMP_NONE 0 0 None 0 0 false true) x d h false)).
  { unfold contrtemp_init, presets_get_active_value, get_settings. sy. rewrite Ek. sy. rewrite Ea. sy.
    unfold do_set_enabled. erewrite set_boost_eq by (unfold get_settings; sy; exact Ek).
    unfold do_set_emerg, boosted. cbv zeta. sy. f_equal. unfold ct1. destruct (c_boost C); reflexivity. }
  rewrite T. clear T. sy. unfold menu_init, sys_pwmcurr_init, hdt. cbv zeta. fold (pwm_pins h). sy. fold (pwm_pins h).
  unfold p. clear p. destruct (c_debug C) eqn:Ed; cbn [andb]; [destruct (button_is_pressed pinb BUTTON_SET)|].
  - unfold debug_enable. rewrite Ed. sy. destruct (display_enable 0 (pwm_pins h) d false) as [[h' d']|]; [|congruence].
    cbn [bind]. reflexivity.
  - reflexivity.
  - reflexivity.
Qed.
Lemma boot_eq C ee x k a pinb : settings_init C ee = Some x -> zget (s_k (x_cache x)) 0 = Some k ->
  zget (s_preset (x_cache x)) (s_active (x_cache x)) = Some a ->
  boot C ee pinb = Some (booted C x k a (c_debug C && button_is_pressed pinb BUTTON_SET)).
Proof.
  intros Ex Ek Ea. unfold boot. cbv zeta.
  assert (E0 : y_hw (buttons_init (sys_reset ee)) = hw1) by reflexivity.
  assert (D : exists y, (if c_debug C then debug_uart_init C (buttons_init (sys_reset ee)) else Some (buttons_init (sys_reset ee))) = Some y /\
    y = set_y_disp (set_y_hw (sys_reset ee) (y_hw y)) (y_disp y) /\ display_init 0 (y_hw y) (y_disp y) = hd (c_debug C)).
  { unfold debug_uart_init, debug_enable. destruct (c_debug C).
    - change (y_hw (buttons_init (sys_reset ee))) with hw1. change (y_disp (set_y_dbg ?z false)) with (y_disp z). cbn [negb]. sy.
      change (y_disp (buttons_init (sys_reset ee))) with disp_zero. change (y_now (buttons_init (sys_reset ee))) with 0.
      destruct (display_enable 0 (set_h_tx hw1 false) disp_zero true) as [[h d]|] eqn:E; [|vm_compute in E; discriminate E].
      cbn [bind]. eexists. split; [reflexivity|]. split; [reflexivity|]. unfold hd. sy. rewrite E. reflexivity.
    - eexists. split; [reflexivity|]. split; [reflexivity|]. unfold hd. rewrite E0. reflexivity. }
  destruct D as (y1 & E1 & Ey & Eh). clear E0. rewrite E1. clear E1. set (h1 := y_hw y1) in *. set (d1 := y_disp y1) in *. clearbody h1 d1. subst y1.
  cbn [bind]. rewrite Ex. cbn [bind]. sy.
  change (y_now (sys_reset ee)) with 0. rewrite Eh, hd_eq, hd1_eq. clear Eh. cbn [bind].
  rewrite (surjective_pairing hd1). cbn [bind].
  assert (Nn : display_enable 0 (pwm_pins (fst hd1)) (snd hd1) false <> None) by (intros Q; vm_compute in Q; discriminate Q).
  pose proof (boot_tail C ee x k a pinb (fst hd1) (snd hd1) cc1 Ek Ea cc1_eq Nn) as K. cbv zeta in K.
  etransitivity; [exact K|]. reflexivity.
Qed.

Lemma booted_ok B C x k a p : bok B -> set_inv C B x -> zget (s_k (x_cache x)) 0 = Some k ->
  zget (s_preset (x_cache x)) (s_active (x_cache x)) = Some a -> (p = true -> c_debug C = true) -> inv B C (booted C x k a p).
Proof.
  intros HB Sx Ek Ea Hp. destruct (hd2_disp p) as (D1 & D2 & D3 & D4). destruct cc2_ok as (K1 & K2 & K3 & K4 & K5).
  unfold booted. set (h := fst (hd2 p)) in *. set (d := snd (hd2 p)) in *. clearbody h d. set (c := cc2) in *. clearbody c.
  constructor; sy.
  - unfold is_u16; lia.
  - unfold is_u8; lia.
  - exact K1.
  - unfold ct_inv, bm, ct1. sy. split; [destruct (c_boost C); exact Ek|]. split; [lia|]. split; [vm_compute; repeat split|].
    change (p_prev_e (pid_init pid_zero k CONTRTEMP_NEGLIM_I CONTRTEMP_POSLIM_I CONTRTEMP_NEGLIM CONTRTEMP_POSLIM)) with 0.
    change (p_integr (pid_init pid_zero k CONTRTEMP_NEGLIM_I CONTRTEMP_POSLIM_I CONTRTEMP_NEGLIM CONTRTEMP_POSLIM)) with 0.
    split; [lia|]. split; [lia|]. split; [|lia]. exists a. split; [exact Ea|]. rewrite andb_false_r. reflexivity.
  - intros _. exact K4.
  - unfold meas_inv, meas1. sy. split; [eexists _, _; split; [reflexivity|split; reflexivity]|]. lia.
  - unfold mc_inv. sy. lia.
  - lia.
  - unfold menu_inv. sy. split; [|lia]. destruct p; [apply Hp; reflexivity|reflexivity].
  - destruct p; reflexivity.
  - exact Sx.
  - exact D1.
  - exact D4.
  - unfold dbg_inv. sy. split; [intros ->; split; [apply Hp; reflexivity|reflexivity]|]. split; assumption.
Qed.

(** ** The full invariant *)
Record sinv4 (B : bnds) (C : conf) (y : sys) : Prop := mkS4 {
  s4_inv : inv B C y;
  s4_ramp : ramp_ok (y_menu y);
  s4_hand : handover (y_meas y);
  s4_screen : screen C y
}.
Lemma booted_s4 B C x k a p : bok B -> set_inv C B x -> zget (s_k (x_cache x)) 0 = Some k ->
  zget (s_preset (x_cache x)) (s_active (x_cache x)) = Some a -> (p = true -> c_debug C = true) -> sinv4 B C (booted C x k a p).
Proof.
  intros. constructor; [apply booted_ok; assumption|left; reflexivity| |intros U; discriminate U].
  split; [reflexivity|]. discriminate.
Qed.
Lemma boot_s4 B C ee x pinb : bok B -> settings_init C ee = Some x -> set_inv C B x ->
  exists y, boot C ee pinb = Some y /\ sinv4 B C y /\
    exists k a p, y = booted C x k a p /\ p = c_debug C && button_is_pressed pinb BUTTON_SET.
Proof.
  intros HB Ex Sx. assert (R := Sx). destruct R as (_ & R & _).
  destruct (rng_gain_get B C _ 0 R (or_introl eq_refl)) as (k & Ek & _). destruct (rng_preset_get B C _ R) as (a & Ea & _).
  eexists. split; [exact (boot_eq C ee x k a pinb Ex Ek Ea)|]. split; [|eauto].
  apply booted_s4; auto. intros H. apply andb_true_iff in H. apply H.
Qed.

(** ** One event *)
Lemma meas_vstep y y' : meas_frame y y' -> (t_feedback (y_ct y') <> t_feedback (y_ct y) -> n_upd (y_menu y') = true) ->
  (n_upd (y_menu y) = true -> n_upd (y_menu y') = true) -> vstep y y'.
Proof.
  intros (F1&F2&F3&F4&F5&F6&(b&F7)&(G1&G2&G3&G4&G5&G6&G7)) H1 H2. unfold vstep.
  destruct (n_upd (y_menu y')) eqn:U; [left; reflexivity|]. right. split.
  { destruct (n_upd (y_menu y)); [discriminate H2; reflexivity|reflexivity]. }
  unfold vis. rewrite F3, F4, G2, G3, F7. sy.
  assert (t_feedback (y_ct y') = t_feedback (y_ct y)) as ->; [|reflexivity].
  destruct (Z.eq_dec (t_feedback (y_ct y')) (t_feedback (y_ct y))) as [E|E]; [exact E|]. discriminate (H1 E).
Qed.
Lemma set_step B C y x : inv B C y -> set_inv C B x -> x_cache x = x_cache (y_set y) -> inv B C (set_y_set y x).
Proof. intros I Sx Ec. destruct I. constructor; sy; rewrite ?Ec; assumption. Qed.
Lemma work_serial C now x : exists v, x_cache (settings_work C now x) = set_s_serial (x_cache x) v.
Proof.
  assert (Id : exists v, x_cache x = set_s_serial (x_cache x) v) by (exists (s_serial (x_cache x)); destruct (x_cache x); reflexivity).
  unfold settings_work. destruct (x_request x); cbn [negb]; [|exact Id]. destruct (timer_expired _ _); cbn [negb]; [|exact Id].
  destruct (c_eering C); [eexists; reflexivity|exact Id].
Qed.

Lemma step_ok B C y e : build_conf C -> bok B -> sinv4 B C y -> ev_ok C y e ->
  exists y', step C y e = Some y' /\ sinv4 (if is_power e then relaxed else B) C y'.
Proof.
  intros HC HB [I Ro H S] O. destruct e; cbn [step is_power ev_ok] in *.
  - (* tick *)
    eexists. split; [reflexivity|]. constructor; [|exact Ro|exact H|exact S]. destruct I. constructor; sy; try assumption. unfold sys_tick, timer_isr. sy. apply u16_range.
  - (* adc *)
    eexists. split; [reflexivity|]. destruct (m_adc (y_meas y)) eqn:Ea; [|constructor; assumption].
    destruct (adc_isr_ok B C y raw I H Ea (proj1 O) (proj2 O)) as (I' & H' & _ & _ & _ & E & _).
    constructor; [exact I'|rewrite E; exact Ro|exact H'|rewrite E; exact S].
  - (* ready *)
    destruct (x_eerie (y_set y)) eqn:Ee; [|exists y; split; [reflexivity|constructor; assumption]].
    destruct (x_busy (y_set y)) eqn:Eb; [exists y; split; [reflexivity|constructor; assumption]|].
    destruct (set_ready C HC B (y_set y) (i_set _ _ _ I) (proj2 HB) Ee Eb) as (x' & E & Sx & Ec & _). rewrite E. cbn [bind].
    eexists. split; [reflexivity|]. constructor; [apply set_step; assumption|exact Ro|exact H|].
    eapply screen_step; [|exact S]. right. split; [reflexivity|]. unfold vis. sy. rewrite Ec. reflexivity.
  - (* done *)
    eexists. split; [reflexivity|].
    assert (Ec : x_cache (ee_prog_done (y_set y)) = x_cache (y_set y)) by (unfold ee_prog_done; destruct (x_busy (y_set y)) as [[? ?]|]; reflexivity).
    constructor; [apply set_step; [exact I|apply (set_done C HC); apply (i_set _ _ _ I)|exact Ec]|exact Ro|exact H|].
    eapply screen_step; [|exact S]. right. split; [reflexivity|]. unfold vis. sy. rewrite Ec. reflexivity.
  - (* measure *)
    destruct (m_avail (y_meas y)) eqn:Ea.
    2: { exists y. split; [eapply measure_idle; eassumption|constructor; assumption]. }
    destruct (i_meas _ _ _ I) as ((c0 & c1 & Ech & _) & M2 & _).
    destruct (measure_work_ok B C y c0 c1 I HB H Ea Ech) as (y' & raw & E & I' & F & H' & _ & _ & _ & _ & _ & _ & _ & Ht & Hc).
    exists y'. split; [exact E|]. assert (F' := F). destruct F' as (F1&F2&F3&F4&F5&F6&(b&F7)&F8).
    constructor; [exact I'|rewrite F7; exact Ro|exact H'|]. eapply screen_step; [|exact S]. apply meas_vstep; [exact F| |];
      (destruct M2 as [M2|M2]; [destruct (Hc M2) as (? & ? & ? & ? & _ & _ & (G1 & _ & G2 & _) & _)|destruct (Ht M2) as (? & ? & ? & ? & _ & _ & _ & (_ & _ & _ & _ & _ & G1 & G2 & _) & _)]);
      [rewrite G1; congruence|exact G1|rewrite G2; auto|exact G2].
  - (* menu *)
    destruct (menu_work_ok B C y HB I Ro) as (y1 & y2 & y3 & y' & E & I' & R' & F & _ & Sc & _).
    exists y'. split; [exact E|]. constructor; [exact I'|exact R'|eapply side_handover; eassumption|exact (Sc S)].
  - (* display *)
    unfold sys_display_work. destruct (work_ok (y_now y) (y_hw y) (y_disp y) (i_disp _ _ _ I) (i_io _ _ _ I)) as (h' & d' & E & D & Io & X1 & X2 & X3 & _).
    rewrite E. cbn [bind]. eexists. split; [reflexivity|]. constructor; [|exact Ro|exact H|].
    + destruct I as [? ? ? ? ? ? ? ? ? ? ? ? ? (J1 & J2 & J3)]. constructor; sy; try assumption. unfold dbg_inv. split; [exact J1|]. split; congruence.
    + eapply screen_step; [|exact S]. right. split; [reflexivity|]. unfold vis. sy. rewrite X3. reflexivity.
  - (* buttons *)
    destruct (buttons_ok B C y pinb HB I Ro) as (y' & E & I' & R' & V & F & _). exists y'. split; [exact E|].
    constructor; [exact I'|exact R'|eapply side_handover; eassumption|eapply screen_step; eassumption].
  - (* settings *)
    eexists. split; [reflexivity|]. unfold sys_settings_work. destruct (work_serial C (y_now y) (y_set y)) as (v & Ec).
    pose proof (set_work C HC B (y_now y) (y_set y) (i_set _ _ _ I) O) as Sx. set (x := settings_work C (y_now y) (y_set y)) in *. clearbody x.
    constructor; [|exact Ro|exact H|].
    + destruct I. constructor; sy; rewrite ?Ec; try assumption.
    + intros U. destruct (S U) as (s & lamp & P & D). exists s, lamp. split; [|exact D].
      unfold picture, used_gains, mode_symbol in *. sy. rewrite Ec. exact P.
  - (* power *)
    destruct (set_power C HC B (y_set y) v (i_set _ _ _ I) (proj1 O) (proj2 (proj2 O))) as (x & E & Sx & _).
    destruct (boot_s4 relaxed C _ x pinb bok_relaxed E Sx) as (y' & Ey & S4 & _). exists y'. split; [exact Ey|exact S4].
Qed.

Lemma s4_relaxed B C y : bok B -> sinv4 B C y -> sinv4 relaxed C y.
Proof.
  intros (_ & HB) [I Ro H S]. constructor; try assumption. destruct I. constructor; try assumption.
  destruct i_set as (X1 & X2 & X3). split; [exact X1|]. split; [eapply rng_le; eassumption|exact X3].
Qed.
Lemma reach_s4 C y : build_conf C -> reach C y -> sinv4 relaxed C y.
Proof.
  intros HC R. induction R as [pinb y Hp E|y e y' R IH O E].
  - destruct (set_factory C HC) as (x & Ex & Sx & _). destruct (boot_s4 strict C _ x pinb bok_strict Ex Sx) as (y1 & E1 & S1 & _).
    rewrite E in E1. apply Some_inj in E1. subst y1. eapply s4_relaxed; [apply bok_strict|exact S1].
  - destruct (step_ok relaxed C y e HC bok_relaxed IH O) as (y1 & E1 & S1). rewrite E in E1. apply Some_inj in E1. subst y1.
    destruct (is_power e); exact S1.
Qed.
Lemma reach1_s4 C y : build_conf C -> reach1 C y -> sinv4 strict C y.
Proof.
  intros HC R. induction R as [pinb y Hp E|y e y' R IH O P E].
  - destruct (set_factory C HC) as (x & Ex & Sx & _). destruct (boot_s4 strict C _ x pinb bok_strict Ex Sx) as (y1 & E1 & S1 & _).
    rewrite E in E1. apply Some_inj in E1. subst y1. exact S1.
  - destruct (step_ok strict C y e HC bok_strict IH O) as (y1 & E1 & S1). rewrite E in E1. apply Some_inj in E1. subst y1.
    rewrite P in S1. exact S1.
Qed.
Lemma reach1_reach C y : reach1 C y -> reach C y.
Proof. intros R. induction R; econstructor; eassumption. Qed.
