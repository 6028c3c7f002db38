(** * The user interface with interrupts inside the work functions, part 7: polls of the menu *)
From Coq Require Import ZArith List Bool Lia ZifyBool.
From Verif Require Import Base PBase MConf MUtil MFixpt MScale MRing MFilter MTimer MPid MPwm MTempMap MCurr MSens
  SpecNum SpecPid SpecSmall PNum PSmall PScale PPid SpecCurr PCurr MSettings SpecSettings PSettings PSysSet
  MSseg MDisplay MText MState MTemp MMeas MMenu MMain SpecDisplay PDisplay SpecSys SpecRun SpecUI PSys PSysMeas PSysMenu PSysDisp PSysBtn PSysStep PSysRun
  PSysCC PSysSafe MFine SpecFine SpecFineLive SpecFineUI PFine PFine2 PFine3 PFine4 PSysUI PSysUI2 PFineU PFineU2 PFineU3 PFineU4 PFineU5 PFineU6.
Import ListNotations.
Open Scope Z_scope.
Ltac Zify.zify_post_hook ::= Z.div_mod_to_equations.

Lemma good_error B C y y' : good B C y y' -> sensor_error y' = sensor_error y.
Proof. intros G. unfold sensor_error. rewrite (g_emerg _ _ _ _ G). destruct (g_cc _ _ _ _ G) as [->| ->]; reflexivity. Qed.
Lemma step_gap k : step_time k <= step_time (S k) <= step_time k + 400.
Proof. do 4 (destruct k as [|k]; [cbn; lia|]). cbn [step_time]. lia. Qed.
Lemma step_nonneg k : 0 <= step_time k.
Proof. do 4 (destruct k as [|k]; [cbn; lia|]). cbn [step_time]. lia. Qed.

Section Poll.
Variable C : conf.
Hypothesis HC : build_conf C.
Local Notation B := relaxed.
Local Notation HB := bok_relaxed.
Local Notation mok := (mok B C).
Local Notation inv := (inv B C).
Local Notation core := (core B C).
Local Notation fine := (fine B C).
Local Notation to := (to C).

(** ** Time limits *)
Lemma limit_bd N y u : inv y -> ramp_ok (y_menu y) -> ui_rel C y u -> N < 1000 -> (forall d, menu_limit (u_menu u) = Some d -> u_age u < 29000) ->
  bd N (menu_timeouts_f C y) (to N u (fun u' => exists v, fui_limit C u v /\ later v u')).
Proof.
  intros I Ro R HN Ha. apply bd_pos. intros HN0. destruct (i_menu _ _ _ I) as (Al & _). pose proof (uv_menu _ _ _ R) as Em.
  assert (Id : menu_limit (u_menu u) = None -> bd N (ret y) (to N u (fun u' => exists v, fui_limit C u v /\ later v u'))).
  { intros El. apply bd_ret. exists u. split; [|split; [lia|exact R]]. exists u. split; [|apply later_refl]. exists u. split; [apply later_refl|]. rewrite El. reflexivity. }
  assert (Hd : n_state (y_menu y) <> MENU_DEBUG -> y_dbg y = false).
  { intros X. destruct (y_dbg y) eqn:E; [|reflexivity]. destruct (proj1 (i_dbg _ _ _ I) E) as (_ & Z). congruence. }
  assert (K : forall d, menu_limit (u_menu u) = Some d -> bd N (y <~ pt C y ;;
    if timer_expired (y_now y) (n_timeout (y_menu y)) then
      y <~ (if mstate_eqb (n_state (y_menu y)) MENU_IDLETEMP then menu_set_state_f C y MENU_CURTEMP else menu_set_next_state_f C y) ;;
      ret (stop_ramping y)
    else ret y) (to N u (fun u' => exists v, fui_limit C u v /\ later v u'))).
  { intros d El. specialize (Ha d El). assert (Dd : 0 <= d <= 3000) by (clear - El; destruct (u_menu u); cbn in El; try discriminate; injection El as <-; lia).
    apply (bd_point B C HC HB); [apply inv_core; exact I|]. intros k n m x Hk O En. pose proof (wait_rel B C y u n m x k R O ltac:(lia) En) as R1.
    pose proof (mv_inv _ _ _ _ _ _ I O) as I1. set (z := mv y n m x) in *. assert (Ez : y_menu z = y_menu y /\ y_dbg z = y_dbg y) by (split; reflexivity). destruct Ez as (Ez & Ed). clearbody z.
    set (u1 := ui_wait k u) in *. assert (L1 : later u u1) by (apply later_wait; lia). assert (U1 : u_menu u1 = u_menu u /\ u_age u1 = u_age u + k /\ u_time u1 = u_time u + k) by (repeat split). destruct U1 as (U1 & U2 & U3).
    clearbody u1. destruct (uv_now _ _ _ R1) as (T0 & Tn). destruct (uv_age _ _ _ R1) as (G1 & G2). rewrite U1 in G2. rewrite Tn, (G2 d El), expired_at by lia.
    replace (u_time u1 - (u_time u1 - u_age u1)) with (u_age u1) by lia. destruct (d <=? u_age u1) eqn:Ea.
    2:{ apply bd_ret. exists u1. split; [|split; [lia|exact R1]]. exists u1. split; [|apply later_refl]. exists u1. split; [exact L1|]. rewrite U1, El, Ea. reflexivity. }
    assert (Al1 : allowed C (u_menu u) = true) by (rewrite <- Em; exact Al).
    assert (E0 : (if mstate_eqb (n_state (y_menu z)) MENU_IDLETEMP then menu_set_state_f C z MENU_CURTEMP else menu_set_next_state_f C z) = menu_set_state_f C z (menu_expired C (u_menu u))).
    { unfold menu_set_next_state_f. rewrite Ez, Em. rewrite (next_after C _ Al1). destruct (u_menu u); try discriminate El; reflexivity. }
    rewrite E0. assert (Can : can_enter C z (menu_expired C (u_menu u))).
    { assert (Hdb : y_dbg z = false) by (rewrite Ed; apply Hd; rewrite Em; intros X; rewrite X in El; discriminate El).
      pose proof (next_can B C z I1 Hdb) as X. rewrite Ez, Em, (next_after C _ Al1) in X. destruct (u_menu u) eqn:Es; try exact X. split; [reflexivity|]. split; [congruence|discriminate]. }
    eapply bd_seq; [apply (enter_bd C HC); [exact I1|exact Can|exact R1]|]. intros y1 N1 (k1 & k2 & K1 & K2 & EN & R2). apply bd_ret. pose proof (stop_rel C _ _ R2) as R3.
    eexists. split; [|split; [|exact R3]]; [|rewrite ui_enter_eq; uf; lia].
    exists (set_u_ramp (ui_enter (ui_wait k1 u1) (menu_expired C (u_menu u))) RNone). split; [|exists k2; split; [exact K2|reflexivity]].
    exists u1. split; [exact L1|]. rewrite U1, El, Ea. exists (ui_wait k1 u1). split; [apply later_wait; exact K1|]. uf. rewrite U1. reflexivity. }
  unfold menu_timeouts_f. destruct (n_state (y_menu y)) eqn:Es; try (apply Id; rewrite <- Em; reflexivity); (eapply K; rewrite <- Em; reflexivity).
Qed.

(** ** Ramps *)
Lemma boost_of y v : ui_rel C y v -> bm C (y_ct y) = u_boost v.
Proof. intros R. unfold bm. destruct (c_boost C) eqn:E; [apply (uv_boost _ _ _ R)|]. symmetry. apply (uv_boost0 _ _ _ R). exact E. Qed.
Lemma step_bd N y v h up : inv y -> ui_rel C y v -> ramp_of_menu h (n_state (y_menu y)) ->
  bd N (call_ramp_handler_f C y (Some h) up) (fun y' N' => inv y' /\ exists j k, 0 <= j /\ 0 <= k /\ N' = N - j - k /\
    ui_rel C y' (ui_wait k (let w := ui_wait j (set_u_cfg v (item_step (u_menu v) (u_boost v) up (u_cfg v))) in if shows_preset (u_menu v) then ui_enter w MENU_CHGPRESET else w))).
Proof.
  intros I R Hm. pose proof (boost_of _ _ R) as Hb. pose proof (uv_menu _ _ _ R) as Em. cbv zeta.
  assert (D : h = HSettemp \/ h <> HSettemp) by (destruct h; [left; reflexivity|right; discriminate ..]). destruct D as [->|Ne].
  - apply bd_and; [eapply fok_mono; [apply (handler_fine B C HC HB); [exact I|exact Hm]|]; intros y' ((G & _) & _); apply G|].
    assert (Hd : y_dbg y = false).
    { destruct (y_dbg y) eqn:E; [|reflexivity]. destruct (proj1 (i_dbg _ _ _ I) E) as (_ & X). rewrite X in Hm. destruct Hm as [|[|]]; discriminate. }
    destruct (i_set _ _ _ I) as (_ & Rg & _). destruct (rng_preset_get relaxed C _ Rg) as (a & E & Ba). cbn in Ba. fold (get_settings y) in E.
    unfold call_ramp_handler_f. apply bd_step. intros h' Eh. apply Some_inj in Eh. subst h'.
    unfold settemp_ramp_handler_f, presets_get_active_value. apply bd_step. intros a' Ea. rewrite E in Ea. apply Some_inj in Ea. subst a'.
    change CONTRTEMP_NEGLIM with 0. change CONTRTEMP_POSLIM with 30720. apply bd_step. intros w Ew. rewrite do_ramp_temp_eq in Ew by lia. apply Some_inj in Ew.
    assert (Hw : 0 <= w <= 30720) by (clear - Ew; lia).
    eapply bd_seq; [eapply bd_and; [apply presets_set_fine; [exact HC|exact HB|exact I|exact Hw]|]|].
    { apply (sl_bd _ vis) with (g := fun a => a) (y := y); [apply (co_now _ _ _ (inv_core _ _ _ I))|]. apply presets_set_sl. }
    intros y1 N1 (((G1 & _ & (t & M1) & D1 & _) & l & El & Es) & j & J1 & J2 & J3 & J4).
    assert (St : setting_step C HSettemp up (bm C (y_ct y)) (get_settings y) (get_settings y1)).
    { exists a, l. split; [exact E|]. split; [rewrite Ew; exact El|exact Es]. }
    pose proof (item_same C HSettemp up _ _ _ _ (u_menu v) (uv_cfg _ _ _ R) ltac:(rewrite <- Em; exact Hm) St) as Sm. rewrite Hb in Sm.
    pose proof (vis_rel C y v y1 j _ R J4 J1 J3 Sm) as R1.
    eapply bd_mono; [apply (enter_bd C HC); [apply G1| |exact R1]|].
    { split; [reflexivity|]. split; [congruence|]. intros _. rewrite M1. sy. destruct Hm as [->|[->| ->]]; reflexivity. }
    intros y' N' (k1 & k2 & K1 & K2 & EN & R2). exists (j + k1), k2. split; [lia|]. split; [exact K2|]. split; [lia|].
    assert (Sp : shows_preset (u_menu v) = true) by (rewrite <- Em; destruct Hm as [->|[->| ->]]; reflexivity). rewrite Sp, <- wait_wait. exact R2.
  - eapply bd_mono; [eapply bd_and; [apply (handler_fine B C HC HB); [exact I|exact Hm]|]|].
    { apply (sl_bd _ vis) with (g := fun a => a) (y := y); [apply (co_now _ _ _ (inv_core _ _ _ I))|]. apply handler_sl. exact Ne. }
    intros y' N' (((G & _) & _ & St) & j & J1 & J2 & J3 & J4). split; [apply G|]. exists j, 0. split; [exact J1|]. split; [lia|]. split; [lia|]. rewrite wait0.
    assert (Sp : shows_preset (u_menu v) = false) by (rewrite <- Em; destruct h; cbn [ramp_of_menu] in Hm; [congruence|rewrite Hm; reflexivity ..]). rewrite Sp.
    pose proof (item_same C h up _ _ _ _ (u_menu v) (uv_cfg _ _ _ R) ltac:(rewrite <- Em; exact Hm) St) as Sm. rewrite Hb in Sm.
    exact (vis_rel C y v y' j _ R J4 J1 J3 Sm).
Qed.
Lemma ramp_bd N y u : inv y -> ramp_ok (y_menu y) -> ui_rel C y u -> N < 1000 ->
  match u_ramp u with RNone => True | RWait _ n => n < 29000 | RRun _ n k => n - step_time k < 29000 end ->
  bd N (menu_ramping_f C y) (to N u (fun u' => exists v, fui_ramp u v /\ later v u')).
Proof.
  intros I Ro R HN Hn. apply bd_pos. intros HN0. unfold menu_ramping_f. cbv zeta. pose proof (uv_ramp _ _ _ R) as Rr. destruct (u_ramp u) as [|up n|up n k] eqn:Er; cbn [ramp_rel] in Rr.
  - rewrite Rr. apply bd_ret. exists u. split; [|split; [lia|exact R]]. exists u. split; [|apply later_refl]. exists u. split; [apply later_refl|]. rewrite Er. reflexivity.
  - destruct Rr as (X1 & X2 & X3).
    assert (K : bd N (y <~ pt C y ;; if timer_expired (y_now y) (n_pretimer (y_menu y)) then start_ramping_f C y up false (n_handler (y_menu y)) else ret y)
      (to N u (fun u' => exists v, fui_ramp u v /\ later v u'))).
    { apply (bd_point B C HC HB); [apply inv_core; exact I|]. intros k n' m x Hk O En. pose proof (wait_rel B C y u n' m x k R O ltac:(lia) En) as R1.
      pose proof (mv_inv _ _ _ _ _ _ I O) as I1. set (z := mv y n' m x) in *. clearbody z.
      destruct (uv_now _ _ _ R1) as (T0 & Tn). pose proof (uv_ramp _ _ _ R1) as Rz. revert Tn Rz. uf. rewrite Er. cbn [ramp_rel]. intros Tn (Z1 & Z2 & Z3).
      rewrite Z2, Tn, expired_at by lia. replace (u_time u + k - (u_time u + k - (n + k))) with (n + k) by lia.
      assert (Fr : forall v, match u_ramp (ui_wait k u) with RNone => v = ui_wait k u | RWait up n => if 1000 <=? n then exists u2, later (ui_wait k u) u2 /\ v = set_u_ramp u2 (RRun up 0 0) else v = ui_wait k u | RRun _ _ _ => False end -> fui_ramp u v).
      { intros v Hv. exists (ui_wait k u). split; [apply later_wait; lia|]. revert Hv. uf. rewrite Er. auto. }
      revert Fr. uf. rewrite Er. intros Fr. destruct (1000 <=? n + k).
      - eapply bd_mono; [apply (start_bd C HC); [apply inv_core; exact I1|exact R1]|]. intros y' N' (u' & (u2 & L1 & L2) & T & R'). exists u'. split; [|split; [revert T; uf; lia|exact R']].
        exists (set_u_ramp u2 (RRun up 0 0)). split; [|exact L2]. apply Fr. exists u2. split; [exact L1|reflexivity].
      - apply bd_ret. exists (ui_wait k u). split; [|split; [uf; lia|exact R1]]. exists (ui_wait k u). split; [|apply later_refl]. apply Fr. reflexivity. }
    rewrite X1. unfold dir. destruct up; exact K.
  - destruct Rr as (X1 & X2 & X3 & X4 & X5).
    assert (Hr : ramp_ok (y_menu y) -> exists h, n_handler (y_menu y) = Some h /\ ramp_of_menu h (n_state (y_menu y))).
    { intros [A|A]; [rewrite A in X1; destruct up; discriminate X1|exact A]. }
    destruct (Hr Ro) as (h & Eh & Hm). clear Hr.
    assert (K : bd N (ramp_step_f C y up) (to N u (fun u' => exists v, fui_ramp u v /\ later v u'))).
    { unfold ramp_step_f. apply (bd_point B C HC HB); [apply inv_core; exact I|]. intros j n' m x Hj O En. pose proof (wait_rel B C y u n' m x j R O ltac:(lia) En) as R1.
      pose proof (mv_inv _ _ _ _ _ _ I O) as I1. set (z := mv y n' m x) in *. assert (Ez : y_menu z = y_menu y) by reflexivity. clearbody z.
      destruct (uv_now _ _ _ R1) as (T0 & Tn). pose proof (uv_ramp _ _ _ R1) as Rz. revert Tn Rz. uf. rewrite Er. cbn [ramp_rel]. intros Tn (Z1 & Z2 & _).
      pose proof (step_nonneg k) as Hs. pose proof (step_gap k) as Hg.
      rewrite Z2, Tn, expired_at by lia. replace (u_time u + j - (u_time u + j - (n + j))) with (n + j) by lia.
      set (v1 := ui_wait j u) in *. assert (Ev : u_ramp v1 = RRun up (n + j) k) by (unfold v1; uf; rewrite Er; reflexivity). assert (Tv : u_time v1 = u_time u + j) by reflexivity.
      assert (Lv : later u v1) by (apply later_wait; lia). clearbody v1.
      destruct (step_time k <=? n + j) eqn:Ek.
      2:{ apply bd_ret. exists v1. split; [|split; [lia|exact R1]]. exists v1. split; [|apply later_refl]. exists v1. split; [exact Lv|]. rewrite Ev, Ek. reflexivity. }
      rewrite Ez, Eh. eapply bd_seq; [apply step_bd; [exact I1|exact R1|rewrite Ez; exact Hm]|]. intros y1 N1 (I2 & i & q & Hi & Hq & EN & R2). cbv zeta in R2.
      set (c := item_step (u_menu v1) (u_boost v1) up (u_cfg v1)) in *. pose proof (uv_ramp _ _ _ R2) as Ry.
      set (w := ui_wait q (if shows_preset (u_menu v1) then ui_enter (ui_wait i (set_u_cfg v1 c)) MENU_CHGPRESET else ui_wait i (set_u_cfg v1 c))) in *.
      assert (Ew : u_ramp w = RRun up (n + j + i + q) k).
      { unfold w. destruct (shows_preset (u_menu v1)); rewrite ?ui_enter_eq; uf; rewrite Ev; reflexivity. }
      assert (Tw : u_time w = u_time v1 + i + q) by (unfold w; destruct (shows_preset (u_menu v1)); rewrite ?ui_enter_eq; reflexivity).
      rewrite Ew in Ry. cbn [ramp_rel] in Ry. destruct Ry as (Y1 & Y2 & Y3 & _).
      destruct (i_menu _ _ _ I2) as (_ & Pe & _). cbv zeta. apply bd_step. intros t Et. unfold menu_request_display_update in *. revert Et. sy. intros Et. rewrite add_ok in Et by lia. apply Some_inj in Et. subst t. apply bd_ret.
      exists (set_u_ramp w (RRun up (n + j + i + q) (S k))). split; [|split; [uf; lia|]].
      - exists (if shows_preset (u_menu v1) then ui_enter (ui_wait i (set_u_ramp (set_u_cfg v1 c) (RRun up (n + j) (S k)))) MENU_CHGPRESET else ui_wait i (set_u_ramp (set_u_cfg v1 c) (RRun up (n + j) (S k)))).
        split; [|exists q; split; [exact Hq|]].
        + exists v1. split; [exact Lv|]. rewrite Ev, Ek. fold c. exists (ui_wait i (set_u_ramp (set_u_cfg v1 c) (RRun up (n + j) (S k)))). split; [apply later_wait; exact Hi|]. reflexivity.
        + unfold w. destruct (shows_preset (u_menu v1)); rewrite ?ui_enter_eq; unfold ui_wait; uf; rewrite ?Ev; reflexivity.
      - match goal with |- ui_rel C (set_y_menu (set_y_menu y1 ?a) ?b) _ => change (set_y_menu (set_y_menu y1 a) b) with (set_y_menu y1 b); set (nn := b) end.
        assert (En2 : n_state nn = n_state (y_menu y1) /\ n_timeout nn = n_timeout (y_menu y1) /\ n_err nn = n_err (y_menu y1) /\ n_ramp nn = n_ramp (y_menu y1) /\ n_rtimer nn = u16 (n_rtimer (y_menu y1) + n_period (y_menu y1)) /\
          n_period nn = half (n_period (y_menu y1))).
        { unfold nn, half. change RAMP_MIN_PERIOD_MS with 25. sy. destruct (25 <? n_period (y_menu y1)); sy; repeat split; reflexivity. }
        clearbody nn. destruct En2 as (A1 & A2 & A3 & A4 & A5 & A6). apply menu_swap; [exact R2|exact A1|exact A2|exact A3|].
        cbn [ramp_rel]. rewrite A4, A5, A6, Y1, Y2, Y3. split; [reflexivity|]. split; [rewrite u16_shift; f_equal; unfold step_period; lia|]. split; [symmetry; apply period_half|]. lia. }
    rewrite X1. unfold dir. destruct up; exact K.
Qed.

(** ** menu_work *)
Lemma display_rel y u z : ui_rel C y u -> menu_update_display C y = Some z -> inv y -> ui_rel C z u.
Proof.
  intros R E I. destruct (update_display_ok B C y I HB) as (ds & s & lamp & E' & _). rewrite E in E'. apply Some_inj in E'. subst z. destruct R. constructor; sy; assumption.
Qed.
Lemma poll_bd N y u : inv y -> ramp_ok (y_menu y) -> ui_rel C y u -> N < 1000 -> (forall d, menu_limit (u_menu u) = Some d -> u_age u < 28000) ->
  match u_ramp u with RNone => True | RWait _ n => n < 28000 | RRun _ n k => n - step_time k < 28000 end ->
  bd N (menu_work_f C y) (to N u (fui_poll C u (sensor_error y))).
Proof.
  intros I Ro R HN Ha Hr. apply bd_pos. intros HN0. unfold menu_work_f.
  eapply bd_seq; [eapply bd_and; [apply (timeouts_fine B C HC HB); [exact I|exact Ro]|apply limit_bd; [exact I|exact Ro|exact R|exact HN|intros d Hd; specialize (Ha d Hd); lia]]|].
  intros y1 N1 (F1 & u1 & (v & Hv & Lv) & T1 & R1).
  destruct (errors_ok B C y1 (g_inv _ _ _ _ (proj1 F1)) (proj1 (proj2 F1))) as (I1' & R1' & _).
  destruct (heating_ok B C (menu_errors y1) I1' R1') as (I2 & R2 & _).
  pose proof (error_ok C y1 u1 (g_inv _ _ _ _ (proj1 F1)) R1) as R3. rewrite (good_error _ _ _ _ (proj1 F1)) in R3. pose proof (heat_ok C _ _ I1' R1' R3) as R4. set (y2 := menu_heating (menu_errors y1)) in *. clearbody y2.
  set (e := sensor_error y) in *.
  assert (Hv2 : u_time u <= u_time v /\ (u_ramp v = u_ramp (ui_wait (u_time v - u_time u) u) \/ u_ramp v = RNone)).
  { destruct Hv as (w & (k & Hk & ->) & Hw). revert Hw. destruct (menu_limit _); [|intros ->; uf; split; [lia|left; replace (u_time u + k - u_time u) with k by lia; reflexivity]].
    destruct (_ <=? _); [intros (w2 & (k2 & Hk2 & ->) & ->); rewrite ui_enter_eq; uf; split; [lia|right; reflexivity]|].
    intros ->; uf; split; [lia|left; replace (u_time u + k - u_time u) with k by lia; reflexivity]. }
  destruct Hv2 as (Tv & Rv). pose proof (later_time _ _ Lv) as Tl.
  assert (N1 <= N) by lia.
  assert (Te : u_time (ui_error u1 e) = u_time u1) by (unfold ui_error; destruct (_ =? _); reflexivity).
  apply bd_pos. intros HN1. apply bd_bind. eapply bd_mono; [eapply bd_and; [apply (ramping_fine B C HC HB); [exact I2|exact R2]|apply ramp_bd; [exact I2|exact R2|exact R4|lia|]]|].
  - unfold ui_error. destruct (_ =? _); [|exact Logic.I]. destruct Lv as (q & Hq & ->). uf. revert T1. uf. intros T1. destruct Rv as [->| ->]; [|exact Logic.I]. uf.
    revert Tl. uf. intros Tl. destruct (u_ramp u); [exact Logic.I| |]; cbv beta iota; lia.
  - intros y3 N3 (F3 & u3 & (w & Hw & Lw) & T3 & R5).
    assert (Fin : forall z, ui_rel C z u3 -> to N u (fui_poll C u e) z N3).
    { intros z Rz. exists u3. split; [exists v, u1, w; auto|]. split; [lia|exact Rz]. }
    destruct (n_upd (y_menu y3)); [|apply bd_ret; apply Fin; exact R5].
    apply bd_lift. intros z Ez. apply Fin. eapply display_rel; [|exact Ez|]; [apply upd_rel; exact R5|apply inv_upd; apply F3].
Qed.
End Poll.
