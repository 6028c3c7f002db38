(** * Interrupts inside the work functions, part 3: menu *)
From Coq Require Import ZArith List Bool Lia ZifyBool.
From Verif Require Import Base PBase MConf MUtil MFixpt MScale MRing MFilter MTimer MPid MPwm MTempMap MCurr MSens
  SpecNum SpecPid SpecSmall PNum PSmall PScale PPid SpecCurr PCurr MSettings SpecSettings PSettings PSysSet
  MSseg MDisplay MText MState MTemp MMeas MMenu MMain SpecDisplay PDisplay SpecSys PSys PSysMeas PSysMenu PSysDisp PSysBtn PSysStep PSysRun MFine PFine PFine2.
Import ListNotations.
Open Scope Z_scope.
Ltac Zify.zify_post_hook ::= Z.div_mod_to_equations.


Section Menu.
Variables (B : bnds) (C : conf).
Hypothesis HC : build_conf C.
Hypothesis HB : bok B.
Local Notation mok := (mok B C).
Local Notation good := (good B C).
Local Notation inv := (inv B C).
Local Notation near := (near B C).

(** ** Temperature adjustment *)
Lemma adjust_set_fine y v : inv y -> c_adj C = true -> -6336 <= v <= 6336 ->
  fok (meastemp_adjust_set_f C y v) (fun y' => changed_quietly B C y y' /\ get_settings y' = set_s_adj (get_settings y) v).
Proof.
  intros I Ha Hv. destruct (i_set _ _ _ I) as (_ & R & _). assert (HB' := HB). destruct HB' as (HB1 & HB2).
  destruct (i_meas _ _ _ I) as ((c0 & c1 & Ech & A0 & A1) & M2 & M3 & M4). destruct HB1 as (_&_&_&Q1&Q2). cbn in Q1, Q2.
  assert (R2 : rng B C (set_s_adj (x_cache (y_set y)) v)) by (apply rng_adj; [exact R|lia]).
  unfold meastemp_adjust_set_f. rewrite Ha. unfold measure_adjust_set, MEAS_CHAN_TEMP. rewrite Ha, Ech.
  eapply fok_step; [reflexivity|]. apply fok_bind. unfold sys_store_f, put_settings, get_settings. sy.
  set (s := set_s_adj (x_cache (y_set y)) v). set (ms := set_m_chans (y_meas y) _).
  set (z := set_y_set _ _).
  assert (Kz : core B C z).
  { constructor; [apply I| |].
    - unfold z, meas_inv, ms. sy. split; [|split; [exact M2|split; assumption]]. eexists _, _. split; [reflexivity|]. rewrite Ha. split; [exact A0|reflexivity].
    - unfold z. sy. apply (set_put B C HB); [apply I|exact R2|reflexivity]. }
  apply (fok_point B C HC HB); [exact Kz|]. intros n m x O.
  eapply fok_lift; [unfold sys_store; erewrite (store_eq (y_now (mv z n m x))); reflexivity|]. apply fok_ret.
  set (y' := menu_request_display_update _).
  destruct O as [O1 O2 O3 O4 O5 O6 O7 O8 O9]. unfold z in O4, O5, O6, O7, O8, O9. sy in O4. sy in O5. sy in O6. sy in O7. sy in O8. sy in O9.
  assert (Sx : set_inv C B (set_x_timer (set_x_request x true) (u16 (n + 1000)))).
  { assert (Hx : set_x_cache x (x_cache x) = x) by (destruct x; reflexivity). destruct O3 as (X1 & X2 & X3) eqn:EE.
    eapply (set_modify C B n x (x_cache x)); [exact O3|exact X2|eapply rng_le; eassumption|reflexivity|]. rewrite Hx. apply store_eq. }
  split; [|unfold y', mv, z; unfold get_settings; sy; exact O4].
  unfold changed_quietly. split; [|split; [exists true; reflexivity|split; reflexivity]]. constructor; try reflexivity; [| |left; reflexivity].
  - destruct I as [? ? ? (G1&G2&G3&G4&G5&G6&G7) L ? ? ? ? ? S ? ? ?]. unfold y', mv, z, menu_request_display_update. constructor; sy; try assumption.
    + unfold ct_inv in *. rewrite O4. unfold s. sy. repeat (split; [assumption|]). assumption.
  - intros H. unfold y', mv, z, menu_request_display_update. sy. apply O8. exact H.
Qed.

(** ** Menu states *)
Lemma set_enabled_fine y b k : core B C y -> zget (s_k (get_settings y)) 0 = Some k ->
  fok (contrtemp_set_enabled_f C y b) (fun z => exists n m x, mok y n m x /\ z = en_switch C (mv y n m x) b k).
Proof.
  intros K E. unfold contrtemp_set_enabled_f. destruct (Bool.eqb (t_enabled (y_ct y)) b) eqn:Eb; cbn [negb].
  - apply fok_ret. exists (y_now y), (y_meas y), (y_set y). split; [apply mok_id; exact K|]. unfold en_switch. rewrite mv_id, Eb. reflexivity.
  - unfold do_set_enabled_f. cbv zeta. apply (fok_point B C HC HB); [destruct K; constructor; assumption|]. intros n m x O.
    assert (O' : mok y n m x) by (eapply mok_ext; [| |exact O]; reflexivity).
    eapply fok_step.
    + apply set_boost_eq with (k := k). unfold get_settings, mv in *. sy. rewrite (mo_cache _ _ _ _ _ _ O'). exact E.
    + apply fok_ret. exists n, m, x. split; [exact O'|]. unfold en_switch, boosted, mv. cbv zeta. sy. rewrite Eb. destruct (c_boost C); reflexivity.
Qed.
Definition retime (z : sys) (t : Z) : sys := set_y_menu z (set_n_timeout (y_menu z) t).
Lemma en_retime n b k y t : en_switch C (set_y_menu y (set_n_timeout n t)) b k =
  let z := en_switch C (set_y_menu y n) b k in set_y_menu z (set_n_timeout (y_menu z) t).
Proof. unfold en_switch. sy. destruct (Bool.eqb _ b); sy; destruct (c_boost C); reflexivity. Qed.
Lemma arm_menu_fine y d : core B C y -> 0 <= d <= 32767 ->
  fok (arm_menu_timeout_f C y d) (fun z => exists n m x, mok y n m x /\ z = retime (mv y n m x) (u16 (n + d))).
Proof.
  intros K H. unfold arm_menu_timeout_f. apply (fok_point B C HC HB); [exact K|]. intros n m x O.
  eapply fok_lift; [apply arm_timeout_eq; exact H|]. exists n, m, x. split; [exact O|reflexivity].
Qed.
(** As if all interrupts had happened before, but for the value of the timeout *)
Lemma set_state_fine y s k : core B C y -> allowed C s = true -> zget (s_k (get_settings y)) 0 = Some k ->
  fok (menu_set_state_f C y s) (fun z => exists n m x t, mok y n m x /\
    z = if mstate_eqb (n_state (y_menu y)) s then y else
        let e := entered C (mv y n m x) s k in set_y_menu e (set_n_timeout (y_menu e) t)).
Proof.
  intros K A E. unfold menu_set_state_f. destruct (mstate_eqb _ _) eqn:Eq.
  { apply fok_ret. exists (y_now y), (y_meas y), (y_set y), 0. split; [apply mok_id; exact K|reflexivity]. }
  cbv zeta. set (y0 := set_y_menu y (set_n_state (y_menu y) s)).
  assert (K0 : core B C y0) by (destruct K; constructor; assumption).
  assert (E0 : zget (s_k (get_settings y0)) 0 = Some k) by exact E.
  assert (X0 : forall n m x, mok y0 n m x -> mok y n m x) by (intros; eapply mok_ext; [| |eassumption]; reflexivity).
  assert (P : forall d, 0 <= d <= 32767 -> tmo s = Some d -> enab s = None ->
     fok (fbind (arm_menu_timeout_f C y0 d) (fun y => ret (menu_request_display_update y))) (fun z => exists n m x t, mok y n m x /\
       z = let e := entered C (mv y n m x) s k in set_y_menu e (set_n_timeout (y_menu e) t))).
  { intros d Hd Et En. eapply fok_seq; [apply arm_menu_fine; [exact K0|exact Hd]|]. intros z (n & m & x & O & ->). apply fok_ret.
    exists n, m, x, (u16 (n + d)). split; [apply X0; exact O|]. unfold entered. rewrite Et, En. reflexivity. }
  assert (W : forall b, tmo s = None -> enab s = Some b ->
     fok (fbind (contrtemp_set_enabled_f C y0 b) (fun y => ret (menu_request_display_update y))) (fun z => exists n m x t, mok y n m x /\
       z = let e := entered C (mv y n m x) s k in set_y_menu e (set_n_timeout (y_menu e) t))).
  { intros b Et En. eapply fok_seq; [apply set_enabled_fine; [exact K0|exact E0]|]. intros z (n & m & x & O & ->). apply fok_ret.
    exists n, m, x, (n_timeout (y_menu y)). split; [apply X0; exact O|]. unfold entered, y0, mv. rewrite Et, En. unfold en_switch. sy.
    destruct (Bool.eqb _ b); destruct (c_boost C); reflexivity. }
  assert (D : forall d b, 0 <= d <= 32767 -> tmo s = Some d -> enab s = Some b ->
     fok (fbind (fbind (arm_menu_timeout_f C y0 d) (fun y => contrtemp_set_enabled_f C y b)) (fun y => ret (menu_request_display_update y))) (fun z => exists n m x t, mok y n m x /\
       z = let e := entered C (mv y n m x) s k in set_y_menu e (set_n_timeout (y_menu e) t))).
  { intros d b Hd Et En. apply fok_bind. eapply fok_seq; [apply arm_menu_fine; [exact K0|exact Hd]|]. intros z (n & m & x & O & ->).
    assert (K1 : core B C (retime (mv y0 n m x) (u16 (n + d)))) by (destruct (mok_core _ _ _ _ _ _ O); constructor; assumption).
    eapply fok_mono; [apply set_enabled_fine with (k := k); [exact K1|unfold get_settings, retime, mv; sy; rewrite (mo_cache _ _ _ _ _ _ O); exact E0]|].
    intros z (n' & m' & x' & O' & ->). apply fok_ret.
    exists n', m', x', (u16 (n + d)). split; [eapply mok_trans; [apply X0; exact O|eapply mok_ext; [| |exact O']; reflexivity]|].
    unfold entered, y0, retime, mv. rewrite Et, En. unfold en_switch. sy. destruct (Bool.eqb _ b); destruct (c_boost C); reflexivity. }
  unfold MENU_SELPRESET_TIMEOUT, MENU_CHGPRESET_TIMEOUT, MENU_IDLETEMP_TIMEOUT, MENU_ADJ_PRE_TIMEOUT, MENU_KCONF_PRE_TIMEOUT.
  destruct s; cbn [allowed] in A; rewrite ?A; cbn [negb];
    try (apply P; [lia|reflexivity|reflexivity]); try (apply W; reflexivity); try (apply D; [lia|reflexivity|reflexivity]).
  apply fok_done. apply fok_ret. exists (y_now y), (y_meas y), (y_set y), (n_timeout (y_menu y)). split; [apply mok_id; exact K|].
  rewrite mv_id. reflexivity.
Qed.

(** What a function of the menu does to the menu: state, timeout and the update flag *)
Definition moved (y y' : sys) (s : mstate) : Prop :=
  good y y' /\ (exists t u, y_menu y' = set_n_upd (set_n_timeout (set_n_state (y_menu y) s) t) u) /\ y_dbg y' = y_dbg y /\ y_btn y' = y_btn y.
Lemma moved_refl y : inv y -> moved y y (n_state (y_menu y)).
Proof. intros I. split; [apply good_refl; exact I|]. split; [|split; reflexivity]. exists (n_timeout (y_menu y)), (n_upd (y_menu y)). destruct (y_menu y); reflexivity. Qed.
Lemma moved_state y y' s : moved y y' s -> n_state (y_menu y') = s.
Proof. intros (_ & (t & u & E) & _). rewrite E. reflexivity. Qed.
Lemma moved_trans a b c s s' : moved a b s -> moved b c s' -> moved a c s'.
Proof.
  intros (G1 & (t & u & E1) & D1 & B1) (G2 & (t' & u' & E2) & D2 & B2). split; [eapply good_trans; eassumption|].
  split; [exists t', u'; rewrite E2, E1; reflexivity|]. split; congruence.
Qed.
Lemma changed_moved y y' : changed_quietly B C y y' -> moved y y' (n_state (y_menu y)).
Proof.
  intros (G & (u & E) & D & Bt). split; [exact G|]. split; [|auto]. exists (n_timeout (y_menu y)), u. rewrite E. destruct (y_menu y); reflexivity.
Qed.
Lemma enter_fine y s : inv y -> can_enter C y s ->
  fok (menu_set_state_f C y s) (fun y' => moved y y' s /\ vstep y y' /\ get_settings y' = get_settings y).
Proof.
  intros I Can. destruct (i_set _ _ _ I) as (_ & R & _). destruct (rng_gain_get B C _ 0 R (or_introl eq_refl)) as (k & E & _). fold (get_settings y) in E.
  eapply fok_mono; [apply set_state_fine with (k := k); [apply inv_core; exact I|apply Can|exact E]|].
  intros y' (n & m & x & t & O & Ey). destruct (mstate_eqb _ _) eqn:Eq.
  - apply mstate_eqb_ok in Eq. subst y'. rewrite <- Eq. split; [apply moved_refl; exact I|]. split; [apply vstep_refl|reflexivity].
  - cbv zeta in Ey. pose proof (mv_inv _ _ _ _ _ _ I O) as I2.
    destruct (enter_ok B C (mv y n m x) s I2 Can) as (z & k' & _ & Iz & Ek & Ez & S2 & F2 & V2 & X1 & X2 & X3 & X4 & X5 & (t' & u & X6) & X7 & X8).
    change (n_state (y_menu (mv y n m x))) with (n_state (y_menu y)) in Ez. rewrite Eq in Ez.
    assert (Ek' : zget (s_k (get_settings (mv y n m x))) 0 = Some k) by (unfold get_settings, mv in *; sy; rewrite (mo_cache _ _ _ _ _ _ O); exact E).
    rewrite Ek in Ek'. apply Some_inj in Ek'. subst k'. rewrite <- Ez in Ey.
    destruct (i_menu _ _ _ Iz) as (_ & Zp & Ze).
    assert (Iy : inv y') by (rewrite Ey; apply menu_only; sy; auto).
    assert (U : n_upd (y_menu y') = true) by (rewrite Ey, Ez; reflexivity).
    split; [|split; [apply vstep_upd; exact U|rewrite Ey; unfold get_settings; sy; rewrite X1; apply (mo_cache _ _ _ _ _ _ O)]].
    split; [|split; [exists t, u; rewrite Ey; sy; rewrite X6; reflexivity|split; rewrite Ey; sy; [exact X4|exact X5]]].
    eapply good_trans; [apply good_mv; [exact I|exact O]|]. eapply good_trans; [apply good_side; [exact Iz|exact F2]|]. apply good_side; [exact Iy|]. rewrite Ey. apply side_menu.
Qed.

(** ** Ramp handlers *)
Lemma near_kstep y y2 y' h up : near y y2 -> setting_step C h up (bm C (y_ct y2)) (get_settings y2) (get_settings y') ->
  setting_step C h up (bm C (y_ct y)) (get_settings y) (get_settings y').
Proof. intros (n & m & x & -> & O). unfold get_settings, mv. sy. rewrite (mo_cache _ _ _ _ _ _ O). auto. Qed.
Lemma handler_fine y h up : inv y -> ramp_of_menu h (n_state (y_menu y)) ->
  fok (call_ramp_handler_f C y (Some h) up) (fun y' =>
    moved y y' (match h with HSettemp => MENU_CHGPRESET | _ => n_state (y_menu y) end) /\ ramp_of_menu h (n_state (y_menu y')) /\
    setting_step C h up (bm C (y_ct y)) (get_settings y) (get_settings y')).
Proof.
  intros I Hr. destruct (i_menu _ _ _ I) as (Al & _). destruct (i_set _ _ _ I) as (_ & R & _).
  assert (HB' := HB). destruct HB' as (HB1 & HB2). pose proof (rng_le _ _ C _ HB2 R) as R'.
  assert (Kk : (h = HKp \/ h = HKi \/ h = HKd) -> forall get put inc mx,
    (forall k v, gain_rng B true k -> 0 <= v <= mx -> gain_rng B true (put k v)) ->
    (forall k, gain_rng B true k -> 0 <= get k <= 6399) -> 0 <= inc <= 64 -> 0 <= mx <= 6400 ->
    (forall y2, call_ramp_handler C y2 (Some h) up = do_ramp_k C y2 get put inc mx up) ->
    fok (do_ramp_k_f C y get put inc mx up) (fun y' => moved y y' (n_state (y_menu y)) /\ ramp_of_menu h (n_state (y_menu y')) /\
       setting_step C h up (bm C (y_ct y)) (get_settings y) (get_settings y'))).
  { intros Hk get put inc mx H1 H2 H3 H4 H5. eapply fok_mono; [apply do_ramp_k_fine; eassumption|]. intros y' (Ch & y2 & N & Ey).
    pose proof (changed_moved _ _ Ch) as M. split; [exact M|]. rewrite (moved_state _ _ _ M). split; [exact Hr|].
    eapply near_kstep; [exact N|]. destruct (near_good B C y y2 I N) as (G & _ & N1 & _).
    destruct (handler_ok B C y2 h up (g_inv _ _ _ _ G) HB ltac:(rewrite N1; exact Hr)) as (y3 & E3 & _ & _ & _ & St & _).
    rewrite H5 in E3. assert (y3 = y') by congruence. subst y3. exact St. }
  unfold call_ramp_handler_f. eapply fok_step; [reflexivity|].
  destruct h; cbn [ramp_of_menu] in Hr.
  - assert (Hd : y_dbg y = false).
    { destruct (y_dbg y) eqn:E; [|reflexivity]. destruct (proj1 (i_dbg _ _ _ I) E) as (_ & X). rewrite X in Hr. destruct Hr as [|[|]]; discriminate. }
    destruct (rng_preset_get relaxed C _ R') as (a & E & Ba). cbn in Ba. fold (get_settings y) in E.
    unfold settemp_ramp_handler_f, presets_get_active_value. eapply fok_step; [exact E|].
    change CONTRTEMP_NEGLIM with 0. change CONTRTEMP_POSLIM with 30720. eapply fok_step; [apply do_ramp_temp_eq; lia|].
    set (v := Z.max 0 _). assert (Hv : 0 <= v <= 30720) by (unfold v; lia).
    eapply fok_seq; [apply presets_set_fine; [exact HC|exact HB|exact I|exact Hv]|]. intros y1 ((G1 & V1 & M1 & D1 & B1) & l & El & Es).
    assert (Mv : moved y y1 (n_state (y_menu y))) by (apply changed_moved; split; auto).
    eapply fok_mono; [apply enter_fine; [apply G1|]|].
    { split; [reflexivity|]. split; [congruence|]. intros _. rewrite (moved_state _ _ _ Mv). destruct Hr as [->|[->| ->]]; reflexivity. }
    intros y' (Mv' & V' & Es'). split; [eapply moved_trans; eassumption|]. rewrite (moved_state _ _ _ Mv'). split; [cbn; auto|].
    rewrite Es', Es. exists a, l. split; [exact E|]. split; [exact El|reflexivity].
  - rewrite Hr in Al. cbn in Al. destruct R' as (_ & Bi & _). cbn in Bi. fold (get_settings y) in Bi.
    unfold idletemp_ramp_handler_f. change CONTRTEMP_NEGLIM with 0. change CONTRTEMP_POSLIM with 30720. eapply fok_step; [apply do_ramp_temp_eq; lia|].
    set (v := Z.max 0 _). assert (Hv : 0 <= v <= 30720) by (unfold v; lia).
    eapply fok_mono; [apply set_idle_fine; [exact HC|exact HB|exact I|exact Al|exact Hv]|]. intros y' (Ch & Es).
    pose proof (changed_moved _ _ Ch) as M. split; [exact M|]. rewrite (moved_state _ _ _ M). split; [exact Hr|exact Es].
  - rewrite Hr in Al. cbn in Al. destruct R' as (_ & _ & _ & _ & Ba & _). cbn in Ba.
    destruct (i_meas _ _ _ I) as ((c0 & c1 & Ech & A0 & A1) & M2 & M3 & M4). rewrite Al in A1.
    unfold adj_ramp_handler_f, meastemp_adjust_get, measure_adjust_get, MEAS_CHAN_TEMP. rewrite Al, Ech. eapply fok_step; [reflexivity|].
    rewrite A1. change (celsius (-99)) with (-6336). change (celsius 99) with 6336. eapply fok_step; [apply do_ramp_temp_eq; lia|].
    set (v := Z.max (-6336) _). assert (Hv : -6336 <= v <= 6336) by (unfold v; lia).
    eapply fok_mono; [apply adjust_set_fine; [exact I|exact Al|exact Hv]|]. intros y' (Ch & Es).
    pose proof (changed_moved _ _ Ch) as M. split; [exact M|]. rewrite (moved_state _ _ _ M). split; [exact Hr|exact Es].
  - apply Kk; [auto| | | | |reflexivity]; assert (HB1' := HB1); destruct HB1' as (L1 & L2 & _); cbn in L1, L2;
      change (fxc 3125 100000) with 2; change (fxc 99 1) with 6336; try lia; unfold gain_rng; cbn; intros; destruct HB2 as (P1 & P2 & _); cbn in P1, P2; lia.
  - apply Kk; [auto| | | | |reflexivity]; assert (HB1' := HB1); destruct HB1' as (L1 & L2 & _); cbn in L1, L2;
      change (fxc 15625 1000000) with 1; change (fxc 9 1) with 576; try lia; unfold gain_rng; cbn; intros; destruct HB2 as (P1 & P2 & _); cbn in P1, P2; lia.
  - apply Kk; [auto| | | | |reflexivity]; assert (HB1' := HB1); destruct HB1' as (L1 & L2 & _); cbn in L1, L2;
      change (fxc 3125 100000) with 2; change (fxc 99 1) with 6336; try lia; unfold gain_rng; cbn; intros; destruct HB2 as (P1 & P2 & _); cbn in P1, P2; lia.
Qed.
End Menu.
