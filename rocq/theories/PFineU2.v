(** * The user interface with interrupts inside the work functions, part 2: menus, settings, ramps *)
From Coq Require Import ZArith List Bool Lia ZifyBool.
From Verif Require Import Base PBase MConf MUtil MFixpt MScale MRing MFilter MTimer MPid MPwm MTempMap MCurr MSens
  SpecNum SpecPid SpecSmall PNum PSmall PScale PPid SpecCurr PCurr MSettings SpecSettings PSettings PSysSet
  MSseg MDisplay MText MState MTemp MMeas MMenu MMain SpecDisplay PDisplay SpecSys SpecRun SpecUI PSys PSysMeas PSysMenu PSysDisp PSysBtn PSysStep PSysRun
  PSysCC PSysSafe MFine SpecFine SpecFineLive SpecFineUI PFine PFine2 PFine3 PFine4 PSysUI PSysUI2 PFineU.
Import ListNotations.
Open Scope Z_scope.
Ltac Zify.zify_post_hook ::= Z.div_mod_to_equations.

Section UI.
Variable C : conf.
Hypothesis HC : build_conf C.
Local Notation B := relaxed.
Local Notation HB := bok_relaxed.
Local Notation mok := (mok B C).
Local Notation inv := (inv B C).
Local Notation core := (core B C).

Lemma bd_pos {A} N (m : F A) Q : (0 <= N -> bd N m Q) -> bd N m Q.
Proof. intros H o a o' L E. pose proof (ticks_nonneg o). apply H; [lia|exact L|exact E]. Qed.

(** ** Entering a menu *)
Lemma set_enabled_bd N y b k : core y -> zget (s_k (get_settings y)) 0 = Some k ->
  bd N (contrtemp_set_enabled_f C y b) (fun z N' => exists n m x j, mok y n m x /\ 0 <= j /\ N' = N - j /\ n = u16 (y_now y + j) /\ z = en_switch C (mv y n m x) b k).
Proof.
  intros K E. pose proof (co_now _ _ _ K) as Un. unfold is_u16 in Un. unfold contrtemp_set_enabled_f. destruct (Bool.eqb (t_enabled (y_ct y)) b) eqn:Eb; cbn [negb].
  - apply bd_ret. exists (y_now y), (y_meas y), (y_set y), 0. split; [apply mok_id; exact K|]. split; [lia|]. split; [lia|]. split; [rewrite u16_id; lia|]. unfold en_switch. rewrite mv_id, Eb. reflexivity.
  - unfold do_set_enabled_f. cbv zeta. apply (bd_point B C HC HB); [destruct K; constructor; assumption|]. intros j n m x Hj O En.
    assert (O' : mok y n m x) by (eapply mok_ext; [| |exact O]; reflexivity).
    apply bd_step. intros z Ez. erewrite set_boost_eq with (k := k) in Ez by (unfold get_settings, mv in *; sy; rewrite (mo_cache _ _ _ _ _ _ O'); exact E).
    apply Some_inj in Ez. subst z. apply bd_ret. exists n, m, x, j. split; [exact O'|]. split; [lia|]. split; [lia|]. split; [exact En|].
    unfold en_switch, boosted, mv. cbv zeta. sy. rewrite Eb. destruct (c_boost C); reflexivity.
Qed.
Lemma arm_bd N y d : core y -> 0 <= d <= 32767 ->
  bd N (arm_menu_timeout_f C y d) (fun z N' => exists n m x j, mok y n m x /\ 0 <= j /\ N' = N - j /\ n = u16 (y_now y + j) /\ z = retime (mv y n m x) (u16 (n + d))).
Proof.
  intros K H. unfold arm_menu_timeout_f. apply (bd_point B C HC HB); [exact K|]. intros j n m x Hj O En.
  apply bd_lift. intros z Ez. rewrite arm_timeout_eq in Ez by exact H. apply Some_inj in Ez. subst z. exists n, m, x, j. repeat (split; [first [exact O | lia | exact En]|]). reflexivity.
Qed.
Definition switched_at (N : Z) (y : sys) (s : mstate) (k : pid_k) (z : sys) (N' : Z) : Prop :=
  exists n m x t k1 k2, mok y n m x /\ 0 <= k1 /\ 0 <= k2 /\ N' = N - k1 - k2 /\ n = u16 (y_now y + k1 + k2) /\
    (forall d, tmo s = Some d -> t = u16 (y_now y + k1 + d)) /\
    z = let e := entered C (mv y n m x) s k in set_y_menu e (set_n_timeout (y_menu e) t).
Lemma set_state_bd N y s k : core y -> allowed C s = true -> zget (s_k (get_settings y)) 0 = Some k -> mstate_eqb (n_state (y_menu y)) s = false ->
  bd N (menu_set_state_f C y s) (switched_at N y s k).
Proof.
  intros K A E Eq. pose proof (co_now _ _ _ K) as Un. unfold is_u16 in Un. unfold menu_set_state_f. rewrite Eq.
  cbv zeta. set (y0 := set_y_menu y (set_n_state (y_menu y) s)).
  assert (K0 : core y0) by (destruct K; constructor; assumption).
  assert (E0 : zget (s_k (get_settings y0)) 0 = Some k) by exact E.
  assert (X0 : forall n m x, mok y0 n m x -> mok y n m x) by (intros; eapply mok_ext; [| |eassumption]; reflexivity).
  assert (P : forall d, 0 <= d <= 32767 -> tmo s = Some d -> enab s = None ->
     bd N (fbind (arm_menu_timeout_f C y0 d) (fun y => ret (menu_request_display_update y))) (switched_at N y s k)).
  { intros d Hd Et En. eapply bd_seq; [apply arm_bd; [exact K0|exact Hd]|]. intros z N' (n & m & x & j & O & J & Hn & Nn & ->). apply bd_ret.
    exists n, m, x, (u16 (n + d)), j, 0. split; [apply X0; exact O|]. split; [lia|]. split; [lia|]. split; [lia|]. split; [rewrite Z.add_0_r; exact Nn|].
    split; [intros d' Hd'; replace d' with d by congruence; rewrite Nn, u16_shift; reflexivity|]. unfold entered. rewrite Et, En. reflexivity. }
  assert (W : forall b, tmo s = None -> enab s = Some b ->
     bd N (fbind (contrtemp_set_enabled_f C y0 b) (fun y => ret (menu_request_display_update y))) (switched_at N y s k)).
  { intros b Et En. eapply bd_seq; [apply set_enabled_bd; [exact K0|exact E0]|]. intros z N' (n & m & x & j & O & J & Hn & Nn & ->). apply bd_ret.
    exists n, m, x, (n_timeout (y_menu y)), j, 0. split; [apply X0; exact O|]. split; [lia|]. split; [lia|]. split; [lia|]. split; [rewrite Z.add_0_r; exact Nn|].
    split; [congruence|]. unfold entered, y0, mv. rewrite Et, En. unfold en_switch. sy. destruct (Bool.eqb _ b); destruct (c_boost C); reflexivity. }
  assert (D : forall d b, 0 <= d <= 32767 -> tmo s = Some d -> enab s = Some b ->
     bd N (fbind (fbind (arm_menu_timeout_f C y0 d) (fun y => contrtemp_set_enabled_f C y b)) (fun y => ret (menu_request_display_update y))) (switched_at N y s k)).
  { intros d b Hd Et En. apply bd_bind. eapply bd_seq; [apply arm_bd; [exact K0|exact Hd]|]. intros z N1 (n & m & x & j & O & J & Hn & Nn & ->).
    assert (K1 : core (retime (mv y0 n m x) (u16 (n + d)))) by (destruct (mok_core _ _ _ _ _ _ O); constructor; assumption).
    eapply bd_mono; [apply set_enabled_bd with (k := k); [exact K1|unfold get_settings, retime, mv; sy; rewrite (mo_cache _ _ _ _ _ _ O); exact E0]|].
    intros z N2 (n' & m' & x' & j' & O' & J' & Hn' & Nn' & ->). apply bd_ret.
    exists n', m', x', (u16 (n + d)), j, j'. split; [eapply mok_trans; [apply X0; exact O|eapply mok_ext; [| |exact O']; reflexivity]|].
    split; [lia|]. split; [lia|]. split; [lia|]. split; [rewrite Nn'; change (y_now (retime (mv y0 n m x) (u16 (n + d)))) with n; rewrite Nn, u16_shift; reflexivity|].
    split; [intros d' Hd'; replace d' with d by congruence; rewrite Nn, u16_shift; reflexivity|].
    unfold entered, y0, retime, mv. rewrite Et, En. unfold en_switch. sy. destruct (Bool.eqb _ b); destruct (c_boost C); reflexivity. }
  unfold MENU_SELPRESET_TIMEOUT, MENU_CHGPRESET_TIMEOUT, MENU_IDLETEMP_TIMEOUT, MENU_ADJ_PRE_TIMEOUT, MENU_KCONF_PRE_TIMEOUT.
  destruct s; cbn [allowed] in A; rewrite ?A; cbn [negb];
    try (apply P; [lia|reflexivity|reflexivity]); try (apply W; reflexivity); try (apply D; [lia|reflexivity|reflexivity]).
  apply bd_done. apply bd_ret. exists (y_now y), (y_meas y), (y_set y), (n_timeout (y_menu y)), 0, 0. split; [apply mok_id; exact K|].
  split; [lia|]. split; [lia|]. split; [lia|]. split; [rewrite !Z.add_0_r, u16_id; lia|]. split; [discriminate|]. rewrite mv_id. reflexivity.
Qed.
Lemma enter_bd N y u s : inv y -> can_enter C y s -> ui_rel C y u -> bd N (menu_set_state_f C y s) (fun y' N' =>
  exists k1 k2, 0 <= k1 /\ 0 <= k2 /\ N' = N - k1 - k2 /\ ui_rel C y' (ui_wait k2 (ui_enter (ui_wait k1 u) s))).
Proof.
  intros I Can R. destruct (i_set _ _ _ I) as (_ & Rg & _). destruct (rng_gain_get B C _ 0 Rg (or_introl eq_refl)) as (k & E & _). fold (get_settings y) in E.
  destruct (mstate_eqb (n_state (y_menu y)) s) eqn:Eq.
  { unfold menu_set_state_f. rewrite Eq. apply bd_ret. exists 0, 0. split; [lia|]. split; [lia|]. split; [lia|]. rewrite !wait0. unfold ui_enter. rewrite (uv_menu _ _ _ R) in Eq. rewrite Eq. exact R. }
  eapply bd_mono; [apply set_state_bd with (k := k); [apply inv_core; exact I|apply Can|exact E|exact Eq]|].
  intros y' N' (n & m & x & t & k1 & k2 & O & K1 & K2 & EN & En & Et & Ey). cbv zeta in Ey. pose proof (mv_inv _ _ _ _ _ _ I O) as I2.
  exists k1, k2. split; [exact K1|]. split; [exact K2|]. split; [exact EN|].
  destruct (enter_ok B C (mv y n m x) s I2 Can) as (z & k' & Ez0 & Iz & Ek & Ez & S2 & F2 & V2 & X1 & X2 & X3 & X4 & X5 & (t' & up & X6) & X7 & X8).
  pose proof (moved_ok B C (mv y n m x) s z I2 Can Ez0) as (M1 & M2 & M3 & M4 & M5 & M6).
  change (n_state (y_menu (mv y n m x))) with (n_state (y_menu y)) in *. rewrite Eq in Ez, M6. destruct M6 as (_ & M7).
  assert (Ek' : zget (s_k (get_settings (mv y n m x))) 0 = Some k) by (unfold get_settings, mv in *; sy; rewrite (mo_cache _ _ _ _ _ _ O); exact E).
  rewrite Ek in Ek'. apply Some_inj in Ek'. subst k'. rewrite <- Ez in Ey.
  pose proof (wait_rel B C y u n m x (k1 + k2) R O ltac:(lia) ltac:(rewrite En; f_equal; lia)) as R2. destruct R2 as [Q1 Q2 Q3 Q4 Q5 Q6 Q7 Q8 Q9 Q10 Q11 Q12].
  rewrite (uv_menu _ _ _ R) in Eq. rewrite ui_enter_eq. uf.
  rewrite Eq.
  constructor; try rewrite Ey; uf; sy.
  - exact M5.
  - rewrite X6. sy. exact Q2.
  - rewrite X4. exact Q3.
  - rewrite M3. exact Q4.
  - rewrite M7. change (t_boost (y_ct (mv y n m x))) with (t_boost (y_ct y)) in *. rewrite (uv_menu _ _ _ R). destruct (Bool.eqb (adjusting (u_menu u)) (adjusting s)); [exact Q5|].
    destruct (c_boost C); [reflexivity|]. rewrite Q5. apply Q6. reflexivity.
  - intros Hc. specialize (Q6 Hc). revert Q6. uf. intros ->. destruct (Bool.eqb (adjusting (u_menu u)) (adjusting s)); reflexivity.
  - rewrite X1. exact Q7.
  - rewrite M4. revert Q8. uf. rewrite Z.add_assoc. auto.
  - rewrite X5. revert Q9. uf. rewrite Z.add_assoc. auto.
  - split; [lia|]. intros d Hd. rewrite limit_tmo in Hd. rewrite (Et d Hd). destruct (uv_now _ _ _ R) as (_ & ->). rewrite <- Z.add_assoc, u16_shift. f_equal. lia.
  - revert Q11. uf. rewrite Z.add_assoc. intros G. eapply ramp_rel_fields; [|].
    2:{ replace (match (match u_ramp u with RNone => RNone | RWait up0 n0 => RWait up0 (n0 + k1) | RRun up0 n0 j => RRun up0 (n0 + k1) j end) with
           RNone => RNone | RWait up0 n0 => RWait up0 (n0 + k2) | RRun up0 n0 j => RRun up0 (n0 + k2) j end)
        with (match u_ramp u with RNone => RNone | RWait up0 n0 => RWait up0 (n0 + (k1 + k2)) | RRun up0 n0 j => RRun up0 (n0 + (k1 + k2)) j end); [exact G|].
        destruct (u_ramp u); rewrite ?Z.add_assoc; reflexivity. }
    rewrite X6. reflexivity.
  - revert Q12. uf. rewrite Z.add_assoc. replace (match (match u_iron u with Some n0 => Some (n0 + k1) | None => None end) with Some n0 => Some (n0 + k2) | None => None end)
      with (match u_iron u with Some n0 => Some (n0 + (k1 + k2)) | None => None end) by (destruct (u_iron u); rewrite ?Z.add_assoc; reflexivity).
    unfold iron_rel. destruct (u_iron u); rewrite M1, ?M2; auto.
Qed.
End UI.
