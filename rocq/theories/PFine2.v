(** * Interrupts inside the work functions, part 2: settings, menu and buttons *)
From Coq Require Import ZArith List Bool Lia ZifyBool.
From Verif Require Import Base PBase MConf MUtil MFixpt MScale MRing MFilter MTimer MPid MPwm MTempMap MCurr MSens
  SpecNum SpecPid SpecSmall PNum PSmall PScale PPid SpecCurr PCurr MSettings SpecSettings PSettings PSysSet
  MSseg MDisplay MText MState MTemp MMeas MMenu MMain SpecDisplay PDisplay SpecSys PSys PSysMeas PSysMenu PSysDisp PSysBtn PSysStep PSysRun MFine PFine.
Import ListNotations.
Open Scope Z_scope.
Ltac Zify.zify_post_hook ::= Z.div_mod_to_equations.

(** What all the functions below keep. *)
Record good (B : bnds) (C : conf) (y y' : sys) : Prop := mkGood {
  g_inv : inv B C y';
  g_hand : handover (y_meas y) -> handover (y_meas y');
  g_mc : y_mc y' = y_mc y;
  g_mt : y_mt y' = y_mt y;
  g_emerg : t_emerg (y_ct y') = t_emerg (y_ct y);
  g_feed : t_feedback (y_ct y') = t_feedback (y_ct y);
  g_cc : y_cc y' = y_cc y \/ y_cc y' = contrcurr_set_setpoint (y_cc y) 0
}.
Lemma good_trans B C a b c : good B C a b -> good B C b c -> good B C a c.
Proof.
  intros [A1 A2 A3 A4 A5 A6 A7] [B1 B2 B3 B4 B5 B6 B7]. constructor; auto; try congruence.
  destruct A7 as [A7|A7], B7 as [B7|B7]; rewrite A7 in B7; auto.
Qed.
Lemma good_refl B C y : inv B C y -> good B C y y.
Proof. intros I. constructor; auto. Qed.
Lemma good_side B C y y' : inv B C y' -> side_frame y y' -> good B C y y'.
Proof.
  intros I (F1&F2&F3&F4&F5&F6&F7). constructor; auto.
  - intros H. destruct F4 as (l & E & _). rewrite E. exact H.
  - destruct F7 as [(F7&_)|(F7&_)]; auto.
Qed.
Lemma good_mv B C y n m x : inv B C y -> mok B C y n m x -> good B C y (mv y n m x).
Proof. intros I O. constructor; try reflexivity; [apply mv_inv; assumption|apply O|left; reflexivity]. Qed.

Section Menu.
Variables (B : bnds) (C : conf).
Hypothesis HC : build_conf C.
Hypothesis HB : bok B.
Local Notation mok := (mok B C).
Local Notation good := (good B C).
Local Notation inv := (inv B C).

(** The state before the change in which the interrupts have already happened *)
Definition near (y y2 : sys) : Prop := exists n m x, y2 = mv y n m x /\ mok y n m x.
Lemma near_good y y2 : inv y -> near y y2 -> good y y2 /\ vstep y y2 /\ y_menu y2 = y_menu y /\ y_dbg y2 = y_dbg y /\ y_btn y2 = y_btn y /\
  get_settings y2 = get_settings y /\ y_ct y2 = y_ct y.
Proof.
  intros I (n & m & x & -> & O). split; [apply good_mv; assumption|]. split; [eapply mv_vstep; eassumption|]. repeat (split; [reflexivity|]).
  split; [apply O|reflexivity].
Qed.
Lemma store_f y s (f : sys -> F sys) (Q : sys -> Prop) :
  inv y -> rng B C s -> s_serial s = s_serial (get_settings y) -> s_adj s = s_adj (get_settings y) ->
  (forall y2 z, near y y2 -> inv y2 -> sys_store (put_settings y2 s) = Some z -> fok (f z) Q) ->
  fok (fbind (sys_store_f C (put_settings y s)) f) Q.
Proof.
  intros I R Es Ea H. apply fok_bind. unfold sys_store_f. fold (put_req y s).
  apply (fok_point B C HC HB); [apply put_core; assumption|]. intros n m x O.
  destruct (put_back B C HB y s n m x I Es Ea O) as (Ib & Ob & Eb). rewrite <- Eb.
  assert (exists z, sys_store (put_settings (back y n m x) s) = Some z) as (z & Ez).
  { unfold sys_store, put_settings. sy. rewrite store_eq. cbn [bind]. eauto. }
  eapply fok_lift; [exact Ez|]. apply (H (back y n m x)); auto. exists n, m, (set_x_cache x (x_cache (y_set y))). split; [reflexivity|exact Ob].
Qed.
Lemma presets_store_fine y s a : inv y -> rng B C s -> s_serial s = s_serial (get_settings y) -> s_adj s = s_adj (get_settings y) ->
  zget (s_preset s) (s_active s) = Some a ->
  fok (presets_store_f C (put_settings y s)) (fun y' => exists y2, near y y2 /\ presets_store C (put_settings y2 s) = Some y').
Proof.
  intros I R Es Ea E. unfold presets_store_f. apply (store_f y s _); auto. intros y2 z N I2 Ez.
  pose proof (presets_store_eq C y2 s a E) as K. assert (K' := K). unfold presets_store in K. rewrite Ez in K. cbn [bind] in K.
  destruct (contrtemp_update_setpoint C z) as [z2|] eqn:E2; [|discriminate K]. cbn [bind] in K.
  eapply fok_step; [reflexivity|]. apply fok_ret. exists y2. split; [exact N|]. rewrite K'. congruence.
Qed.

Definition changed (y y' : sys) : Prop := good y y' /\ vstep y y' /\ (exists u, y_menu y' = set_n_upd (y_menu y) u) /\ y_dbg y' = y_dbg y /\ y_btn y' = y_btn y.
Lemma resettled_changed y y2 y' s a : inv y -> near y y2 -> inv y' -> y' = set_y_menu (resettled C y2 s a) (set_n_upd (y_menu y2) true) -> changed y y'.
Proof.
  intros I N I' E. destruct (near_good _ _ I N) as (G & V & N1 & N2 & N3 & N4 & N5). unfold changed.
  split; [eapply good_trans; [exact G|]; apply good_side; [exact I'|]|].
  - rewrite E. unfold side_frame, resettled. sy. repeat (split; [reflexivity|]). split; [apply meas_side_refl|]. repeat (split; [reflexivity|]). left; repeat split; reflexivity.
  - split; [apply vstep_upd; rewrite E; reflexivity|]. split; [exists true; rewrite E; sy; rewrite N1; reflexivity|]. rewrite E. unfold resettled. sy. split; assumption.
Qed.
Lemma presets_next_fine y : inv y -> fok (presets_next_f C y) (changed y).
Proof.
  intros I. destruct (i_set _ _ _ I) as (_ & R & _). assert (R' := R). destruct R' as (_ & _ & _ & Hac & _).
  unfold presets_next_f. cbv zeta. set (s := set_s_active _ _).
  assert (Hi : 0 <= s_active s <= 5).
  { unfold s, NR_PRESETS. sy. rewrite ring_next_eq by (fold (get_settings y) in Hac; lia). fold (get_settings y) in Hac. destruct (_ =? _) eqn:F; lia. }
  assert (R2 : rng B C s) by (unfold s; apply rng_active; [exact R|exact Hi]). destruct (rng_preset_get _ _ _ R2) as (a & E & _).
  eapply fok_mono; [eapply presets_store_fine; [exact I|exact R2|reflexivity|reflexivity|exact E]|]. intros y' (y2 & N & Ey).
  destruct (near_good _ _ I N) as (G & _ & _ & _ & _ & N4 & _).
  destruct (presets_next_ok B C y2 (g_inv _ _ _ _ G) HB) as (y1 & b & i & E1 & I1 & _ & E2 & _).
  assert (y1 = y') as ->. { unfold presets_next in E1. cbv zeta in E1. rewrite N4 in E1. change (presets_store C (put_settings y2 s) = Some y1) in E1. congruence. }
  eapply resettled_changed; eassumption.
Qed.
Lemma presets_prev_fine y : inv y -> fok (presets_prev_f C y) (changed y).
Proof.
  intros I. destruct (i_set _ _ _ I) as (_ & R & _). assert (R' := R). destruct R' as (_ & _ & _ & Hac & _).
  unfold presets_prev_f. cbv zeta. set (s := set_s_active _ _).
  assert (Hi : 0 <= s_active s <= 5).
  { unfold s, NR_PRESETS. sy. rewrite ring_prev_eq by (fold (get_settings y) in Hac; lia). fold (get_settings y) in Hac. destruct (_ =? _) eqn:F; lia. }
  assert (R2 : rng B C s) by (unfold s; apply rng_active; [exact R|exact Hi]). destruct (rng_preset_get _ _ _ R2) as (a & E & _).
  eapply fok_mono; [eapply presets_store_fine; [exact I|exact R2|reflexivity|reflexivity|exact E]|]. intros y' (y2 & N & Ey).
  destruct (near_good _ _ I N) as (G & _ & _ & _ & _ & N4 & _).
  destruct (presets_prev_ok B C y2 (g_inv _ _ _ _ G) HB) as (y1 & b & i & E1 & I1 & _ & E2 & _).
  assert (y1 = y') as ->. { unfold presets_prev in E1. cbv zeta in E1. rewrite N4 in E1. change (presets_store C (put_settings y2 s) = Some y1) in E1. congruence. }
  eapply resettled_changed; eassumption.
Qed.
Lemma presets_set_fine y w : inv y -> 0 <= w <= 30720 -> fok (presets_set_active_value_f C y w) (fun y' => changed y y' /\
  exists l, zupd (s_preset (get_settings y)) (s_active (get_settings y)) w = Some l /\ get_settings y' = set_s_preset (get_settings y) l).
Proof.
  intros I Hw. destruct (i_set _ _ _ I) as (_ & R & _). assert (HB' := HB). destruct HB' as ((_&_&BT&_)&_). cbn in BT.
  destruct (rng_preset_set _ _ _ w R ltac:(lia)) as (l & E1 & R2 & E2). fold (get_settings y) in *.
  unfold presets_set_active_value_f. cbv zeta. eapply fok_step; [exact E1|].
  eapply fok_mono; [eapply presets_store_fine; [exact I|exact R2|reflexivity|reflexivity|exact E2]|]. intros y' (y2 & N & Ey).
  destruct (near_good _ _ I N) as (G & _ & _ & _ & _ & N4 & _).
  destruct (presets_set_ok B C y2 w (g_inv _ _ _ _ G) HB Hw) as (y1 & l' & El & E3 & I1 & E4).
  rewrite N4 in El. rewrite E1 in El. apply Some_inj in El. subst l'.
  assert (y1 = y') as ->. { unfold presets_set_active_value in E3. cbv zeta in E3. rewrite N4, E1 in E3. cbn [bind] in E3. congruence. }
  split; [eapply resettled_changed; eassumption|]. exists l. split; [exact E1|]. rewrite E4, N4. reflexivity.
Qed.

Definition changed_quietly (y y' : sys) : Prop := good y y' /\ (exists u, y_menu y' = set_n_upd (y_menu y) u) /\ y_dbg y' = y_dbg y /\ y_btn y' = y_btn y.
Lemma set_idle_fine y w : inv y -> c_idle C = true -> 0 <= w <= 30720 -> fok (contrtemp_set_idle_setpoint_f C y w) (fun y' => changed_quietly y y' /\
  get_settings y' = set_s_idle (get_settings y) w).
Proof.
  intros I Hi Hw. destruct (i_set _ _ _ I) as (_ & R & _). assert (HB' := HB). destruct HB' as ((_&_&BT&_)&_). cbn in BT.
  pose proof (rng_idle _ _ _ w R ltac:(lia)) as R2. destruct (rng_preset_get _ _ _ R2) as (a & E & _).
  unfold contrtemp_set_idle_setpoint_f. rewrite Hi. cbv zeta.
  set (s := set_s_idle (get_settings y) w) in *.
  set (t := set_t_pid (y_ct y) (pid_set_setpoint (t_pid (y_ct y)) (wanted C (y_ct y) s a))).
  eapply fok_step; [unfold put_settings; erewrite update_setpoint_eq by (unfold get_settings; sy; exact E); reflexivity|].
  change (set_y_ct (set_y_set y (set_x_cache (y_set y) s)) _) with (set_y_ct (put_settings y s) t).
  unfold sys_store_f. change (set_y_set (set_y_ct (put_settings y s) t) _) with (set_y_ct (put_req y s) t).
  pose proof (put_core B C HB y s I R2 eq_refl eq_refl) as K.
  apply (fok_point B C HC HB); [destruct K; constructor; assumption|]. intros n m x O.
  assert (O' : PFine.mok B C (put_req y s) n m x) by (eapply mok_ext; [| |exact O]; reflexivity).
  destruct (put_back B C HB y s n m x I eq_refl eq_refl O') as (Ib & Ob & Eb).
  destruct (set_idle_setpoint_ok B C (back y n m x) w Ib HB Hw) as (y' & a' & E1 & I1 & Ea & E2). rewrite Hi in E2.
  assert (N : near y (back y n m x)) by (exists n, m, (set_x_cache x (x_cache (y_set y))); split; [reflexivity|exact Ob]).
  destruct (near_good _ _ I N) as (G & V & N1 & N2 & N3 & N4 & N5).
  assert (a' = a). { rewrite N4 in Ea. change (zget (s_preset (get_settings y)) (s_active (get_settings y)) = Some a) in E. congruence. } subst a'.
  eapply fok_lift with (a := y').
  - change (mv (set_y_ct (put_req y s) t) n m x) with (set_y_ct (mv (put_req y s) n m x) t). rewrite <- Eb.
    unfold sys_store, put_settings. sy. rewrite store_eq. cbn [bind]. rewrite E2. unfold resettled, stored. rewrite N4, N5. fold s. reflexivity.
  - unfold changed_quietly. rewrite N4 in E2. fold s in E2. split; [split; [eapply good_trans; [exact G|apply good_side; [exact I1|]]|]|].
    + rewrite E2. unfold side_frame, resettled. sy. repeat (split; [reflexivity|]). split; [apply meas_side_refl|]. repeat (split; [reflexivity|]). left; repeat split; reflexivity.
    + rewrite E2. unfold resettled. sy. split; [exists (n_upd (y_menu y)); rewrite N1; symmetry; apply upd_id|]. split; assumption.
    + rewrite E2. reflexivity.
Qed.

Lemma do_ramp_k_fine y get put inc mx up : inv y ->
  (forall k v, gain_rng B true k -> 0 <= v <= mx -> gain_rng B true (put k v)) ->
  (forall k, gain_rng B true k -> 0 <= get k <= 6399) -> 0 <= inc <= 64 -> 0 <= mx <= 6400 ->
  fok (do_ramp_k_f C y get put inc mx up) (fun y' => changed_quietly y y' /\ exists y2, near y y2 /\ do_ramp_k C y2 get put inc mx up = Some y').
Proof.
  intros I Hput Hget Hinc Hmx. destruct (do_ramp_k_ok B C y get put inc mx up I HB Hput Hget Hinc Hmx) as (y0 & k & l & v & E0 & I0 & Ek & Bv & Ev & El & Ey).
  unfold do_ramp_k_f. cbv zeta. unfold do_ramp_k in E0. cbv zeta in E0. change (contrtemp_get_boost_mode C y) with (bm C (y_ct y)) in *.
  rewrite Ek in E0. cbn [bind] in E0. destruct (fixpt_add_limited (get k) (if up then inc else fixpt_neg inc) 0 mx) as [v'|] eqn:Ef; [|discriminate E0]. cbn [bind] in E0.
  eapply fok_step; [exact Ek|]. eapply fok_step; [exact Ef|].
  destruct (zupd (s_k (get_settings y)) (bm C (y_ct y)) (put k v')) as [l'|] eqn:El'; [|discriminate E0]. eapply fok_step; [reflexivity|].
  cbn [bind] in E0. destruct (i_set _ _ _ I0) as (_ & R0 & _).
  assert (Es : x_cache (y_set y0) = set_s_k (get_settings y) l') .
  { unfold sys_store, put_settings in E0. sy in E0. rewrite store_eq in E0. cbn [bind] in E0.
    unfold contrtemp_update_pid_config, contrtemp_set_boost_mode in E0. destruct (zget _ _) in E0; [|discriminate E0]. cbn [bind] in E0. apply Some_inj in E0. rewrite <- E0. unfold menu_request_display_update. destruct (c_boost C); reflexivity. }
  rewrite Es in R0. apply (store_f y (set_s_k (get_settings y) l') _); auto. intros y2 z N I2 Ez.
  destruct (near_good _ _ I N) as (G & V & N1 & N2 & N3 & N4 & N5).
  destruct (do_ramp_k_ok B C y2 get put inc mx up I2 HB Hput Hget Hinc Hmx) as (y' & k2 & l2 & v2 & E2 & J2 & Ek2 & Bv2 & Ev2 & El2 & Ey2).
  eapply fok_lift with (a := y').
  - assert (E3 := E2). unfold do_ramp_k in E3. cbv zeta in E3. change (contrtemp_get_boost_mode C y2) with (bm C (y_ct y2)) in E3. rewrite N4, N5, Ek in E3. cbn [bind] in E3.
    rewrite Ef in E3. cbn [bind] in E3. rewrite El' in E3. cbn [bind] in E3. rewrite Ez in E3. exact E3.
  - split; [|exists y2; auto]. assert (F' : y' = set_y_set (set_y_menu (set_y_ct y2 (y_ct y')) (y_menu y')) (y_set y')) by (rewrite Ey2; reflexivity).
    unfold changed_quietly. split; [eapply good_trans; [exact G|apply good_side; [exact J2|]]|].
    + rewrite F'. apply side_plain; rewrite Ey2; unfold boosted, kresettled; destruct (c_boost C); reflexivity.
    + rewrite Ey2. unfold boosted, kresettled. sy. rewrite N1. split; [eexists; reflexivity|]. split; assumption.
Qed.
End Menu.
