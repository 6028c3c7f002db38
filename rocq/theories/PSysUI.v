(** * The firmware follows the automaton of SpecUI *)
From Coq Require Import ZArith List Bool Lia ZifyBool.
From Verif Require Import Base PBase MConf MUtil MFixpt MScale MRing MFilter MTimer MPid MPwm MTempMap MCurr MSens
  SpecNum SpecPid SpecSmall PNum PSmall PScale PPid SpecCurr PCurr MSettings SpecSettings PSettings PSysSet
  MSseg MDisplay MText MState MTemp MMeas MMenu MMain SpecDisplay SpecSys SpecRun SpecUI PSys PSysMeas PSysMenu PSysDisp PSysBtn
  PSysStep PSysRun PSysCC PSysSafe.
Import ListNotations.
Open Scope Z_scope.
Ltac Zify.zify_post_hook ::= Z.div_mod_to_equations.

(** ** Keys *)
Lemma raw_bits pinb : is_u8 pinb -> forall b, negb (Z.land (buttons_get_raw pinb) (button_mask b) =? 0) = down pinb b.
Proof.
  intros H b. assert (K : forallb (fun p => forallb (fun b => Bool.eqb (negb (Z.land (buttons_get_raw p) (button_mask b) =? 0)) (down p b)) all_keys)
    (map Z.of_nat (seq 0 256)) = true) by (vm_compute; reflexivity).
  rewrite forallb_forall in K. specialize (K pinb). rewrite forallb_forall in K. apply eqb_prop, K.
  - apply in_map_iff. exists (Z.to_nat pinb). unfold is_u8 in H. split; [lia|]. apply in_seq. lia.
  - destruct b; cbn; tauto.
Qed.
(** The byte of the keys that are down. *)
Definition keyb (a b c d : bool) : Z :=
  (if a then 4 else 0) + (if b then 8 else 0) + (if c then 16 else 0) + (if d then 1 else 0).
Lemma raw_keyb pinb : is_u8 pinb ->
  buttons_get_raw pinb = keyb (down pinb BUTTON_SET) (down pinb BUTTON_MINUS) (down pinb BUTTON_PLUS) (down pinb BUTTON_IRON).
Proof.
  intros H. assert (K : forallb (fun p => buttons_get_raw p =? keyb (down p BUTTON_SET) (down p BUTTON_MINUS) (down p BUTTON_PLUS) (down p BUTTON_IRON))
    (map Z.of_nat (seq 0 256)) = true) by (vm_compute; reflexivity).
  rewrite forallb_forall in K. apply Z.eqb_eq, K. apply in_map_iff. exists (Z.to_nat pinb). unfold is_u8 in H. split; [lia|]. apply in_seq. lia.
Qed.
Lemma sample_events p q : is_u8 p -> is_u8 q -> sample_calls (buttons_get_raw p) q = key_events p q.
Proof.
  intros Hp Hq. unfold sample_calls, key_events, key_event. cbv zeta. rewrite (raw_keyb p Hp), (raw_keyb q Hq). cbn [all_keys flat_map map].
  destruct (down p BUTTON_SET), (down p BUTTON_MINUS), (down p BUTTON_PLUS), (down p BUTTON_IRON),
    (down q BUTTON_SET), (down q BUTTON_MINUS), (down q BUTTON_PLUS), (down q BUTTON_IRON); vm_compute; reflexivity.
Qed.

(** ** What the menu functions leave alone *)
Definition kept (y y' : sys) : Prop :=
  t_bilet (y_ct y') = t_bilet (y_ct y) /\ t_bitimer (y_ct y') = t_bitimer (y_ct y) /\ t_idle (y_ct y') = t_idle (y_ct y) /\
  t_enabled (y_ct y') = t_enabled (y_ct y) /\ t_boost (y_ct y') = t_boost (y_ct y) /\
  n_state (y_menu y') = n_state (y_menu y) /\ n_timeout (y_menu y') = n_timeout (y_menu y) /\ y_now y' = y_now y.
Lemma kept_refl y : kept y y.
Proof. unfold kept. repeat split. Qed.
Lemma kept_trans a b c : kept a b -> kept b c -> kept a c.
Proof. unfold kept. intros (A1&A2&A3&A4&A5&A6&A7&A8) (B1&B2&B3&B4&B5&B6&B7&B8). repeat split; congruence. Qed.
Lemma kept_store y y' : sys_store y = Some y' -> kept y y'.
Proof. unfold sys_store. intros E. apply bind_inv in E. destruct E as (x & _ & E). apply Some_inj in E. subst. unfold kept. sy. repeat split. Qed.
Lemma kept_setpoint C y y' : contrtemp_update_setpoint C y = Some y' -> kept y y'.
Proof.
  unfold contrtemp_update_setpoint. intros E. apply bind_inv in E. destruct E as (x & _ & E). cbv zeta in E. apply Some_inj in E. subst.
  unfold kept. sy. repeat split.
Qed.
Lemma kept_put y s : kept y (put_settings y s).
Proof. unfold kept, put_settings. sy. repeat split. Qed.
Lemma kept_upd y : kept y (menu_request_display_update y).
Proof. unfold kept, menu_request_display_update. sy. repeat split. Qed.
Lemma kept_presets C y y' : presets_store C y = Some y' -> kept y y'.
Proof.
  unfold presets_store. intros E. apply bind_inv in E. destruct E as (y1 & E1 & E). apply bind_inv in E. destruct E as (y2 & E2 & E). apply Some_inj in E. subst.
  eapply kept_trans; [apply kept_store; exact E1|]. eapply kept_trans; [eapply kept_setpoint; exact E2|apply kept_upd].
Qed.
Lemma kept_next C y y' : presets_next C y = Some y' -> kept y y'.
Proof. unfold presets_next. cbv zeta. intros E. eapply kept_trans; [apply kept_put|eapply kept_presets; exact E]. Qed.
Lemma kept_prev C y y' : presets_prev C y = Some y' -> kept y y'.
Proof. unfold presets_prev. cbv zeta. intros E. eapply kept_trans; [apply kept_put|eapply kept_presets; exact E]. Qed.
Lemma kept_config C y y' : contrtemp_update_pid_config C y = Some y' -> kept y y'.
Proof.
  unfold contrtemp_update_pid_config, contrtemp_set_boost_mode, contrtemp_get_boost_mode. intros E. apply bind_inv in E. destruct E as (k & _ & E).
  cbv zeta in E. apply Some_inj in E. subst. unfold kept, menu_request_display_update. sy. destruct (c_boost C); sy; repeat split.
Qed.
Lemma kept_ramp C y h up y' : h <> HSettemp -> call_ramp_handler C y (Some h) up = Some y' -> kept y y'.
Proof.
  intros N E. unfold call_ramp_handler in E. cbn [bind] in E.
  assert (K : forall get put inc mx, do_ramp_k C y get put inc mx up = Some y' -> kept y y').
  { intros get put inc mx E0. unfold do_ramp_k in E0. cbv zeta in E0. apply bind_inv in E0. destruct E0 as (k & _ & E0). apply bind_inv in E0. destruct E0 as (v & _ & E0).
    apply bind_inv in E0. destruct E0 as (l & _ & E0). apply bind_inv in E0. destruct E0 as (y1 & E1 & E2).
    eapply kept_trans; [apply kept_put|]. eapply kept_trans; [apply kept_store; exact E1|eapply kept_config; exact E2]. }
  destruct h; try congruence; try (eapply K; exact E).
  - unfold idletemp_ramp_handler in E. apply bind_inv in E. destruct E as (sp & _ & E). unfold contrtemp_set_idle_setpoint in E.
    destruct (c_idle C); [|apply Some_inj in E; subst; apply kept_refl]. cbv zeta in E. apply bind_inv in E. destruct E as (y1 & E1 & E).
    eapply kept_trans; [apply kept_put|]. eapply kept_trans; [eapply kept_setpoint; exact E1|eapply kept_store; exact E].
  - unfold adj_ramp_handler in E. apply bind_inv in E. destruct E as (a & _ & E). apply bind_inv in E. destruct E as (b & _ & E).
    unfold meastemp_adjust_set in E. destruct (c_adj C); [|apply Some_inj in E; subst; apply kept_refl]. apply bind_inv in E. destruct E as (y1 & E1 & E). cbv zeta in E.
    apply bind_inv in E. destruct E as (y2 & E2 & E). apply Some_inj in E. subst.
    assert (K1 : kept y y1).
    { unfold measure_adjust_set in E1. destruct (c_adj C); [|apply Some_inj in E1; subst; apply kept_refl]. cbv zeta in E1. apply bind_inv in E1. destruct E1 as (ch & _ & E1).
      apply bind_inv in E1. destruct E1 as (l & _ & E1). apply Some_inj in E1. subst. unfold kept. sy. repeat split. }
    eapply kept_trans; [exact K1|]. eapply kept_trans; [apply kept_put|]. eapply kept_trans; [apply kept_store; exact E2|apply kept_upd].
Qed.
Lemma kept_debug C y b y' : debug_enable C y b = Some y' -> kept y y'.
Proof.
  unfold debug_enable. destruct (c_debug C); [|intros E; apply Some_inj in E; subst; apply kept_refl]. cbv zeta. intros E.
  destruct (display_enable _ _ _ _) as [[h d]|]; [|discriminate E]. cbn [bind] in E. apply Some_inj in E. subst. unfold kept. sy. repeat split.
Qed.

(** Entering a menu. *)
Definition moved (C : conf) (y y' : sys) (s : mstate) : Prop :=
  t_bilet (y_ct y') = t_bilet (y_ct y) /\ t_bitimer (y_ct y') = t_bitimer (y_ct y) /\ t_idle (y_ct y') = t_idle (y_ct y) /\ y_now y' = y_now y /\
  n_state (y_menu y') = s /\
  (if mstate_eqb (n_state (y_menu y)) s then y' = y
   else (forall d, tmo s = Some d -> n_timeout (y_menu y') = u16 (y_now y + d)) /\
        t_boost (y_ct y') = if Bool.eqb (adjusting (n_state (y_menu y))) (adjusting s) then t_boost (y_ct y)
                            else if c_boost C then 0 else t_boost (y_ct y)).
Lemma moved_ok B C y s y' : inv B C y -> can_enter C y s -> menu_set_state C y s = Some y' -> moved C y y' s.
Proof.
  intros I Hc E. destruct (enter_ok B C y s I Hc) as (y1 & k & E1 & _ & _ & Ey & Es & Fs & _ & _ & _ & _ & _ & _ & _ & Ei & _).
  rewrite E in E1. apply Some_inj in E1. subst y1. destruct Hc as (_ & _ & Ha). pose proof (i_en _ _ _ I) as He.
  assert (Hna : mstate_eqb (n_state (y_menu y)) s = false -> match enab s with Some b => b = negb (adjusting s) | None => adjusting s = adjusting (n_state (y_menu y)) end).
  { intros _. destruct (enab s) eqn:Ee; [destruct s; cbn in Ee |- *; congruence|]. rewrite (Ha eq_refl). destruct s; cbn in Ee |- *; congruence. }
  unfold moved. destruct (mstate_eqb (n_state (y_menu y)) s) eqn:Eq.
  - subst y'. repeat split. apply mstate_eqb_ok. exact Eq.
  - specialize (Hna eq_refl).
    assert (K : t_bilet (y_ct y') = t_bilet (y_ct y) /\ t_bitimer (y_ct y') = t_bitimer (y_ct y) /\ (forall d, tmo s = Some d -> n_timeout (y_menu y') = u16 (y_now y + d)) /\
      t_boost (y_ct y') = if Bool.eqb (adjusting (n_state (y_menu y))) (adjusting s) then t_boost (y_ct y) else if c_boost C then 0 else t_boost (y_ct y)).
    { subst y'. unfold entered. destruct (enab s) as [b|] eqn:Eb.
      - subst b. unfold en_switch. sy. rewrite He. destruct (adjusting (n_state (y_menu y))), (adjusting s); cbn [negb Bool.eqb]; destruct (tmo s), (c_boost C); unfold set_y_cc, set_y_ct; sy; repeat split; intros; congruence.
      - sy. rewrite Hna, eqb_reflx. destruct (tmo s); sy; repeat split; intros; congruence. }
    destruct K as (K1 & K2 & K3 & K4). repeat split; try assumption. apply Fs.
Qed.

(** The controller's part of the state. *)
Definition keptc (y y' : sys) : Prop :=
  t_bilet (y_ct y') = t_bilet (y_ct y) /\ t_bitimer (y_ct y') = t_bitimer (y_ct y) /\ t_idle (y_ct y') = t_idle (y_ct y) /\
  t_boost (y_ct y') = t_boost (y_ct y) /\ y_now y' = y_now y.
Lemma kept_c y y' : kept y y' -> keptc y y'.
Proof. unfold kept, keptc. tauto. Qed.
Lemma keptc_trans a b c : keptc a b -> keptc b c -> keptc a c.
Proof. unfold keptc. intros (A1&A2&A3&A4&A5) (B1&B2&B3&B4&B5). repeat split; congruence. Qed.
Lemma keptc_menu y n : keptc y (set_y_menu y n).
Proof. unfold keptc. sy. repeat split. Qed.
Lemma keptc_key y b bs pre h : keptc y (ramp_key y b bs pre h).
Proof. unfold ramp_key. destruct (key_ramp b bs); [apply keptc_menu|unfold keptc; repeat split]. Qed.
Lemma switch_keptc B C y b bs y' : inv B C y -> ramp_ok (y_menu y) -> bok B -> is_iron b = false -> menu_button_switch C y b bs = Some y' -> keptc y y'.
Proof.
  intros I Ro HB Hb E. assert (Rf : keptc y y) by (unfold keptc; repeat split).
  unfold menu_button_switch, MENU_SELPRESET_TIMEOUT, MENU_CHGPRESET_TIMEOUT, MENU_IDLETEMP_TIMEOUT in E.
  destruct (n_state (y_menu y)) eqn:Es; try rewrite ramp_key_eq in E; try (rewrite arm_timeout_eq in E by lia); cbn [bind] in E.
  - destruct (is_neg bs && negb (is_set b)) eqn:En; [|apply Some_inj in E; subst; apply keptc_key].
    assert (Ey : ramp_key y b bs true HSettemp = y).
    { unfold ramp_key, key_ramp. destruct bs; cbn in En |- *; try discriminate; reflexivity. }
    rewrite Ey in E.
    assert (M : moved C y y' MENU_SELPRESET).
    { apply (moved_ok B); [exact I| |exact E]. split; [reflexivity|]. split; [|rewrite Es; reflexivity].
      intros Hd. destruct (proj1 (i_dbg _ _ _ I) Hd) as (_ & X). congruence. }
    destruct M as (M1 & M2 & M3 & M4 & _ & M5). rewrite Es in M5. cbn in M5. unfold keptc. repeat split; try assumption. apply M5.
  - set (y1 := set_y_menu y _) in *.
    assert (K1 : keptc y y1) by apply keptc_menu.
    apply bind_inv in E. destruct E as (y2 & E2 & E). rewrite ramp_key_eq in E. apply Some_inj in E. subst y'.
    eapply keptc_trans; [exact K1|]. eapply keptc_trans; [|apply keptc_key]. assert (Rf1 : keptc y1 y1) by (unfold keptc; repeat split).
    destruct (is_neg bs); [destruct (is_plus b); [|destruct (is_minus b)]|].
    + apply kept_c. eapply kept_next; exact E2.
    + apply kept_c. eapply kept_prev; exact E2.
    + apply Some_inj in E2. subst. exact Rf1.
    + apply Some_inj in E2. subst. exact Rf1.
  - rewrite ramp_key_eq in E. apply Some_inj in E. subst. eapply keptc_trans; [apply keptc_menu|apply keptc_key].
  - destruct (c_idle C); cbn [negb] in E; [|apply Some_inj in E; subst; exact Rf]. rewrite ramp_key_eq in E. apply Some_inj in E. subst.
    eapply keptc_trans; [apply keptc_menu|apply keptc_key].
  - destruct (c_debug C) eqn:Ed; cbn [negb] in E; [|apply Some_inj in E; subst; exact Rf].
    destruct (is_pos bs); [|apply Some_inj in E; subst; exact Rf]. destruct (is_plus b); [apply kept_c; eapply kept_debug; exact E|].
    destruct (is_minus b); [|apply Some_inj in E; subst; exact Rf]. apply bind_inv in E. destruct E as (y1 & E1 & E). apply Some_inj in E. subst.
    apply kept_c. eapply kept_trans; [eapply kept_debug; exact E1|apply kept_upd].
  - apply Some_inj in E. subst. exact Rf.
  - destruct (c_adj C); cbn [negb] in E; [|apply Some_inj in E; subst; exact Rf]. apply Some_inj in E. subst. apply keptc_key.
  - apply Some_inj in E. subst. exact Rf.
  - destruct (c_kconf C); cbn [negb] in E; [|apply Some_inj in E; subst; exact Rf]. apply Some_inj in E. subst. apply keptc_key.
  - apply Some_inj in E. subst. exact Rf.
  - destruct (c_kconf C); cbn [negb] in E; [|apply Some_inj in E; subst; exact Rf]. apply Some_inj in E. subst. apply keptc_key.
  - apply Some_inj in E. subst. exact Rf.
  - destruct (c_kconf C); cbn [negb] in E; [|apply Some_inj in E; subst; exact Rf]. apply Some_inj in E. subst. apply keptc_key.
Qed.
Definition boost_after (C : conf) (a b : mstate) (v : Z) : Z :=
  if Bool.eqb (adjusting a) (adjusting b) then v else if c_boost C then 0 else v.
Lemma handler_ct B C y b bs y' : inv B C y -> ramp_ok (y_menu y) -> bok B -> is_iron b = false -> menu_button_handler C y b bs = Some y' ->
  t_bilet (y_ct y') = t_bilet (y_ct y) /\ t_bitimer (y_ct y') = t_bitimer (y_ct y) /\ t_idle (y_ct y') = t_idle (y_ct y) /\ y_now y' = y_now y /\
  t_boost (y_ct y') = boost_after C (n_state (y_menu y)) (n_state (y_menu y')) (t_boost (y_ct y)).
Proof.
  intros I Ro HB Hb E. unfold menu_button_handler in E. rewrite Hb in E. apply bind_inv in E. destruct E as (y1 & E1 & E).
  pose proof (switch_keptc B C y b bs y1 I Ro HB Hb E1) as (K1 & K2 & K3 & K4 & K5).
  destruct (switch_ok B C y b bs I Ro HB Hb) as (y1' & E1' & I1 & _ & _ & _ & _ & St1 & _). rewrite E1 in E1'. apply Some_inj in E1'. subst y1'.
  assert (Hadj : adjusting (n_state (y_menu y1)) = adjusting (n_state (y_menu y))).
  { rewrite St1. destruct (is_neg bs && negb (is_set b)); [|reflexivity]. destruct (n_state (y_menu y)); reflexivity. }
  assert (Fin : forall z, y_ct z = y_ct y1 -> y_now z = y_now y1 -> n_state (y_menu z) = n_state (y_menu y1) ->
    t_bilet (y_ct z) = t_bilet (y_ct y) /\ t_bitimer (y_ct z) = t_bitimer (y_ct y) /\ t_idle (y_ct z) = t_idle (y_ct y) /\ y_now z = y_now y /\
    t_boost (y_ct z) = boost_after C (n_state (y_menu y)) (n_state (y_menu z)) (t_boost (y_ct y))).
  { intros z F1 F2 F3. rewrite F1, F2, F3. unfold boost_after. rewrite Hadj, eqb_reflx. auto. }
  destruct (is_neg bs) eqn:En; [|apply Some_inj in E; subst; apply Fin; reflexivity].
  destruct (is_set b) eqn:Hs; [|apply Some_inj in E; subst; apply Fin; reflexivity].
  destruct (negb (debug_is_enabled C (stop_ramping y1))) eqn:Ed; [|apply Some_inj in E; subst; apply Fin; reflexivity].
  assert (M : moved C (stop_ramping y1) y' (next_menu_state C (n_state (y_menu (stop_ramping y1))))).
  { destruct (stop_ok B C y1 I1) as (I2 & _). apply (moved_ok B); [exact I2| |exact E]. apply (next_can B); [exact I2|].
    unfold debug_is_enabled in Ed. destruct (c_debug C) eqn:Ec; [destruct (y_dbg (stop_ramping y1)); [discriminate|reflexivity]|].
    destruct (y_dbg (stop_ramping y1)) eqn:Ey; [|reflexivity]. destruct (proj1 (i_dbg _ _ _ I2) Ey) as (X & _). congruence. }
  unfold moved in M. change (y_ct (stop_ramping y1)) with (y_ct y1) in M. change (y_now (stop_ramping y1)) with (y_now y1) in M.
  change (n_state (y_menu (stop_ramping y1))) with (n_state (y_menu y1)) in M. destruct M as (M1 & M2 & M3 & M4 & M5 & M6). rewrite M1, M2, M3, M4. split; [congruence|]. split; [congruence|]. split; [congruence|].
  split; [congruence|]. unfold boost_after. rewrite M5, <- Hadj. destruct (mstate_eqb _ _) eqn:Eq.
  - apply mstate_eqb_ok in Eq. rewrite <- Eq, eqb_reflx. subst y'. exact K4.
  - destruct M6 as (_ & ->). rewrite K4. reflexivity.
Qed.
Lemma next_after C s : allowed C s = true -> next_menu_state C s = menu_after C s.
Proof.
  intros A. unfold menu_after, menu_chain, next_menu_state. destruct s; cbn in A |- *; rewrite ?A;
    destruct (c_idle C) eqn:?, (c_debug C) eqn:?, (c_adj C) eqn:?, (c_kconf C) eqn:?; cbn; congruence.
Qed.

(** ** Settings *)
Lemma same_ex a b : same_settings a b <-> a = set_s_serial b (s_serial a).
Proof.
  unfold same_settings, set_s_serial. destruct a, b; cbn. split; intros E; injection E; intros; subst; reflexivity.
Qed.
Lemma same_refl a : same_settings a a.
Proof. reflexivity. Qed.
Lemma upd_nat_nth' {A} (f : A -> A) (l : list A) : forall i a, nth_error l i = Some a -> upd_nat l i (f a) = Some (upd_nth i f l).
Proof.
  induction l as [|x l IH]; intros [|i] a E; cbn in E |- *; try discriminate.
  - apply Some_inj in E. subst. reflexivity.
  - rewrite (IH i a E). reflexivity.
Qed.
Lemma zupd_nth {A} (f : A -> A) (l : list A) i a : zget l i = Some a -> zupd l i (f a) = Some (upd_nth (Z.to_nat i) f l).
Proof. unfold zget, zupd. destruct (i <? 0); [discriminate|]. apply upd_nat_nth'. Qed.
Lemma pick_same s b bs x c : same_settings x c -> 0 <= s_active c <= 5 ->
  same_settings (pick s b bs x)
    (match b, bs, s with
     | BUTTON_PLUS, BSTATE_NEGEDGE, MENU_SELPRESET => set_s_active c (cycle_up 5 (s_active c))
     | BUTTON_MINUS, BSTATE_NEGEDGE, MENU_SELPRESET => set_s_active c (cycle_down 5 (s_active c))
     | _, _, _ => c
     end).
Proof.
  intros E Ha. apply (proj1 (same_ex _ _)) in E. set (v := s_serial x) in E. clearbody v. subst x. unfold pick, cycle_up, cycle_down.
  destruct s, b, bs; cbn [is_neg is_plus is_minus andb]; reflexivity.
Qed.
Lemma item_same C h up m x x' c s : same_settings x c -> ramp_of_menu h s -> setting_step C h up m x x' -> same_settings x' (item_step s m up c).
Proof.
  intros E Hs St. apply (proj1 (same_ex _ _)) in E. set (v := s_serial x) in E. clearbody v. subst x.
  assert (D : forall d, (if up then d else - d) = delta up d) by (intros; reflexivity).
  assert (K : forall k g g' (f : pid_k -> pid_k) l, g = f k -> zget (s_k c) m = Some k -> zupd (s_k c) m g = Some l -> (forall k, f k = g' k) ->
    same_settings (set_s_k (set_s_serial c v) l) (set_s_k c (upd_nth (Z.to_nat m) g' (s_k c)))).
  { intros k g g' f l Eg E1 E2 Ef. subst g. rewrite (zupd_nth f _ _ _ E1) in E2. apply Some_inj in E2. subst l. replace (upd_nth (Z.to_nat m) f (s_k c)) with (upd_nth (Z.to_nat m) g' (s_k c)); [reflexivity|].
    clear E1. generalize (Z.to_nat m). induction (s_k c) as [|a l IH]; intros [|i]; cbn; [reflexivity|reflexivity|rewrite Ef; reflexivity|rewrite IH; reflexivity]. }
  destruct h; cbn [ramp_of_menu setting_step] in *.
  - destruct St as (a & l & E1 & E2 & ->).
    rewrite (zupd_nth (fun v => Z.max 0 (Z.min 30720 (v + (if up then 64 else -64)))) _ _ _ E1) in E2. apply Some_inj in E2. subst l.
    assert (E : item_step s m up c = set_s_preset c (upd_nth (Z.to_nat (s_active c)) (fun v => Z.max 0 (Z.min 30720 (v + (if up then 64 else -64)))) (s_preset c))).
    { destruct Hs as [->|[->| ->]]; reflexivity. }
    rewrite E. reflexivity.
  - subst. reflexivity.
  - subst. reflexivity.
  - subst s. destruct St as (k & l & E1 & -> & E2). eapply (K k _ _ (fun k => mkK (Z.max 0 (Z.min 6336 (kp k + (if up then 2 else -2)))) (ki k) (kd k) (d_decay_div k))); [reflexivity|exact E1|exact E2|reflexivity].
  - subst s. destruct St as (k & l & E1 & -> & E2). eapply (K k _ _ (fun k => mkK (kp k) (Z.max 0 (Z.min 576 (ki k + (if up then 1 else -1)))) (kd k) (d_decay_div k))); [reflexivity|exact E1|exact E2|reflexivity].
  - subst s. destruct St as (k & l & E1 & -> & E2). eapply (K k _ _ (fun k => mkK (kp k) (ki k) (Z.max 0 (Z.min 6336 (kd k + (if up then 2 else -2)))) (d_decay_div k))); [reflexivity|exact E1|exact E2|reflexivity].
Qed.
