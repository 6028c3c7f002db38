(** * Lemmas for the state properties of the whole firmware: C35, C36, C41, C46, C47, C55, C56 *)
From Coq Require Import ZArith List Bool Lia ZifyBool.
From Verif Require Import Base PBase MConf MUtil MFixpt MScale MRing MFilter MTimer MPid MPwm MTempMap MCurr MSens
  SpecNum SpecPid SpecSmall PNum PSmall PScale PPid SpecCurr PCurr MSettings SpecSettings PSettings PSysSet
  MSseg MDisplay MText MState MTemp MMeas MMenu MMain SpecDisplay SpecSys SpecRun PSys PSysMeas PSysMenu PSysDisp PSysBtn
  PSysStep PSysRun PSysCC Trace.
Import ListNotations.
Open Scope Z_scope.
Ltac Zify.zify_post_hook ::= Z.div_mod_to_equations.

(** ** C56 *)
Lemma sys_total C : build_conf C ->
  (forall pinb, is_u8 pinb -> boot C (factory_ee C) pinb <> None) /\
  (forall y e, reach C y -> ev_ok C y e -> step C y e <> None).
Proof.
  intros HC. split.
  - intros pinb Hp. destruct (set_factory C HC) as (x & Ex & Sx & _).
    destruct (boot_s4 strict C _ x pinb bok_strict Ex Sx) as (y1 & E1 & _). congruence.
  - intros y e R O. destruct (step_ok relaxed C y e HC bok_relaxed (reach_s4 C y HC R) O) as (y' & E & _). congruence.
Qed.

(** ** C35 *)
Lemma sys_setpoint_inv C y : inv relaxed C y ->
  pid_get_setpoint (t_pid (y_ct y)) = wanted_setpoint (x_cache (y_set y)) (c_idle C && t_idle (y_ct y)).
Proof.
  intros I. destruct (i_ct _ _ _ I) as (_ & _ & _ & _ & _ & (a & Ea & Es) & _).
  unfold pid_get_setpoint, wanted_setpoint. rewrite Es, (zget_nth _ _ _ 0 Ea).
  destruct (c_idle C && t_idle (y_ct y)); cbn [andb]; [|reflexivity]. destruct (Z.ltb_spec (s_idle (x_cache (y_set y))) a); lia.
Qed.
Lemma sys_setpoint C y : build_conf C -> reach C y ->
  pid_get_setpoint (t_pid (y_ct y)) = wanted_setpoint (x_cache (y_set y)) (c_idle C && t_idle (y_ct y)).
Proof. intros HC R. exact (sys_setpoint_inv C y (s4_inv _ _ _ (reach_s4 C y HC R))). Qed.

(** ** C36 *)
Lemma sys_ranges_inv C y : inv strict C y ->
  settings_in_range (x_cache (y_set y)) /\ (c_boost C = true -> 0 <= t_boost (y_ct y) <= 2).
Proof.
  intros I.
  destruct (i_set _ _ _ I) as (_ & ((k1&k2&k3&Ek&G1&G2&G3)&Hi&(a&b&c&d&e&f&Ep&Ha&Hb&Hc&Hd&He&Hf)&Hac&Had&_) & _).
  cbn [strict bK bI bT bAlo bAhi] in *. unfold gain_rng in *. cbn [strict bK bI bT bAlo bAhi] in *.
  split; [|destruct (i_ct _ _ _ I) as (_ & Hbm & _); exact Hbm]. unfold settings_in_range. rewrite Ek, Ep.
  split; [|split; [lia|split; [|split; lia]]].
  - repeat constructor; unfold gains_in_range; lia.
  - repeat constructor; lia.
Qed.
Lemma sys_ranges C y : build_conf C -> reach1 C y ->
  settings_in_range (x_cache (y_set y)) /\ (c_boost C = true -> 0 <= t_boost (y_ct y) <= 2).
Proof. intros HC R. exact (sys_ranges_inv C y (s4_inv _ _ _ (reach1_s4 C y HC R))). Qed.

Lemma sys_ranges_power_inv C y : inv relaxed C y -> settings_nearly_in_range (x_cache (y_set y)).
Proof.
  intros I.
  destruct (i_set _ _ _ I) as (_ & ((k1&k2&k3&Ek&G1&G2&G3)&Hi&(a&b&c&d&e&f&Ep&Ha&Hb&Hc&Hd&He&Hf)&Hac&Had&_) & _).
  cbn [relaxed bK bI bT bAlo bAhi] in *. unfold gain_rng in *. cbn [relaxed bK bI bT bAlo bAhi] in *.
  unfold settings_nearly_in_range. rewrite Ek, Ep. split; [|split; [lia|split; [|lia]]]; repeat constructor; lia.
Qed.
Lemma sys_ranges_power C y : build_conf C -> reach C y -> settings_nearly_in_range (x_cache (y_set y)).
Proof. intros HC R. exact (sys_ranges_power_inv C y (s4_inv _ _ _ (reach_s4 C y HC R))). Qed.

(** ** C41 *)
Lemma sys_adjusting_inv C y : inv relaxed C y ->
  t_enabled (y_ct y) = negb (adjusting (n_state (y_menu y))) /\
  (t_enabled (y_ct y) = false \/ t_emerg (y_ct y) = true -> p_setpoint (cc_pid (y_cc y)) = 0).
Proof.
  intros I. split; [exact (i_en _ _ _ I)|exact (i_link _ _ _ I)].
Qed.
Lemma sys_adjusting C y : build_conf C -> reach C y ->
  t_enabled (y_ct y) = negb (adjusting (n_state (y_menu y))) /\
  (t_enabled (y_ct y) = false \/ t_emerg (y_ct y) = true -> p_setpoint (cc_pid (y_cc y)) = 0).
Proof. intros HC R. exact (sys_adjusting_inv C y (s4_inv _ _ _ (reach_s4 C y HC R))). Qed.

(** ** C46 *)
Lemma sys_pins_inv C y : inv relaxed C y -> 0 <= active_muxes (y_hw y) <= 1 /\ pins_fixed (y_hw y).
Proof.
  intros I. pose proof (i_io _ _ _ I) as H. unfold io_ok in H. unfold pins_fixed.
  assert (K : forall b c db dc, (db = 130 \/ db = 2) -> (dc = 56 \/ dc = 0) -> (b = 127 /\ (c = 1 \/ c = 9 \/ c = 17 \/ c = 33) \/ b = 255 /\ c = 1) ->
    h_portb (y_hw y) = b -> h_portc (y_hw y) = c -> h_ddrb (y_hw y) = db -> h_ddrc (y_hw y) = dc ->
    0 <= active_muxes (y_hw y) <= 1 /\ pins_fixed (y_hw y)).
  { intros b c db dc D1 D2 D3 E1 E2 E3 E4. unfold pins_fixed, active_muxes. rewrite E1, E2, E3, E4. clear E1 E2 E3 E4.
    repeat match goal with
           | H : _ \/ _ |- _ => destruct H
           | H : _ /\ _ |- _ => destruct H
           end; subst; cbn; (split; [lia|]); repeat split; intros; repeat match goal with H : _ \/ _ |- _ => destruct H end; subst; try contradiction; reflexivity. }
  destruct (d_enabled (y_disp y)).
  - destruct H as (A1 & A2 & _ & _ & A3). eapply K; [left; exact A1|left; exact A2| |reflexivity|reflexivity|reflexivity|reflexivity].
    destruct A3 as [(A3 & A4)|[(_ & A3 & A4)|[(_ & A3 & A4)|[(_ & A3 & A4)|(_ & A3 & A4)]]]]; rewrite A3, A4; tauto.
  - destruct H as (A1 & A2 & _ & A3 & A4 & _). eapply K; [right; exact A1|right; exact A2| |reflexivity|reflexivity|reflexivity|reflexivity].
    rewrite A3, A4; tauto.
Qed.
Lemma sys_pins C y : build_conf C -> reach C y -> 0 <= active_muxes (y_hw y) <= 1 /\ pins_fixed (y_hw y).
Proof. intros HC R. exact (sys_pins_inv C y (s4_inv _ _ _ (reach_s4 C y HC R))). Qed.

(** ** C47 *)
Lemma sys_uart_inv C y : inv relaxed C y ->
  d_enabled (y_disp y) = negb (h_tx (y_hw y)) /\
  (h_tx (y_hw y) = true -> n_state (y_menu y) = MENU_DEBUG /\ c_debug C = true) /\
  (d_enabled (y_disp y) = false -> h_ddrd (y_hw y) = 0 /\ h_portd (y_hw y) = 0 /\ active_muxes (y_hw y) = 0).
Proof.
  intros I. destruct (i_dbg _ _ _ I) as (D1 & D2 & D3). rewrite D3. split; [exact D2|].
  split; [intros E; destruct (D1 E); auto|]. intros E. pose proof (i_io _ _ _ I) as H. unfold io_ok in H. rewrite E in H.
  destruct H as (A1 & A2 & A3 & A4 & A5 & A6). split; [exact A3|]. split; [exact A6|]. unfold active_muxes. rewrite A1, A2, A4, A5. reflexivity.
Qed.
Lemma sys_uart C y : build_conf C -> reach C y ->
  d_enabled (y_disp y) = negb (h_tx (y_hw y)) /\
  (h_tx (y_hw y) = true -> n_state (y_menu y) = MENU_DEBUG /\ c_debug C = true) /\
  (d_enabled (y_disp y) = false -> h_ddrd (y_hw y) = 0 /\ h_portd (y_hw y) = 0 /\ active_muxes (y_hw y) = 0).
Proof. intros HC R. exact (sys_uart_inv C y (s4_inv _ _ _ (reach_s4 C y HC R))). Qed.

(** ** C55 *)
Lemma boot_none C ee x pinb : settings_init C ee = Some x -> (exists k, zget (s_k (x_cache x)) 0 = Some k) ->
  zget (s_preset (x_cache x)) (s_active (x_cache x)) = None -> boot C ee pinb = None.
Proof.
  intros Ex (k & Ek) Ea. unfold boot. cbv zeta.
  destruct (if c_debug C then _ else _) as [y1|] eqn:E1; [|reflexivity]. cbn [bind]. rewrite Ex. cbn [bind].
  destruct (display_init _ _ _) as [[h d]|]; [|reflexivity]. cbn [bind].
  destruct (meastemp_init C _) as [y2|] eqn:E2; [|reflexivity]. cbn [bind].
  destruct (contrcurr_init _ _) as [c|]; [|reflexivity]. cbn [bind].
  assert (Sx : y_set y2 = x).
  { unfold meastemp_init, measure_adjust_set in E2. destruct (c_adj C); [|apply Some_inj in E2; subst y2; reflexivity].
    cbv zeta in E2. apply bind_inv in E2. destruct E2 as (ch & _ & E2). apply bind_inv in E2. destruct E2 as (chs & _ & E2). apply Some_inj in E2. subst y2. reflexivity. }
  unfold contrtemp_init, presets_get_active_value, get_settings. sy. unfold set_y_cc. sy. rewrite Sx, Ek. cbn [bind]. rewrite Ea. reflexivity.
Qed.
Lemma boot_any C ee pinb : ring_conf C -> (forall a, is_u8 (ee a)) ->
  exists x, settings_init C ee = Some x /\ (boot C ee pinb <> None <-> s_active (x_cache x) <= 5).
Proof.
  intros HC Hb. destruct (scan_exact C ee HC Hb) as (x & i & Ex & _ & _ & Ec & _). exists x. split; [exact Ex|].
  set (f := fun k => ee (64 * i + k)) in Ec.
  assert (Sk : exists k, zget (s_k (x_cache x)) 0 = Some k) by (rewrite Ec; unfold settings_of; cbn [s_k]; eexists; reflexivity).
  assert (Sp : length (s_preset (x_cache x)) = 6%nat) by (rewrite Ec; reflexivity).
  assert (Sa : 0 <= s_active (x_cache x)) by (rewrite Ec; unfold settings_of; cbn [s_active]; apply Hb).
  destruct Sk as (k & Ek). split.
  - intros N. destruct (Z_le_gt_dec (s_active (x_cache x)) 5) as [L|L]; [exact L|]. destruct N. eapply boot_none; [exact Ex|eauto|].
    unfold zget. destruct (s_active (x_cache x) <? 0); [reflexivity|]. apply nth_error_None. rewrite Sp. lia.
  - intros L. destruct (zget_some (s_preset (x_cache x)) (s_active (x_cache x))) as (a & Ea); [rewrite Sp; lia|].
    rewrite (boot_eq C ee x k a pinb Ex Ek Ea). discriminate.
Qed.
