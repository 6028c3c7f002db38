(** * Invariant of the running firmware, part 1: controllers and settings *)
From Coq Require Import ZArith List Bool Lia ZifyBool.
From Verif Require Import Base PBase MConf MUtil MFixpt MScale MRing MFilter MTimer MPid MPwm MTempMap MCurr MSens
  SpecNum SpecPid SpecSmall PNum PSmall PScale PPid SpecCurr PCurr MSettings SpecSettings PSettings PSysSet
  MSseg MDisplay MText MState MTemp MMeas MMenu MMain SpecDisplay SpecSys.
Import ListNotations.
Open Scope Z_scope.
Ltac Zify.zify_post_hook ::= Z.div_mod_to_equations.

Tactic Notation "sy" := cbn [set_y_now set_y_btn set_y_cc set_y_ct set_y_meas set_y_mc set_y_mt set_y_menu set_y_set
  set_y_disp set_y_hw set_y_dbg y_now y_btn y_cc y_ct y_meas y_mc y_mt y_menu y_set y_disp y_hw y_dbg
  set_t_enabled set_t_emerg set_t_idle set_t_boost set_t_bitimer set_t_bilet set_t_pid set_t_feedback set_t_dt
  t_enabled t_emerg t_idle t_boost t_bitimer t_bilet t_pid t_feedback t_dt
  set_n_state set_n_timeout set_n_ramp set_n_rtimer set_n_pretimer set_n_handler set_n_period set_n_err set_n_heating set_n_upd
  n_state n_timeout n_ramp n_rtimer n_pretimer n_handler n_period n_err n_heating n_upd
  set_x_cache x_cache set_x_timer set_x_request x_timer x_request
  pid_reset pid_set_factors pid_set_setpoint p_k p_setpoint p_i_neglim p_i_poslim p_y_neglim p_y_poslim p_prev_e p_integr
  set_s_k set_s_idle set_s_preset set_s_active set_s_adj set_s_reserved set_s_serial
  s_k s_idle s_preset s_active s_adj s_reserved s_serial
  cc_set_pid contrcurr_set_setpoint contrcurr_set_restricted cc_set_restricted cc_enabled cc_restricted cc_emerg cc_pid cc_rstate cc_feedback cc_prev_y cc_timer cc_model cc_ocr
  set_m_chans set_m_chan set_m_count set_m_sum set_m_timer set_m_avail set_m_adc m_chans m_chan m_count m_sum m_timer m_avail m_adc
  set_u_init set_u_prev set_u_filter u_init u_prev u_filter
  set_b_prev set_b_timer b_prev b_timer
  bind negb andb orb].
Tactic Notation "sy" "in" hyp(H) := cbn [set_y_now set_y_btn set_y_cc set_y_ct set_y_meas set_y_mc set_y_mt set_y_menu set_y_set
  set_y_disp set_y_hw set_y_dbg y_now y_btn y_cc y_ct y_meas y_mc y_mt y_menu y_set y_disp y_hw y_dbg
  set_t_enabled set_t_emerg set_t_idle set_t_boost set_t_bitimer set_t_bilet set_t_pid set_t_feedback set_t_dt
  t_enabled t_emerg t_idle t_boost t_bitimer t_bilet t_pid t_feedback t_dt
  set_n_state set_n_timeout set_n_ramp set_n_rtimer set_n_pretimer set_n_handler set_n_period set_n_err set_n_heating set_n_upd
  n_state n_timeout n_ramp n_rtimer n_pretimer n_handler n_period n_err n_heating n_upd
  set_x_cache x_cache set_x_timer set_x_request x_timer x_request
  pid_reset pid_set_factors pid_set_setpoint p_k p_setpoint p_i_neglim p_i_poslim p_y_neglim p_y_poslim p_prev_e p_integr
  set_s_k set_s_idle set_s_preset set_s_active set_s_adj set_s_reserved set_s_serial
  s_k s_idle s_preset s_active s_adj s_reserved s_serial
  cc_set_pid contrcurr_set_setpoint contrcurr_set_restricted cc_set_restricted cc_enabled cc_restricted cc_emerg cc_pid cc_rstate cc_feedback cc_prev_y cc_timer cc_model cc_ocr
  set_m_chans set_m_chan set_m_count set_m_sum set_m_timer set_m_avail set_m_adc m_chans m_chan m_count m_sum m_timer m_avail m_adc
  set_u_init set_u_prev set_u_filter u_init u_prev u_filter
  set_b_prev set_b_timer b_prev b_timer
  bind negb andb orb] in H.

(** ** The invariant *)
Definition bm (C : conf) (t : ct) : Z := if c_boost C then t_boost t else 0.

Definition ct_inv (C : conf) (t : ct) (s : settings) : Prop :=
  zget (s_k s) (bm C t) = Some (p_k (t_pid t)) /\ (c_boost C = true -> 0 <= t_boost t <= 2) /\
  (p_i_neglim (t_pid t) = -1920 /\ p_i_poslim (t_pid t) = 5120 /\ p_y_neglim (t_pid t) = 0 /\ p_y_poslim (t_pid t) = 30720) /\
  Z.abs (p_prev_e (t_pid t)) <= 32768 /\ -1920 <= p_integr (t_pid t) <= 5120 /\
  (exists a, zget (s_preset s) (s_active s) = Some a /\
     p_setpoint (t_pid t) = if (c_idle C && t_idle t) && (s_idle s <? a) then s_idle s else a) /\
  -1280 <= t_feedback t <= 32000.

Definition link (t : ct) (c : cc) : Prop :=
  t_enabled t = false \/ t_emerg t = true -> p_setpoint (cc_pid c) = 0.

Definition cc_sys (c : cc) : Prop :=
  cc_inv c /\ cc_enabled c = true /\ 0 <= cc_emerg c <= 3 /\ (cc_emerg c <> 0 -> cc_ocr c = 8191).

Definition meas_inv (C : conf) (m : meas) (s : settings) : Prop :=
  (exists c0 c1, m_chans m = [c0; c1] /\ ch_adj c0 = 0 /\ ch_adj c1 = (if c_adj C then s_adj s else 0)) /\
  (m_chan m = 0 \/ m_chan m = 1) /\ 0 <= m_count m <= 65535 /\ 0 <= m_sum m <= 1023 * m_count m.

(** Either the converter runs or a result of at least one sample waits. *)
Definition handover (m : meas) : Prop := m_adc m = negb (m_avail m) /\ (m_avail m = true -> 0 < m_count m).

Definition mc_inv (u : mcur) : Prop := 0 <= u_prev u <= 3200 /\ 0 <= u_filter u <= 16368.

Definition allowed (C : conf) (s : mstate) : bool :=
  match s with
  | MENU_CURTEMP | MENU_SELPRESET | MENU_CHGPRESET => true
  | MENU_IDLETEMP => c_idle C
  | MENU_DEBUG => c_debug C
  | MENU_ADJ_PRE | MENU_ADJ => c_adj C
  | MENU_KP_PRE | MENU_KP | MENU_KI_PRE | MENU_KI | MENU_KD_PRE | MENU_KD => c_kconf C
  end.
Definition menu_inv (C : conf) (n : menu) : Prop :=
  allowed C (n_state n) = true /\ 0 <= n_period n <= 400 /\ 0 <= n_err n <= 3.
Definition ramp_ok (n : menu) : Prop :=
  n_ramp n = RAMP_NONE \/ exists h, n_handler n = Some h /\ ramp_of_menu h (n_state n).

Definition dd_ok (im : iomap) (dd : ddata) : Prop :=
  dd_iomap dd = Some im /\ dd_mask dd = 255 /\ is_u8 (dd_set dd).
Definition disp_inv (d : disp) : Prop :=
  0 <= d_mux d <= 3 /\
  exists g0 g1 g2 g3, d_digits d = [g0; g1; g2; g3] /\
    dd_ok (mkIomap PD big_digit false PC 8 true) (g_sseg g0) /\
    dd_ok (mkIomap PD big_digit false PC 16 true) (g_sseg g1) /\
    dd_ok (mkIomap PD big_digit false PC 32 true) (g_sseg g2) /\
    dd_ok (mkIomap PD small_digit false PB 128 true) (g_sseg g3) /\
    g_dpforce g0 = false /\ g_dpforce g1 = false /\ g_dpforce g3 = false.

(** The port registers: with the display off all of its pins are released, with the display on
    no digit or the digit [d_mux] is driven. *)
Definition io_ok (h : hw) (d : disp) : Prop :=
  if d_enabled d then
    h_ddrb h = 130 /\ h_ddrc h = 56 /\ h_ddrd h = 255 /\ is_u8 (h_portd h) /\
    ((h_portb h = 127 /\ h_portc h = 1) \/
     (d_mux d = 0 /\ h_portb h = 127 /\ h_portc h = 9) \/
     (d_mux d = 1 /\ h_portb h = 127 /\ h_portc h = 17) \/
     (d_mux d = 2 /\ h_portb h = 127 /\ h_portc h = 33) \/
     (d_mux d = 3 /\ h_portb h = 255 /\ h_portc h = 1))
  else
    h_ddrb h = 2 /\ h_ddrc h = 0 /\ h_ddrd h = 0 /\ h_portb h = 127 /\ h_portc h = 1 /\ h_portd h = 0.

Definition dbg_inv (C : conf) (db : bool) (n : menu) (d : disp) (h : hw) : Prop :=
  (db = true -> c_debug C = true /\ n_state n = MENU_DEBUG) /\ d_enabled d = negb db /\ h_tx h = db.

Record inv (B : bnds) (C : conf) (y : sys) : Prop := mkInv {
  i_now : is_u16 (y_now y);
  i_btn : is_u8 (b_prev (y_btn y));
  i_cc : cc_sys (y_cc y);
  i_ct : ct_inv C (y_ct y) (x_cache (y_set y));
  i_link : link (y_ct y) (y_cc y);
  i_meas : meas_inv C (y_meas y) (x_cache (y_set y));
  i_mc : mc_inv (y_mc y);
  i_mt : -1280 <= y_mt y <= 32000;
  i_menu : menu_inv C (y_menu y);
  i_en : t_enabled (y_ct y) = negb (adjusting (n_state (y_menu y)));
  i_set : set_inv C B (y_set y);
  i_disp : disp_inv (y_disp y);
  i_io : io_ok (y_hw y) (y_disp y);
  i_dbg : dbg_inv C (y_dbg y) (y_menu y) (y_disp y) (y_hw y)
}.

(** Bounds between the strict and the relaxed ones. *)
Definition bok (B : bnds) : Prop := le_b strict B /\ le_b B relaxed.
Lemma bok_strict : bok strict. Proof. split; [apply le_b_refl|exact strict_relaxed]. Qed.
Lemma bok_relaxed : bok relaxed. Proof. split; [exact strict_relaxed|apply le_b_refl]. Qed.

(** The request of a display update is not part of the invariant. *)
Lemma inv_upd B C y b : inv B C y -> inv B C (set_y_menu y (set_n_upd (y_menu y) b)).
Proof. intros [? ? ? ? ? ? ? ? ? ? ? ? ? ?]. constructor; sy; assumption. Qed.

(** ** Temperature controller *)
Lemma bm_valid B C y : inv B C y -> bm C (y_ct y) = 0 \/ (c_boost C = true /\ 0 <= bm C (y_ct y) <= 2).
Proof. intros I. destruct (i_ct _ _ _ I) as (_ & Hb & _). unfold bm. destruct (c_boost C); auto. Qed.

(** Explicit result of changing the boost mode. *)
Definition boosted (C : conf) (y : sys) (m : Z) (k : pid_k) : sys :=
  set_y_menu (set_y_ct y (let t := set_t_pid (y_ct y) (pid_set_factors (t_pid (y_ct y)) k) in
                          if c_boost C then set_t_boost t m else t))
             (set_n_upd (y_menu y) true).
Lemma set_boost_eq C y m k : zget (s_k (get_settings y)) m = Some k ->
  contrtemp_set_boost_mode C y m = Some (boosted C y m k).
Proof. intros E. unfold contrtemp_set_boost_mode. rewrite E. reflexivity. Qed.
Lemma set_boost_ok B C y m : inv B C y -> m = 0 \/ (c_boost C = true /\ 0 <= m <= 2) ->
  exists k, zget (s_k (get_settings y)) m = Some k /\ contrtemp_set_boost_mode C y m = Some (boosted C y m k) /\
    inv B C (boosted C y m k).
Proof.
  intros I Hm. destruct (i_set _ _ _ I) as (_ & R & _). destruct (rng_gain_get B C _ m R Hm) as (k & E & _).
  exists k. split; [exact E|]. split; [apply set_boost_eq; exact E|].
  destruct I as [? ? ? (G1&G2&G3&G4&G5&G6&G7) L ? ? ? ? ? ? ? ? ?]. unfold boosted. cbv zeta.
  constructor; sy; try assumption.
  - unfold ct_inv, bm in *. destruct (c_boost C) eqn:Eb; sy.
    + split; [exact E|]. split; [intros _; lia|]. split; [exact G3|]. split; [lia|]. split; [lia|]. split; [exact G6|exact G7].
    + destruct Hm as [->|(F & _)]; [|discriminate F]. split; [exact E|]. split; [discriminate|]. split; [exact G3|].
      split; [lia|]. split; [lia|]. split; [exact G6|exact G7].
  - unfold link in *. destruct (c_boost C); sy; exact L.
  - destruct (c_boost C); sy; assumption.
Qed.

(** Explicit result of recomputing the set-point. *)
Definition wanted (C : conf) (t : ct) (s : settings) (a : Z) : Z :=
  if (c_idle C && t_idle t) && (s_idle s <? a) then s_idle s else a.
Lemma is_idle_eq C y : contrtemp_is_idle C y = c_idle C && t_idle (y_ct y).
Proof. unfold contrtemp_is_idle. destruct (c_idle C); reflexivity. Qed.
Lemma update_setpoint_eq C y a : zget (s_preset (get_settings y)) (s_active (get_settings y)) = Some a ->
  contrtemp_update_setpoint C y =
    Some (set_y_ct y (set_t_pid (y_ct y) (pid_set_setpoint (t_pid (y_ct y)) (wanted C (y_ct y) (get_settings y) a)))).
Proof.
  intros E. unfold contrtemp_update_setpoint, presets_get_active_value. rewrite E. cbn [bind]. rewrite is_idle_eq. reflexivity.
Qed.

Lemma do_idle_ok B C y b : inv B C y -> exists y', contrtemp_do_idle C y b = Some y' /\ inv B C y' /\
  y_ct y' = set_t_pid (set_t_idle (y_ct y) b) (t_pid (y_ct y')) /\
  y_menu y' = set_n_upd (y_menu y) true /\
  y' = set_y_menu (set_y_ct y (y_ct y')) (y_menu y') /\ p_k (t_pid (y_ct y')) = p_k (t_pid (y_ct y)).
Proof.
  intros I. destruct (i_set _ _ _ I) as (_ & R & _). destruct (rng_preset_get B C _ R) as (a & E & Ha).
  unfold contrtemp_do_idle. erewrite update_setpoint_eq by exact E. cbn [bind]. eexists. split; [reflexivity|].
  unfold menu_request_display_update, get_settings. sy. split; [|repeat split].
  destruct I as [? ? ? (G1&G2&G3&G4&G5&G6&G7) L ? ? ? ? ? ? ? ? ?]. constructor; sy; try assumption.
  unfold ct_inv, bm in *. sy. repeat (split; [assumption|]). split; [|exact G7]. exists a. split; [exact E|]. reflexivity.
Qed.

(** Settings changed, set-point recomputed, store requested: the cores of presets_store,
    contrtemp_set_idle_setpoint. *)
Definition stored (y : sys) (s : settings) : sst :=
  set_x_timer (set_x_request (set_x_cache (y_set y) s) true) (u16 (y_now y + 1000)).
Definition resettled (C : conf) (y : sys) (s : settings) (a : Z) : sys :=
  set_y_set (set_y_ct y (set_t_pid (y_ct y) (pid_set_setpoint (t_pid (y_ct y)) (wanted C (y_ct y) s a))))
            (stored y s).
Lemma resettled_ok B C y s a : inv B C y -> bok B -> rng B C s -> s_serial s = s_serial (get_settings y) ->
  s_k s = s_k (get_settings y) -> s_adj s = s_adj (get_settings y) ->
  zget (s_preset s) (s_active s) = Some a -> inv B C (resettled C y s a).
Proof.
  intros I (B1 & B2) R Es Ek Ea E. unfold get_settings in *.
  destruct I as [? ? ? (G1&G2&G3&G4&G5&G6&G7) L M ? ? ? ? S ? ? ?]. unfold resettled, stored.
  constructor; sy; try assumption.
  - unfold ct_inv, bm in *. sy. rewrite Ek. repeat (split; [assumption|]). split; [|exact G7]. exists a. split; [exact E|]. reflexivity.
  - unfold meas_inv in *. rewrite Ea. exact M.
  - eapply (set_modify C B (y_now y) (y_set y) s); [exact S|exact R|eapply rng_le; eassumption|exact Es|]. apply store_eq.
Qed.

Lemma presets_store_eq C y s a : zget (s_preset s) (s_active s) = Some a ->
  presets_store C (put_settings y s) =
    Some (set_y_menu (resettled C y s a) (set_n_upd (y_menu y) true)).
Proof.
  intros E. unfold presets_store, sys_store, put_settings. sy. rewrite store_eq. cbn [bind].
  erewrite update_setpoint_eq by (unfold get_settings; sy; exact E). cbn [bind].
  unfold menu_request_display_update, resettled, stored, get_settings. sy. reflexivity.
Qed.

Lemma presets_next_ok B C y : inv B C y -> bok B ->
  exists y' a i, presets_next C y = Some y' /\ inv B C y' /\ i = (if s_active (get_settings y) =? 5 then 0 else s_active (get_settings y) + 1) /\
   y' = set_y_menu (resettled C y (set_s_active (get_settings y) i) a) (set_n_upd (y_menu y) true) /\ zget (s_preset (get_settings y)) i = Some a.
Proof.
  intros I HB. destruct (i_set _ _ _ I) as (_ & R & _). assert (R' := R). destruct R' as (_ & _ & _ & Hac & _).
  unfold presets_next. cbv zeta. unfold NR_PRESETS.
  rewrite ring_next_eq by (fold (get_settings y) in Hac; lia). change (6 - 1) with 5.
  set (i := if s_active (get_settings y) =? 5 then 0 else s_active (get_settings y) + 1).
  assert (Hi : 0 <= i <= 5) by (unfold i; fold (get_settings y) in Hac; destruct (_ =? _) eqn:F; lia).
  pose proof (rng_active _ _ _ i R Hi) as R2. destruct (rng_preset_get _ _ _ R2) as (a & E & _).
  erewrite presets_store_eq by exact E. eexists _, a, i. split; [reflexivity|]. split; [|split; [reflexivity|split; [reflexivity|exact E]]].
  change (y_menu y) with (y_menu (resettled C y (set_s_active (get_settings y) i) a)). apply inv_upd.
  apply (resettled_ok B C y _ a I HB R2); try reflexivity. exact E.
Qed.
Lemma presets_prev_ok B C y : inv B C y -> bok B ->
  exists y' a i, presets_prev C y = Some y' /\ inv B C y' /\ i = (if s_active (get_settings y) =? 0 then 5 else s_active (get_settings y) - 1) /\
   y' = set_y_menu (resettled C y (set_s_active (get_settings y) i) a) (set_n_upd (y_menu y) true) /\ zget (s_preset (get_settings y)) i = Some a.
Proof.
  intros I HB. destruct (i_set _ _ _ I) as (_ & R & _). assert (R' := R). destruct R' as (_ & _ & _ & Hac & _).
  unfold presets_prev. cbv zeta. unfold NR_PRESETS.
  rewrite ring_prev_eq by (fold (get_settings y) in Hac; lia). change (6 - 1) with 5.
  set (i := if s_active (get_settings y) =? 0 then 5 else s_active (get_settings y) - 1).
  assert (Hi : 0 <= i <= 5) by (unfold i; fold (get_settings y) in Hac; destruct (_ =? _) eqn:F; lia).
  pose proof (rng_active _ _ _ i R Hi) as R2. destruct (rng_preset_get _ _ _ R2) as (a & E & _).
  erewrite presets_store_eq by exact E. eexists _, a, i. split; [reflexivity|]. split; [|split; [reflexivity|split; [reflexivity|exact E]]].
  change (y_menu y) with (y_menu (resettled C y (set_s_active (get_settings y) i) a)). apply inv_upd.
  apply (resettled_ok B C y _ a I HB R2); try reflexivity. exact E.
Qed.
Lemma presets_set_ok B C y w : inv B C y -> bok B -> 0 <= w <= 30720 ->
  exists y' l, zupd (s_preset (get_settings y)) (s_active (get_settings y)) w = Some l /\
   presets_set_active_value C y w = Some y' /\ inv B C y' /\
   y' = set_y_menu (resettled C y (set_s_preset (get_settings y) l) w) (set_n_upd (y_menu y) true).
Proof.
  intros I HB Hw. destruct (i_set _ _ _ I) as (_ & R & _). assert (HB' := HB). destruct HB' as ((_&_&BT&_)&_). cbn in BT.
  destruct (rng_preset_set _ _ _ w R ltac:(lia)) as (l & E1 & R2 & E2).
  unfold presets_set_active_value. cbv zeta. fold (get_settings y) in *. rewrite E1. cbn [bind].
  erewrite presets_store_eq by exact E2. eexists _, l. split; [reflexivity|]. split; [reflexivity|]. split; [|reflexivity].
  change (y_menu y) with (y_menu (resettled C y (set_s_preset (get_settings y) l) w)). apply inv_upd.
  apply (resettled_ok B C y _ w I HB R2); try reflexivity. exact E2.
Qed.

Lemma set_idle_setpoint_ok B C y w : inv B C y -> bok B -> 0 <= w <= 30720 ->
  exists y' a, contrtemp_set_idle_setpoint C y w = Some y' /\ inv B C y' /\
    zget (s_preset (get_settings y)) (s_active (get_settings y)) = Some a /\
    y' = if c_idle C then resettled C y (set_s_idle (get_settings y) w) a else y.
Proof.
  intros I HB Hw. destruct (i_set _ _ _ I) as (_ & R & _). assert (HB' := HB). destruct HB' as ((_&_&BT&_)&_). cbn in BT.
  pose proof (rng_idle _ _ _ w R ltac:(lia)) as R2. destruct (rng_preset_get _ _ _ R2) as (a & E & _).
  unfold contrtemp_set_idle_setpoint. destruct (c_idle C) eqn:Ei; [|exists y, a; auto].
  unfold put_settings. erewrite update_setpoint_eq by (unfold get_settings; sy; exact E). unfold sys_store. sy.
  rewrite store_eq. cbn [bind]. eexists _, a. split; [reflexivity|]. unfold get_settings in *. sy.
  split; [|split; [exact E|]].
  - exact (resettled_ok B C y (set_s_idle (x_cache (y_set y)) w) a I HB R2 eq_refl eq_refl eq_refl E).
  - reflexivity.
Qed.

(** Gains changed. *)
Definition kresettled (y : sys) (s : settings) : sys := set_y_set y (stored y s).
Lemma do_ramp_k_ok B C y get put inc mx up : inv B C y -> bok B ->
  (forall k v, gain_rng B true k -> 0 <= v <= mx -> gain_rng B true (put k v)) ->
  (forall k, gain_rng B true k -> 0 <= get k <= 6399) -> 0 <= inc <= 64 -> 0 <= mx <= 6400 ->
  exists y' k l v, do_ramp_k C y get put inc mx up = Some y' /\ inv B C y' /\
    zget (s_k (get_settings y)) (bm C (y_ct y)) = Some k /\ 0 <= v <= mx /\
    v = Z.max 0 (Z.min mx (get k + if up then inc else - inc)) /\
    zupd (s_k (get_settings y)) (bm C (y_ct y)) (put k v) = Some l /\
    y' = boosted C (kresettled y (set_s_k (get_settings y) l)) (bm C (y_ct y)) (put k v).
Proof.
  intros I HB Hput Hget Hinc Hmx. pose proof (bm_valid B C y I) as Hm. destruct (i_set _ _ _ I) as (Sx & R & Sy).
  assert (HB' := HB). destruct HB' as (_ & BR).
  destruct (rng_gain_get B C _ _ R Hm) as (k & E & G). unfold do_ramp_k. cbv zeta.
  change (contrtemp_get_boost_mode C y) with (bm C (y_ct y)). fold (get_settings y) in *. rewrite E. cbn [bind].
  specialize (Hget k G).
  set (v := Z.max 0 (Z.min mx (get k + (if up then inc else - inc)))).
  assert (Ev : fixpt_add_limited (get k) (if up then inc else fixpt_neg inc) 0 mx = Some v).
  { replace (if up then inc else fixpt_neg inc) with (if up then inc else - inc).
    2:{ destruct up; [reflexivity|]. unfold fixpt_neg. rewrite FIXPT_MIN_val. replace (inc <=? _) with false by lia. rewrite s24_id by lia. reflexivity. }
    assert (Hd : -64 <= (if up then inc else - inc) <= 64) by (clear - Hinc; destruct up; lia).
    set (d := if up then inc else - inc) in *. clearbody d.
    destruct (add_sub_spec (get k) d) as (_ & _ & A); [unfold is_s24; lia|unfold is_s24; lia|].
    rewrite A by lia. rewrite sat24_id by lia. reflexivity. }
  rewrite Ev. cbn [bind]. assert (Hv : 0 <= v <= mx) by (unfold v; lia).
  pose proof (Hput k v G Hv) as G'. destruct (rng_gain_set B C _ _ (put k v) R Hm G') as (l & E1 & R2 & E2).
  rewrite E1. cbn [bind]. unfold sys_store, put_settings. sy. rewrite store_eq. cbn [bind].
  unfold contrtemp_update_pid_config. change (contrtemp_get_boost_mode C ?z) with (bm C (y_ct z)). sy.
  erewrite set_boost_eq by (unfold get_settings; sy; exact E2). eexists _, k, l, v. split; [reflexivity|].
  split; [|split; [reflexivity|split; [exact Hv|split; [reflexivity|split; [exact E1|reflexivity]]]]].
  unfold boosted. cbv zeta. clear Ev. clearbody v.
  destruct I as [? ? ? (G1&G2&G3&G4&G5&G6&G7) L M ? ? ? ? S ? ? ?]. constructor; sy; try assumption.
  - unfold ct_inv, bm in *. destruct (c_boost C) eqn:Eb; sy.
    + split; [exact E2|]. split; [exact G2|]. split; [exact G3|]. split; [lia|]. split; [lia|]. split; [exact G6|exact G7].
    + split; [exact E2|]. split; [discriminate|]. split; [exact G3|]. split; [lia|]. split; [lia|]. split; [exact G6|exact G7].
  - unfold link in *. destruct (c_boost C); sy; exact L.
  - destruct (c_boost C); sy; assumption.
  - eapply (set_modify C B (y_now y) (y_set y) _); [exact S|exact R2|eapply rng_le; eassumption|reflexivity|]. apply store_eq.
Qed.
