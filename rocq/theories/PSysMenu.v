(** * Invariant of the running firmware, part 3: buttons, menu, ramps *)
From Coq Require Import ZArith List Bool Lia ZifyBool.
From Verif Require Import Base PBase MConf MUtil MFixpt MScale MRing MFilter MTimer MPid MPwm MTempMap MCurr MSens
  SpecNum SpecPid SpecSmall PNum PSmall PScale PPid SpecCurr PCurr MSettings SpecSettings PSettings PSysSet
  MSseg MDisplay MText MState MTemp MMeas MMenu MMain SpecDisplay PDisplay SpecSys PSys PSysMeas.
Import ListNotations.
Open Scope Z_scope.
Ltac Zify.zify_post_hook ::= Z.div_mod_to_equations.

(** What buttons and menu leave alone. *)
Definition chflags (c : chan) := (ch_timeout c, ch_running c, ch_timer c).
Definition meas_side (m m' : meas) : Prop :=
  exists l, m' = set_m_chans m l /\ map chflags l = map chflags (m_chans m).
Lemma chans_id m : set_m_chans m (m_chans m) = m.
Proof. destruct m; reflexivity. Qed.
Lemma meas_side_refl m : meas_side m m.
Proof. exists (m_chans m). split; [symmetry; apply chans_id|reflexivity]. Qed.
Lemma meas_side_trans a b c : meas_side a b -> meas_side b c -> meas_side a c.
Proof. intros (l & A1 & A2) (m & B1 & B2). exists m. split; [rewrite B1, A1; reflexivity|]. rewrite B2, A1. exact A2. Qed.
Definition side_frame (y y' : sys) : Prop :=
  y_now y' = y_now y /\ y_mc y' = y_mc y /\ y_mt y' = y_mt y /\
  meas_side (y_meas y) (y_meas y') /\
  t_emerg (y_ct y') = t_emerg (y_ct y) /\ t_feedback (y_ct y') = t_feedback (y_ct y) /\
  (y_cc y' = y_cc y /\ t_dt (y_ct y') = t_dt (y_ct y) /\ t_enabled (y_ct y') = t_enabled (y_ct y) \/
   y_cc y' = contrcurr_set_setpoint (y_cc y) 0 /\ t_dt (y_ct y') = y_now y).
Lemma side_refl y : side_frame y y.
Proof. unfold side_frame. repeat (split; [reflexivity|]). split; [apply meas_side_refl|]. repeat split. left; repeat split; reflexivity. Qed.
Lemma setpoint_twice c : contrcurr_set_setpoint (contrcurr_set_setpoint c 0) 0 = contrcurr_set_setpoint c 0.
Proof. reflexivity. Qed.
Lemma side_trans a b c : side_frame a b -> side_frame b c -> side_frame a c.
Proof.
  intros (A1&A2&A3&A4&A5&A6&A7) (B1&B2&B3&B4&B5&B6&B7). unfold side_frame.
  repeat (split; [congruence|]). split; [exact (meas_side_trans _ _ _ A4 B4)|]. split; [congruence|]. split; [congruence|].
  destruct A7 as [(A7&A8&A9)|(A7&A8)]; rewrite A7 in B7.
  - destruct B7 as [(B7&B8&B9)|(B7&B8)]; [left; repeat split; congruence|right; split; congruence].
  - right. destruct B7 as [(B7&B8&B9)|(B7&B8)]; (split; [exact B7|congruence]).
Qed.
Lemma side_hot y y' : side_frame y y' -> hot y' = hot y.
Proof. intros (_&_&_&_&_&_&[(E&_)|(E&_)]); unfold hot; rewrite E; reflexivity. Qed.
Lemma side_handover y y' : side_frame y y' -> handover (y_meas y) -> handover (y_meas y').
Proof. intros (_&_&_&(l&E&_)&_) H. rewrite E. exact H. Qed.

(** What the user can see, and that a step asks for a new picture if it changes this. *)
Definition vis (y : sys) :=
  (n_state (y_menu y), n_err (y_menu y), n_heating (y_menu y), t_idle (y_ct y), t_boost (y_ct y), t_feedback (y_ct y),
   x_cache (y_set y), d_digits (y_disp y)).
Definition vstep (y y' : sys) : Prop :=
  n_upd (y_menu y') = true \/ (n_upd (y_menu y') = n_upd (y_menu y) /\ vis y' = vis y).
Lemma vstep_refl y : vstep y y. Proof. right; split; reflexivity. Qed.
Lemma vstep_trans a b c : vstep a b -> vstep b c -> vstep a c.
Proof. unfold vstep. intros [A|(A & A')] [B|(B & B')]; [left|left|left|right; split]; congruence. Qed.
Lemma vstep_upd y y' : n_upd (y_menu y') = true -> vstep y y'.
Proof. intros; left; assumption. Qed.

(** ** Button handlers of the temperature controller *)
Definition ctrl_frame (y y' : sys) : Prop :=
  y' = set_y_menu (set_y_ct y (y_ct y')) (y_menu y') /\ (exists b, y_menu y' = set_n_upd (y_menu y) b) /\
  t_enabled (y_ct y') = t_enabled (y_ct y) /\ t_emerg (y_ct y') = t_emerg (y_ct y) /\
  t_feedback (y_ct y') = t_feedback (y_ct y) /\ t_dt (y_ct y') = t_dt (y_ct y) /\ vstep y y'.
Lemma sys_id y : set_y_menu (set_y_ct y (y_ct y)) (y_menu y) = y.
Proof. destruct y; reflexivity. Qed.
Lemma ctrl_refl y : ctrl_frame y y.
Proof.
  unfold ctrl_frame. split; [symmetry; apply sys_id|]. split; [exists (n_upd (y_menu y)); symmetry; apply upd_id|].
  repeat (split; [reflexivity|]). apply vstep_refl.
Qed.
Lemma ctrl_trans a b c : ctrl_frame a b -> ctrl_frame b c -> ctrl_frame a c.
Proof.
  intros (A1&(x&A2)&A3&A4&A5&A6&A7) (B1&(z&B2)&B3&B4&B5&B6&B7). unfold ctrl_frame.
  split; [rewrite B1 at 1; rewrite A1; reflexivity|]. split; [exists z; rewrite B2, A2; reflexivity|].
  repeat (split; [congruence|]). eapply vstep_trans; eassumption.
Qed.
Lemma ctrl_side y y' : ctrl_frame y y' -> side_frame y y'.
Proof.
  intros (A1&_&A3&A4&A5&A6&_). unfold side_frame.
  assert (N : y_now y' = y_now y /\ y_mc y' = y_mc y /\ y_mt y' = y_mt y /\ y_meas y' = y_meas y /\ y_cc y' = y_cc y)
    by (rewrite A1; repeat split; reflexivity).
  destruct N as (N1&N2&N3&N4&N5). repeat (split; [assumption|]).
  split; [rewrite N4; apply meas_side_refl|]. repeat (split; [assumption|]). left. repeat split; assumption.
Qed.

Lemma boost_step_ok B C y : inv B C y -> c_boost C = true ->
  exists y', contrtemp_do_next_boost_mode C y = Some y' /\ inv B C y' /\ ctrl_frame y y' /\
    t_boost (y_ct y') = (if t_boost (y_ct y) =? 2 then 0 else t_boost (y_ct y) + 1) /\ t_idle (y_ct y') = t_idle (y_ct y) /\
    t_bitimer (y_ct y') = t_bitimer (y_ct y) /\ t_bilet (y_ct y') = t_bilet (y_ct y).
Proof.
  intros I Hb. destruct (i_ct _ _ _ I) as (_ & Bm & _). specialize (Bm Hb). unfold contrtemp_do_next_boost_mode, NR_BOOST_MODES. rewrite Hb.
  rewrite u8_id by lia. change (3 - 1) with 2. rewrite ring_next_eq by lia.
  set (m := if t_boost (y_ct y) =? 2 then 0 else t_boost (y_ct y) + 1).
  assert (Hm : 0 <= m <= 2) by (unfold m; destruct (_ =? _) eqn:F; lia).
  destruct (set_boost_ok B C y m I (or_intror (conj Hb Hm))) as (k & Ek & E & I'). exists (boosted C y m k). split; [exact E|]. split; [exact I'|].
  unfold boosted, ctrl_frame. rewrite Hb. sy. split; [|repeat split]. repeat (split; [reflexivity|]). split; [eexists; reflexivity|].
  repeat (split; [reflexivity|]). apply vstep_upd. reflexivity.
Qed.

Lemma idle_step_ok B C y b : inv B C y ->
  exists y', contrtemp_do_idle C y b = Some y' /\ inv B C y' /\ ctrl_frame y y' /\ t_idle (y_ct y') = b /\
    t_boost (y_ct y') = t_boost (y_ct y) /\ t_bitimer (y_ct y') = t_bitimer (y_ct y) /\ t_bilet (y_ct y') = t_bilet (y_ct y).
Proof.
  intros I. destruct (do_idle_ok B C y b I) as (y' & E & I' & A1 & A2 & A3 & A4). exists y'. split; [exact E|]. split; [exact I'|].
  rewrite A1. sy. split; [|repeat split]. unfold ctrl_frame. rewrite A1. sy. split; [rewrite <- A1; exact A3|].
  split; [eexists; exact A2|]. repeat (split; [reflexivity|]). apply vstep_upd. rewrite A2. reflexivity.
Qed.

(** Setting the timer and the flag of the iron button. *)
Lemma inv_bi B C y t b : inv B C y -> inv B C (set_y_ct y (set_t_bilet (set_t_bitimer (y_ct y) t) b)).
Proof. intros I. destruct I. constructor; sy; assumption. Qed.
Lemma bilet_ok B C y b : inv B C y -> inv B C (set_y_ct y (set_t_bilet (y_ct y) b)).
Proof. intros I. destruct I. constructor; sy; assumption. Qed.
Lemma bi_frame y t b : ctrl_frame y (set_y_ct y (set_t_bilet (set_t_bitimer (y_ct y) t) b)).
Proof.
  unfold ctrl_frame. sy. split; [reflexivity|]. split; [exists (n_upd (y_menu y)); symmetry; apply upd_id|].
  repeat (split; [reflexivity|]). right. split; reflexivity.
Qed.
Lemma bilet_frame y b : ctrl_frame y (set_y_ct y (set_t_bilet (y_ct y) b)).
Proof.
  unfold ctrl_frame. sy. split; [reflexivity|]. split; [exists (n_upd (y_menu y)); symmetry; apply upd_id|].
  repeat (split; [reflexivity|]). right. split; reflexivity.
Qed.

Lemma ctrl_button_ok B C y b bs : inv B C y ->
  exists y', contrtemp_button_handler C y b bs = Some y' /\ inv B C y' /\ ctrl_frame y y' /\ (is_iron b = false -> y' = y).
Proof.
  intros I. unfold contrtemp_button_handler.
  assert (Triv : exists y', Some y = Some y' /\ inv B C y' /\ ctrl_frame y y' /\ (is_iron b = false -> y' = y)).
  { exists y. split; [reflexivity|]. split; [exact I|]. split; [apply ctrl_refl|auto]. }
  destruct (c_boost C) eqn:Hb; cbn [andb]; [destruct (c_idle C) eqn:Hi|destruct (c_idle C) eqn:Hi; [|exact Triv]].
  - unfold button_boost_idle. destruct (is_iron b) eqn:Ei; cbn [negb]; [|exact Triv]. clear Triv.
    assert (exists y1, (if is_pos bs then tm <- timer_arm (y_now y) CONTRTEMP_BUTTON_BOOST_DELAY ;;
              Some (set_y_ct y (set_t_bilet (set_t_bitimer (y_ct y) tm) true)) else Some y) = Some y1 /\ inv B C y1 /\ ctrl_frame y y1) as (y1 & E1 & I1 & F1).
    { destruct (is_pos bs); [|exists y; split; [reflexivity|split; [exact I|apply ctrl_refl]]].
      unfold CONTRTEMP_BUTTON_BOOST_DELAY. rewrite arm_ok by lia. cbn [bind]. eexists. split; [reflexivity|]. split; [apply inv_bi; exact I|apply bi_frame]. }
    rewrite E1. cbn [bind]. destruct (t_bilet (y_ct y1)); [|exists y1; split; [reflexivity|split; [exact I1|split; [exact F1|discriminate]]]].
    destruct (t_idle (y_ct y) || _).
    + destruct (idle_step_ok B C y1 (negb (t_idle (y_ct y))) I1) as (y2 & E2 & I2 & F2 & _). rewrite E2. cbn [bind].
      eexists. split; [reflexivity|]. split; [apply bilet_ok; exact I2|]. split; [|discriminate].
      eapply ctrl_trans; [exact F1|]. eapply ctrl_trans; [exact F2|apply bilet_frame].
    + destruct (is_neg bs); [|exists y1; split; [reflexivity|split; [exact I1|split; [exact F1|discriminate]]]].
      destruct (boost_step_ok B C y1 I1 Hb) as (y2 & E2 & I2 & F2 & _). rewrite E2. cbn [bind].
      eexists. split; [reflexivity|]. split; [apply bilet_ok; exact I2|]. split; [|discriminate].
      eapply ctrl_trans; [exact F1|]. eapply ctrl_trans; [exact F2|apply bilet_frame].
  - unfold button_boost. destruct (is_iron b) eqn:Ei; cbn [negb]; [|exact Triv]. destruct (is_pos bs); [|exact Triv].
    destruct (boost_step_ok B C y I Hb) as (y2 & E2 & I2 & F2 & _). exists y2. split; [exact E2|]. split; [exact I2|]. split; [exact F2|discriminate].
  - unfold button_idle. destruct (is_iron b) eqn:Ei; cbn [negb]; [|exact Triv]. cbv zeta.
    match goal with |- context [negb (Bool.eqb ?i ?j)] => destruct (negb (Bool.eqb i j)); [set (w := i)|exact Triv] end.
    destruct (idle_step_ok B C y w I) as (y2 & E2 & I2 & F2 & _). exists y2. split; [exact E2|]. split; [exact I2|]. split; [exact F2|discriminate].
Qed.

(** ** Menu states *)
Lemma mstate_eqb_ok a b : mstate_eqb a b = true <-> a = b.
Proof. unfold mstate_eqb. split; [destruct a, b; cbn; intros H; try discriminate; reflexivity|intros ->; apply Z.eqb_refl]. Qed.

(** The timeout that is armed on entry, and what happens to the temperature controller. *)
Definition tmo (s : mstate) : option Z :=
  match s with
  | MENU_SELPRESET | MENU_CHGPRESET | MENU_IDLETEMP => Some 3000
  | MENU_ADJ_PRE | MENU_KP_PRE | MENU_KI_PRE | MENU_KD_PRE => Some 1500
  | _ => None
  end.
Definition enab (s : mstate) : option bool :=
  match s with MENU_CURTEMP => Some true | _ => if adjusting s then Some false else None end.
Definition en_switch (C : conf) (y : sys) (b : bool) (k : pid_k) : sys :=
  if Bool.eqb (t_enabled (y_ct y)) b then y
  else
    let t := set_t_enabled (y_ct y) b in
    let t := set_t_dt (set_t_pid t (pid_set_factors (pid_reset (t_pid t)) k)) (y_now y) in
    set_y_cc (set_y_ct (set_y_menu y (set_n_upd (y_menu y) true)) (if c_boost C then set_t_boost t 0 else t))
             (contrcurr_set_setpoint (y_cc y) 0).
Definition entered (C : conf) (y : sys) (s : mstate) (k : pid_k) : sys :=
  let n := set_n_state (y_menu y) s in
  let n := match tmo s with Some d => set_n_timeout n (u16 (y_now y + d)) | None => n end in
  let y := set_y_menu y n in
  let y := match enab s with Some b => en_switch C y b k | None => y end in
  set_y_menu y (set_n_upd (y_menu y) true).

Lemma set_enabled_eq C y b k : zget (s_k (get_settings y)) 0 = Some k ->
  contrtemp_set_enabled C y b = Some (en_switch C y b k).
Proof.
  intros E. unfold contrtemp_set_enabled, en_switch. destruct (Bool.eqb (t_enabled (y_ct y)) b); cbn [negb]; [reflexivity|].
  unfold do_set_enabled. erewrite set_boost_eq by (unfold get_settings in *; sy; exact E). cbn [bind]. f_equal.
Qed.
Lemma menu_set_state_eq C y s k : allowed C s = true -> zget (s_k (get_settings y)) 0 = Some k ->
  menu_set_state C y s = Some (if mstate_eqb (n_state (y_menu y)) s then y else entered C y s k).
Proof.
  intros A E. unfold menu_set_state. destruct (mstate_eqb _ _); [reflexivity|].
  assert (T : forall d, 0 <= d <= 32767 -> forall y, arm_menu_timeout y d = Some (set_y_menu y (set_n_timeout (y_menu y) (u16 (y_now y + d))))).
  { intros d Hd z. unfold arm_menu_timeout. rewrite arm_ok by assumption. reflexivity. }
  unfold MENU_SELPRESET_TIMEOUT, MENU_CHGPRESET_TIMEOUT, MENU_IDLETEMP_TIMEOUT, MENU_ADJ_PRE_TIMEOUT, MENU_KCONF_PRE_TIMEOUT.
  unfold entered, menu_request_display_update, get_settings in *.
  destruct s; cbn [allowed] in A; rewrite ?A; cbn [negb tmo enab adjusting]; rewrite ?T by lia; cbn [bind];
    try erewrite set_enabled_eq by (unfold get_settings; sy; exact E); reflexivity.
Qed.

Lemma en_switch_inv B C y b k : inv B C y -> zget (s_k (get_settings y)) 0 = Some k ->
  inv B C y -> forall n, menu_inv C n -> b = negb (adjusting (n_state n)) -> dbg_inv C (y_dbg y) n (y_disp y) (y_hw y) ->
  forall z, z = set_y_menu y n -> inv B C (en_switch C z b k).
Proof.
  intros I E _ n Hn Hb Hd z ->. destruct I as [? ? Cc (G1&G2&G3&G4&G5&G6&G7) L ? ? ? ? Ien ? ? ? ?]. unfold en_switch.
  destruct (Bool.eqb _ b) eqn:Eb; sy; sy in Eb.
  - apply eqb_prop in Eb. constructor; sy; try assumption; [unfold ct_inv; repeat (split; [assumption|]); assumption|congruence].
  - constructor; sy; try assumption.
    + apply cc_set_setpoint_sys; [assumption|lia].
    + unfold ct_inv, bm, get_settings in *. destruct (c_boost C) eqn:Hc; sy.
      * split; [exact E|]. split; [lia|]. split; [exact G3|]. split; [lia|]. split; [lia|]. split; [exact G6|exact G7].
      * split; [exact E|]. split; [discriminate|]. split; [exact G3|]. split; [lia|]. split; [lia|]. split; [exact G6|exact G7].
    + unfold link. intros _. reflexivity.
    + destruct (c_boost C); sy; exact Hb.
Qed.

(** Entering a menu keeps the invariant. *)
Definition can_enter (C : conf) (y : sys) (s : mstate) : Prop :=
  allowed C s = true /\ (y_dbg y = true -> s = MENU_DEBUG) /\
  (enab s = None -> adjusting (n_state (y_menu y)) = false).
Lemma enter_ok B C y s : inv B C y -> can_enter C y s ->
  exists y' k, menu_set_state C y s = Some y' /\ inv B C y' /\ zget (s_k (get_settings y)) 0 = Some k /\
    y' = (if mstate_eqb (n_state (y_menu y)) s then y else entered C y s k) /\
    n_state (y_menu y') = s /\ side_frame y y' /\ vstep y y' /\
    y_set y' = y_set y /\ y_disp y' = y_disp y /\ y_hw y' = y_hw y /\ y_dbg y' = y_dbg y /\ y_btn y' = y_btn y /\
    (exists t u, y_menu y' = set_n_upd (set_n_timeout (set_n_state (y_menu y) s) t) u) /\ t_idle (y_ct y') = t_idle (y_ct y) /\
    y_meas y' = y_meas y.
Proof.
  intros I (A & Dd & En). destruct (i_set _ _ _ I) as (_ & R & _).
  destruct (rng_gain_get B C _ 0 R (or_introl eq_refl)) as (k & E & _). fold (get_settings y) in E.
  eexists _, k. split; [apply (menu_set_state_eq C y s k A E)|]. destruct (mstate_eqb _ _) eqn:Eq.
  - apply mstate_eqb_ok in Eq. split; [exact I|]. split; [exact E|]. split; [reflexivity|]. split; [exact Eq|]. split; [apply side_refl|]. split; [apply vstep_refl|].
    repeat (split; [reflexivity|]). split; [|split; reflexivity]. exists (n_timeout (y_menu y)), (n_upd (y_menu y)). rewrite <- Eq. destruct (y_menu y); reflexivity.
  - destruct (i_menu _ _ _ I) as (N1 & N2 & N3).
    set (n := match tmo s with Some d => set_n_timeout (set_n_state (y_menu y) s) (u16 (y_now y + d)) | None => set_n_state (y_menu y) s end).
    assert (Hn : menu_inv C n /\ n_state n = s /\ exists t, n = set_n_timeout (set_n_state (y_menu y) s) t).
    { unfold n, menu_inv. destruct (tmo s); sy; (split; [split; [exact A|split; assumption]|]); (split; [reflexivity|]);
        [eexists; reflexivity|exists (n_timeout (y_menu y)); destruct (y_menu y); reflexivity]. }
    destruct Hn as (Hn1 & Hn2 & (t & Hn3)).
    assert (Hd : dbg_inv C (y_dbg y) n (y_disp y) (y_hw y)).
    { destruct (i_dbg _ _ _ I) as (D1 & D2). split; [|exact D2]. intros X. rewrite Hn2. split; [apply (D1 X)|apply Dd; exact X]. }
    assert (K : exists y2, y2 = match enab s with Some b => en_switch C (set_y_menu y n) b k | None => set_y_menu y n end /\ inv B C y2 /\
      side_frame y y2 /\ y_set y2 = y_set y /\ y_disp y2 = y_disp y /\ y_hw y2 = y_hw y /\ y_dbg y2 = y_dbg y /\ y_btn y2 = y_btn y /\
      (exists u, y_menu y2 = set_n_upd n u) /\ t_idle (y_ct y2) = t_idle (y_ct y) /\ y_meas y2 = y_meas y).
    { eexists. split; [reflexivity|]. destruct (enab s) as [b|] eqn:Eb.
      - split.
        + apply (en_switch_inv B C y b k I E I n Hn1); [|exact Hd|reflexivity]. rewrite Hn2. destruct s; cbn in Eb |- *; congruence.
        + unfold en_switch, side_frame. sy. destruct (Bool.eqb _ b); sy.
          * split; [|repeat (split; [reflexivity|]); split; [exists (n_upd n); symmetry; apply upd_id|split; reflexivity]]. repeat (split; [reflexivity|]). split; [apply meas_side_refl|].
            repeat (split; [reflexivity|]). left; repeat split; reflexivity.
          * split; [|repeat (split; [reflexivity|]); split; [eexists; reflexivity|destruct (c_boost C); split; reflexivity]]. repeat (split; [reflexivity|]). split; [apply meas_side_refl|].
            split; [destruct (c_boost C); reflexivity|]. split; [destruct (c_boost C); reflexivity|]. right; split; [reflexivity|destruct (c_boost C); reflexivity].
      - split.
        + destruct I as [? ? ? ? ? ? ? ? ? Ien ? ? ? ?]. constructor; sy; try assumption. rewrite Ien, Hn2, (En eq_refl).
          destruct s; cbn in Eb; try discriminate; reflexivity.
        + sy. split; [|repeat (split; [reflexivity|]); split; [exists (n_upd n); symmetry; apply upd_id|split; reflexivity]].
          unfold side_frame. sy. repeat (split; [reflexivity|]). split; [apply meas_side_refl|].
          repeat (split; [reflexivity|]). left; repeat split; reflexivity. }
    destruct K as (y2 & E2 & I2 & F2 & K1 & K2 & K3 & K4 & K5 & (u & K6) & K7 & K8).
    assert (Ee : entered C y s k = set_y_menu y2 (set_n_upd (y_menu y2) true)).
    { rewrite E2. reflexivity. }
    rewrite Ee. split; [apply inv_upd; exact I2|]. split; [exact E|]. split; [reflexivity|]. rewrite K6. sy. split; [exact Hn2|].
    split. { eapply side_trans; [exact F2|]. unfold side_frame. sy. repeat (split; [reflexivity|]).
             split; [apply meas_side_refl|]. repeat (split; [reflexivity|]). left; repeat split; reflexivity. }
    split; [apply vstep_upd; reflexivity|]. repeat (split; [assumption|]). split; [|split; assumption]. exists t, true. rewrite Hn3. reflexivity.
Qed.

(** ** Ramp handlers *)
Definition ramp_frame (y y' : sys) : Prop :=
  side_frame y y' /\ y_btn y' = y_btn y /\ y_disp y' = y_disp y /\ y_hw y' = y_hw y /\ y_dbg y' = y_dbg y /\
  (exists s t u, y_menu y' = set_n_upd (set_n_timeout (set_n_state (y_menu y) s) t) u).

Lemma do_ramp_temp_eq t up lo hi : -100000 <= t <= 100000 -> lo <= hi ->
  do_ramp_temp t up lo hi = Some (Z.max lo (Z.min hi (t + if up then 64 else -64))).
Proof.
  intros H Hb. unfold do_ramp_temp. change (celsius 1) with 64. change (celsius (-1)) with (-64).
  destruct (add_sub_spec t (if up then 64 else -64)) as (_ & _ & A); [unfold is_s24; lia|unfold is_s24; destruct up; lia|].
  rewrite A by assumption. rewrite sat24_id by (destruct up; lia). reflexivity.
Qed.

Lemma settemp_ok B C y up : inv B C y -> bok B -> y_dbg y = false -> adjusting (n_state (y_menu y)) = false ->
  exists y' a v l, settemp_ramp_handler C y up = Some y' /\ inv B C y' /\ ramp_frame y y' /\ n_state (y_menu y') = MENU_CHGPRESET /\
    zget (s_preset (get_settings y)) (s_active (get_settings y)) = Some a /\
    v = Z.max 0 (Z.min 30720 (a + if up then 64 else -64)) /\
    zupd (s_preset (get_settings y)) (s_active (get_settings y)) v = Some l /\
    get_settings y' = set_s_preset (get_settings y) l.
Proof.
  intros I HB Hd Ha. destruct (i_set _ _ _ I) as (_ & R & _). destruct HB as (HB1 & HB2). pose proof (rng_le _ _ C _ HB2 R) as R'.
  destruct (rng_preset_get relaxed C _ R') as (a & E & Ba). cbn in Ba. unfold settemp_ramp_handler, presets_get_active_value. fold (get_settings y) in E.
  rewrite E. cbn [bind]. change CONTRTEMP_NEGLIM with 0. change CONTRTEMP_POSLIM with 30720. rewrite do_ramp_temp_eq by lia. cbn [bind].
  set (v := Z.max 0 _). assert (Hv : 0 <= v <= 30720) by (unfold v; lia).
  destruct (presets_set_ok B C y v I (conj HB1 HB2) Hv) as (y1 & l & El & E1 & I1 & F1). rewrite E1. cbn [bind].
  destruct (enter_ok B C y1 MENU_CHGPRESET I1) as (y' & k & E2 & I2 & _ & _ & S2 & F2 & V2 & X1 & X2 & X3 & X4 & X5 & (t & u & X6) & _).
  { split; [reflexivity|]. rewrite F1. unfold resettled. sy. split; [congruence|]. intros _. exact Ha. }
  exists y', a, v, l. split; [exact E2|]. split; [exact I2|].
  split. { split; [|rewrite F1 in *; unfold resettled in *; sy in X2; sy in X3; sy in X4; sy in X5; sy in X6; repeat (split; [assumption|]); exists MENU_CHGPRESET, t, u; rewrite X6; reflexivity].
    eapply side_trans; [|exact F2]. rewrite F1. unfold side_frame, resettled. sy. repeat (split; [reflexivity|]).
    split; [apply meas_side_refl|]. repeat (split; [reflexivity|]). left; repeat split; reflexivity. }
  split; [exact S2|]. split; [reflexivity|]. split; [reflexivity|]. split; [exact El|]. unfold get_settings. rewrite X1, F1. reflexivity.
Qed.

Lemma side_plain y ct mn x : t_emerg ct = t_emerg (y_ct y) -> t_feedback ct = t_feedback (y_ct y) ->
  t_dt ct = t_dt (y_ct y) -> t_enabled ct = t_enabled (y_ct y) ->
  side_frame y (set_y_set (set_y_menu (set_y_ct y ct) mn) x).
Proof.
  intros. unfold side_frame. sy. repeat (split; [reflexivity|]). split; [apply meas_side_refl|].
  split; [assumption|]. split; [assumption|]. left; repeat split; assumption.
Qed.
Lemma menu_triv n : exists s t u, n = set_n_upd (set_n_timeout (set_n_state n s) t) u.
Proof. exists (n_state n), (n_timeout n), (n_upd n). destruct n; reflexivity. Qed.

Lemma idletemp_ok B C y up : inv B C y -> bok B -> c_idle C = true ->
  exists y' v, idletemp_ramp_handler C y up = Some y' /\ inv B C y' /\ ramp_frame y y' /\ y_menu y' = y_menu y /\
    v = Z.max 0 (Z.min 30720 (s_idle (get_settings y) + if up then 64 else -64)) /\
    get_settings y' = set_s_idle (get_settings y) v.
Proof.
  intros I HB Hi. destruct (i_set _ _ _ I) as (_ & R & _). assert (HB' := HB). destruct HB' as (HB1 & HB2). pose proof (rng_le _ _ C _ HB2 R) as R'.
  destruct R' as (_ & Bi & _). cbn in Bi. fold (get_settings y) in Bi. unfold idletemp_ramp_handler. change CONTRTEMP_NEGLIM with 0. change CONTRTEMP_POSLIM with 30720.
  rewrite do_ramp_temp_eq by lia. cbn [bind]. set (v := Z.max 0 _). assert (Hv : 0 <= v <= 30720) by (unfold v; lia).
  destruct (set_idle_setpoint_ok B C y v I HB Hv) as (y' & a & E & I' & Ea & F). rewrite Hi in F. exists y', v. split; [exact E|]. split; [exact I'|].
  assert (F' : y' = set_y_set (set_y_menu (set_y_ct y (y_ct y')) (y_menu y)) (y_set y')) by (rewrite F; reflexivity).
  split. { rewrite F'. split; [apply side_plain; rewrite F; reflexivity|]. sy. repeat (split; [reflexivity|]). apply menu_triv. }
  split; [rewrite F; reflexivity|]. split; [reflexivity|]. rewrite F. reflexivity.
Qed.

Lemma kramp_ok B C y h : inv B C y -> bok B -> forall up, (h = HKp \/ h = HKi \/ h = HKd) ->
  exists y' k k' l, call_ramp_handler C y (Some h) up = Some y' /\ inv B C y' /\ ramp_frame y y' /\ n_state (y_menu y') = n_state (y_menu y) /\
    zget (s_k (get_settings y)) (bm C (y_ct y)) = Some k /\ zupd (s_k (get_settings y)) (bm C (y_ct y)) k' = Some l /\
    get_settings y' = set_s_k (get_settings y) l /\
    k' = match h with
         | HKp => mkK (Z.max 0 (Z.min 6336 (kp k + if up then 2 else -2))) (ki k) (kd k) (d_decay_div k)
         | HKi => mkK (kp k) (Z.max 0 (Z.min 576 (ki k + if up then 1 else -1))) (kd k) (d_decay_div k)
         | _ => mkK (kp k) (ki k) (Z.max 0 (Z.min 6336 (kd k + if up then 2 else -2))) (d_decay_div k)
         end.
Proof.
  intros I HB up Hh. assert (HB' := HB). destruct HB' as ((L1 & L2 & _) & (R1 & R2 & _)). cbn in L1, L2, R1, R2.
  assert (Fin : forall y' (k : pid_k) l (v : Z) k', y' = boosted C (kresettled y (set_s_k (get_settings y) l)) (bm C (y_ct y)) k' ->
    ramp_frame y y' /\ n_state (y_menu y') = n_state (y_menu y) /\ get_settings y' = set_s_k (get_settings y) l).
  { intros y' k l v k' E.
    assert (F' : y' = set_y_set (set_y_menu (set_y_ct y (y_ct y')) (y_menu y')) (y_set y')) by (rewrite E; reflexivity).
    split; [|split; rewrite E; reflexivity]. rewrite F'. split; [apply side_plain; rewrite E; unfold boosted, kresettled; destruct (c_boost C); reflexivity|].
    sy. repeat (split; [reflexivity|]). rewrite E. unfold boosted, kresettled. sy. exists (n_state (y_menu y)), (n_timeout (y_menu y)), true. destruct (y_menu y); reflexivity. }
  cbn [call_ramp_handler bind]. destruct Hh as [->|[->| ->]].
  - unfold kconf_kp_ramp_handler. change (fxc 3125 100000) with 2. change (fxc 99 1) with 6336.
    destruct (do_ramp_k_ok B C y kp (fun k v => mkK v (ki k) (kd k) (d_decay_div k)) 2 6336 up I HB) as (y' & k & l & v & E & I' & Ek & Bv & Ev & El & Ey);
      [unfold gain_rng; cbn; intros; lia|unfold gain_rng; intros; lia|lia|lia|].
    destruct (Fin y' k l v _ Ey) as (F1 & F2 & F3). exists y', k, (mkK v (ki k) (kd k) (d_decay_div k)), l.
    repeat (split; [assumption|]). rewrite Ev. destruct up; reflexivity.
  - unfold kconf_ki_ramp_handler. change (fxc 15625 1000000) with 1. change (fxc 9 1) with 576.
    destruct (do_ramp_k_ok B C y ki (fun k v => mkK (kp k) v (kd k) (d_decay_div k)) 1 576 up I HB) as (y' & k & l & v & E & I' & Ek & Bv & Ev & El & Ey);
      [unfold gain_rng; cbn; intros; lia|unfold gain_rng; intros; lia|lia|lia|].
    destruct (Fin y' k l v _ Ey) as (F1 & F2 & F3). exists y', k, (mkK (kp k) v (kd k) (d_decay_div k)), l.
    repeat (split; [assumption|]). rewrite Ev. destruct up; reflexivity.
  - unfold kconf_kd_ramp_handler. change (fxc 3125 100000) with 2. change (fxc 99 1) with 6336.
    destruct (do_ramp_k_ok B C y kd (fun k v => mkK (kp k) (ki k) v (d_decay_div k)) 2 6336 up I HB) as (y' & k & l & v & E & I' & Ek & Bv & Ev & El & Ey);
      [unfold gain_rng; cbn; intros; lia|unfold gain_rng; intros; lia|lia|lia|].
    destruct (Fin y' k l v _ Ey) as (F1 & F2 & F3). exists y', k, (mkK (kp k) (ki k) v (d_decay_div k)), l.
    repeat (split; [assumption|]). rewrite Ev. destruct up; reflexivity.
Qed.

Lemma adj_ok B C y up : inv B C y -> bok B -> c_adj C = true ->
  exists y' v, adj_ramp_handler C y up = Some y' /\ inv B C y' /\ ramp_frame y y' /\ n_state (y_menu y') = n_state (y_menu y) /\
    v = Z.max (-6336) (Z.min 6336 (s_adj (get_settings y) + if up then 64 else -64)) /\
    get_settings y' = set_s_adj (get_settings y) v.
Proof.
  intros I HB Ha. destruct (i_set _ _ _ I) as (_ & R & _). assert (HB' := HB). destruct HB' as (HB1 & HB2). pose proof (rng_le _ _ C _ HB2 R) as R'.
  assert (R'' := R'). destruct R'' as (_ & _ & _ & _ & Ba & _). cbn in Ba. destruct HB1 as (_&_&_&Q1&Q2). cbn in Q1, Q2.
  destruct (i_meas _ _ _ I) as ((c0 & c1 & Ech & A0 & A1) & M2 & M3 & M4). rewrite Ha in A1.
  unfold adj_ramp_handler, meastemp_adjust_get, measure_adjust_get, MEAS_CHAN_TEMP. rewrite Ha, Ech. change (zget [c0; c1] 1) with (Some c1). cbn [bind].
  rewrite A1. change (celsius (-99)) with (-6336). change (celsius 99) with 6336. rewrite do_ramp_temp_eq by lia. cbn [bind].
  set (v := Z.max (-6336) _). assert (Hv : -6336 <= v <= 6336) by (unfold v; lia).
  unfold meastemp_adjust_set, measure_adjust_set, MEAS_CHAN_TEMP. rewrite Ha, Ech. change (zget [c0; c1] 1) with (Some c1). cbn [bind].
  change (zupd [c0; c1] 1 ?z) with (Some [c0; z]). cbn [bind]. unfold sys_store, put_settings. sy. rewrite store_eq. cbn [bind].
  eexists _, v. split; [reflexivity|]. unfold menu_request_display_update, get_settings. sy.
  assert (R2 : rng B C (set_s_adj (x_cache (y_set y)) v)) by (apply rng_adj; [exact R|lia]).
  split; [|split; [|repeat split]].
  - destruct I as [? ? ? (G1&G2&G3&G4&G5&G6&G7) L ? ? ? ? ? S ? ? ?]. constructor; sy; try assumption.
    + unfold ct_inv in *. sy. repeat (split; [assumption|]). assumption.
    + unfold meas_inv. sy. split; [|split; [exact M2|split; assumption]]. eexists _, _. split; [reflexivity|]. rewrite Ha. split; [exact A0|reflexivity].
    + eapply (set_modify C B (y_now y) (y_set y)); [exact S|exact R2|eapply rng_le; eassumption|reflexivity|apply store_eq].
  - split; [|sy; repeat (split; [reflexivity|]); exists (n_state (y_menu y)), (n_timeout (y_menu y)), true; destruct (y_menu y); reflexivity].
    unfold side_frame. sy. repeat (split; [reflexivity|]). split; [eexists; split; [reflexivity|rewrite Ech; reflexivity]|]. repeat (split; [reflexivity|]). left; repeat split; reflexivity.
Qed.

(** A ramp step changes at most one setting, the one of the menu. *)
Definition setting_step (C : conf) (h : rhandler) (up : bool) (m : Z) (s s' : settings) : Prop :=
  match h with
  | HSettemp => exists a l, zget (s_preset s) (s_active s) = Some a /\
      zupd (s_preset s) (s_active s) (Z.max 0 (Z.min 30720 (a + if up then 64 else -64))) = Some l /\ s' = set_s_preset s l
  | HIdletemp => s' = set_s_idle s (Z.max 0 (Z.min 30720 (s_idle s + if up then 64 else -64)))
  | HAdj => s' = set_s_adj s (Z.max (-6336) (Z.min 6336 (s_adj s + if up then 64 else -64)))
  | HKp | HKi | HKd => exists k l, zget (s_k s) m = Some k /\ s' = set_s_k s l /\
      zupd (s_k s) m match h with
         | HKp => mkK (Z.max 0 (Z.min 6336 (kp k + if up then 2 else -2))) (ki k) (kd k) (d_decay_div k)
         | HKi => mkK (kp k) (Z.max 0 (Z.min 576 (ki k + if up then 1 else -1))) (kd k) (d_decay_div k)
         | _ => mkK (kp k) (ki k) (Z.max 0 (Z.min 6336 (kd k + if up then 2 else -2))) (d_decay_div k)
         end = Some l
  end.
Lemma handler_ok B C y h up : inv B C y -> bok B -> ramp_of_menu h (n_state (y_menu y)) ->
  exists y', call_ramp_handler C y (Some h) up = Some y' /\ inv B C y' /\ ramp_frame y y' /\ ramp_of_menu h (n_state (y_menu y')) /\
    setting_step C h up (bm C (y_ct y)) (get_settings y) (get_settings y') /\
    n_state (y_menu y') = match h with HSettemp => MENU_CHGPRESET | _ => n_state (y_menu y) end.
Proof.
  intros I HB Hr. destruct (i_menu _ _ _ I) as (Al & _). destruct h; cbn [ramp_of_menu] in Hr; cbn [call_ramp_handler bind setting_step ramp_of_menu].
  - assert (Hd : y_dbg y = false).
    { destruct (y_dbg y) eqn:E; [|reflexivity]. destruct (proj1 (i_dbg _ _ _ I) E) as (_ & X). rewrite X in Hr. destruct Hr as [|[|]]; discriminate. }
    destruct (settemp_ok B C y up I HB Hd) as (y' & a & v & l & E & I' & F & S & Ea & Ev & El & Es).
    { destruct Hr as [->|[->| ->]]; reflexivity. }
    exists y'. repeat (split; [assumption|]). rewrite S. split; [auto|]. split; [|reflexivity]. exists a, l. split; [exact Ea|]. rewrite <- Ev. split; assumption.
  - rewrite Hr in Al. destruct (idletemp_ok B C y up I HB Al) as (y' & v & E & I' & F & S & Ev & Es).
    exists y'. repeat (split; [assumption|]). rewrite S. split; [exact Hr|]. rewrite <- Ev. split; [exact Es|reflexivity].
  - rewrite Hr in Al. destruct (adj_ok B C y up I HB Al) as (y' & v & E & I' & F & S & Ev & Es).
    exists y'. repeat (split; [assumption|]). rewrite S. split; [exact Hr|]. rewrite <- Ev. split; [exact Es|reflexivity].
  - destruct (kramp_ok B C y HKp I HB up (or_introl eq_refl)) as (y' & k & k' & l & E & I' & F & S & Ek & El & Es & Ev).
    exists y'. repeat (split; [assumption|]). rewrite S. split; [exact Hr|]. split; [|reflexivity]. exists k, l. rewrite <- Ev. split; [exact Ek|split; assumption].
  - destruct (kramp_ok B C y HKi I HB up (or_intror (or_introl eq_refl))) as (y' & k & k' & l & E & I' & F & S & Ek & El & Es & Ev).
    exists y'. repeat (split; [assumption|]). rewrite S. split; [exact Hr|]. split; [|reflexivity]. exists k, l. rewrite <- Ev. split; [exact Ek|split; assumption].
  - destruct (kramp_ok B C y HKd I HB up (or_intror (or_intror eq_refl))) as (y' & k & k' & l & E & I' & F & S & Ek & El & Es & Ev).
    exists y'. repeat (split; [assumption|]). rewrite S. split; [exact Hr|]. split; [|reflexivity]. exists k, l. rewrite <- Ev. split; [exact Ek|split; assumption].
Qed.
