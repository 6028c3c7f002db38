(** * Invariant of the running firmware, part 6: complete handlers, menu_work *)
From Coq Require Import ZArith List Bool Lia ZifyBool.
From Verif Require Import Base PBase MConf MUtil MFixpt MScale MRing MFilter MTimer MPid MPwm MTempMap MCurr MSens
  SpecNum SpecPid SpecSmall PNum PSmall PScale PPid SpecCurr PCurr MSettings SpecSettings PSettings PSysSet
  MSseg MDisplay MText MState MTemp MMeas MMenu MMain SpecDisplay PDisplay SpecSys PSys PSysMeas PSysMenu PSysDisp PSysBtn.
Import ListNotations.
Open Scope Z_scope.
Ltac Zify.zify_post_hook ::= Z.div_mod_to_equations.

Lemma side_now y y' : side_frame y y' -> y_now y' = y_now y.
Proof. intros (H & _). exact H. Qed.
Lemma ramp_upd n t u s : ramp_fields (set_n_upd (set_n_timeout (set_n_state n s) t) u) = ramp_fields n.
Proof. reflexivity. Qed.

Lemma menu_handler_ok B C y b bs : inv B C y -> ramp_ok (y_menu y) -> bok B ->
  exists y', menu_button_handler C y b bs = Some y' /\ inv B C y' /\ ramp_ok (y_menu y') /\ vstep y y' /\ side_frame y y' /\
    y_btn y' = y_btn y /\ pressed C y y' b bs /\ (is_iron b = true -> y' = y).
Proof.
  intros I Ro HB. unfold menu_button_handler. destruct (is_iron b) eqn:Hb.
  - exists y. split; [reflexivity|]. split; [exact I|]. split; [exact Ro|]. split; [apply vstep_refl|]. split; [apply side_refl|]. split; [reflexivity|].
    split; [|reflexivity]. constructor; unfold goto; rewrite ?Hb; try congruence.
    + unfold pick. destruct b; try discriminate Hb. cbn. rewrite !andb_false_r. destruct (n_state (y_menu y)); reflexivity.
    + destruct b; try discriminate Hb. destruct (n_state (y_menu y)); try reflexivity. destruct (is_pos bs); reflexivity.
    + split; reflexivity.
  - destruct (switch_ok B C y b bs I Ro HB Hb) as (y1 & E1 & I1 & R1 & V1 & S1 & B1 & St1 & X1 & F1 & T1 & T2 & T3 & D1 & Er1 & Id1).
    rewrite E1. cbn [bind]. destruct (is_neg bs) eqn:En.
    2: { exists y1. split; [reflexivity|]. split; [exact I1|]. split; [apply R1; reflexivity|]. split; [exact V1|]. split; [exact S1|]. split; [exact B1|].
         split; [|discriminate]. cbn [andb] in St1. constructor; unfold goto; rewrite ?Hb, ?En; auto. congruence. }
    destruct (stop_ok B C y1 I1) as (I2 & R2 & V2 & S2). set (y2 := stop_ramping y1) in *.
    assert (F2 : ramp_fields (y_menu y2) = ramp_after (y_now y) (y_menu y) b bs).
    { unfold ramp_after. rewrite En. unfold y2, stop_ramping, ramp_fields in *. sy. injection F1 as _ Q1 Q2 Q3 Q4. congruence. }
    assert (Hpos : is_pos bs = false) by (destruct bs; try reflexivity; discriminate En).
    assert (D2 : y_dbg y1 = y_dbg y) by (rewrite D1, Hpos; destruct (n_state (y_menu y)); reflexivity).
    destruct (is_set b) eqn:Hs; cbn [andb negb] in St1.
    2: { exists y2. split; [reflexivity|]. split; [exact I2|]. split; [exact R2|]. split; [eapply vstep_trans; eassumption|]. split; [eapply side_trans; eassumption|]. split; [exact B1|].
         split; [|discriminate]. constructor; unfold goto; rewrite ?Hb, ?En, ?Hs; auto.
         * change (n_state (y_menu y2)) with (n_state (y_menu y1)). rewrite St1. destruct (n_state (y_menu y)); reflexivity.
         * change (n_state (y_menu y2)) with (n_state (y_menu y1)). change (n_timeout (y_menu y2)) with (n_timeout (y_menu y1)).
           intros d N Ed. rewrite (T3 N). rewrite St1 in N, Ed. destruct (n_state (y_menu y)); try congruence. cbn in Ed. congruence. }
    change (debug_is_enabled C y2) with (if c_debug C then y_dbg y2 else false).
    assert (Hdb : (if c_debug C then y_dbg y2 else false) = y_dbg y).
    { change (y_dbg y2) with (y_dbg y1). rewrite D2. destruct (c_debug C) eqn:Ec; [reflexivity|]. destruct (y_dbg y) eqn:Ed; [|reflexivity].
      destruct (proj1 (i_dbg _ _ _ I) Ed) as (X & _). congruence. }
    rewrite Hdb. destruct (y_dbg y) eqn:Ed; cbn [negb].
    + exists y2. split; [reflexivity|]. split; [exact I2|]. split; [exact R2|]. split; [eapply vstep_trans; eassumption|]. split; [eapply side_trans; eassumption|]. split; [exact B1|].
      split; [|discriminate]. constructor; unfold goto; rewrite ?Hb, ?En, ?Hs, ?Ed; auto. change (n_state (y_menu y2)) with (n_state (y_menu y1)). congruence.
    + unfold menu_set_next_state. assert (Es2 : n_state (y_menu y2) = n_state (y_menu y)) by exact St1.
      assert (Hn := next_can B C y2 I2). rewrite Es2 in *. destruct (enter_ok B C y2 (next_menu_state C (n_state (y_menu y))) I2) as (y' & k & E3 & I3 & _ & Ee & S3 & F3 & V3 & Q1 & Q2 & Q3 & Q4 & Q5 & (t & u & Q6) & Q7 & Q8).
      { apply Hn. change (y_dbg y2) with (y_dbg y1). congruence. }
      exists y'. split; [exact E3|]. split; [exact I3|]. split; [left; rewrite Q6; reflexivity|].
      split; [exact (vstep_trans _ _ _ V1 (vstep_trans _ _ _ V2 V3))|].
      assert (Sf : side_frame y y') by exact (side_trans _ _ _ S1 (side_trans _ _ _ S2 F3)).
      split; [exact Sf|]. split; [rewrite Q5; exact B1|].
      split; [|discriminate]. constructor; unfold goto; rewrite ?Hb, ?En, ?Hs, ?Ed.
      * exact S3.
      * unfold get_settings in *. rewrite Q1. exact X1.
      * intros _. rewrite Q6, ramp_upd. exact F2.
      * intros _ Eq Ti. rewrite S3 in Eq. rewrite Ee, Es2, Eq, (proj2 (mstate_eqb_ok _ _) eq_refl). apply T1; exact Ti.
      * intros Ti Eq. rewrite S3 in Eq. rewrite Ee, Es2, Eq, (proj2 (mstate_eqb_ok _ _) eq_refl). apply T2; [exact Ti|exact St1].
      * intros d N Et. rewrite S3 in N, Et. rewrite Ee, Es2. destruct (mstate_eqb (n_state (y_menu y)) (next_menu_state C (n_state (y_menu y)))) eqn:Eq; [apply mstate_eqb_ok in Eq; congruence|].
        unfold entered. rewrite Et. assert (Nn : y_now y2 = y_now y) by exact (side_now _ _ (side_trans _ _ _ S1 S2)).
        destruct (enab _) as [e|]; [unfold en_switch; sy; destruct (Bool.eqb _ _)|]; sy; rewrite Nn; reflexivity.
      * rewrite Q4. change (y_dbg y2) with (y_dbg y1). rewrite D2, Hpos. destruct (n_state (y_menu y)); reflexivity.
      * rewrite Q6. exact Er1.
      * rewrite Q7. exact Id1.
Qed.

(** ** One event of a button goes to both handlers *)
Lemma handlers_ok B C y b bs : inv B C y -> ramp_ok (y_menu y) -> bok B ->
  exists y', call_button_handlers C y b bs = Some y' /\ inv B C y' /\ ramp_ok (y_menu y') /\ vstep y y' /\ side_frame y y' /\
    y_btn y' = y_btn y /\
    (if is_iron b then contrtemp_button_handler C y b bs = Some y' /\ ctrl_frame y y'
     else menu_button_handler C y b bs = Some y' /\ pressed C y y' b bs).
Proof.
  intros I Ro HB. unfold call_button_handlers.
  destruct (ctrl_button_ok B C y b bs I) as (y1 & E1 & I1 & F1 & Same). rewrite E1. cbn [bind].
  assert (R1 : ramp_ok (y_menu y1)).
  { destruct F1 as (_ & (u & Eu) & _). rewrite Eu. exact Ro. }
  destruct (menu_handler_ok B C y1 b bs I1 R1 HB) as (y2 & E2 & I2 & R2 & V2 & S2 & B2 & P2 & Same2).
  exists y2. split; [exact E2|]. split; [exact I2|]. split; [exact R2|].
  assert (V1 : vstep y y1) by apply F1.
  split; [eapply vstep_trans; eassumption|]. split; [eapply side_trans; [apply ctrl_side; exact F1|exact S2]|].
  split. { rewrite B2. destruct F1 as (Q & _). rewrite Q. reflexivity. }
  destruct (is_iron b) eqn:Hb.
  - rewrite (Same2 eq_refl). split; [reflexivity|exact F1].
  - rewrite (Same eq_refl) in *. split; [exact E2|exact P2].
Qed.
Lemma run_calls_ok B C : bok B -> forall l y, inv B C y -> ramp_ok (y_menu y) ->
  exists y', run_calls C y l = Some y' /\ inv B C y' /\ ramp_ok (y_menu y') /\ vstep y y' /\ side_frame y y' /\ y_btn y' = y_btn y.
Proof.
  intros HB. induction l as [|(b & bs) r IH]; intros y I Ro; cbn [run_calls].
  - exists y. split; [reflexivity|]. split; [exact I|]. split; [exact Ro|]. split; [apply vstep_refl|]. split; [apply side_refl|reflexivity].
  - destruct (handlers_ok B C y b bs I Ro HB) as (y1 & E1 & I1 & R1 & V1 & S1 & B1 & _). rewrite E1. cbn [bind].
    destruct (IH y1 I1 R1) as (y2 & E2 & I2 & R2 & V2 & S2 & B2). exists y2. split; [exact E2|]. split; [exact I2|]. split; [exact R2|].
    split; [eapply vstep_trans; eassumption|]. split; [eapply side_trans; eassumption|congruence].
Qed.
Lemma raw_u8 pinb : is_u8 (buttons_get_raw pinb).
Proof. unfold buttons_get_raw, u8, is_u8. lia. Qed.
Lemma buttons_ok B C y pinb : bok B -> inv B C y -> ramp_ok (y_menu y) ->
  exists y', buttons_work C y pinb = Some y' /\ inv B C y' /\ ramp_ok (y_menu y') /\ vstep y y' /\ side_frame y y' /\
    (if timer_expired (y_now y) (b_timer (y_btn y))
     then y_btn y' = mkBtn (buttons_get_raw pinb) (u16 (b_timer (y_btn y) + 10)) /\
          run_calls C (set_y_btn y (y_btn y')) (sample_calls (b_prev (y_btn y)) pinb) = Some y'
     else y' = y).
Proof.
  intros HB I Ro. unfold buttons_work. cbv zeta. destruct (timer_expired _ _) eqn:Et; cbn [negb].
  - unfold BUTTONS_DEBOUNCE_MS. rewrite add_ok by lia. cbn [bind]. set (bt := mkBtn _ _).
    assert (I1 : inv B C (set_y_btn y bt)) by (destruct I; constructor; sy; try assumption; apply raw_u8).
    destruct (run_calls_ok B C HB (sample_calls (b_prev (y_btn y)) pinb) (set_y_btn y bt) I1 Ro) as (y' & E & I' & R' & V' & S' & B').
    exists y'. split; [exact E|]. split; [exact I'|]. split; [exact R'|]. split; [exact V'|]. split; [exact S'|].
    rewrite B'. sy. split; [reflexivity|exact E].
  - exists y. split; [reflexivity|]. split; [exact I|]. split; [exact Ro|]. split; [apply vstep_refl|]. split; [apply side_refl|reflexivity].
Qed.

(** ** menu_work *)
Definition has_timeout (s : mstate) : bool := match tmo s with Some _ => true | None => false end.
Definition on_timeout (C : conf) (s : mstate) : mstate :=
  match s with MENU_IDLETEMP => MENU_CURTEMP | s => next_menu_state C s end.
Lemma entered_setpoint C y s k : p_setpoint (t_pid (y_ct (entered C y s k))) = p_setpoint (t_pid (y_ct y)).
Proof.
  unfold entered. sy. destruct (enab s) as [e|]; [|reflexivity]. unfold en_switch. sy.
  destruct (Bool.eqb (t_enabled (y_ct y)) e); [reflexivity|]. destruct (c_boost C); reflexivity.
Qed.
Lemma timeouts_ok B C y : inv B C y -> ramp_ok (y_menu y) ->
  exists y', menu_timeouts C y = Some y' /\ inv B C y' /\ ramp_ok (y_menu y') /\ vstep y y' /\ side_frame y y' /\
    y_btn y' = y_btn y /\ y_set y' = y_set y /\ y_disp y' = y_disp y /\ y_hw y' = y_hw y /\ y_dbg y' = y_dbg y /\ t_idle (y_ct y') = t_idle (y_ct y) /\
    n_err (y_menu y') = n_err (y_menu y) /\ n_heating (y_menu y') = n_heating (y_menu y) /\
    p_setpoint (t_pid (y_ct y')) = p_setpoint (t_pid (y_ct y)) /\
    (if has_timeout (n_state (y_menu y)) && timer_expired (y_now y) (n_timeout (y_menu y))
     then n_state (y_menu y') = on_timeout C (n_state (y_menu y)) /\ n_ramp (y_menu y') = RAMP_NONE /\
          (forall d, tmo (n_state (y_menu y')) = Some d -> n_timeout (y_menu y') = u16 (y_now y + d))
     else y' = y).
Proof.
  intros I Ro. unfold menu_timeouts.
  assert (Tr : forall c : bool, c = false -> exists y', Some y = Some y' /\ inv B C y' /\ ramp_ok (y_menu y') /\ vstep y y' /\ side_frame y y' /\
    y_btn y' = y_btn y /\ y_set y' = y_set y /\ y_disp y' = y_disp y /\ y_hw y' = y_hw y /\ y_dbg y' = y_dbg y /\ t_idle (y_ct y') = t_idle (y_ct y) /\
    n_err (y_menu y') = n_err (y_menu y) /\ n_heating (y_menu y') = n_heating (y_menu y) /\
    p_setpoint (t_pid (y_ct y')) = p_setpoint (t_pid (y_ct y)) /\
    (if c then n_state (y_menu y') = on_timeout C (n_state (y_menu y)) /\ n_ramp (y_menu y') = RAMP_NONE /\
          (forall d, tmo (n_state (y_menu y')) = Some d -> n_timeout (y_menu y') = u16 (y_now y + d)) else y' = y)).
  { intros c ->. exists y. split; [reflexivity|]. split; [exact I|]. split; [exact Ro|]. split; [apply vstep_refl|]. split; [apply side_refl|]. repeat split. }
  assert (K : has_timeout (n_state (y_menu y)) = true -> timer_expired (y_now y) (n_timeout (y_menu y)) = true ->
    exists y', (y1 <- (if mstate_eqb (n_state (y_menu y)) MENU_IDLETEMP then menu_set_state C y MENU_CURTEMP else menu_set_next_state C y) ;; Some (stop_ramping y1)) = Some y' /\
    inv B C y' /\ ramp_ok (y_menu y') /\ vstep y y' /\ side_frame y y' /\
    y_btn y' = y_btn y /\ y_set y' = y_set y /\ y_disp y' = y_disp y /\ y_hw y' = y_hw y /\ y_dbg y' = y_dbg y /\ t_idle (y_ct y') = t_idle (y_ct y) /\
    n_err (y_menu y') = n_err (y_menu y) /\ n_heating (y_menu y') = n_heating (y_menu y) /\
    p_setpoint (t_pid (y_ct y')) = p_setpoint (t_pid (y_ct y)) /\
    n_state (y_menu y') = on_timeout C (n_state (y_menu y)) /\ n_ramp (y_menu y') = RAMP_NONE /\
          (forall d, tmo (n_state (y_menu y')) = Some d -> n_timeout (y_menu y') = u16 (y_now y + d))).
  { intros Ht Hx.
    assert (E0 : (if mstate_eqb (n_state (y_menu y)) MENU_IDLETEMP then menu_set_state C y MENU_CURTEMP else menu_set_next_state C y) =
      menu_set_state C y (on_timeout C (n_state (y_menu y)))).
    { unfold menu_set_next_state. destruct (n_state (y_menu y)); reflexivity. }
    assert (Hd : y_dbg y = false).
    { destruct (y_dbg y) eqn:E; [|reflexivity]. destruct (proj1 (i_dbg _ _ _ I) E) as (_ & X). rewrite X in Ht. discriminate Ht. }
    assert (Hne : mstate_eqb (n_state (y_menu y)) (on_timeout C (n_state (y_menu y))) = false).
    { destruct (i_menu _ _ _ I) as (A & _). destruct (n_state (y_menu y)); cbn in Ht, A |- *; try discriminate; rewrite ?A; try reflexivity. }
    rewrite E0. destruct (enter_ok B C y (on_timeout C (n_state (y_menu y))) I) as (y1 & k & E1 & I1 & _ & Ee & S1 & F1 & V1 & Q1 & Q2 & Q3 & Q4 & Q5 & (t & u & Q6) & Q7 & Q8).
    { pose proof (next_can B C y I Hd) as N. destruct (n_state (y_menu y)) eqn:Es; try exact N. unfold on_timeout. split; [reflexivity|]. split; [congruence|discriminate]. }
    rewrite E1. cbn [bind]. rewrite Hne in Ee. destruct (stop_ok B C y1 I1) as (I2 & R2 & V2 & S2). exists (stop_ramping y1). split; [reflexivity|].
    split; [exact I2|]. split; [exact R2|]. split; [eapply vstep_trans; eassumption|]. split; [eapply side_trans; eassumption|].
    unfold stop_ramping. sy. repeat (split; [assumption|]). rewrite Q6. sy. do 2 (split; [reflexivity|]). split.
    { rewrite Ee. apply entered_setpoint. }
    do 2 (split; [reflexivity|]). intros d Ed. assert (Et : n_timeout (y_menu y1) = u16 (y_now y + d)); [|rewrite Q6 in Et; exact Et].
    rewrite Ee. unfold entered. rewrite Ed. destruct (enab _) as [e|]; [unfold en_switch; sy; destruct (Bool.eqb _ _)|]; reflexivity. }
  destruct (n_state (y_menu y)) eqn:Es; cbn [has_timeout tmo andb]; try exact (Tr false eq_refl);
    destruct (timer_expired (y_now y) (n_timeout (y_menu y))) eqn:Ex; try exact (Tr false eq_refl); exact (K eq_refl eq_refl).
Qed.

Definition errcode (y : sys) : Z :=
  (if Z.testbit (cc_emerg (y_cc y)) 0 then 1 else 0) + (if t_emerg (y_ct y) then 2 else 0).
Lemma errors_eq B C y : inv B C y -> menu_errors y =
  if errcode y =? n_err (y_menu y) then y
  else set_y_menu y (set_n_upd (set_n_ramp (set_n_err (y_menu y) (errcode y)) RAMP_NONE) true).
Proof.
  intros I. destruct (i_cc _ _ _ I) as (_ & _ & F & _). unfold menu_errors, errcode, contrcurr_get_emerg. change EMERG_UNPLAUS_FEEDBACK with 1.
  assert (cc_emerg (y_cc y) = 0 \/ cc_emerg (y_cc y) = 1 \/ cc_emerg (y_cc y) = 2 \/ cc_emerg (y_cc y) = 3) as D by lia.
  cbv zeta. destruct D as [->|[->|[->| ->]]]; destruct (t_emerg (y_ct y));
    match goal with |- context [negb (?a =? n_err ?n)] => set (v := a); change v with (ltac:(let r := eval vm_compute in v in exact r)); clear v end;
    cbn [Z.testbit Z.odd Z.add Pos.add]; destruct (_ =? n_err (y_menu y)); reflexivity.
Qed.
Lemma errors_ok B C y : inv B C y -> ramp_ok (y_menu y) ->
  inv B C (menu_errors y) /\ ramp_ok (y_menu (menu_errors y)) /\ vstep y (menu_errors y) /\ side_frame y (menu_errors y) /\
  n_err (y_menu (menu_errors y)) = errcode y /\ errcode (menu_errors y) = errcode y /\
  (errcode y = n_err (y_menu y) -> menu_errors y = y) /\
  (errcode y <> n_err (y_menu y) -> n_ramp (y_menu (menu_errors y)) = RAMP_NONE /\ n_upd (y_menu (menu_errors y)) = true) /\
  exists n, menu_errors y = set_y_menu y n /\ n_state n = n_state (y_menu y) /\ n_timeout n = n_timeout (y_menu y) /\ n_heating n = n_heating (y_menu y).
Proof.
  intros I Ro. rewrite (errors_eq B C y I). destruct (errcode y =? n_err (y_menu y)) eqn:E.
  - split; [exact I|]. split; [exact Ro|]. split; [apply vstep_refl|]. split; [apply side_refl|]. split; [lia|]. split; [reflexivity|]. split; [reflexivity|]. split; [lia|].
    exists (y_menu y). split; [destruct y; reflexivity|]. repeat split.
  - destruct (i_menu _ _ _ I) as (_ & Ep & _). split; [apply menu_only; sy; auto; unfold errcode; destruct (Z.testbit _ _), (t_emerg _); lia|].
    split; [left; reflexivity|]. split; [apply vstep_upd; reflexivity|]. split; [apply side_menu|]. split; [reflexivity|]. split; [reflexivity|]. split; [lia|]. split; [intros _; split; reflexivity|].
    eexists. split; [reflexivity|]. repeat split.
Qed.

Definition heating (y : sys) : bool := t_feedback (y_ct y) <? p_setpoint (t_pid (y_ct y)).
Lemma heating_ok B C y : inv B C y -> ramp_ok (y_menu y) ->
  inv B C (menu_heating y) /\ ramp_ok (y_menu (menu_heating y)) /\ vstep y (menu_heating y) /\ side_frame y (menu_heating y) /\
  n_heating (y_menu (menu_heating y)) = heating y /\
  exists u, menu_heating y = set_y_menu y (set_n_upd (set_n_heating (y_menu y) (heating y)) u) /\ (heating y <> n_heating (y_menu y) -> u = true).
Proof.
  intros I Ro. unfold menu_heating, menu_request_display_update, contrtemp_is_heating_up, pid_get_setpoint. fold (heating y). cbv zeta. sy.
  destruct (Bool.eqb (heating y) (n_heating (y_menu y))) eqn:E; cbn [negb].
  - apply eqb_prop in E. split; [exact I|]. split; [exact Ro|]. split; [apply vstep_refl|]. split; [apply side_refl|]. split; [congruence|].
    exists (n_upd (y_menu y)). split; [|congruence]. rewrite E. destruct y as [? ? ? ? ? ? ? [? ? ? ? ? ? ? ? ? ?] ? ? ? ?]; reflexivity.
  - change (set_y_menu (set_y_menu y ?a) ?b) with (set_y_menu y b).
    destruct (i_menu _ _ _ I) as (_ & Ep & Ee). split; [apply menu_only; sy; auto|]. split; [exact Ro|]. split; [apply vstep_upd; reflexivity|]. split; [apply side_menu|].
    split; [reflexivity|]. exists true. split; reflexivity.
Qed.

(** One poll of the ramp. *)
Definition running (r : ramp) : option bool := match r with RAMP_UP => Some true | RAMP_DOWN => Some false | _ => None end.
Definition waiting (r : ramp) : option bool := match r with RAMP_PRE_UP => Some true | RAMP_PRE_DOWN => Some false | _ => None end.
Definition half (p : Z) : Z := if 25 <? p then p / 2 else p.
Record stepped (C : conf) (y y' : sys) (up : bool) : Prop := mkStepped {
  sp_set : exists h, n_handler (y_menu y) = Some h /\ setting_step C h up (bm C (y_ct y)) (get_settings y) (get_settings y') /\
           n_state (y_menu y') = match h with HSettemp => MENU_CHGPRESET | _ => n_state (y_menu y) end;
  sp_timer : n_rtimer (y_menu y') = u16 (n_rtimer (y_menu y) + n_period (y_menu y));
  sp_period : n_period (y_menu y') = half (n_period (y_menu y));
  sp_rest : n_ramp (y_menu y') = n_ramp (y_menu y) /\ n_handler (y_menu y') = n_handler (y_menu y) /\ n_pretimer (y_menu y') = n_pretimer (y_menu y) /\
            n_err (y_menu y') = n_err (y_menu y) /\ n_heating (y_menu y') = n_heating (y_menu y) /\ n_upd (y_menu y') = true
}.
Lemma ramp_step_ok B C y up : inv B C y -> ramp_ok (y_menu y) -> bok B -> running (n_ramp (y_menu y)) = Some up ->
  exists y', ramp_step C y up = Some y' /\ inv B C y' /\ ramp_ok (y_menu y') /\ vstep y y' /\ side_frame y y' /\
    y_btn y' = y_btn y /\ y_disp y' = y_disp y /\ y_hw y' = y_hw y /\ y_dbg y' = y_dbg y /\
    (if timer_expired (y_now y) (n_rtimer (y_menu y)) then stepped C y y' up else y' = y).
Proof.
  intros I Ro HB Hr. unfold ramp_step. destruct (timer_expired _ _) eqn:Et.
  2: { exists y. split; [reflexivity|]. split; [exact I|]. split; [exact Ro|]. split; [apply vstep_refl|]. split; [apply side_refl|]. repeat split. }
  destruct Ro as [Ro|(h & Eh & Hm)]; [rewrite Ro in Hr; discriminate|]. rewrite Eh.
  destruct (handler_ok B C y h up I HB Hm) as (y1 & E1 & I1 & (S1 & G1 & G2 & G3 & G4 & (s & t & u & Gm)) & Hm1 & St & Sn). rewrite E1. cbn [bind].
  unfold menu_request_display_update. sy. destruct (i_menu _ _ _ I) as (_ & Pe & _).
  rewrite add_ok by (rewrite Gm; sy; lia). cbn [bind]. change RAMP_MIN_PERIOD_MS with 25.
  match goal with |- exists y', Some (set_y_menu (set_y_menu y1 ?a) ?n) = _ /\ _ => set (n' := n) end.
  assert (En : n' = set_n_period (set_n_rtimer (set_n_upd (y_menu y1) true) (u16 (n_rtimer (y_menu y) + n_period (y_menu y)))) (half (n_period (y_menu y)))).
  { unfold n', half. rewrite Gm. sy. destruct (25 <? n_period (y_menu y)); reflexivity. }
  clearbody n'. subst n'. eexists. split; [reflexivity|]. sy. destruct (i_menu _ _ _ I1) as (_ & _ & Er1).
  assert (Hp : 0 <= half (n_period (y_menu y)) <= 400) by (unfold half; destruct (25 <? _); lia).
  split. { change (set_y_menu (set_y_menu y1 ?a) ?b) with (set_y_menu y1 b). apply menu_only; sy; auto. }
  split; [right; exists h; sy; split; [rewrite Gm; exact Eh|exact Hm1]|]. split; [apply vstep_upd; reflexivity|].
  split; [eapply side_trans; [exact S1|]; change (set_y_menu (set_y_menu y1 ?a) ?b) with (set_y_menu y1 b); apply side_menu|].
  repeat (split; [assumption|]). constructor; sy.
  - exists h. split; [reflexivity || exact Eh|]. split; [exact St|exact Sn].
  - reflexivity.
  - reflexivity.
  - rewrite Gm. repeat split.
Qed.
Lemma ramping_ok B C y : inv B C y -> ramp_ok (y_menu y) -> bok B ->
  exists y', menu_ramping C y = Some y' /\ inv B C y' /\ ramp_ok (y_menu y') /\ vstep y y' /\ side_frame y y' /\
    y_btn y' = y_btn y /\ y_disp y' = y_disp y /\ y_hw y' = y_hw y /\ y_dbg y' = y_dbg y /\
    match running (n_ramp (y_menu y)), waiting (n_ramp (y_menu y)) with
    | Some up, _ => if timer_expired (y_now y) (n_rtimer (y_menu y)) then stepped C y y' up else y' = y
    | None, Some up => y' = if timer_expired (y_now y) (n_pretimer (y_menu y)) then ramped y up false (n_handler (y_menu y)) else y
    | None, None => y' = y
    end.
Proof.
  intros I Ro HB. unfold menu_ramping.
  assert (Tr : exists y', Some y = Some y' /\ inv B C y' /\ ramp_ok (y_menu y') /\ vstep y y' /\ side_frame y y' /\
    y_btn y' = y_btn y /\ y_disp y' = y_disp y /\ y_hw y' = y_hw y /\ y_dbg y' = y_dbg y /\ y' = y).
  { exists y. split; [reflexivity|]. split; [exact I|]. split; [exact Ro|]. split; [apply vstep_refl|]. split; [apply side_refl|]. repeat split. }
  assert (P : forall up, waiting (n_ramp (y_menu y)) = Some up -> exists y', start_ramping y up false (n_handler (y_menu y)) = Some y' /\ inv B C y' /\ ramp_ok (y_menu y') /\ vstep y y' /\ side_frame y y' /\
    y_btn y' = y_btn y /\ y_disp y' = y_disp y /\ y_hw y' = y_hw y /\ y_dbg y' = y_dbg y /\ y' = ramped y up false (n_handler (y_menu y))).
  { intros up Hw. exists (ramped y up false (n_handler (y_menu y))). rewrite start_ramping_eq. split; [reflexivity|]. split; [apply ramped_ok; exact I|].
    split. { destruct Ro as [Ro|(h & Eh & Hm)]; [rewrite Ro in Hw; discriminate|]. right. exists h. split; [exact Eh|exact Hm]. }
    split; [apply ramped_vis|]. split; [apply side_menu|]. repeat split. }
  destruct (n_ramp (y_menu y)) eqn:Er; cbn [running waiting].
  - exact Tr.
  - apply ramp_step_ok; auto. rewrite Er. reflexivity.
  - apply ramp_step_ok; auto. rewrite Er. reflexivity.
  - destruct (timer_expired _ _); [apply P; reflexivity|exact Tr].
  - destruct (timer_expired _ _); [apply P; reflexivity|exact Tr].
Qed.

(** The screen. *)
Definition screen (C : conf) (y : sys) : Prop :=
  n_upd (y_menu y) = false -> exists s lamp, picture C y s lamp /\ drawn (d_digits (y_disp y)) s lamp.
Lemma picture_vis C y y' s lamp : vis y' = vis y -> picture C y s lamp -> picture C y' s lamp.
Proof.
  unfold vis. intros E. injection E as E1 E2 E3 E4 E5 E6 E7 E8. unfold picture, used_gains, mode_symbol. rewrite E1, E2, E3, E4, E5, E6, E7. auto.
Qed.
Lemma screen_step C y y' : vstep y y' -> screen C y -> screen C y'.
Proof.
  intros [V|(V & W)] S U; [congruence|]. rewrite V in U. destruct (S U) as (s & lamp & P & D). exists s, lamp.
  split; [eapply picture_vis; eassumption|]. unfold vis in W. injection W as _ _ _ _ _ _ _ W. rewrite W. exact D.
Qed.

(** The five parts of menu_work. *)
Lemma menu_work_ok B C y : bok B -> inv B C y -> ramp_ok (y_menu y) ->
  exists y1 y2 y3 y', menu_work C y = Some y' /\ inv B C y' /\ ramp_ok (y_menu y') /\ side_frame y y' /\ n_upd (y_menu y') = false /\
    (screen C y -> screen C y') /\
    menu_timeouts C y = Some y1 /\ inv B C y1 /\ ramp_ok (y_menu y1) /\
    y2 = menu_heating (menu_errors y1) /\ inv B C y2 /\ ramp_ok (y_menu y2) /\
    menu_ramping C y2 = Some y3 /\ inv B C y3 /\ vstep y y3 /\
    (exists ds, y' = set_y_disp (set_y_menu y3 (set_n_upd (y_menu y3) false)) (set_d_digits (y_disp y3) ds)).
Proof.
  intros HB I Ro. destruct (timeouts_ok B C y I Ro) as (y1 & E1 & I1 & R1 & V1 & S1 & _).
  destruct (errors_ok B C y1 I1 R1) as (I1' & R1' & V1' & S1' & _).
  destruct (heating_ok B C (menu_errors y1) I1' R1') as (I2 & R2 & V2 & S2 & _). set (y2 := menu_heating (menu_errors y1)) in *.
  destruct (ramping_ok B C y2 I2 R2 HB) as (y3 & E3 & I3 & R3 & V3 & S3 & _).
  unfold menu_work. rewrite E1. cbn [bind]. fold y2. rewrite E3. cbn [bind].
  assert (V : vstep y y3) by (eapply vstep_trans; [exact V1|eapply vstep_trans; [exact V1'|eapply vstep_trans; eassumption]]).
  assert (S : side_frame y y3) by (eapply side_trans; [exact S1|eapply side_trans; [exact S1'|eapply side_trans; eassumption]]).
  exists y1, y2, y3. destruct (n_upd (y_menu y3)) eqn:U.
  - pose proof (inv_upd B C y3 false I3) as I4. set (y4 := set_y_menu y3 (set_n_upd (y_menu y3) false)) in *.
    destruct (update_display_ok B C y4 I4 HB) as (ds & s & lamp & E & I5 & P & D). rewrite E. eexists. split; [reflexivity|]. split; [exact I5|]. split; [exact R3|].
    split; [eapply side_trans; [exact S|]; unfold side_frame; sy; repeat (split; [reflexivity|]); split; [apply meas_side_refl|]; repeat (split; [reflexivity|]); left; repeat split; reflexivity|].
    split; [reflexivity|]. split; [intros _ _; exists s, lamp; split; [exact P|exact D]|]. repeat (split; [assumption || reflexivity|]). exists ds. reflexivity.
  - eexists. split; [reflexivity|]. split; [exact I3|]. split; [exact R3|]. split; [exact S|]. split; [exact U|]. split; [apply screen_step; exact V|].
    repeat (split; [assumption || reflexivity|]). exists (d_digits (y_disp y3)). rewrite <- U. rewrite upd_id. destruct y3 as [? ? ? ? ? ? ? ? ? [? ? ? ?] ? ?]; reflexivity.
Qed.
