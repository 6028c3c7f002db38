(** * The user interface with interrupts inside the work functions, part 5: the keys of the menu *)
From Coq Require Import ZArith List Bool Lia ZifyBool.
From Verif Require Import Base PBase MConf MUtil MFixpt MScale MRing MFilter MTimer MPid MPwm MTempMap MCurr MSens
  SpecNum SpecPid SpecSmall PNum PSmall PScale PPid SpecCurr PCurr MSettings SpecSettings PSettings PSysSet
  MSseg MDisplay MText MState MTemp MMeas MMenu MMain SpecDisplay PDisplay SpecSys SpecRun SpecUI PSys PSysMeas PSysMenu PSysDisp PSysBtn PSysStep PSysRun
  PSysCC PSysSafe MFine SpecFine SpecFineLive SpecFineUI PFine PFine2 PFine3 PFine4 PSysUI PSysUI2 PFineU PFineU2 PFineU3 PFineU4.
Import ListNotations.
Open Scope Z_scope.
Ltac Zify.zify_post_hook ::= Z.div_mod_to_equations.

Definition restarted (u : ui) : ui := if restarts (u_menu u) then set_u_age u 0 else u.
(** What menu_button_switch_f does, before the ramp is stopped *)
Definition key_act (u : ui) (b : button) (bs : bstate) : ui :=
  match bs with
  | BSTATE_POSEDGE => ui_press u b
  | BSTATE_PRESSED => u
  | BSTATE_NEGEDGE =>
    match b with
    | BUTTON_PLUS | BUTTON_MINUS =>
      match u_menu u with
      | MENU_CURTEMP => ui_enter u MENU_SELPRESET
      | MENU_SELPRESET => set_u_cfg u (set_s_active (u_cfg u) (if is_plus b then cycle_up 5 (s_active (u_cfg u)) else cycle_down 5 (s_active (u_cfg u))))
      | _ => u
      end
    | _ => u
    end
  end.
Definition key_post (u : ui) (b : button) (bs : bstate) (u' : ui) : Prop :=
  exists u1 u2, later u u1 /\ later (restarted u1) u2 /\ later (key_act u2 b bs) u'.

Section Keys.
Variable C : conf.
Hypothesis HC : build_conf C.
Local Notation B := relaxed.
Local Notation HB := bok_relaxed.
Local Notation mok := (mok B C).
Local Notation inv := (inv B C).
Local Notation core := (core B C).
Local Notation fine := (fine B C).
Local Notation to := (to C).

Lemma age_bd N y u d : core y -> ui_rel C y u -> menu_limit (u_menu u) = Some d -> 0 <= d <= 32767 ->
  bd N (arm_menu_timeout_f C y d) (fun y' N' => exists k, 0 <= k /\ N' = N - k /\ ui_rel C y' (set_u_age (ui_wait k u) 0)).
Proof.
  intros K R El Hd. eapply bd_mono; [apply (arm_bd C HC); [exact K|exact Hd]|]. intros z N' (n & m & x & k & O & Hk & HN & En & ->). exists k. split; [exact Hk|]. split; [exact HN|].
  pose proof (wait_rel B C y u n m x k R O Hk En) as [Q1 Q2 Q3 Q4 Q5 Q6 Q7 Q8 Q9 Q10 Q11 Q12].
  constructor; unfold retime; uf; sy; try assumption. split; [lia|]. intros d' Hd'. revert Hd'. uf. intros Hd'. replace d' with d by congruence.
  rewrite En. destruct (uv_now _ _ _ R) as (_ & ->). rewrite (u16_shift (u_time u)), u16_shift. f_equal. lia.
Qed.
Lemma debug_bd N y u en : core y -> ui_rel C y u -> c_debug C = true ->
  bd N (debug_enable_f C y en) (fun y' N' => exists k, 0 <= k /\ N' = N - k /\ ui_rel C y' (set_u_dbg (ui_wait k u) en)).
Proof.
  intros K R Hc. unfold debug_enable_f. rewrite Hc. apply (bd_point B C HC HB); [destruct K; constructor; assumption|]. intros k n m x Hk O En.
  apply bd_step. intros [h d] Ed. apply bd_ret. exists k. split; [lia|]. split; [reflexivity|].
  assert (R1 : ui_rel C (set_y_dbg y en) (set_u_dbg u en)) by (destruct R; constructor; uf; sy; try assumption; reflexivity).
  destruct (wait_rel B C _ _ n m x k R1 O ltac:(lia) En). constructor; uf; sy; assumption.
Qed.
Lemma ramp_button_bd N y u b bs pre h : core y -> ui_rel C y u ->
  bd N (start_ramping_button_f C y b bs pre h) (to N u (fun u' => exists u1, later u u1 /\
    later (match key_ramp b bs with Some up => set_u_ramp u1 (if pre then RWait up 0 else RRun up 0 0) | None => u1 end) u')).
Proof.
  intros K R. unfold start_ramping_button_f, key_ramp.
  assert (Id : bd N (ret y) (to N u (fun u' => exists u1, later u u1 /\ later u1 u'))).
  { apply bd_ret. exists u. split; [exists u; split; apply later_refl|]. split; [lia|exact R]. }
  destruct (is_pos bs); [|exact Id]. destruct (is_minus b) eqn:Em.
  - apply (start_bd C HC); assumption.
  - destruct (is_plus b); [|exact Id]. apply (start_bd C HC); assumption.
Qed.
Lemma switch_bd N y u b bs : inv y -> ramp_ok (y_menu y) -> is_iron b = false -> ui_rel C y u ->
  bd N (menu_button_switch_f C y b bs) (to N u (key_post u b bs)).
Proof.
  intros I Ro Hb R. destruct (i_menu _ _ _ I) as (Al & _). pose proof (uv_menu _ _ _ R) as Em.
  assert (Id : restarts (u_menu u) = false -> key_act u b bs = u -> bd N (ret y) (to N u (key_post u b bs))).
  { intros E1 E2. apply bd_ret. exists u. split; [|split; [lia|exact R]]. exists u, u. unfold restarted. rewrite E1, E2. split; [apply later_refl|]. split; apply later_refl. }
  assert (Rk : forall h, restarts (u_menu u) = false -> 
    (forall v, u_menu v = u_menu u -> key_act v b bs = match key_ramp b bs with Some up => set_u_ramp v (RRun up 0 0) | None => v end) ->
    bd N (start_ramping_button_f C y b bs false h) (to N u (key_post u b bs))).
  { intros h E1 E2. eapply bd_mono; [apply ramp_button_bd; [apply inv_core; exact I|exact R]|]. intros y' N' (u' & (u1 & L1 & L2) & T & R'). exists u'. split; [|split; assumption].
    exists u1, u1. pose proof (later_menu _ _ L1) as M1. unfold restarted. rewrite M1, E1, E2 by exact M1. split; [exact L1|]. split; [apply later_refl|exact L2]. }
  assert (Tm : forall d h, menu_limit (u_menu u) = Some d -> 0 <= d <= 32767 -> restarts (u_menu u) = true ->
    (forall v, u_menu v = u_menu u -> key_act v b bs = match key_ramp b bs with Some up => set_u_ramp v (RRun up 0 0) | None => v end) ->
    bd N (fbind (arm_menu_timeout_f C y d) (fun y => start_ramping_button_f C y b bs false h)) (to N u (key_post u b bs))).
  { intros d h El Hd E1 E2. eapply bd_seq; [eapply bd_and; [apply (arm_fine B C HC HB); [exact I|exact Ro|exact Hd]|apply age_bd; [apply inv_core; exact I|exact R|exact El|exact Hd]]|].
    intros y1 N1 ((F1 & _) & k & K1 & K2 & R1). eapply bd_mono; [apply ramp_button_bd; [apply inv_core; apply F1|exact R1]|].
    intros y' N' (u' & (u1 & L1 & L2) & T & R'). exists u'. split; [|split; [rewrite T; uf; lia|exact R']].
    exists (ui_wait k u), u1. pose proof (later_menu _ _ L1) as M1. unfold restarted. uf. rewrite E1, E2 by exact M1. split; [apply later_wait; exact K1|]. split; assumption. }
  unfold menu_button_switch_f, MENU_SELPRESET_TIMEOUT, MENU_CHGPRESET_TIMEOUT, MENU_IDLETEMP_TIMEOUT.
  destruct (n_state (y_menu y)) eqn:Es; cbn [allowed] in Al; rewrite ?Al; cbn [negb]; rewrite <- Em in *;
    try (apply Id; [reflexivity|unfold key_act, ui_press; rewrite <- Em; destruct b, bs; reflexivity]);
    try (apply Tm; [reflexivity|lia|reflexivity|intros v Ev; unfold key_act, ui_press; rewrite Ev; destruct b, bs; reflexivity]);
    try (apply Rk; [reflexivity|intros v Ev; unfold key_act, ui_press; rewrite Ev; destruct b, bs; reflexivity]).
  - (* CURTEMP *)
    eapply bd_seq; [eapply bd_and; [apply (ramp_key_fine B C HC HB); [exact I|exact Ro|left; exact Es]|apply ramp_button_bd; [apply inv_core; exact I|exact R]]|].
    intros y1 N1 ((F1 & _ & Eq) & u' & (u1 & L1 & L2) & T1 & R1). pose proof (later_menu _ _ L1) as M1. rewrite <- Em in M1.
    destruct (is_neg bs && negb (is_set b)) eqn:En.
    + apply andb_prop in En as (En & Ens). rewrite (Eq En) in *. destruct bs; try discriminate En. assert (K0 : key_ramp b BSTATE_NEGEDGE = None) by (destruct b; reflexivity). rewrite K0 in L2.
      eapply bd_mono; [apply (enter_bd C HC); [exact I| |exact R1]|].
      { split; [reflexivity|]. split; [|intros _; rewrite Es; reflexivity]. intros Hd. destruct (proj1 (i_dbg _ _ _ I) Hd) as (_ & X). congruence. }
      intros y' N' (k1 & k2 & K1 & K2 & EN & R'). eexists. split; [|split; [|exact R']].
      * exists (ui_wait k1 u'), (ui_wait k1 u'). assert (L3 : later u (ui_wait k1 u')) by (eapply later_trans; [exact L1|]; eapply later_trans; [exact L2|apply later_wait; exact K1]).
        pose proof (later_menu _ _ L3) as M3. rewrite <- Em in M3. unfold restarted, key_act. rewrite M3. split; [exact L3|]. split; [apply later_refl|].
        destruct b; try discriminate; apply later_wait; exact K2.
      * rewrite ui_enter_eq. uf. lia.
    + apply bd_ret. exists u'. split; [|split; assumption]. exists u1, u1. unfold restarted. rewrite M1. split; [exact L1|]. split; [apply later_refl|].
      unfold key_act, ui_press. rewrite M1. destruct b, bs; try discriminate; exact L2.
  - (* SELPRESET *)
    eapply bd_seq; [eapply bd_and; [apply (arm_fine B C HC HB); [exact I|exact Ro|lia]|apply age_bd; [apply inv_core; exact I|exact R|rewrite <- Em; reflexivity|lia]]|].
    intros y1 N1 ((F1 & _) & k & K1 & K2 & R1). assert (I1 : inv y1) by apply F1. assert (M1 : u_menu (set_u_age (ui_wait k u) 0) = MENU_SELPRESET) by (symmetry; exact Em).
    assert (E0 : later (restarted (ui_wait k u)) (set_u_age (ui_wait k u) 0)) by (unfold restarted; uf; rewrite <- Em; apply later_refl).
    destruct (is_neg bs) eqn:En.
    + destruct bs; try discriminate En.
      assert (Kr : forall y2 N2, bd N2 (start_ramping_button_f C y2 b BSTATE_NEGEDGE true HSettemp) (fun y' N' => y' = y2 /\ N' = N2)) by (intros; apply bd_ret; auto).
      assert (Cy : forall up, is_plus b = up -> is_minus b = negb up -> bd N1 (fbind (if up then presets_next_f C y1 else presets_prev_f C y1) (fun y => start_ramping_button_f C y b BSTATE_NEGEDGE true HSettemp)) (to N u (key_post u b BSTATE_NEGEDGE))).
      { intros up Hup Hmi. eapply bd_seq; [apply (cycle_bd C HC); [exact I1|exact R1]|]. intros y2 N2 (j & J1 & J2 & R2). eapply bd_mono; [apply Kr|]. intros y' N' (-> & ->).
        eexists. split; [|split; [|exact R2]]; [|uf; lia]. exists (ui_wait k u), (set_u_age (ui_wait k u) 0). split; [apply later_wait; exact K1|]. split; [exact E0|].
        exists j. split; [exact J1|]. unfold key_act. rewrite M1, Hup. destruct b; try discriminate; cbn [is_plus is_minus negb] in *; subst up; try discriminate; reflexivity. }
      destruct (is_plus b) eqn:Hp.
      * apply (Cy true); [reflexivity|destruct b; cbn in *; congruence].
      * destruct (is_minus b) eqn:Hm; [apply (Cy false); reflexivity|]. apply bd_done. eapply bd_mono; [apply Kr|]. intros y' N' (-> & ->).
        eexists. split; [|split; [|exact R1]]; [|uf; lia]. exists (ui_wait k u), (set_u_age (ui_wait k u) 0). split; [apply later_wait; exact K1|]. split; [exact E0|].
        destruct b; try discriminate. apply later_refl.
    + apply bd_done. eapply bd_mono; [apply ramp_button_bd; [apply inv_core; exact I1|exact R1]|]. intros y' N' (u' & (u1 & L1 & L2) & T1 & R').
      exists u'. split; [|split; [rewrite T1; uf; lia|exact R']]. exists (ui_wait k u), u1. split; [apply later_wait; exact K1|]. split; [eapply later_trans; [exact E0|exact L1]|].
      pose proof (later_menu _ _ L1) as M2. rewrite M1 in M2. unfold key_act, ui_press. rewrite M2. destruct b, bs; try discriminate; exact L2.
  - (* DEBUG *)
    assert (De : forall en (f : sys -> F sys), key_act u b bs = set_u_dbg u en -> (forall y1 N1 v, ui_rel C y1 v -> bd N1 (f y1) (fun y' N' => N' = N1 /\ ui_rel C y' v)) ->
      bd N (fbind (debug_enable_f C y en) f) (to N u (key_post u b bs))).
    { intros en f Ek Hf. eapply bd_seq; [apply debug_bd; [apply inv_core; exact I|exact R|exact Al]|]. intros y1 N1 (k & K1 & K2 & R1).
      eapply bd_mono; [apply Hf; exact R1|]. intros y' N' (-> & R'). eexists. split; [|split; [|exact R']]; [|uf; lia]. exists u, u. unfold restarted. rewrite <- Em.
      split; [apply later_refl|]. split; [apply later_refl|]. rewrite Ek. exists k. split; [exact K1|reflexivity]. }
    assert (Ek : key_act u b bs = if is_pos bs then if is_plus b then set_u_dbg u true else if is_minus b then set_u_dbg u false else u else u).
    { unfold key_act, ui_press. rewrite <- Em. destruct b, bs; try discriminate; reflexivity. }
    destruct (is_pos bs) eqn:Ep; [|apply Id; [reflexivity|exact Ek]].
    destruct (is_plus b) eqn:Epl; [|destruct (is_minus b) eqn:Emi; [|apply Id; [reflexivity|exact Ek]]].
    + eapply bd_mono; [apply debug_bd; [apply inv_core; exact I|exact R|exact Al]|]. intros y1 N1 (k & K1 & K2 & R1).
      eexists. split; [|split; [|exact R1]]; [|uf; lia]. exists u, u. unfold restarted. rewrite <- Em. split; [apply later_refl|]. split; [apply later_refl|]. rewrite Ek. exists k. split; [exact K1|reflexivity].
    + apply De; [exact Ek|]. intros y1 N1 v R1. apply bd_ret. split; [reflexivity|]. apply upd_rel. exact R1.
Qed.
Lemma handler_bd N y u b bs : inv y -> ramp_ok (y_menu y) -> is_iron b = false -> ui_rel C y u ->
  bd N (menu_button_handler_f C y b bs) (to N u (fui_key C u (b, bs))).
Proof.
  intros I Ro Hb R. unfold menu_button_handler_f. rewrite Hb.
  eapply bd_seq; [eapply bd_and; [apply (switch_fine B C HC HB); [exact I|exact Ro|exact Hb]|apply switch_bd; [exact I|exact Ro|exact Hb|exact R]]|].
  intros y1 N1 ((G & _ & _ & S & D) & v & (u1 & u2 & L1 & L2 & L3) & T1 & R1). unfold restarted in L2.
  assert (Fin : forall y' N' w, later match bs with BSTATE_POSEDGE => ui_press u2 b | BSTATE_NEGEDGE => ui_release C u2 b | BSTATE_PRESSED => u2 end w ->
    u_time w = u_time v + (N1 - N') -> ui_rel C y' w -> to N u (fui_key C u (b, bs)) y' N').
  { intros y' N' w L T Rw. exists w. split; [|split; [lia|exact Rw]]. destruct b; try discriminate Hb; exists u1, u2; auto. }
  destruct (is_neg bs) eqn:En.
  2:{ apply bd_ret. apply (Fin _ _ v); [|lia|exact R1]. unfold key_act in L3. destruct bs; try discriminate En; exact L3. }
  destruct bs; try discriminate En. cbv zeta. pose proof (stop_rel C _ _ R1) as R2. pose proof (later_stop _ _ L3) as L4.
  destruct (is_set b) eqn:Es.
  2:{ apply bd_ret. apply (Fin _ _ (set_u_ramp v RNone)); [|uf; lia|exact R2]. unfold key_act in L4. unfold ui_release. destruct b; try discriminate; revert L4; uf; intros L4.
      all: destruct (u_menu u2) eqn:E2; try exact L4.
      all: rewrite enter_stop in L4; exact L4. }
  destruct b; try discriminate Es. cbn [key_act] in L3, L4. destruct (stop_ok B C y1 (g_inv _ _ _ _ G)) as (I2 & _). set (y2 := stop_ramping y1) in *.
  assert (Ed : debug_is_enabled C y2 = u_dbg v).
  { pose proof (uv_dbg _ _ _ R2) as X. revert X. uf. intros X. rewrite <- X. unfold debug_is_enabled. destruct (c_debug C) eqn:Ec; [reflexivity|].
    destruct (y_dbg y2) eqn:Ey; [|reflexivity]. destruct (proj1 (i_dbg _ _ _ I2) Ey) as (Z & _). congruence. }
  assert (Ev : u_dbg v = u_dbg u2 /\ u_menu v = u_menu u2) by (destruct L3 as (k & _ & ->); split; reflexivity). destruct Ev as (Ev & Ew).
  rewrite Ed, Ev. destruct (u_dbg u2) eqn:E2; cbn [negb].
  { apply bd_ret. apply (Fin _ _ (set_u_ramp v RNone)); [|uf; lia|exact R2]. unfold ui_release. uf. rewrite E2. exact L4. }
  unfold menu_set_next_state_f. pose proof (i_menu _ _ _ I2) as (Al & _). rewrite (next_after C _ Al).
  assert (M2 : n_state (y_menu y2) = u_menu u2) by (rewrite (uv_menu _ _ _ R2); exact Ew). rewrite M2.
  assert (Can : can_enter C y2 (menu_after C (u_menu u2))).
  { rewrite <- M2, <- (next_after C _ Al). eapply next_can; [exact I2|]. rewrite (uv_dbg _ _ _ R2). uf. exact Ev. }
  eapply bd_mono; [apply (enter_bd C HC); [exact I2|exact Can|exact R2]|]. intros y' N' (k1 & k2 & K1 & K2 & EN & R').
  set (u3 := ui_wait k1 v). assert (L5 : later u2 u3) by (eapply later_trans; [exact L3|apply later_wait; exact K1]).
  exists (ui_wait k2 (ui_enter (set_u_ramp u3 RNone) (menu_after C (u_menu u2)))). split; [|split; [rewrite ui_enter_eq; unfold u3; uf; lia|exact R']].
  cbn [fui_key]. exists u1, u3. split; [exact L1|]. split; [eapply later_trans; eassumption|]. exists k2. split; [exact K2|]. f_equal.
  unfold ui_release. uf. destruct L5 as (k & _ & ->). uf. rewrite E2. reflexivity.
Qed.
End Keys.
