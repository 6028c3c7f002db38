(** * Invariant of the running firmware, part 5: button handlers and menu_work *)
From Coq Require Import ZArith List Bool Lia ZifyBool.
From Verif Require Import Base PBase MConf MUtil MFixpt MScale MRing MFilter MTimer MPid MPwm MTempMap MCurr MSens
  SpecNum SpecPid SpecSmall PNum PSmall PScale PPid SpecCurr PCurr MSettings SpecSettings PSettings PSysSet
  MSseg MDisplay MText MState MTemp MMeas MMenu MMain SpecDisplay PDisplay SpecSys PSys PSysMeas PSysMenu PSysDisp.
Import ListNotations.
Open Scope Z_scope.
Ltac Zify.zify_post_hook ::= Z.div_mod_to_equations.

(** Changes of the menu that keep its state. *)
Lemma menu_only B C y n : inv B C y -> n_state n = n_state (y_menu y) -> 0 <= n_period n <= 400 -> 0 <= n_err n <= 3 ->
  inv B C (set_y_menu y n).
Proof.
  intros I Es Ep Ee. destruct I as [? ? ? ? ? ? ? ? (M1 & _ & _) En ? ? ? Db]. constructor; sy; try assumption.
  - unfold menu_inv. rewrite Es. auto.
  - rewrite Es. exact En.
  - unfold dbg_inv in *. rewrite Es. exact Db.
Qed.
Lemma side_menu y n : side_frame y (set_y_menu y n).
Proof.
  unfold side_frame. sy. repeat (split; [reflexivity|]). split; [apply meas_side_refl|].
  repeat (split; [reflexivity|]). left; repeat split; reflexivity.
Qed.
Lemma vstep_menu y n : n_state n = n_state (y_menu y) -> n_err n = n_err (y_menu y) -> n_heating n = n_heating (y_menu y) ->
  n_upd n = n_upd (y_menu y) -> vstep y (set_y_menu y n).
Proof. intros E1 E2 E3 E4. right. unfold vis. sy. rewrite E1, E2, E3, E4. split; reflexivity. Qed.

(** ** Ramps *)
Definition dir (up pre : bool) : ramp :=
  if pre then if up then RAMP_PRE_UP else RAMP_PRE_DOWN else if up then RAMP_UP else RAMP_DOWN.
Definition ramped (y : sys) (up pre : bool) (h : option rhandler) : sys :=
  let n := y_menu y in
  set_y_menu y (mkMenu (n_state n) (n_timeout n) (dir up pre) (y_now y) (if pre then u16 (y_now y + 1000) else n_pretimer n)
                       h 400 (n_err n) (n_heating n) (n_upd n)).
Lemma start_ramping_eq y up pre h : start_ramping y up pre h = Some (ramped y up pre h).
Proof.
  unfold start_ramping, ramped, RAMP_PRE_TIMEOUT_MS, RAMP_START_PERIOD_MS, timer_set_now. cbv zeta.
  destruct pre; [rewrite arm_ok by lia|]; destruct up; reflexivity.
Qed.
Lemma ramped_ok B C y up pre h : inv B C y -> inv B C (ramped y up pre h).
Proof.
  intros I. destruct (i_menu _ _ _ I) as (_ & _ & Ee). apply menu_only; sy; [exact I|reflexivity|lia|exact Ee].
Qed.
Lemma ramped_vis y up pre h : vstep y (ramped y up pre h).
Proof. apply vstep_menu; reflexivity. Qed.

(** Which ramp a key press starts. *)
Definition key_ramp (b : button) (bs : bstate) : option bool :=
  if is_pos bs then if is_minus b then Some false else if is_plus b then Some true else None else None.
Definition ramp_key (y : sys) (b : button) (bs : bstate) (pre : bool) (h : rhandler) : sys :=
  match key_ramp b bs with Some up => ramped y up pre (Some h) | None => y end.
Lemma ramp_key_eq y b bs pre h : start_ramping_button y b bs pre h = Some (ramp_key y b bs pre h).
Proof.
  unfold start_ramping_button, ramp_key, key_ramp. destruct (is_pos bs); [|reflexivity].
  destruct (is_minus b); [apply start_ramping_eq|]. destruct (is_plus b); [apply start_ramping_eq|reflexivity].
Qed.
Lemma ramp_key_ok B C y b bs pre h : inv B C y -> ramp_ok (y_menu y) -> ramp_of_menu h (n_state (y_menu y)) ->
  inv B C (ramp_key y b bs pre h) /\ ramp_ok (y_menu (ramp_key y b bs pre h)) /\ vstep y (ramp_key y b bs pre h) /\
  side_frame y (ramp_key y b bs pre h).
Proof.
  intros I Ro Hr. unfold ramp_key. destruct (key_ramp b bs) as [up|].
  - split; [apply ramped_ok; exact I|]. split; [right; exists h; split; [reflexivity|exact Hr]|]. split; [apply ramped_vis|apply side_menu].
  - split; [exact I|]. split; [exact Ro|]. split; [apply vstep_refl|apply side_refl].
Qed.

Lemma stop_ok B C y : inv B C y -> inv B C (stop_ramping y) /\ ramp_ok (y_menu (stop_ramping y)) /\ vstep y (stop_ramping y) /\ side_frame y (stop_ramping y).
Proof.
  intros I. destruct (i_menu _ _ _ I) as (_ & Ep & Ee). split; [apply menu_only; sy; auto|]. split; [left; reflexivity|].
  split; [apply vstep_menu; reflexivity|apply side_menu].
Qed.

(** The state after SET was released. *)
Lemma next_can B C y : inv B C y -> y_dbg y = false -> can_enter C y (next_menu_state C (n_state (y_menu y))).
Proof.
  intros I Hd. destruct (i_menu _ _ _ I) as (A & _). unfold can_enter. split; [|split; [congruence|]].
  - destruct (n_state (y_menu y)); cbn in A |- *; destruct (c_idle C) eqn:?, (c_debug C) eqn:?, (c_adj C) eqn:?, (c_kconf C) eqn:?; cbn; congruence.
  - destruct (n_state (y_menu y)); cbn in A |- *; destruct (c_idle C) eqn:?, (c_debug C) eqn:?, (c_adj C) eqn:?, (c_kconf C) eqn:?; cbn; congruence.
Qed.

(** What one handler call does to menu, ramp and settings. *)
Definition timed (s : mstate) : bool :=
  match s with MENU_SELPRESET | MENU_CHGPRESET | MENU_IDLETEMP => true | _ => false end.
Definition goto (C : conf) (dbg : bool) (s : mstate) (b : button) (bs : bstate) : mstate :=
  if is_iron b then s
  else if is_neg bs then
    if is_set b then if dbg then s else next_menu_state C s
    else match s with MENU_CURTEMP => MENU_SELPRESET | _ => s end
  else s.
Definition pick (s : mstate) (b : button) (bs : bstate) (x : settings) : settings :=
  match s with
  | MENU_SELPRESET =>
    if is_neg bs && is_plus b then set_s_active x (if s_active x =? 5 then 0 else s_active x + 1)
    else if is_neg bs && is_minus b then set_s_active x (if s_active x =? 0 then 5 else s_active x - 1)
    else x
  | _ => x
  end.
Definition rampable (s : mstate) : option (bool * rhandler) :=
  match s with
  | MENU_CURTEMP | MENU_SELPRESET => Some (true, HSettemp)
  | MENU_CHGPRESET => Some (false, HSettemp)
  | MENU_IDLETEMP => Some (false, HIdletemp)
  | MENU_ADJ => Some (false, HAdj)
  | MENU_KP => Some (false, HKp)
  | MENU_KI => Some (false, HKi)
  | MENU_KD => Some (false, HKd)
  | _ => None
  end.
Definition ramp_fields (n : menu) := (n_ramp n, n_rtimer n, n_pretimer n, n_handler n, n_period n).
Definition ramp_after (now : Z) (n : menu) (b : button) (bs : bstate) :=
  if is_neg bs then (RAMP_NONE, n_rtimer n, n_pretimer n, n_handler n, n_period n)
  else match rampable (n_state n), key_ramp b bs with
       | Some (pre, h), Some up => (dir up pre, now, if pre then u16 (now + 1000) else n_pretimer n, Some h, 400)
       | _, _ => ramp_fields n
       end.
Record pressed (C : conf) (y y' : sys) (b : button) (bs : bstate) : Prop := mkPressed {
  pr_state : n_state (y_menu y') = goto C (y_dbg y) (n_state (y_menu y)) b bs;
  pr_set : get_settings y' = pick (n_state (y_menu y)) b bs (get_settings y);
  pr_ramp : is_iron b = false -> ramp_fields (y_menu y') = ramp_after (y_now y) (y_menu y) b bs;
  pr_tmo : is_iron b = false -> n_state (y_menu y') = n_state (y_menu y) -> timed (n_state (y_menu y)) = true ->
           n_timeout (y_menu y') = u16 (y_now y + 3000);
  pr_stay : timed (n_state (y_menu y)) = false -> n_state (y_menu y') = n_state (y_menu y) -> n_timeout (y_menu y') = n_timeout (y_menu y);
  pr_tmo2 : forall d, n_state (y_menu y') <> n_state (y_menu y) -> tmo (n_state (y_menu y')) = Some d -> n_timeout (y_menu y') = u16 (y_now y + d);
  pr_dbg : y_dbg y' = match n_state (y_menu y) with
                      | MENU_DEBUG => if is_pos bs then if is_plus b then true else if is_minus b then false else y_dbg y else y_dbg y
                      | _ => y_dbg y end;
  pr_err : n_err (y_menu y') = n_err (y_menu y) /\ n_heating (y_menu y') = n_heating (y_menu y);
  pr_idle : t_idle (y_ct y') = t_idle (y_ct y)
}.

Lemma arm_timeout_eq y d : 0 <= d <= 32767 -> arm_menu_timeout y d = Some (set_y_menu y (set_n_timeout (y_menu y) (u16 (y_now y + d)))).
Proof. intros H. unfold arm_menu_timeout. rewrite arm_ok by assumption. reflexivity. Qed.
Lemma armed_ok B C y t : inv B C y -> ramp_ok (y_menu y) -> let z := set_y_menu y (set_n_timeout (y_menu y) t) in
  inv B C z /\ ramp_ok (y_menu z) /\ vstep y z /\ side_frame y z.
Proof.
  intros I Ro z. unfold z. destruct (i_menu _ _ _ I) as (_ & Ep & Ee). split; [apply menu_only; sy; auto|]. split; [exact Ro|].
  split; [apply vstep_menu; reflexivity|apply side_menu].
Qed.

(** After the switch: everything but stopping the ramp and the SET key. *)
Definition sw_ok (B : bnds) (C : conf) (y y' : sys) (b : button) (bs : bstate) : Prop :=
  inv B C y' /\ (is_neg bs = false -> ramp_ok (y_menu y')) /\ vstep y y' /\ side_frame y y' /\ y_btn y' = y_btn y /\
  n_state (y_menu y') = (if is_neg bs && negb (is_set b) then match n_state (y_menu y) with MENU_CURTEMP => MENU_SELPRESET | s => s end
                         else n_state (y_menu y)) /\
  get_settings y' = pick (n_state (y_menu y)) b bs (get_settings y) /\
  ramp_fields (y_menu y') = (if is_neg bs then ramp_fields (y_menu y) else ramp_after (y_now y) (y_menu y) b bs) /\
  (timed (n_state (y_menu y)) = true -> n_timeout (y_menu y') = u16 (y_now y + 3000)) /\
  (timed (n_state (y_menu y)) = false -> n_state (y_menu y') = n_state (y_menu y) -> n_timeout (y_menu y') = n_timeout (y_menu y)) /\
  (n_state (y_menu y') <> n_state (y_menu y) -> n_timeout (y_menu y') = u16 (y_now y + 3000)) /\
  y_dbg y' = match n_state (y_menu y) with
             | MENU_DEBUG => if is_pos bs then if is_plus b then true else if is_minus b then false else y_dbg y else y_dbg y
             | _ => y_dbg y end /\
  (n_err (y_menu y') = n_err (y_menu y) /\ n_heating (y_menu y') = n_heating (y_menu y)) /\ t_idle (y_ct y') = t_idle (y_ct y).

(** A plain ramp menu. *)
Lemma sw_ramp B C y b bs s pre h : inv B C y -> ramp_ok (y_menu y) -> n_state (y_menu y) = s -> rampable s = Some (pre, h) ->
  ramp_of_menu h s -> s <> MENU_CURTEMP -> s <> MENU_SELPRESET -> s <> MENU_DEBUG ->
  sw_ok B C y (ramp_key (if timed s then set_y_menu y (set_n_timeout (y_menu y) (u16 (y_now y + 3000))) else y) b bs pre h) b bs.
Proof.
  intros I Ro Es Er Hr N1 N2 N3. set (z := if timed s then _ else y).
  assert (Z : inv B C z /\ ramp_ok (y_menu z) /\ vstep y z /\ side_frame y z).
  { unfold z. destruct (timed s); [apply armed_ok; assumption|]. split; [exact I|]. split; [exact Ro|]. split; [apply vstep_refl|apply side_refl]. }
  destruct Z as (Iz & Rz & Vz & Sz).
  assert (Ez : n_state (y_menu z) = s) by (unfold z; destruct (timed s); exact Es).
  destruct (ramp_key_ok B C z b bs pre h Iz Rz) as (I' & R' & V' & S'); [rewrite Ez; exact Hr|].
  assert (F : y_btn (ramp_key z b bs pre h) = y_btn y /\ n_state (y_menu (ramp_key z b bs pre h)) = s /\ get_settings (ramp_key z b bs pre h) = get_settings y /\
    n_timeout (y_menu (ramp_key z b bs pre h)) = (if timed s then u16 (y_now y + 3000) else n_timeout (y_menu y)) /\
    y_dbg (ramp_key z b bs pre h) = y_dbg y /\ (n_err (y_menu (ramp_key z b bs pre h)) = n_err (y_menu y) /\ n_heating (y_menu (ramp_key z b bs pre h)) = n_heating (y_menu y)) /\
    t_idle (y_ct (ramp_key z b bs pre h)) = t_idle (y_ct y) /\ ramp_fields (y_menu (ramp_key z b bs pre h)) =
      match key_ramp b bs with Some up => (dir up pre, y_now y, if pre then u16 (y_now y + 1000) else n_pretimer (y_menu y), Some h, 400) | None => ramp_fields (y_menu y) end).
  { unfold ramp_key, z. destruct (timed s), (key_ramp b bs); unfold ramped; sy; repeat split; try exact Es. }
  destruct F as (F1&F2&F3&F4&F5&F6&F7&F8). unfold sw_ok. split; [exact I'|]. split; [intros _; exact R'|]. split; [eapply vstep_trans; eassumption|].
  split; [eapply side_trans; eassumption|]. split; [exact F1|]. rewrite Es, F2, F3, F4, F5, F8.
  split; [destruct (is_neg bs && negb (is_set b)); [destruct s; congruence|reflexivity]|].
  split; [destruct s; try reflexivity; congruence|].
  split. { unfold ramp_after. rewrite Es, Er. destruct bs; cbn [is_neg]; try reflexivity. }
  split; [intros ->; reflexivity|]. split; [intros -> _; reflexivity|]. split; [congruence|]. split; [destruct s; congruence|]. split; [exact F6|exact F7].
Qed.

Lemma pick_other y b bs s : s <> MENU_SELPRESET -> pick s b bs (get_settings y) = get_settings y.
Proof. destruct s; congruence || reflexivity. Qed.
Lemma switch_ok B C y b bs : inv B C y -> ramp_ok (y_menu y) -> bok B -> is_iron b = false ->
  exists y', menu_button_switch C y b bs = Some y' /\ sw_ok B C y y' b bs.
Proof.
  intros I Ro HB Hb. destruct (i_menu _ _ _ I) as (Al & Pe & Er).
  assert (Same : rampable (n_state (y_menu y)) = None -> n_state (y_menu y) <> MENU_DEBUG -> sw_ok B C y y b bs).
  { intros N Nd. unfold sw_ok. split; [exact I|]. split; [intros _; exact Ro|]. split; [apply vstep_refl|]. split; [apply side_refl|]. split; [reflexivity|].
    split; [destruct (is_neg bs && negb (is_set b)), (n_state (y_menu y)); cbn in N; congruence|].
    split; [symmetry; apply pick_other; intros X; rewrite X in N; discriminate|].
    split; [unfold ramp_after; rewrite N; destruct (is_neg bs); reflexivity|].
    split; [destruct (n_state (y_menu y)); cbn in *; congruence|]. split; [reflexivity|]. split; [congruence|].
    split; [destruct (n_state (y_menu y)); try reflexivity; congruence|]. auto. }
  unfold menu_button_switch, MENU_SELPRESET_TIMEOUT, MENU_CHGPRESET_TIMEOUT, MENU_IDLETEMP_TIMEOUT.
  destruct (n_state (y_menu y)) eqn:Es; cbn [allowed] in Al; rewrite ?Al; cbn [negb];
    try (exists y; split; [reflexivity|]; apply Same; [reflexivity|discriminate]).
  - (* CURTEMP *)
    rewrite ramp_key_eq. cbn [bind]. destruct (ramp_key_ok B C y b bs true HSettemp I Ro) as (I1 & R1 & V1 & S1); [left; exact Es|].
    set (y1 := ramp_key y b bs true HSettemp) in *.
    assert (F : y_btn y1 = y_btn y /\ n_state (y_menu y1) = MENU_CURTEMP /\ get_settings y1 = get_settings y /\ n_timeout (y_menu y1) = n_timeout (y_menu y) /\
      y_dbg y1 = y_dbg y /\ (n_err (y_menu y1) = n_err (y_menu y) /\ n_heating (y_menu y1) = n_heating (y_menu y)) /\ t_idle (y_ct y1) = t_idle (y_ct y) /\
      (is_neg bs = false -> ramp_fields (y_menu y1) = ramp_after (y_now y) (y_menu y) b bs) /\ (is_neg bs = true -> y1 = y)).
    { unfold y1, ramp_key, ramp_after. rewrite Es. cbn [rampable]. destruct bs; cbn [key_ramp is_pos is_neg]; unfold key_ramp; cbn [is_pos];
        [destruct (is_minus b); [|destruct (is_plus b)]| |]; unfold ramped; sy; rewrite ?Es; repeat split; intros; try discriminate; reflexivity. }
    destruct F as (F1&F2&F3&F4&F5&F6&F7&F8&F9). destruct (is_neg bs && negb (is_set b)) eqn:En.
    + apply andb_prop in En as (En & Ens). specialize (F9 En). clearbody y1. subst y1.
      assert (Hd : y_dbg y = false).
      { destruct (y_dbg y) eqn:E; [|reflexivity]. destruct (proj1 (i_dbg _ _ _ I) E) as (_ & X). congruence. }
      destruct (enter_ok B C y MENU_SELPRESET I) as (y' & k & E2 & I2 & _ & Ee & S2 & F' & V2 & X1 & X2 & X3 & X4 & X5 & (t & u & X6) & X7 & X8).
      { split; [reflexivity|]. split; [congruence|]. rewrite Es. reflexivity. }
      exists y'. split; [exact E2|]. rewrite Es in Ee. cbn in Ee.
      assert (Et : n_timeout (y_menu y') = u16 (y_now y + 3000)) by (rewrite Ee; reflexivity).
      unfold sw_ok. split; [exact I2|]. rewrite En, Ens, Es, S2, X4, X7. cbn [andb].
      split; [discriminate|]. split; [exact V2|]. split; [exact F'|]. split; [exact X5|]. split; [reflexivity|].
      split; [unfold get_settings; rewrite X1; reflexivity|]. split; [rewrite X6; reflexivity|]. split; [intros _; exact Et|]. split; [discriminate|].
      split; [intros _; exact Et|]. split; [reflexivity|]. split; [rewrite X6; split; reflexivity|reflexivity].
    + exists y1. split; [reflexivity|]. unfold sw_ok. rewrite En, Es, F2, F3, F4, F5, F7.
      split; [exact I1|]. split; [intros _; exact R1|]. split; [exact V1|]. split; [exact S1|]. split; [exact F1|]. split; [reflexivity|]. split; [reflexivity|].
      split; [destruct (is_neg bs) eqn:Enn; [rewrite F9 by reflexivity; reflexivity|apply F8; reflexivity]|].
      split; [discriminate|]. split; [reflexivity|]. split; [congruence|]. split; [reflexivity|]. split; [exact F6|reflexivity].
  - (* SELPRESET *)
    rewrite arm_timeout_eq by lia. cbn [bind]. destruct (armed_ok B C y (u16 (y_now y + 3000)) I Ro) as (I1 & R1 & V1 & S1). cbv zeta in *.
    set (y1 := set_y_menu y (set_n_timeout (y_menu y) (u16 (y_now y + 3000)))) in *.
    assert (K : exists y2, (if is_neg bs then if is_plus b then presets_next C y1 else if is_minus b then presets_prev C y1 else Some y1 else Some y1) = Some y2 /\
      inv B C y2 /\ vstep y1 y2 /\ side_frame y1 y2 /\ y_btn y2 = y_btn y /\ get_settings y2 = pick MENU_SELPRESET b bs (get_settings y) /\
      (exists u, y_menu y2 = set_n_upd (y_menu y1) u) /\ y_dbg y2 = y_dbg y /\ t_idle (y_ct y2) = t_idle (y_ct y)).
    { assert (Tr : pick MENU_SELPRESET b bs (get_settings y) = get_settings y -> exists y2, Some y1 = Some y2 /\
        inv B C y2 /\ vstep y1 y2 /\ side_frame y1 y2 /\ y_btn y2 = y_btn y /\ get_settings y2 = pick MENU_SELPRESET b bs (get_settings y) /\
        (exists u, y_menu y2 = set_n_upd (y_menu y1) u) /\ y_dbg y2 = y_dbg y /\ t_idle (y_ct y2) = t_idle (y_ct y)).
      { intros Ep. exists y1. split; [reflexivity|]. split; [exact I1|]. split; [apply vstep_refl|]. split; [apply side_refl|]. rewrite Ep.
        repeat (split; [reflexivity|]). split; [exists (n_upd (y_menu y1)); symmetry; apply upd_id|]. split; reflexivity. }
      assert (Fin : forall y2 i a, inv B C y2 -> y2 = set_y_menu (resettled C y1 (set_s_active (get_settings y1) i) a) (set_n_upd (y_menu y1) true) ->
        pick MENU_SELPRESET b bs (get_settings y) = set_s_active (get_settings y) i ->
        inv B C y2 /\ vstep y1 y2 /\ side_frame y1 y2 /\ y_btn y2 = y_btn y /\ get_settings y2 = pick MENU_SELPRESET b bs (get_settings y) /\
        (exists u, y_menu y2 = set_n_upd (y_menu y1) u) /\ y_dbg y2 = y_dbg y /\ t_idle (y_ct y2) = t_idle (y_ct y)).
      { intros y2 i a I2 Ey Ep. split; [exact I2|]. rewrite Ep, Ey. unfold resettled. sy. split; [apply vstep_upd; reflexivity|].
        split. { unfold side_frame. sy. repeat (split; [reflexivity|]). split; [apply meas_side_refl|]. repeat (split; [reflexivity|]). left; repeat split; reflexivity. }
        repeat (split; [reflexivity|]). split; [eexists; reflexivity|]. split; reflexivity. }
      destruct (is_neg bs) eqn:En; [destruct (is_plus b) eqn:Epl; [|destruct (is_minus b) eqn:Emi]|].
      - destruct (presets_next_ok B C y1 I1 HB) as (y2 & a & i & E & I2 & Ei & Ey & _). exists y2. split; [exact E|]. apply (Fin y2 i a I2 Ey).
        unfold pick. rewrite En, Epl. cbn [andb]. rewrite Ei. reflexivity.
      - destruct (presets_prev_ok B C y1 I1 HB) as (y2 & a & i & E & I2 & Ei & Ey & _). exists y2. split; [exact E|]. apply (Fin y2 i a I2 Ey).
        unfold pick. rewrite En, Epl, Emi. cbn [andb]. rewrite Ei. reflexivity.
      - apply Tr. unfold pick. rewrite En, Epl, Emi. reflexivity.
      - apply Tr. unfold pick. rewrite En. reflexivity. }
    destruct K as (y2 & E2 & I2 & V2 & S2 & K1 & K2 & (u & K3) & K4 & K5). rewrite E2. cbn [bind]. rewrite ramp_key_eq.
    assert (Ro2 : ramp_ok (y_menu y2)) by (rewrite K3; exact R1).
    destruct (ramp_key_ok B C y2 b bs true HSettemp I2 Ro2) as (I3 & R3 & V3 & S3); [right; left; rewrite K3; exact Es|].
    eexists. split; [reflexivity|]. assert (Nw : y_now y2 = y_now y) by (destruct S2 as (X & _); exact X).
    assert (F : forall z, z = ramp_key y2 b bs true HSettemp -> y_btn z = y_btn y /\ n_state (y_menu z) = MENU_SELPRESET /\ get_settings z = get_settings y2 /\
      n_timeout (y_menu z) = u16 (y_now y + 3000) /\ y_dbg z = y_dbg y /\ (n_err (y_menu z) = n_err (y_menu y) /\ n_heating (y_menu z) = n_heating (y_menu y)) /\
      t_idle (y_ct z) = t_idle (y_ct y) /\
      ramp_fields (y_menu z) = (if is_neg bs then ramp_fields (y_menu y) else ramp_after (y_now y) (y_menu y) b bs)).
    { intros z ->. unfold ramp_key, ramp_after. rewrite Es. cbn [rampable]. destruct bs; unfold key_ramp; cbn [is_pos is_neg];
        [destruct (is_minus b); [|destruct (is_plus b)]| |]; unfold ramped, ramp_fields; sy; rewrite ?Nw, ?K3; unfold y1; sy; rewrite ?Es; repeat split; assumption. }
    destruct (F _ eq_refl) as (F1&F2&F3&F4&F5&F6&F7&F8). clear F. unfold sw_ok. rewrite Es, F2, F3, F4, F5, F7, F8, K2.
    split; [exact I3|]. split; [intros _; exact R3|]. split; [eapply vstep_trans; [exact V1|eapply vstep_trans; eassumption]|].
    split; [eapply side_trans; [exact S1|eapply side_trans; eassumption]|]. split; [exact F1|]. split; [destruct (_ && _); reflexivity|]. do 2 (split; [reflexivity|]).
    split; [reflexivity|]. split; [discriminate|]. split; [congruence|]. split; [reflexivity|]. split; [exact F6|reflexivity].
  - (* CHGPRESET *)
    rewrite arm_timeout_eq by lia. cbn [bind]. rewrite ramp_key_eq. eexists. split; [reflexivity|].
    apply (sw_ramp B C y b bs MENU_CHGPRESET false HSettemp I Ro Es eq_refl); [right; right; reflexivity|discriminate|discriminate|discriminate].
  - (* IDLETEMP *)
    rewrite arm_timeout_eq by lia. cbn [bind]. rewrite ramp_key_eq. eexists. split; [reflexivity|].
    apply (sw_ramp B C y b bs MENU_IDLETEMP false HIdletemp I Ro Es eq_refl); [reflexivity|discriminate|discriminate|discriminate].
  - (* DEBUG *)
    assert (K : forall y' d, inv B C y' -> vstep y y' -> side_frame y y' -> y_btn y' = y_btn y -> (exists u, y_menu y' = set_n_upd (y_menu y) u) ->
      y_set y' = y_set y -> y_ct y' = y_ct y -> y_dbg y' = d ->
      d = (if is_pos bs then if is_plus b then true else if is_minus b then false else y_dbg y else y_dbg y) -> sw_ok B C y y' b bs).
    { intros y' d I' V S Eb (u & Eu) Ex Et Ed Ed'. unfold sw_ok. rewrite Es, Eu, Et, Ed, Ed'. unfold get_settings. rewrite Ex. sy. rewrite Es. split; [exact I'|].
      split; [intros _; exact Ro|]. split; [exact V|]. split; [exact S|]. split; [exact Eb|]. split; [destruct (is_neg bs && negb (is_set b)); reflexivity|].
      split; [reflexivity|]. split. { unfold ramp_after. rewrite Es. cbn [rampable]. destruct (is_neg bs); reflexivity. }
      split; [discriminate|]. split; [reflexivity|]. split; [congruence|]. repeat split. }
    assert (Tr : y_dbg y = (if is_pos bs then if is_plus b then true else if is_minus b then false else y_dbg y else y_dbg y) -> sw_ok B C y y b bs).
    { intros Ed. apply (K y (y_dbg y)); auto using vstep_refl, side_refl. exists (n_upd (y_menu y)). symmetry; apply upd_id. }
    destruct (is_pos bs) eqn:Ep; [|exists y; split; [reflexivity|]; apply Tr; reflexivity].
    destruct (is_plus b) eqn:Epl; [|destruct (is_minus b) eqn:Emi; [|exists y; split; [reflexivity|]; apply Tr; reflexivity]].
    + destruct (debug_enable_ok B C y true I Es Al) as (y' & E & I' & S & X1 & X2 & X3 & X4 & X5 & X6 & X7 & X8).
      exists y'. split; [exact E|]. apply (K y' true); auto.
      * right. split; [rewrite X1; reflexivity|]. unfold vis. rewrite X1, X5, X3, (X8 eq_refl). reflexivity.
      * exists (n_upd (y_menu y)). rewrite X1. symmetry; apply upd_id.
    + destruct (debug_enable_ok B C y false I Es Al) as (y' & E & I' & S & X1 & X2 & X3 & X4 & X5 & X6 & X7 & X8).
      rewrite E. cbn [bind]. eexists. split; [reflexivity|]. unfold menu_request_display_update. apply (K _ false); sy; auto.
      * apply inv_upd. exact I'.
      * apply vstep_upd. reflexivity.
      * exists true. rewrite X1. reflexivity.
  - rewrite ramp_key_eq. eexists. split; [reflexivity|]. apply (sw_ramp B C y b bs MENU_ADJ false HAdj I Ro Es eq_refl); [reflexivity|discriminate|discriminate|discriminate].
  - rewrite ramp_key_eq. eexists. split; [reflexivity|]. apply (sw_ramp B C y b bs MENU_KP false HKp I Ro Es eq_refl); [reflexivity|discriminate|discriminate|discriminate].
  - rewrite ramp_key_eq. eexists. split; [reflexivity|]. apply (sw_ramp B C y b bs MENU_KI false HKi I Ro Es eq_refl); [reflexivity|discriminate|discriminate|discriminate].
  - rewrite ramp_key_eq. eexists. split; [reflexivity|]. apply (sw_ramp B C y b bs MENU_KD false HKd I Ro Es eq_refl); [reflexivity|discriminate|discriminate|discriminate].
Qed.
