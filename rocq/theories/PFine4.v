(** * Interrupts inside the work functions, part 4: ramps, buttons, menu_work *)
From Coq Require Import ZArith List Bool Lia ZifyBool.
From Verif Require Import Base PBase MConf MUtil MFixpt MScale MRing MFilter MTimer MPid MPwm MTempMap MCurr MSens
  SpecNum SpecPid SpecSmall PNum PSmall PScale PPid SpecCurr PCurr MSettings SpecSettings PSettings PSysSet
  MSseg MDisplay MText MState MTemp MMeas MMenu MMain SpecDisplay PDisplay SpecSys PSys PSysMeas PSysMenu PSysDisp PSysBtn PSysStep PSysRun MFine PFine PFine2 PFine3.
Import ListNotations.
Open Scope Z_scope.
Ltac Zify.zify_post_hook ::= Z.div_mod_to_equations.


Section Menu.
Variables (B : bnds) (C : conf).
Hypothesis HC : build_conf C.
Hypothesis HB : bok B.
Local Notation mok := (mok B C).
Local Notation good := (good B C).
Local Notation inv := (inv B C).
Local Notation moved := (moved B C).

(** ** Ramps *)
Definition pretimed (z : sys) (t : Z) : sys := set_y_menu z (set_n_pretimer (y_menu z) t).
Lemma start_ramping_fine y up pre h : core B C y ->
  fok (start_ramping_f C y up pre h) (fun z => exists n m x t, mok y n m x /\ z = pretimed (ramped (mv y n m x) up pre h) t).
Proof.
  intros K. unfold start_ramping_f. destruct pre.
  - apply fok_bind. apply (fok_point B C HC HB); [destruct K; constructor; assumption|]. intros n m x O.
    assert (O' : mok y n m x) by (eapply mok_ext; [| |exact O]; reflexivity).
    eapply fok_step; [apply arm_ok; unfold RAMP_PRE_TIMEOUT_MS; lia|]. apply fok_ret.
    apply (fok_point B C HC HB); [destruct (mok_core _ _ _ _ _ _ O'); constructor; assumption|]. intros n' m' x' O2.
    apply fok_ret. exists n', m', x', (u16 (n + 1000)). split; [eapply mok_trans; [exact O'|eapply mok_ext; [| |exact O2]; reflexivity]|].
    unfold pretimed, ramped, mv, dir, timer_set_now, RAMP_START_PERIOD_MS, RAMP_PRE_TIMEOUT_MS. sy. destruct up; reflexivity.
  - apply fok_done. apply (fok_point B C HC HB); [destruct K; constructor; assumption|]. intros n m x O.
    apply fok_ret. exists n, m, x, (n_pretimer (y_menu y)). split; [eapply mok_ext; [| |exact O]; reflexivity|].
    unfold pretimed, ramped, mv, dir, timer_set_now, RAMP_START_PERIOD_MS. sy. destruct up; reflexivity.
Qed.
Definition fine (y y' : sys) : Prop := good y y' /\ ramp_ok (y_menu y') /\ vstep y y'.
Definition kept (y y' : sys) : Prop := n_state (y_menu y') = n_state (y_menu y) /\ y_dbg y' = y_dbg y.
Lemma fine_refl y : inv y -> ramp_ok (y_menu y) -> fine y y.
Proof. intros I Ro. split; [apply good_refl; exact I|]. split; [exact Ro|apply vstep_refl]. Qed.
Lemma fine_trans a b c : fine a b -> fine b c -> fine a c.
Proof. intros (A1&A2&A3) (B1&B2&B3). split; [eapply good_trans; eassumption|]. split; [exact B2|eapply vstep_trans; eassumption]. Qed.
Lemma ramped_fine y up pre h n m x t : inv y -> mok y n m x -> (exists r, h = Some r /\ ramp_of_menu r (n_state (y_menu y))) ->
  fine y (pretimed (ramped (mv y n m x) up pre h) t) /\ kept y (pretimed (ramped (mv y n m x) up pre h) t).
Proof.
  intros I O (r & Eh & Hr). pose proof (mv_inv _ _ _ _ _ _ I O) as I2. pose proof (ramped_ok B C _ up pre h I2) as I3.
  set (z := ramped (mv y n m x) up pre h) in *. destruct (i_menu _ _ _ I3) as (_ & Zp & Ze).
  assert (I4 : inv (pretimed z t)) by (apply menu_only; sy; auto).
  split; [|split; reflexivity]. split; [|split].
  - eapply good_trans; [apply good_mv; eassumption|]. apply good_side; [exact I4|]. exact (side_menu (mv y n m x) _).
  - right. exists r. split; [exact Eh|exact Hr].
  - eapply vstep_trans; [eapply mv_vstep; exact O|]. apply (vstep_menu (mv y n m x)); reflexivity.
Qed.
Lemma ramp_key_fine y b bs pre h : inv y -> ramp_ok (y_menu y) -> ramp_of_menu h (n_state (y_menu y)) ->
  fok (start_ramping_button_f C y b bs pre h) (fun y' => fine y y' /\ kept y y' /\ (is_neg bs = true -> y' = y)).
Proof.
  intros I Ro Hr. unfold start_ramping_button_f. destruct (is_pos bs) eqn:Ep.
  2:{ apply fok_ret. split; [apply fine_refl; assumption|]. split; [split|]; reflexivity. }
  assert (Hn : is_neg bs = false) by (destruct bs; cbn in *; congruence).
  assert (K : forall up, fok (start_ramping_f C y up pre (Some h)) (fun y' => fine y y' /\ kept y y' /\ (is_neg bs = true -> y' = y))).
  { intros up. eapply fok_mono; [apply start_ramping_fine; apply inv_core; exact I|]. intros z (n & m & x & t & O & ->).
    destruct (ramped_fine y up pre (Some h) n m x t I O) as (G1 & G2); [eauto|]. split; [exact G1|]. split; [exact G2|]. congruence. }
  destruct (is_minus b); [apply K|]. destruct (is_plus b); [apply K|].
  apply fok_ret. split; [apply fine_refl; assumption|]. split; [split|]; reflexivity.
Qed.

(** ** Buttons of the menu *)
Lemma arm_fine y d : inv y -> ramp_ok (y_menu y) -> 0 <= d <= 32767 ->
  fok (arm_menu_timeout_f C y d) (fun y' => fine y y' /\ kept y y').
Proof.
  intros I Ro Hd. eapply fok_mono; [apply arm_menu_fine; [exact HC|exact HB|apply inv_core; exact I|exact Hd]|]. intros z (n & m & x & O & ->).
  pose proof (mv_inv _ _ _ _ _ _ I O) as I2. destruct (armed_ok B C (mv y n m x) (u16 (n + d)) I2 Ro) as (I3 & R3 & V3 & S3). cbv zeta in *.
  split; [|split; reflexivity]. split; [|split; [exact R3|eapply vstep_trans; [eapply mv_vstep; exact O|exact V3]]].
  eapply good_trans; [apply good_mv; eassumption|]. apply good_side; [exact I3|exact S3].
Qed.
Lemma debug_enable_fine y en : inv y -> n_state (y_menu y) = MENU_DEBUG -> c_debug C = true ->
  fok (debug_enable_f C y en) (fun y' => good y y' /\ y_menu y' = y_menu y /\ (en = true -> vstep y y')).
Proof.
  intros I Hs Hc. unfold debug_enable_f. rewrite Hc. apply (fok_point B C HC HB); [destruct (inv_core _ _ _ I); constructor; assumption|]. intros n m x O.
  assert (O' : mok y n m x) by (eapply mok_ext; [| |exact O]; reflexivity). pose proof (mv_inv _ _ _ _ _ _ I O') as I2.
  destruct (debug_enable_ok B C (mv y n m x) en I2 Hs Hc) as (y' & E & I' & S & X1 & X2 & X3 & X4 & X5 & X6 & X7 & X8).
  unfold debug_enable in E. rewrite Hc in E. sy in E. destruct (display_enable (y_now (mv y n m x)) (y_hw (mv y n m x)) (y_disp (mv y n m x)) (negb en)) as [[h d]|] eqn:Ed; [|discriminate E].
  cbn [bind] in E. eapply fok_step; [exact Ed|]. apply fok_ret. apply Some_inj in E.
  match goal with |- good y ?z /\ _ => change z with (set_y_hw (set_y_disp (set_y_dbg (mv y n m x) en) d) (set_h_tx h en)) end. rewrite E.
  split; [eapply good_trans; [apply good_mv; eassumption|apply good_side; [exact I'|exact S]]|]. split; [exact X1|]. intros Een.
  eapply vstep_trans; [eapply mv_vstep; exact O'|]. right. split; [rewrite X1; reflexivity|]. unfold vis. rewrite X1, X5, X3, (X8 Een). reflexivity.
Qed.
Definition switched (y y' : sys) (b : button) (bs : bstate) : Prop :=
  good y y' /\ (is_neg bs = false -> ramp_ok (y_menu y')) /\ vstep y y' /\
  n_state (y_menu y') = (if is_neg bs && negb (is_set b) then match n_state (y_menu y) with MENU_CURTEMP => MENU_SELPRESET | s => s end
                         else n_state (y_menu y)) /\
  (is_neg bs = true -> y_dbg y' = y_dbg y).
Lemma switch_fine y b bs : inv y -> ramp_ok (y_menu y) -> is_iron b = false -> fok (menu_button_switch_f C y b bs) (fun y' => switched y y' b bs).
Proof.
  intros I Ro Hb. destruct (i_menu _ _ _ I) as (Al & _).
  assert (Same : n_state (y_menu y) <> MENU_CURTEMP -> forall y', fine y y' -> kept y y' -> switched y y' b bs).
  { intros N y' (G & R & V) (S & D). split; [exact G|]. split; [auto|]. split; [exact V|]. split; [|auto]. rewrite S.
    destruct (_ && _); [|reflexivity]. destruct (n_state (y_menu y)); congruence. }
  assert (Id : n_state (y_menu y) <> MENU_CURTEMP -> fok (ret y) (fun y' => switched y y' b bs)).
  { intros N. apply fok_ret. apply Same; [exact N|apply fine_refl; assumption|split; reflexivity]. }
  assert (Rk : forall y1 pre h, n_state (y_menu y) <> MENU_CURTEMP -> fine y y1 -> kept y y1 -> ramp_of_menu h (n_state (y_menu y)) ->
    fok (start_ramping_button_f C y1 b bs pre h) (fun y' => switched y y' b bs)).
  { intros y1 pre h N F (S & D) Hr. eapply fok_mono; [apply ramp_key_fine; [apply F|apply F|rewrite S; exact Hr]|]. intros y' (F' & (S' & D') & _).
    apply Same; [exact N|eapply fine_trans; eassumption|split; congruence]. }
  assert (Tm : forall d h, 0 <= d <= 32767 -> n_state (y_menu y) <> MENU_CURTEMP -> ramp_of_menu h (n_state (y_menu y)) ->
    fok (fbind (arm_menu_timeout_f C y d) (fun y => start_ramping_button_f C y b bs false h)) (fun y' => switched y y' b bs)).
  { intros d h Hd N Hr. eapply fok_seq; [apply arm_fine; [exact I|exact Ro|exact Hd]|]. intros y1 (F & K). apply Rk; assumption. }
  unfold menu_button_switch_f, MENU_SELPRESET_TIMEOUT, MENU_CHGPRESET_TIMEOUT, MENU_IDLETEMP_TIMEOUT.
  destruct (n_state (y_menu y)) eqn:Es; cbn [allowed] in Al; rewrite ?Al; cbn [negb];
    try (apply Id; discriminate);
    try (apply Tm; [lia|discriminate|cbn; auto]);
    try (apply Rk; [discriminate|apply fine_refl; assumption|split; reflexivity|reflexivity]).
  - (* CURTEMP *)
    eapply fok_seq; [apply ramp_key_fine; [exact I|exact Ro|left; exact Es]|]. intros y1 ((G & R & V) & (S & D) & Eq).
    destruct (is_neg bs && negb (is_set b)) eqn:En.
    + apply andb_prop in En as (En & Ens). rewrite (Eq En) in *. eapply fok_mono; [apply enter_fine; [exact HC|exact HB|exact I|]|].
      { split; [reflexivity|]. split; [|intros _; rewrite Es; reflexivity]. intros Hd. destruct (proj1 (i_dbg _ _ _ I) Hd) as (_ & X). congruence. }
      intros y' (M & V' & _). pose proof (moved_state _ _ _ _ _ M) as Ms. destruct M as (G' & _ & D' & _). split; [exact G'|]. split; [congruence|]. split; [exact V'|].
      split; [rewrite En, Ens, Es; exact Ms|]. intros _. exact D'.
    + apply fok_ret. split; [exact G|]. split; [auto|]. split; [exact V|]. split; [rewrite En; exact S|auto].
  - (* SELPRESET *)
    eapply fok_seq; [apply arm_fine; [exact I|exact Ro|lia]|]. intros y1 (F & (S & D)).
    assert (K : fok (if is_neg bs then if is_plus b then presets_next_f C y1 else if is_minus b then presets_prev_f C y1 else ret y1 else ret y1) (fun y2 => fine y y2 /\ kept y y2)).
    { assert (Ch : forall y2, changed B C y1 y2 -> fine y y2 /\ kept y y2).
      { intros y2 (G2 & V2 & (u & M2) & D2 & _). split; [|split; [rewrite M2; exact S|congruence]].
        eapply fine_trans; [exact F|]. split; [exact G2|]. split; [rewrite M2; apply F|exact V2]. }
      assert (Idd : fok (ret y1) (fun y2 => fine y y2 /\ kept y y2)) by (apply fok_ret; split; [exact F|split; assumption]).
      destruct (is_neg bs); [|exact Idd]. destruct (is_plus b); [|destruct (is_minus b); [|exact Idd]].
      - eapply fok_mono; [apply presets_next_fine; [exact HC|exact HB|apply F]|exact Ch].
      - eapply fok_mono; [apply presets_prev_fine; [exact HC|exact HB|apply F]|exact Ch]. }
    eapply fok_seq; [exact K|]. intros y2 (F2 & K2). apply Rk; [discriminate|exact F2|exact K2|cbn; auto].
  - (* DEBUG *)
    destruct (is_pos bs) eqn:Ep; [|apply Id; discriminate].
    assert (Hn : is_neg bs = false) by (destruct bs; cbn in *; congruence).
    destruct (is_plus b) eqn:Epl; [|destruct (is_minus b); [|apply Id; discriminate]].
    + eapply fok_mono; [apply debug_enable_fine; [exact I|exact Es|exact Al]|]. intros y' (G & M & V). split; [exact G|]. split; [intros _; rewrite M; exact Ro|].
      split; [apply V; reflexivity|]. rewrite Hn, M, Es. cbn [andb]. split; [reflexivity|congruence].
    + eapply fok_seq; [apply debug_enable_fine; [exact I|exact Es|exact Al]|]. intros y1 (G & M & V). apply fok_ret.
      split; [eapply good_trans; [exact G|apply good_side; [apply inv_upd; apply G|apply side_menu]]|]. split; [intros _; unfold menu_request_display_update; sy; rewrite M; exact Ro|].
      split; [apply vstep_upd; reflexivity|]. rewrite Hn, Es. cbn [andb]. split; [unfold menu_request_display_update; sy; rewrite M; exact Es|congruence].
Qed.
Lemma menu_handler_fine y b bs : inv y -> ramp_ok (y_menu y) -> fok (menu_button_handler_f C y b bs) (fine y).
Proof.
  intros I Ro. unfold menu_button_handler_f. destruct (is_iron b) eqn:Hb; [apply fok_ret; apply fine_refl; assumption|].
  eapply fok_seq; [apply switch_fine; assumption|]. intros y1 (G & R & V & S & D). destruct (is_neg bs) eqn:En.
  2:{ apply fok_ret. split; [exact G|]. split; [auto|exact V]. }
  cbv zeta. destruct (stop_ok B C y1 (g_inv _ _ _ _ G)) as (I2 & R2 & V2 & S2). set (y2 := stop_ramping y1) in *.
  assert (F2 : fine y y2).
  { split; [eapply good_trans; [exact G|apply good_side; assumption]|]. split; [exact R2|eapply vstep_trans; eassumption]. }
  destruct (is_set b); [|apply fok_ret; exact F2]. destruct (debug_is_enabled C y2) eqn:Hd; cbn [negb]; [apply fok_ret; exact F2|].
  unfold menu_set_next_state_f. eapply fok_mono; [apply enter_fine; [exact HC|exact HB|exact I2|]|].
  - eapply next_can; [exact I2|]. unfold debug_is_enabled in Hd. destruct (c_debug C) eqn:Ec; [exact Hd|].
    destruct (y_dbg y2) eqn:Ed; [|reflexivity]. destruct (proj1 (i_dbg _ _ _ I2) Ed) as (X & _). congruence.
  - intros y' (M & V' & _). eapply fine_trans; [exact F2|]. destruct M as (G' & (t & u & E) & _). split; [exact G'|]. split; [left; rewrite E; reflexivity|exact V'].
Qed.

(** ** Button of the iron *)
Lemma ctrl_fine y y' : fine y y' -> forall z, inv z -> ctrl_frame y' z -> fine y z.
Proof.
  intros F z Iz Fz. eapply fine_trans; [exact F|]. split; [apply good_side; [exact Iz|apply ctrl_side; exact Fz]|].
  assert (V : vstep y' z) by apply Fz. destruct Fz as (_ & (u & E) & _). split; [rewrite E; apply F|exact V].
Qed.
Lemma mv_fine y n m x : inv y -> ramp_ok (y_menu y) -> mok y n m x -> fine y (mv y n m x).
Proof. intros I Ro O. split; [apply good_mv; assumption|]. split; [exact Ro|eapply mv_vstep; exact O]. Qed.
Lemma ctrl_button_fine y b bs : inv y -> ramp_ok (y_menu y) -> fok (contrtemp_button_handler_f C y b bs) (fine y).
Proof.
  intros I Ro. unfold contrtemp_button_handler_f.
  destruct (c_boost C && c_idle C) eqn:Hbi.
  2:{ destruct (ctrl_button_ok B C y b bs I) as (y1 & E1 & I1 & F1 & _). eapply fok_lift; [exact E1|]. eapply ctrl_fine; [apply fine_refl; assumption|exact I1|exact F1]. }
  apply andb_prop in Hbi as (Hb & Hi). unfold button_boost_idle_f. cbv zeta. destruct (is_iron b); cbn [negb]; [|apply fok_ret; apply fine_refl; assumption].
  assert (K : fok (if is_pos bs then y0 <~ pt C y;; tm <~ lift (timer_arm (y_now y0) CONTRTEMP_BUTTON_BOOST_DELAY);; ret (set_y_ct y0 (set_t_bilet (set_t_bitimer (y_ct y0) tm) true)) else ret y) (fine y)).
  { destruct (is_pos bs); [|apply fok_ret; apply fine_refl; assumption]. apply (fok_point B C HC HB); [apply inv_core; exact I|]. intros n m x O.
    eapply fok_step; [apply arm_ok; unfold CONTRTEMP_BUTTON_BOOST_DELAY; lia|]. apply fok_ret.
    eapply ctrl_fine; [apply mv_fine; eassumption| |apply bi_frame]. apply inv_bi. apply mv_inv; assumption. }
  eapply fok_seq; [exact K|]. clear K. intros y1 F1. destruct (t_bilet (y_ct y1)); [|apply fok_ret; exact F1].
  assert (I1 : inv y1) by apply F1. apply (fok_point B C HC HB); [apply inv_core; exact I1|]. intros n m x O.
  assert (F2 : fine y (mv y1 n m x)) by (eapply fine_trans; [exact F1|apply mv_fine; [exact I1|apply F1|exact O]]). set (y2 := mv y1 n m x) in *. assert (I2 : inv y2) by apply F2. clearbody y2.
  destruct (_ || _).
  - destruct (idle_step_ok B C y2 (negb (t_idle (y_ct y))) I2) as (y3 & E3 & I3 & F3 & _). eapply fok_step; [exact E3|]. apply fok_ret.
    eapply ctrl_fine; [exact F2|apply bilet_ok; exact I3|eapply ctrl_trans; [exact F3|apply bilet_frame]].
  - destruct (is_neg bs); [|apply fok_ret; exact F2].
    destruct (boost_step_ok B C y2 I2 Hb) as (y3 & E3 & I3 & F3 & _). eapply fok_step; [exact E3|]. apply fok_ret.
    eapply ctrl_fine; [exact F2|apply bilet_ok; exact I3|eapply ctrl_trans; [exact F3|apply bilet_frame]].
Qed.
Lemma run_calls_fine l : forall y, inv y -> ramp_ok (y_menu y) -> fok (run_calls_f C y l) (fine y).
Proof.
  induction l as [|(b & bs) r IH]; intros y I Ro; cbn [run_calls_f]; [apply fok_ret; apply fine_refl; assumption|].
  unfold call_button_handlers_f. apply fok_bind. eapply fok_seq; [apply ctrl_button_fine; assumption|]. intros y1 F1.
  eapply fok_mono; [apply menu_handler_fine; apply F1|]. intros y2 F2. pose proof (fine_trans _ _ _ F1 F2) as F.
  eapply fok_mono; [apply IH; apply F|]. intros y3 F3. eapply fine_trans; eassumption.
Qed.
Lemma buttons_fine y pinb : inv y -> ramp_ok (y_menu y) -> fok (buttons_work_f C y pinb) (fine y).
Proof.
  intros I Ro. unfold buttons_work_f. apply (fok_point B C HC HB); [apply inv_core; exact I|]. intros n m x O.
  pose proof (mv_fine y n m x I Ro O) as F. cbv zeta. destruct (timer_expired _ _); cbn [negb]; [|apply fok_ret; exact F].
  eapply fok_step; [apply add_ok; unfold BUTTONS_DEBOUNCE_MS; lia|]. set (bt := mkBtn _ _). set (y1 := set_y_btn _ bt).
  assert (I1 : inv y1).
  { unfold y1, mv. pose proof (g_inv _ _ _ _ (proj1 F)) as J. unfold mv in J. destruct J. constructor; sy; try assumption. apply raw_u8. }
  eapply fok_mono; [apply run_calls_fine; [exact I1|exact Ro]|]. intros y' F'. eapply fine_trans; [exact F|]. destruct F' as ([? ? ? ? ? ? ?] & R' & V'). split; [constructor; assumption|]. split; [exact R'|exact V'].
Qed.

(** ** menu_work *)
Lemma timeouts_fine y : inv y -> ramp_ok (y_menu y) -> fok (menu_timeouts_f C y) (fine y).
Proof.
  intros I Ro. unfold menu_timeouts_f.
  assert (Id : fok (ret y) (fine y)) by (apply fok_ret; apply fine_refl; assumption).
  assert (K : y_dbg y = false -> can_enter C y (on_timeout C (n_state (y_menu y))) -> fok (y <~ pt C y ;;
    if timer_expired (y_now y) (n_timeout (y_menu y)) then
      y <~ (if mstate_eqb (n_state (y_menu y)) MENU_IDLETEMP then menu_set_state_f C y MENU_CURTEMP else menu_set_next_state_f C y) ;;
      ret (stop_ramping y)
    else ret y) (fine y)).
  { intros Hd Can. apply (fok_point B C HC HB); [apply inv_core; exact I|]. intros n m x O. pose proof (mv_fine y n m x I Ro O) as F.
    destruct (timer_expired _ _); [|apply fok_ret; exact F].
    assert (E0 : (if mstate_eqb (n_state (y_menu (mv y n m x))) MENU_IDLETEMP then menu_set_state_f C (mv y n m x) MENU_CURTEMP else menu_set_next_state_f C (mv y n m x)) =
      menu_set_state_f C (mv y n m x) (on_timeout C (n_state (y_menu y)))).
    { unfold menu_set_next_state_f, mv. sy. destruct (n_state (y_menu y)); reflexivity. }
    rewrite E0. eapply fok_seq; [apply enter_fine; [exact HC|exact HB|apply F|exact Can]|]. intros y1 ((G1 & _) & V1 & _). apply fok_ret.
    destruct (stop_ok B C y1 (g_inv _ _ _ _ G1)) as (I2 & R2 & V2 & S2). eapply fine_trans; [exact F|].
    split; [eapply good_trans; [exact G1|apply good_side; assumption]|]. split; [exact R2|eapply vstep_trans; eassumption]. }
  assert (Hd : n_state (y_menu y) <> MENU_DEBUG -> y_dbg y = false).
  { intros N. destruct (y_dbg y) eqn:E; [|reflexivity]. destruct (proj1 (i_dbg _ _ _ I) E) as (_ & X). congruence. }
  assert (N : y_dbg y = false -> can_enter C y (next_menu_state C (n_state (y_menu y)))) by (intros; eapply next_can; eassumption).
  destruct (n_state (y_menu y)) eqn:Es; try exact Id; (apply K; [apply Hd; discriminate|]); try (apply N; apply Hd; discriminate).
  split; [reflexivity|]. split; [|discriminate]. rewrite Hd; discriminate.
Qed.
Lemma ramp_step_fine y up : inv y -> ramp_ok (y_menu y) -> running (n_ramp (y_menu y)) = Some up -> fok (ramp_step_f C y up) (fine y).
Proof.
  intros I Ro Hr. unfold ramp_step_f. apply (fok_point B C HC HB); [apply inv_core; exact I|]. intros n m x O.
  pose proof (mv_fine y n m x I Ro O) as F. set (y0 := mv y n m x) in *.
  assert (E0 : y_menu y0 = y_menu y) by reflexivity. clearbody y0. rewrite E0.
  destruct (timer_expired _ _); [|apply fok_ret; exact F].
  destruct Ro as [Ro|(h & Eh & Hm)]; [rewrite Ro in Hr; discriminate|]. rewrite Eh.
  eapply fok_seq; [apply handler_fine; [exact HC|exact HB|apply F|rewrite E0; exact Hm]|]. intros y1 ((G1 & (t & u & M1) & _) & Hm1 & _).
  cbv zeta. destruct (i_menu _ _ _ I) as (_ & Pe & _). destruct (i_menu _ _ _ (g_inv _ _ _ _ G1)) as (_ & Pe1 & Er1).
  eapply fok_step; [apply add_ok; unfold menu_request_display_update; sy; lia|]. apply fok_ret. change RAMP_MIN_PERIOD_MS with 25.
  unfold menu_request_display_update. sy. set (nn := if 25 <? _ then _ else _).
  assert (En : n_state nn = n_state (y_menu y1) /\ 0 <= n_period nn <= 400 /\ n_err nn = n_err (y_menu y1) /\ n_upd nn = true /\ n_handler nn = Some h).
  { unfold nn. rewrite M1, E0. sy. destruct (25 <? n_period (y_menu y)); sy; rewrite ?Eh; repeat split; lia. }
  clearbody nn. destruct En as (N1 & N2 & N3 & N4 & N5). eapply fine_trans; [exact F|].
  change (set_y_menu (set_y_menu y1 ?a) nn) with (set_y_menu y1 nn).
  split; [eapply good_trans; [exact G1|apply good_side; [apply menu_only; [apply G1|exact N1|exact N2|rewrite N3; exact Er1]|apply side_menu]]|].
  split; [right; exists h; sy; split; [exact N5|rewrite N1; exact Hm1]|apply vstep_upd; exact N4].
Qed.
Lemma ramping_fine y : inv y -> ramp_ok (y_menu y) -> fok (menu_ramping_f C y) (fine y).
Proof.
  intros I Ro. unfold menu_ramping_f. cbv zeta.
  assert (P : forall up, waiting (n_ramp (y_menu y)) = Some up -> fok (y <~ pt C y ;;
                if timer_expired (y_now y) (n_pretimer (y_menu y)) then start_ramping_f C y up false (n_handler (y_menu y)) else ret y) (fine y)).
  { intros up Hw. apply (fok_point B C HC HB); [apply inv_core; exact I|]. intros n m x O. pose proof (mv_fine y n m x I Ro O) as F.
    destruct (timer_expired _ _); [|apply fok_ret; exact F]. eapply fok_mono; [apply start_ramping_fine; apply inv_core; apply F|].
    intros z (n' & m' & x' & t & O' & ->). eapply fine_trans; [exact F|]. apply (proj1 (ramped_fine (mv y n m x) up false _ n' m' x' t (g_inv _ _ _ _ (proj1 F)) O'
      ltac:(destruct Ro as [Ro|(h & Eh & Hm)]; [rewrite Ro in Hw; discriminate|exists h; split; [exact Eh|exact Hm]]))). }
  destruct (n_ramp (y_menu y)) eqn:Er.
  - apply fok_ret. apply fine_refl; assumption.
  - apply ramp_step_fine; auto. rewrite Er. reflexivity.
  - apply ramp_step_fine; auto. rewrite Er. reflexivity.
  - apply P. reflexivity.
  - apply P. reflexivity.
Qed.
Lemma menu_work_fine y : inv y -> ramp_ok (y_menu y) ->
  fok (menu_work_f C y) (fun y' => good y y' /\ ramp_ok (y_menu y') /\ (screen C y -> screen C y') /\ n_upd (y_menu y') = false).
Proof.
  intros I Ro. unfold menu_work_f. eapply fok_seq; [apply timeouts_fine; assumption|]. intros y1 F1.
  destruct (errors_ok B C y1 (g_inv _ _ _ _ (proj1 F1)) (proj1 (proj2 F1))) as (I1' & R1' & V1' & S1' & _).
  destruct (heating_ok B C (menu_errors y1) I1' R1') as (I2 & R2 & V2 & S2 & _). set (y2 := menu_heating (menu_errors y1)) in *.
  assert (F2 : fine y y2).
  { eapply fine_trans; [exact F1|]. split; [apply good_side; [exact I2|eapply side_trans; eassumption]|]. split; [exact R2|eapply vstep_trans; eassumption]. }
  eapply fok_seq; [apply ramping_fine; assumption|]. intros y3 F3. pose proof (fine_trans _ _ _ F2 F3) as F. destruct F as (G & R & V).
  destruct (n_upd (y_menu y3)) eqn:U.
  - pose proof (inv_upd B C y3 false (g_inv _ _ _ _ G)) as I4. set (y4 := set_y_menu y3 (set_n_upd (y_menu y3) false)) in *.
    destruct (update_display_ok B C y4 I4 HB) as (ds & s & lamp & E & I5 & P & D). eapply fok_lift; [exact E|].
    split; [eapply good_trans; [exact G|]; apply good_side; [exact I5|]; unfold side_frame; sy; repeat (split; [reflexivity|]); split; [apply meas_side_refl|]; repeat (split; [reflexivity|]); left; repeat split; reflexivity|].
    split; [exact R|]. split; [|reflexivity]. intros _ _; exists s, lamp; split; [exact P|exact D].
  - apply fok_ret. split; [exact G|]. split; [exact R|]. split; [apply screen_step; exact V|exact U].
Qed.
End Menu.
