(** * Concrete executions for the display (C77) *)
From Coq Require Import ZArith List Bool Lia ZifyBool.
From Verif Require Import Base PBase MConf MTimer MPid MCurr MSettings SpecSettings MSseg MDisplay MState MTemp MMeas
  MMenu MMain SpecDisplay SpecSys SpecRun SpecEye PStore PSysSet PSys PSysRun PSysSafe PSysProp Trace PSysTrace PSettingsEx PSysUI7 PEye.
Import ListNotations.
Open Scope Z_scope.

Definition hw_eqb (a b : hw) : bool :=
  (h_portb a =? h_portb b) && (h_ddrb a =? h_ddrb b) && (h_portc a =? h_portc b) && (h_ddrc a =? h_ddrc b) &&
  (h_portd a =? h_portd b) && (h_ddrd a =? h_ddrd b) && Bool.eqb (h_tx a) (h_tx b).
Lemma hw_eqb_ok a b : hw_eqb a b = true <-> a = b.
Proof.
  unfold hw_eqb. rewrite !andb_true_iff, !Z.eqb_eq, eqb_true_iff. destruct a, b. cbn. split; [intros ((((((? & ?) & ?) & ?) & ?) & ?) & ?); congruence|].
  intros E. injection E as -> -> -> -> -> -> ->. repeat split.
Qed.
(** Without CONF_DEBUG the buttons do not act on the display. *)
Lemma switch_nd C y b bs y' : c_debug C = false -> menu_button_switch C y b bs = Some y' -> dv y' = dv y.
Proof.
  intros Cd. assert (N : forall y b y', debug_enable C y b = Some y' -> dv y' = dv y) by (unfold debug_enable; rewrite Cd; intros z c z' X; apply Some_inj in X; subst; reflexivity).
  unfold menu_button_switch. intros H. destruct (n_state (y_menu y)).
  5: { destruct (negb _); [inv1 H; reflexivity|]. destruct (is_pos bs); [|inv1 H; reflexivity]. destruct (is_plus b); [eapply N; exact H|].
    destruct (is_minus b); [|inv1 H; reflexivity]. inv1 H. inv1 H. match goal with K : debug_enable _ _ _ = Some _ |- _ => apply N in K; rewrite <- K end. reflexivity. }
  all: try (destruct (negb _); [inv1 H; reflexivity|]).
  - inv1 H. match goal with K : start_ramping_button _ _ _ _ _ = Some _ |- _ => apply start_button_d in K; rewrite <- K end.
    destruct (_ && _); [eapply set_state_d; exact H|inv1 H; reflexivity].
  - inv1 H. match goal with K : arm_menu_timeout _ _ = Some _ |- _ => apply arm_d in K; rewrite <- K end. inv1 H. apply start_button_d in H. rewrite H.
    match goal with K : (if is_neg bs then _ else _) = Some _ |- _ => rename K into F end.
    destruct (is_neg bs); [|inv1 F; reflexivity].
    destruct (is_plus b); [|destruct (is_minus b)].
    + unfold presets_next in F. cbv zeta in F. apply presets_store_d in F. rewrite F. reflexivity.
    + unfold presets_prev in F. cbv zeta in F. apply presets_store_d in F. rewrite F. reflexivity.
    + inv1 F. reflexivity.
  - inv1 H. match goal with K : arm_menu_timeout _ _ = Some _ |- _ => apply arm_d in K; rewrite <- K end. apply start_button_d in H. exact H.
  - inv1 H. match goal with K : arm_menu_timeout _ _ = Some _ |- _ => apply arm_d in K; rewrite <- K end. apply start_button_d in H. exact H.
  - inv1 H. reflexivity.
  - eapply start_button_d; exact H.
  - inv1 H. reflexivity.
  - eapply start_button_d; exact H.
  - inv1 H. reflexivity.
  - eapply start_button_d; exact H.
  - inv1 H. reflexivity.
  - eapply start_button_d; exact H.
Qed.
Lemma calls_nd C l : c_debug C = false -> forall y y', run_calls C y l = Some y' -> dv y' = dv y.
Proof.
  intros Cd. induction l as [|(b, bs) l IH]; cbn [run_calls]; intros y y' H; [inv1 H; reflexivity|]. inv1 H. apply IH in H. rewrite H. clear H IH.
  unfold call_button_handlers, menu_button_handler in H0. inv1 H0. match goal with K : contrtemp_button_handler _ _ _ _ = Some _ |- _ => apply iron_d in K; rewrite <- K; clear K end.
  destruct (is_iron b); [inv1 H0; reflexivity|]. inv1 H0. match goal with K : menu_button_switch _ _ _ _ = Some _ |- _ => apply (switch_nd _ _ _ _ _ Cd) in K; rewrite <- K; clear K end.
  destruct (is_neg bs); [|inv1 H0; reflexivity]. cbv zeta in H0. destruct (is_set b); [|inv1 H0; reflexivity]. destruct (negb _); [|inv1 H0; reflexivity].
  apply set_state_d in H0. rewrite H0. reflexivity.
Qed.
Lemma buttons_nd C y pins y' : c_debug C = false -> buttons_work C y pins = Some y' -> dv y' = dv y.
Proof.
  intros Cd. unfold buttons_work. intros H. cbv zeta in H. destruct (timer_expired _ _) eqn:E; cbn [negb] in H.
  - inv1 H. apply calls_nd in H; [|exact Cd]. rewrite H. reflexivity.
  - inv1 H. reflexivity.
Qed.
Lemma other_nd C y e y' : build_conf C -> c_debug C = false -> reach C y -> is_power e = false -> e <> ETick -> e <> EDisplay -> step C y e = Some y' -> rv y' = rv y.
Proof.
  intros HC Cd R P NT ND E. destruct e; try discriminate P; try contradiction; cbn [step] in E.
  - apply Some_inj in E. subst y'. destruct (m_adc (y_meas y)); [|reflexivity].
    unfold adc_isr; cbv zeta; repeat match goal with |- context[if ?b then _ else _] => destruct b end; reflexivity.
  - destruct (x_eerie (y_set y)); [|apply Some_inj in E; subst; reflexivity]. destruct (x_busy (y_set y)); [apply Some_inj in E; subst; reflexivity|].
    destruct (ee_ready_isr C (y_set y)); [|discriminate E]. cbn [bind] in E. apply Some_inj in E. subst y'. reflexivity.
  - apply Some_inj in E. subst y'. reflexivity.
  - apply dv_rv. eapply measure_d; exact E.
  - eapply menu_r; exact E.
  - apply dv_rv. eapply buttons_nd; [exact Cd|exact E].
  - apply Some_inj in E. subst y'. reflexivity.
Qed.
Lemma nd_enabled C y : build_conf C -> c_debug C = false -> reach C y -> d_enabled (y_disp y) = true.
Proof.
  intros HC Cd R. destruct (reach_dinv C y HC R) as (_ & _ & D & _). rewrite D. destruct (y_dbg y) eqn:Q; [|reflexivity].
  pose proof (i_dbg _ _ _ (s4_inv _ _ _ (reach_s4 C y HC R))) as (D1 & _). destruct (D1 Q). congruence.
Qed.
(** The refresh lags behind by 1 ms in each iteration; then it is half a period of the timer ahead. *)
Lemma slow_inv C y k r u : build_conf C -> c_debug C = false -> slow C y k r u ->
  reach C y /\ 0 <= k /\ 0 <= r <= 2 /\ 0 <= u /\ y_now y = u16 (2 * k + r) /\
  (k <= 49150 -> d_timer (y_disp y) = Z.min k 32766 /\ (32766 <= k -> 2 * (k - 32766) + r <= u)).
Proof.
  intros HC Cd. induction 1 as [pinb y Hp E|y k r u y' H (R & Hk & Hr & Hu & N & I) Hr2 E|y k u y' H (R & Hk & Hr & Hu & N & I) E|y k r u e y' H (R & Hk & Hr & Hu & N & I) O P NT ND E].
  - destruct (fresh_eye C y (boot_fresh C pinb y HC E)) as (A1 & A2). rewrite A1, A2. split; [eapply reach_boot; eassumption|]. repeat (split; [reflexivity || lia|]). lia.
  - split; [exact (reach_step C y ETick y' R Logic.I E)|]. cbn [step] in E. apply Some_inj in E. subst y'. change (y_disp (sys_tick y)) with (y_disp y).
    change (y_now (sys_tick y)) with (u16 (y_now y + 1)). rewrite N. do 4 (split; [lia || (unfold u16; lia)|]). intros K. destruct (I K) as (I1 & I2). split; [exact I1|]. lia.
  - split; [exact (reach_step C y EDisplay y' R Logic.I E)|]. destruct (work_r C y y' HC R E) as (W1 & _ & _ & _ & W). rewrite (nd_enabled C y HC Cd R) in W. cbn [andb] in W.
    split; [lia|]. split; [lia|]. split; [destruct (hw_dec _ _); lia|]. split; [rewrite W1, N; f_equal; lia|]. intros K. destruct (I ltac:(lia)) as (I1 & I2).
    rewrite N, I1 in W. destruct (Z_lt_le_dec k 32766) as [L|L].
    + assert (X : timer_expired (u16 (2 * k + 2)) (Z.min k 32766) = true) by (rewrite Z.min_l by lia; unfold timer_expired, timer_count_since, u16, s16; lia).
      rewrite X in W. destruct W as (_ & W & _). rewrite W. split; [unfold u16; lia|]. intros K2. destruct (hw_dec _ _); lia.
    + assert (X : timer_expired (u16 (2 * k + 2)) (Z.min k 32766) = false) by (rewrite Z.min_r by lia; unfold timer_expired, timer_count_since, u16, s16; lia).
      rewrite X in W. destruct W as (W2 & W3). destruct (hw_dec _ _) as [_|B]; [|destruct (B W2)]. rewrite W3. split; [lia|]. intros _. specialize (I2 L). lia.
  - split; [exact (reach_step C y e y' R O E)|]. apply (other_nd C y e y' HC Cd R P NT ND) in E. unfold rv in E. injection E as E1 E2 _ _ E3 _.
    rewrite E1, E2, E3. destruct (hw_dec _ _) as [_|B]; [|destruct (B eq_refl)]. auto.
Qed.
Lemma freeze77 C y k r u : build_conf C -> c_debug C = false -> slow C y k r u -> 32766 <= k <= 49150 -> 2 * (k - 32766) + r <= u /\ d_enabled (y_disp y) = true.
Proof.
  intros HC Cd H K. destruct (slow_inv C y k r u HC Cd H) as (R & _ & _ & _ & _ & I). split; [apply I; lia|exact (nd_enabled C y HC Cd R)].
Qed.
Lemma slow_runs C : build_conf C -> c_debug C = false -> forall n, exists y u, slow C y (Z.of_nat n) 0 u.
Proof.
  intros HC Cd.
  assert (Go : forall y e, reach C y -> ev_ok C y e -> exists y', step C y e = Some y').
  { intros z e Rz Oz. destruct (step_ok relaxed C z e HC bok_relaxed (reach_s4 C z HC Rz) Oz) as (z' & Ez & _). exists z'. exact Ez. }
  induction n as [|n (y & u & H)].
  - destruct (set_factory C HC) as (x & Ex & Sx & _); destruct (boot_s4 strict C _ x 255 bok_strict Ex Sx) as (y & E & _). exists y, 0. eapply slow_boot; [|exact E]. unfold is_u8; lia.
  - destruct (Go y ETick (proj1 (slow_inv _ _ _ _ _ HC Cd H)) Logic.I) as (y1 & E1). assert (H1 : slow C y1 (Z.of_nat n) (0 + 1) (u + 1)) by (eapply slow_tick; [exact H|lia|exact E1]).
    destruct (Go y1 ETick (proj1 (slow_inv _ _ _ _ _ HC Cd H1)) Logic.I) as (y2 & E2). assert (H2 : slow C y2 (Z.of_nat n) 2 (u + 1 + 1)) by (change 2 with (0 + 1 + 1); eapply slow_tick; [exact H1|lia|exact E2]).
    destruct (Go y2 EDisplay (proj1 (slow_inv _ _ _ _ _ HC Cd H2)) Logic.I) as (y3 & E3). exists y3. eexists. rewrite Nat2Z.inj_succ. unfold Z.succ. eapply slow_show; [exact H2|exact E3].
Qed.
Lemma slow_ex C : build_conf C -> c_debug C = false -> exists y u, slow C y 49150 0 u.
Proof. intros HC Cd. destruct (slow_runs C HC Cd (Z.to_nat 49150)) as (y & u & H). rewrite Z2Nat.id in H by lia. eauto. Qed.
(** 314 degrees on the display: the third digit shows 4 with the lamp. *)
Lemma case77 : exists y y' s lamp, reach conf_m88p y /\ step conf_m88p y EDisplay = Some y' /\ y_hw y' <> y_hw y /\
  picture conf_m88p y s lamp /\ drawn (d_digits (y_disp y)) s lamp /\ t_feedback (y_ct y) = 20107 /\ driven (y_hw y) 1 = true /\ driven (y_hw y') 2 = true /\
  map (glows (y_hw y') 2) [SA; SB; SC; SD; SE; SF; SG; SDP] = [false; true; true; false; false; true; true; true].
Proof.
  assert (K : then_b conf_m88p (cycles 3 310 100 ++ [EMenu; EDisplay; EDisplay; EDisplay; EDisplay; EDisplay; ETick]) EDisplay
    (fun y y' => negb (hw_eqb (y_hw y') (y_hw y)) && (negb (n_upd (y_menu y)) && ((t_feedback (y_ct y) =? 20107) && (driven (y_hw y) 1 && (driven (y_hw y') 2 &&
       forallb (fun p => Bool.eqb (glows (y_hw y') 2 (fst p)) (snd p)) (combine [SA; SB; SC; SD; SE; SF; SG; SDP] [false; true; true; false; false; true; true; true])))))) = true) by (vm_compute; reflexivity).
  destruct (then_ok _ _ _ _ K) as (y & y' & R & O & E & P). andbs. destruct (screen_ok conf_m88p y build_m88p R ltac:(assumption)) as (s & lamp & S1 & S2).
  exists y, y', s, lamp. split; [exact R|]. split; [exact E|]. split; [intros X; apply hw_eqb_ok in X; congruence|]. repeat (split; [assumption|]).
  cbn [combine forallb fst snd] in H4. rewrite !andb_true_iff, !eqb_true_iff in H4. destruct H4 as (A & B & C & D & F & G & I & J & _). cbn [map]. congruence.
Qed.
Fixpoint eye_run (C : conf) (y : sys) (b : bool) (w : Z -> Z) (l : list event) : option (sys * bool * (Z -> Z)) :=
  match l with
  | [] => Some (y, b, w)
  | e :: r =>
    if is_power e then None else if ev_okb C y e then
      y' <- step C y e ;;
      match e with
      | ETick => if b then eye_run C y' false (watch y' (fun i => w i + 1)) r else None
      | _ => eye_run C y' (b || is_display e) (watch y' w) r
      end
    else None
  end.
Lemma eye_run_ok C l : forall y b w y' b' w', eyes C y b w -> eye_run C y b w l = Some (y', b', w') -> eyes C y' b' w'.
Proof.
  induction l as [|e t IH]; intros y b w y' b' w' H E; cbn [eye_run] in E; [apply Some_inj in E; injection E as <- <- <-; exact H|].
  destruct (is_power e) eqn:P; [discriminate E|]. destruct (ev_okb C y e) eqn:O; [|discriminate E]. apply ev_okb_ok in O. apply bind_inv in E. destruct E as (y1 & E1 & E).
  assert (X : e = ETick \/ e <> ETick) by (destruct e; auto; right; discriminate). destruct X as [->|X].
  - destruct b; [|discriminate E]. eapply IH; [|exact E]. eapply eye_tick; eassumption.
  - assert (E' : eye_run C y1 (b || is_display e) (watch y1 w) t = Some (y', b', w')) by (destruct e; first [exact E|contradiction]).
    eapply IH; [|exact E']. eapply eye_other; eassumption.
Qed.
(** 7 ms after power-up: digit 0 is driven, digit 3 was in this ms, digits 2 and 1 before. *)
Lemma case77_eyes : exists y w, eyes conf_m88p y true w /\ w 0 = 0 /\ w 1 = 2 /\ w 2 = 1 /\ w 3 = 0.
Proof.
  assert (K : match boot conf_m88p (factory_ee conf_m88p) NO_KEYS with
    | Some y => match eye_run conf_m88p y false (fun _ => 0) ([EDisplay] ++ concat (repeat [ETick; EMenu; EDisplay] 7)) with
                | Some (y, b, w) => b && ((w 0 =? 0) && ((w 1 =? 2) && ((w 2 =? 1) && (w 3 =? 0)))) | None => false end
    | None => false end = true) by (vm_compute; reflexivity).
  destruct (boot conf_m88p (factory_ee conf_m88p) NO_KEYS) as [y|] eqn:B; [|discriminate K].
  destruct (eye_run _ y _ _ _) as [((y', b), w)|] eqn:E; [|discriminate K]. andbs. subst b. exists y', w. split; [|auto].
  eapply eye_run_ok; [|exact E]. eapply eye_boot; [|exact B]. unfold NO_KEYS, is_u8; lia.
Qed.
