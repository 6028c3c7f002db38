(** * Properties of keys, menus and ramps, part 5 *)
From Coq Require Import ZArith List Bool Lia ZifyBool.
From Verif Require Import Base PBase MConf MUtil MFixpt MScale MRing MFilter MTimer MPid MPwm MTempMap MCurr MSens
  SpecNum SpecPid SpecSmall PNum PSmall PScale PPid SpecCurr PCurr MSettings SpecSettings PSettings PSysSet
  MSseg MDisplay MText MState MTemp MMeas MMenu MMain SpecDisplay SpecSys SpecRun SpecUI PSys PSysMeas PSysMenu PSysDisp PSysBtn
  PSysStep PSysRun PSysCC PSysSafe PSysProp PSysUI PSysUI2 PSysUI3 PSysUI4 PSysUI5 PSysUI6.
Import ListNotations.
Open Scope Z_scope.
Ltac Zify.zify_post_hook ::= Z.div_mod_to_equations.

Lemma expired_ne C s : allowed C s = true -> menu_limit s <> None -> mstate_eqb s (menu_expired C s) = false.
Proof.
  intros Al P1. destruct (mstate_eqb _ _) eqn:X; [|reflexivity]. apply mstate_eqb_ok in X. exfalso. unfold menu_expired in X.
  assert (Y := next_after C _ Al). destruct s; cbn in P1, Al; try congruence; try discriminate; rewrite <- Y in X; unfold next_menu_state in X; rewrite ?Al in X; discriminate X.
Qed.
(** ** C42 *)
Lemma ramp_item C y : build_conf C -> reach C y -> n_ramp (y_menu y) <> RAMP_NONE ->
  has_item (n_state (y_menu y)) = true /\ exists h, n_handler (y_menu y) = Some h /\ ramp_of_menu h (n_state (y_menu y)).
Proof.
  intros HC R N. destruct (reach_s4 C y HC R) as [_ Ro _ _]. destruct Ro as [X|(h & E1 & E2)]; [contradiction|]. split; [|eauto].
  destruct h; cbn in E2; [destruct E2 as [->|[->| ->]]|rewrite E2..]; reflexivity.
Qed.
Lemma kfold_stop C b p q u : is_iron b = false -> (down p b = false -> down q b = false) ->
  u_ramp (kfold C b (key_event p q b) u) = if released p q b then RNone else u_ramp u.
Proof.
  intros Hb H. unfold kfold, key_event, released. destruct (down p b), (down q b); try (specialize (H eq_refl); discriminate H); cbn [map fold_left andb negb]; rewrite ?key_eq by exact Hb; rewrite ?held_ramp; reflexivity.
Qed.
Lemma release_stops C y u pins y' b : build_conf C -> sampled C y u pins y' -> b <> BUTTON_IRON -> down (u_pins u) b = true -> down pins b = false ->
  (forall k, down (u_pins u) k = false -> down pins k = false) -> n_ramp (y_menu y') = RAMP_NONE.
Proof.
  intros HC S Hb D1 D2 Hn. pose proof (sampled_run C y u pins y' S) as R'. destruct S as (R & Hp & Ht & Hd & E). destruct (run_rel C _ _ HC R') as (_ & _ & _ & Rl').
  pose proof (uv_ramp _ _ _ Rl') as X. replace (u_ramp (ui_sample C u pins)) with RNone in X; [exact X|]. symmetry.
  unfold ui_sample. rewrite Hd, fold_events. destruct (kfold_iron C (key_event (u_pins u) pins BUTTON_IRON) (kfold C BUTTON_PLUS (key_event (u_pins u) pins BUTTON_PLUS)
    (kfold C BUTTON_MINUS (key_event (u_pins u) pins BUTTON_MINUS) (kfold C BUTTON_SET (key_event (u_pins u) pins BUTTON_SET) (set_u_sample u (u_count u + 1) pins))))) as (_ & _ & _ & -> & _).
  rewrite !kfold_stop by (reflexivity || apply Hn). assert (Rb : released (u_pins u) pins b = true) by (unfold released; rewrite D1, D2; reflexivity).
  destruct b; try congruence; rewrite Rb; repeat match goal with |- context [if ?c then _ else _] => destruct c end; reflexivity.
Qed.
Lemma error_stops C y u y' : build_conf C -> ui_run C y u -> in_time u EMenu -> sensor_error y <> n_err (y_menu y) -> step C y EMenu = Some y' ->
  n_ramp (y_menu y') = RAMP_NONE /\ same_settings (x_cache (y_set y')) (x_cache (y_set y)).
Proof.
  intros HC R Ht N E. pose proof (next_run C y u EMenu y' R Logic.I Ht eq_refl E) as R'. cbn [ui_next] in R'. destruct (run_rel C y u HC R) as (_ & _ & _ & Rl). destruct (run_rel C _ _ HC R') as (_ & _ & _ & Rl').
  rewrite (uv_err _ _ _ Rl) in N. pose proof (uv_ramp _ _ _ Rl') as X. pose proof (uv_cfg _ _ _ Rl') as Y. pose proof (uv_cfg _ _ _ Rl) as Z.
  destruct (poll_cases C u (sensor_error y)) as [(d & _ & _ & _ & P1 & P2)|[(_ & _ & _ & P1 & P2 & _)|(_ & P1 & _)]]; [..|congruence]; rewrite P1 in X; rewrite P2 in Y; (split; [exact X|]);
    eapply same_trans; [exact Y|apply same_sym; exact Z|exact Y|apply same_sym; exact Z].
Qed.
(** ** C48 *)
Lemma menu_indicates C y y' : build_conf C -> reach C y -> step C y EMenu = Some y' ->
  n_err (y_menu y') = sensor_error y' /\ sensor_error y' = sensor_error y /\
  n_heating (y_menu y') = (t_feedback (y_ct y) <? pid_get_setpoint (t_pid (y_ct y))) /\ t_feedback (y_ct y') = t_feedback (y_ct y) /\ n_upd (y_menu y') = false.
Proof.
  intros HC R E. destruct (reach_s4 C y HC R) as [I Ro _ _].
  destruct (menu_work_ok relaxed C y bok_relaxed I Ro) as (y1 & y2 & y3 & z & E0 & _ & _ & Sz & U & _ & E1 & I1 & R1 & E2 & I2 & R2 & E3 & _ & _ & ds & Ez).
  change (step C y EMenu) with (menu_work C y) in E. rewrite E in E0. apply Some_inj in E0. subst z.
  destruct (timeouts_ok relaxed C y I Ro) as (z & Ez1 & _ & _ & _ & Sd & _ & _ & _ & _ & _ & _ & _ & _ & Sp & _). rewrite E1 in Ez1. apply Some_inj in Ez1. subst z.
  destruct (errors_ok relaxed C y1 I1 R1) as (Ie & Re & _ & Se & F1 & F2 & _ & _ & ne & F3 & _). destruct (heating_ok relaxed C (menu_errors y1) Ie Re) as (_ & _ & _ & Sh & F4 & v & F5 & _).
  rewrite <- E2 in *. assert (G : n_err (y_menu y2) = sensor_error y1 /\ n_heating (y_menu y2) = heating y).
  { split.
    - rewrite F5. sy. rewrite F1. reflexivity.
    - rewrite F4. unfold heating. rewrite F3. sy. rewrite Sp. destruct Sd as (_ & _ & _ & _ & _ & -> & _). reflexivity. }
  destruct (ramping_ok relaxed C y2 I2 R2 bok_relaxed) as (z & Ez3 & _ & _ & _ & _ & _ & _ & _ & _ & Rm). rewrite E3 in Ez3. apply Some_inj in Ez3. subst z.
  assert (G2 : n_err (y_menu y3) = n_err (y_menu y2) /\ n_heating (y_menu y3) = n_heating (y_menu y2)).
  { destruct (running (n_ramp (y_menu y2))); [|destruct (PSysStep.waiting (n_ramp (y_menu y2)))]; [destruct (timer_expired _ _); [destruct (sp_rest _ _ _ _ Rm) as (_ & _ & _ & Z1 & Z2 & _); auto|subst y3; auto]|..|subst y3; auto].
    rewrite Rm. destruct (timer_expired _ _); [|auto]. split; reflexivity. }
  destruct G as (G & G'). destruct G2 as (G2 & G2'). rewrite (side_error _ _ Sz), Ez. sy. rewrite G2, G2', G, G'. split; [rewrite (side_error _ _ Sd); reflexivity|]. split; [reflexivity|]. split; [reflexivity|].
  split; [|reflexivity]. destruct Sz as (_ & _ & _ & _ & _ & X & _). rewrite Ez in X. exact X.
Qed.
Lemma heating_indicated C y y' : build_conf C -> reach C y -> step C y EMenu = Some y' -> pid_get_setpoint (t_pid (y_ct y')) = pid_get_setpoint (t_pid (y_ct y)) ->
  n_heating (y_menu y') = (t_feedback (y_ct y') <? pid_get_setpoint (t_pid (y_ct y'))).
Proof. intros HC R E Hs. destruct (menu_indicates C y y' HC R E) as (_ & _ & H & F & _). rewrite F, Hs. exact H. Qed.
(** ** C61 *)
Lemma cycle_inverse a : 0 <= a <= 5 -> cycle_down 5 (cycle_up 5 a) = a /\ cycle_up 5 (cycle_down 5 a) = a /\ 0 <= cycle_up 5 a <= 5 /\ 0 <= cycle_down 5 a <= 5.
Proof. intros H. unfold cycle_up, cycle_down. assert (a = 0 \/ a = 1 \/ a = 2 \/ a = 3 \/ a = 4 \/ a = 5) as D by lia. destruct D as [->|[->|[->|[->|[->| ->]]]]]; cbn; lia. Qed.
Lemma select_setpoint C y u k y' : build_conf C -> k = BUTTON_PLUS \/ k = BUTTON_MINUS -> released_key C y u k y' -> n_state (y_menu y) = MENU_SELPRESET ->
  let x := x_cache (y_set y) in let a := match k with BUTTON_PLUS => cycle_up 5 (s_active x) | _ => cycle_down 5 (s_active x) end in
  n_state (y_menu y') = MENU_SELPRESET /\ same_settings (x_cache (y_set y')) (set_s_active x a) /\
  (t_idle (y_ct y') = false -> pid_get_setpoint (t_pid (y_ct y')) = nth (Z.to_nat a) (s_preset x) 0).
Proof.
  intros HC Hk R Hs. cbv zeta. destruct (adj_release C y u k y' HC Hk R) as (A1 & A2 & _). rewrite Hs in A1, A2. split; [exact A1|].
  assert (A3 : same_settings (x_cache (y_set y')) (set_s_active (x_cache (y_set y)) match k with BUTTON_PLUS => cycle_up 5 (s_active (x_cache (y_set y))) | _ => cycle_down 5 (s_active (x_cache (y_set y))) end)).
  { destruct Hk; subst k; exact A2. }
  split; [exact A3|]. intros Hi. destruct R as (pins & S & _). destruct (run_rel C _ _ HC (sampled_run C y u pins y' S)) as (Rc & _).
  rewrite (sys_setpoint C y' HC Rc), Hi, andb_false_r. unfold wanted_setpoint. unfold same_settings in A3.
  pose proof (f_equal s_active A3) as B1. pose proof (f_equal s_preset A3) as B2. cbn in B1, B2. rewrite B1, B2. reflexivity.
Qed.
(** ** C39: the chain *)
Lemma chain_ok C k : (k < length (menu_chain C))%nat -> nth_error (menu_chain C) k = Some (Nat.iter k (menu_after C) MENU_CURTEMP).
Proof.
  unfold menu_chain, menu_after, menu_chain. destruct (c_idle C), (c_debug C), (c_adj C), (c_kconf C); cbn [app length]; intros H; do 12 (destruct k as [|k]; [first [reflexivity | exfalso; clear - H; lia]|]); lia.
Qed.
Lemma chain_back C : Nat.iter (length (menu_chain C)) (menu_after C) MENU_CURTEMP = MENU_CURTEMP /\ NoDup (menu_chain C).
Proof.
  unfold menu_after, menu_chain. split; [destruct (c_idle C), (c_debug C), (c_adj C), (c_kconf C); reflexivity|].
  destruct (c_idle C), (c_debug C), (c_adj C), (c_kconf C); cbn [app]; repeat (constructor; [cbn; intuition discriminate|]); constructor.
Qed.
(** ** C62 *)
Lemma screen_ok C y : build_conf C -> reach C y -> n_upd (y_menu y) = false -> exists s lamp, picture C y s lamp /\ drawn (d_digits (y_disp y)) s lamp.
Proof. intros HC R U. destruct (reach_s4 C y HC R) as [_ _ _ S]. exact (S U). Qed.
Lemma screen_after C y y' : build_conf C -> reach C y -> step C y EMenu = Some y' -> exists s lamp, picture C y' s lamp /\ drawn (d_digits (y_disp y')) s lamp.
Proof.
  intros HC R E. apply (screen_ok C y' HC); [exact (reach_step C y EMenu y' R Logic.I E)|]. apply (menu_indicates C y y' HC R E).
Qed.

(** ** Prompt polling *)
Definition ramp_lag (m : Z) (r : rphase) : Prop :=
  match r with RNone => True | RWait _ n => n < 1000 + m | RRun _ n k => match k with 0%nat => n <= m | _ => n < step_time k + m end end.
Definition iron_lag (C : conf) (u : ui) : Prop :=
  forall n, u_iron u = Some n -> c_boost C && c_idle C = true /\ down (u_pins u) BUTTON_IRON = true /\ n < 1010 + u_time u - 10 * u_count u.
Record lag (C : conf) (u : ui) (m b : Z) : Prop := mkLag {
  lg_m : 0 <= m <= 25; lg_b : 0 <= b <= 10;
  lg_age : forall d, menu_limit (u_menu u) = Some d -> u_age u < d + m;
  lg_ramp : ramp_lag m (u_ramp u);
  lg_keys : u_time u - 10 * u_count u <= b;
  lg_iron : iron_lag C u
}.
Lemma limit_pos s d : menu_limit s = Some d -> 0 < d <= 3000.
Proof. destruct s; cbn; intros H; try discriminate H; injection H as <-; lia. Qed.
Lemma lag_menu C u m b : lag C u m b -> in_time u EMenu.
Proof.
  intros []. split; [intros d Hd; specialize (lg_age0 d Hd); pose proof (limit_pos _ _ Hd); lia|].
  destruct (u_ramp u) as [|up n|up n [|k]]; cbn [ramp_lag] in lg_ramp0; [exact Logic.I|lia|cbn [step_time]; lia|lia].
Qed.
Lemma lag_keys C u m b pins : lag C u m b -> in_time u (EButtons pins).
Proof. intros []. split; [lia|]. intros n Hn. specialize (lg_iron0 n Hn). lia. Qed.
Lemma lag_start C pins x : lag C (ui_start C pins x) 0 0.
Proof.
  constructor; try lia; cbn [ui_start u_menu u_age u_ramp u_time u_count u_iron].
  - intros d. destruct (_ && _); discriminate.
  - exact Logic.I.
  - cbn. lia.
  - intros n X. discriminate X.
Qed.
Lemma lag_tick C u m b : lag C u m b -> m < 25 -> b < 10 -> lag C (ui_tick u) (m + 1) (b + 1).
Proof.
  intros [] Hm Hb. constructor; try lia; unfold ui_tick, iron_lag in *; uf.
  - intros d Hd. specialize (lg_age0 d Hd). lia.
  - destruct (u_ramp u) as [|up n|up n [|k]]; cbn [ramp_lag] in *; lia || exact Logic.I.
  - lia.
  - intros n Hn. destruct (u_iron u) as [i|]; [|discriminate Hn]. injection Hn as <-. destruct (lg_iron0 i eq_refl) as (A & B & D). split; [exact A|]. split; [exact B|lia].
Qed.
Lemma lag_poll C u m b e : allowed C (u_menu u) = true -> lag C u m b -> lag C (ui_poll C u e) 0 b.
Proof.
  intros Al []. destruct (poll_clock C u e) as (Q1 & Q2 & Q3 & Q4). pose proof (poll_trip C u e Al) as T. injection T as T _ _.
  assert (X : (forall d, menu_limit (u_menu (ui_poll C u e)) = Some d -> u_age (ui_poll C u e) < d + 0) /\ ramp_lag 0 (u_ramp (ui_poll C u e))).
  { destruct (poll_cases C u e) as [(d & P1 & P2 & P3 & P4 & _)|[(P1 & _ & P3 & P4 & _ & P6)|(P1 & P2 & P3)]].
    - rewrite P4. split; [|exact Logic.I]. intros d' Hd. pose proof (limit_pos _ _ Hd).
      assert (A : u_age (ui_poll C u e) = if mstate_eqb (u_menu u) (menu_expired C (u_menu u)) then u_age u else 0).
      { unfold ui_poll, ui_limit. rewrite P1. replace (d <=? u_age u) with true by lia. rewrite ui_enter_eq. unfold ui_error. destruct (_ =? _); reflexivity. }
      rewrite A, expired_ne; [lia|exact Al|congruence].
    - rewrite P3, P4, P6. split; [|exact Logic.I]. intros d Hd. specialize (P1 d Hd). lia.
    - rewrite P3. destruct (ramp_cases u) as [(up & n & k & R1 & R2 & R3 & R4 & R5)|(R1 & R2 & R3 & R4 & R5)].
      + split.
        * intros d Hd. assert (A : u_age (ui_ramp u) = u_age u /\ u_menu (ui_ramp u) = u_menu u \/ u_age (ui_ramp u) = 0).
          { unfold ui_ramp. rewrite R1. replace (step_time k <=? n) with true by lia. destruct (shows_preset (u_menu u)); [|left; split; reflexivity]. rewrite ui_enter_eq. unfold set_u_ramp, set_u_cfg. uf.
            destruct (mstate_eqb (u_menu u) MENU_CHGPRESET) eqn:Em; [left; apply mstate_eqb_ok in Em; rewrite Em; auto|right; reflexivity]. }
          destruct A as [(A1 & A2)|A]; [rewrite A1; rewrite A2 in Hd; specialize (P1 d Hd); lia|pose proof (limit_pos _ _ Hd); lia].
        * rewrite R3. cbn [ramp_lag]. rewrite R1 in lg_ramp0. pose proof (step_gap k). destruct k; cbn [ramp_lag] in lg_ramp0; [cbn [step_time]; lia|lia].
      + rewrite R2, R3, R4. split; [intros d Hd; specialize (P1 d Hd); lia|]. destruct (u_ramp u) as [|up n|up n k]; [exact Logic.I| |].
        * destruct (1000 <=? n) eqn:En; cbn [ramp_lag]; lia.
        * specialize (R5 up n k eq_refl). destruct k; cbn [ramp_lag step_time] in *; lia. }
  constructor; try lia; try apply X.
  - intros n Hn. rewrite T in Hn. rewrite Q1, Q2, Q3. exact (lg_iron0 n Hn).
Qed.
Lemma kfold_lag C b p q u m : is_iron b = false -> 0 <= m -> ramp_lag m (u_ramp u) -> ramp_lag m (u_ramp (kfold C b (key_event p q b) u)) /\ u_iron (kfold C b (key_event p q b) u) = u_iron u.
Proof.
  intros Hb Hm Hr. assert (K : ramp_lag m (u_ramp (key_state C u b BSTATE_POSEDGE))).
  { unfold key_state. uf. cbn [is_neg]. destruct (rampable (u_menu u)) as [(pre, h)|]; [|exact Hr]. destruct (key_ramp b BSTATE_POSEDGE) as [up|]; [|exact Hr]. destruct pre; cbn [ramp_lag]; lia. }
  unfold kfold, key_event. destruct (down p b), (down q b); cbn [map fold_left]; rewrite ?key_eq by exact Hb; rewrite ?held_ramp; split; try reflexivity; try assumption.
Qed.
Lemma lag_sample C u m b pins : lag C u m b -> lag C (ui_sample C u pins) m 0.
Proof.
  intros []. destruct (sample_due u) eqn:Hd.
  2: { unfold ui_sample. rewrite Hd. unfold sample_due in Hd. constructor; auto; lia. }
  destruct (sample_pins C u pins Hd) as (Q1 & Q2 & Q3 & _). destruct (sample_stage C u pins Hd) as ((St & _) & _).
  assert (X : ramp_lag m (u_ramp (ui_sample C u pins)) /\ exists id bo, u_iron (ui_sample C u pins) = fst (fst (fold_left (iron3 C) (key_event (u_pins u) pins BUTTON_IRON) (u_iron u, id, bo)))).
  { unfold ui_sample. rewrite Hd, fold_events. set (u0 := set_u_sample u (u_count u + 1) pins). set (p := u_pins u).
    destruct (kfold_lag C BUTTON_SET p pins u0 m eq_refl (proj1 lg_m0) lg_ramp0) as (A1 & B1). set (u1 := kfold C BUTTON_SET (key_event p pins BUTTON_SET) u0) in *.
    destruct (kfold_lag C BUTTON_MINUS p pins u1 m eq_refl (proj1 lg_m0) A1) as (A2 & B2). set (u2 := kfold C BUTTON_MINUS (key_event p pins BUTTON_MINUS) u1) in *.
    destruct (kfold_lag C BUTTON_PLUS p pins u2 m eq_refl (proj1 lg_m0) A2) as (A3 & B3). set (u3 := kfold C BUTTON_PLUS (key_event p pins BUTTON_PLUS) u2) in *.
    destruct (kfold_iron C (key_event p pins BUTTON_IRON) u3) as (T & _ & _ & E4 & _). rewrite E4. split; [exact A3|]. exists (u_idle u3), (u_boost u3).
    unfold trip in T. rewrite B3, B2, B1 in T. change (u_iron u0) with (u_iron u) in T. rewrite <- T. reflexivity. }
  unfold sample_due in Hd. constructor; try lia.
  - intros d Hl. rewrite St. destruct (mstate_eqb (u_menu u) (u_menu (ui_sample C u pins))) eqn:Em.
    + apply mstate_eqb_ok in Em. rewrite <- Em in Hl. specialize (lg_age0 d Hl). pose proof (limit_pos _ _ Hl). destruct (_ && _); lia.
    + pose proof (limit_pos _ _ Hl). lia.
  - apply X.
  - destruct X as (_ & id & bo & X). intros n Hn. rewrite X in Hn. rewrite Q1, Q2, Q3. unfold iron_lag in lg_iron0. clear - Hn lg_iron0 Hd lg_keys0.
    assert (K : c_boost C && c_idle C = true /\ down pins BUTTON_IRON = true /\ n < 1000).
    { destruct (u_iron u) as [i|]; [destruct (lg_iron0 i eq_refl) as (A & B & D)|clear lg_iron0]; unfold key_event in Hn.
      - rewrite B in Hn. destruct (down pins BUTTON_IRON); cbn [fold_left] in Hn; unfold iron3 in Hn; rewrite A in Hn; [|discriminate Hn].
        destruct (1000 <=? i) eqn:Ei; [discriminate Hn|]. injection Hn as <-. split; [exact A|]. split; [reflexivity|lia].
      - destruct (down (u_pins u) BUTTON_IRON), (down pins BUTTON_IRON); cbn [fold_left] in Hn; unfold iron3 in Hn; destruct (c_boost C), (c_idle C), (c_idletoggle C), id; cbn [andb fst] in Hn; try discriminate Hn;
          cbn in Hn; try discriminate Hn; injection Hn as <-; split; [reflexivity|split; [reflexivity|lia]|reflexivity|split; [reflexivity|lia]]. }
    destruct K as (K1 & K2 & K3). split; [exact K1|]. split; [exact K2|lia].
Qed.
Lemma prompt_ok C y u m b : build_conf C -> prompt C y u m b -> ui_run C y u /\ lag C u m b.
Proof.
  intros HC. induction 1 as [pinb y Hp E|y v pinb y' R O E|y u m b y' P (R & L) Hm Hb E|y u m b y' P (R & L) E|y u m b pins y' P (R & L) Hp E|y u m b e y' P (R & L) O Hp N1 N2 N3 E].
  - split; [apply ui_boot; assumption|apply lag_start].
  - split; [eapply ui_power; eassumption|apply lag_start].
  - split; [apply (next_run C y u ETick y' R Logic.I Logic.I eq_refl E)|apply lag_tick; assumption].
  - split; [apply (next_run C y u EMenu y' R Logic.I (lag_menu _ _ _ _ L) eq_refl E)|]. destruct (run_rel C y u HC R) as (_ & I & _ & Rl). apply (lag_poll C u m); [apply (rel_allowed C y u I Rl)|exact L].
  - split; [apply (next_run C y u (EButtons pins) y' R Hp (lag_keys _ _ _ _ _ L) eq_refl E)|eapply lag_sample; exact L].
  - split; [|exact L]. replace u with (ui_next C u (sensor_error y) e) by (destruct e; try reflexivity; congruence).
    apply (next_run C y u e y' R O); [destruct e; try exact Logic.I; [congruence|exfalso; eapply N3; reflexivity]|exact Hp|exact E].
Qed.
Lemma prompt_shows C y u m b : build_conf C -> prompt C y u m b -> shows C y u.
Proof. intros HC P. apply ui_refines; [exact HC|]. apply (prompt_ok C y u m b HC P). Qed.
