(** * Properties of keys, menus and ramps, part 3 *)
From Coq Require Import ZArith List Bool Lia ZifyBool.
From Verif Require Import Base PBase MConf MUtil MFixpt MScale MRing MFilter MTimer MPid MPwm MTempMap MCurr MSens
  SpecNum SpecPid SpecSmall PNum PSmall PScale PPid SpecCurr PCurr MSettings SpecSettings PSettings PSysSet
  MSseg MDisplay MText MState MTemp MMeas MMenu MMain SpecDisplay SpecSys SpecRun SpecUI PSys PSysMeas PSysMenu PSysDisp PSysBtn
  PSysStep PSysRun PSysCC PSysSafe PSysUI PSysUI2 PSysUI3 PSysUI4.
Import ListNotations.
Open Scope Z_scope.
Ltac Zify.zify_post_hook ::= Z.div_mod_to_equations.

(** ** What a sample changes *)
Lemma set_active_id x : set_s_active x (s_active x) = x.
Proof. destruct x; reflexivity. Qed.
Lemma set_active_twice x a b : set_s_active (set_s_active x a) b = set_s_active x b.
Proof. reflexivity. Qed.
Lemma key_cfg C u k : 0 <= s_active (u_cfg u) <= 5 -> exists a, 0 <= a <= 5 /\ u_cfg (ui_key C u k) = set_s_active (u_cfg u) a.
Proof.
  intros Ha. destruct k as (b, bs). destruct (is_iron b) eqn:Hb.
  - destruct b; try discriminate Hb. exists (s_active (u_cfg u)). split; [exact Ha|]. rewrite set_active_id. apply iron_trip.
  - rewrite key_eq by exact Hb. unfold key_state. uf.
    assert (X : exists a, 0 <= a <= 5 /\ u_cfg u = set_s_active (u_cfg u) a) by (exists (s_active (u_cfg u)); split; [exact Ha|symmetry; apply set_active_id]).
    destruct b, bs, (u_menu u); try exact X; eexists; (split; [|reflexivity]); unfold cycle_up, cycle_down; destruct (_ =? _) eqn:E; lia.
Qed.
Lemma fold_cfg C l : forall u, 0 <= s_active (u_cfg u) <= 5 -> exists a, 0 <= a <= 5 /\ u_cfg (fold_left (ui_key C) l u) = set_s_active (u_cfg u) a.
Proof.
  induction l as [|k l IH]; intros u Ha; cbn [fold_left].
  - exists (s_active (u_cfg u)). split; [exact Ha|symmetry; apply set_active_id].
  - destruct (key_cfg C u k Ha) as (a & Ha' & E). destruct (IH (ui_key C u k)) as (b & Hb & E2); [rewrite E; exact Ha'|]. exists b. split; [exact Hb|]. rewrite E2, E. reflexivity.
Qed.
(** A stage of a sample: menu and age. *)
Definition stage (t : bool) (u u' : ui) : Prop :=
  u_age u' = (if mstate_eqb (u_menu u) (u_menu u') then if timed (u_menu u) && t then 0 else u_age u else 0) /\ (t = false -> u_menu u' = u_menu u).
Definition released (p q : Z) (b : button) : bool := down p b && negb (down q b).
Lemma held_key_menu C u b bs : is_neg bs = false -> u_menu (key_state C u b bs) = u_menu u /\ u_age (key_state C u b bs) = if timed (u_menu u) then 0 else u_age u.
Proof. intros Hn. unfold key_state. uf. rewrite Hn, mstate_refl. split; reflexivity. Qed.
Lemma kfold_stage C b p q u : is_iron b = false -> let u' := kfold C b (key_event p q b) u in
  stage (active_key p q b) u u' /\ (released p q b = false -> u_menu u' = u_menu u) /\
  (b <> BUTTON_SET -> u_menu u' = u_menu u \/ u_menu u = MENU_CURTEMP /\ u_menu u' = MENU_SELPRESET).
Proof.
  intros Hb. cbv zeta. unfold kfold, key_event, active_key, released, stage. destruct (down p b), (down q b); cbn [map fold_left negb andb orb]; rewrite ?key_eq by exact Hb.
  - destruct (held_key_menu C u b BSTATE_PRESSED eq_refl) as (-> & ->). rewrite mstate_refl, andb_true_r. split; [split; [reflexivity|discriminate]|]. auto.
  - unfold key_state. uf. cbn [is_neg]. rewrite andb_true_r. split; [split; [reflexivity|discriminate]|]. split; [discriminate|]. intros Hs.
    replace (is_set b) with false by (destruct b; [congruence|reflexivity..]). destruct (u_menu u); auto.
  - destruct (held_key_menu C (key_state C u b BSTATE_POSEDGE) b BSTATE_PRESSED eq_refl) as (-> & ->).
    destruct (held_key_menu C u b BSTATE_POSEDGE eq_refl) as (-> & ->). rewrite mstate_refl, andb_true_r. split; [split; [destruct (timed (u_menu u)); reflexivity|discriminate]|]. auto.
  - rewrite mstate_refl, andb_false_r. split; [split; [reflexivity|auto]|]. auto.
Qed.
Lemma eqb_spec s t : mstate_eqb s t = false -> s <> t.
Proof. intros E ->. rewrite mstate_refl in E. discriminate. Qed.
Lemma sample_stage C u q : sample_due u = true -> let u' := ui_sample C u q in
  stage (touched (u_pins u) q) u u' /\
  (u_menu u' <> u_menu u -> exists b, b <> BUTTON_IRON /\ down (u_pins u) b = true /\ down q b = false).
Proof.
  intros Hd. cbv zeta. unfold ui_sample. rewrite Hd, fold_events. set (p := u_pins u) in *. set (u0 := set_u_sample u (u_count u + 1) q) in *.
  set (u1 := kfold C BUTTON_SET (key_event p q BUTTON_SET) u0) in *. set (u2 := kfold C BUTTON_MINUS (key_event p q BUTTON_MINUS) u1) in *.
  set (u3 := kfold C BUTTON_PLUS (key_event p q BUTTON_PLUS) u2) in *. destruct (kfold_iron C (key_event p q BUTTON_IRON) u3) as (_ & E3 & _ & _ & _ & E4).
  unfold stage. rewrite E3, E4. clear E3 E4.
  destruct (kfold_stage C BUTTON_SET p q u0 eq_refl) as ((A1 & A2) & A3 & _). destruct (kfold_stage C BUTTON_MINUS p q u1 eq_refl) as ((B1 & B2) & B3 & B4).
  destruct (kfold_stage C BUTTON_PLUS p q u2 eq_refl) as ((C1 & C2) & C3 & C4). fold u1 in A1, A2, A3. fold u2 in B1, B2, B3, B4. fold u3 in C1, C2, C3, C4.
  specialize (B4 ltac:(discriminate)). specialize (C4 ltac:(discriminate)).
  change (u_menu u0) with (u_menu u) in *. change (u_age u0) with (u_age u) in *. clearbody u1 u2 u3. clear u0.
  split.
  - assert (Z : forall t x y, u_age x = 0 -> u_age y = (if mstate_eqb (u_menu x) (u_menu y) then if timed (u_menu x) && t then 0 else u_age x else 0) -> u_age y = 0).
    { intros t x y Hx ->. rewrite Hx. case (mstate_eqb (u_menu x) (u_menu y)); [|reflexivity]. case (timed (u_menu x) && t); reflexivity. }
    unfold touched. set (ta := active_key p q BUTTON_SET) in *. set (tb := active_key p q BUTTON_MINUS) in *. set (tc := active_key p q BUTTON_PLUS) in *. clearbody ta tb tc. clear A3 B3 C3. split.
    + destruct (mstate_eqb (u_menu u) (u_menu u3)) eqn:E.
      * apply mstate_eqb_ok in E. destruct (timed (u_menu u)) eqn:Et; cbn [andb].
        -- destruct ta eqn:Ea.
           { cbn [orb]. apply (Z tc u2 u3); [|exact C1]. apply (Z tb u1 u2); [|exact B1]. rewrite A1. cbn [andb]. case (mstate_eqb (u_menu u) (u_menu u1)); reflexivity. }
           rewrite (A2 eq_refl) in *. rewrite mstate_refl, andb_false_r in A1. cbn [orb]. destruct tb.
           { apply (Z tc u2 u3); [|exact C1]. rewrite B1, Et. cbn [andb]. case (mstate_eqb (u_menu u) (u_menu u2)); reflexivity. }
           rewrite (B2 eq_refl) in *. rewrite mstate_refl, Et in B1. cbn [andb orb] in *. rewrite C1, Et, B1, A1, <- E. rewrite mstate_refl. destruct tc; reflexivity.
        -- assert (M2 : u_menu u2 = u_menu u3). { destruct C4 as [X|(_ & X)]; [congruence|]. rewrite E, X in Et. discriminate Et. }
           assert (M1 : u_menu u1 = u_menu u2). { destruct B4 as [X|(_ & X)]; [congruence|]. rewrite E, <- M2, X in Et. discriminate Et. }
           rewrite C1, <- M2, mstate_refl, B1, <- M1, mstate_refl, A1. replace (u_menu u1) with (u_menu u) by congruence. rewrite mstate_refl, Et. reflexivity.
      * destruct (mstate_eqb (u_menu u2) (u_menu u3)) eqn:E2; [|exact C1]. destruct (mstate_eqb (u_menu u1) (u_menu u2)) eqn:E1.
        -- apply mstate_eqb_ok in E1, E2. apply eqb_spec in E. destruct (mstate_eqb (u_menu u) (u_menu u1)) eqn:E0; [apply mstate_eqb_ok in E0; congruence|].
           eapply (Z tc u2 u3); [|rewrite C1, E2, mstate_refl; reflexivity]. eapply (Z tb u1 u2); [exact A1|rewrite B1, E1, mstate_refl; reflexivity].
        -- apply mstate_eqb_ok in E2. eapply (Z tc u2 u3); [exact B1|rewrite C1, E2, mstate_refl; reflexivity].
    + intros H. apply orb_false_iff in H. destruct H as (H & Hc). apply orb_false_iff in H. destruct H as (Ha & Hb). rewrite (C2 Hc), (B2 Hb). apply A2. exact Ha.
  - intros N. assert (Hr : forall b, released p q b = true -> down p b = true /\ down q b = false).
    { intros b. unfold released. destruct (down p b), (down q b); cbn; auto; discriminate. }
    destruct (released p q BUTTON_SET) eqn:RA; [exists BUTTON_SET; split; [discriminate|apply Hr; exact RA]|].
    destruct (released p q BUTTON_MINUS) eqn:RB; [exists BUTTON_MINUS; split; [discriminate|apply Hr; exact RB]|].
    destruct (released p q BUTTON_PLUS) eqn:RC; [exists BUTTON_PLUS; split; [discriminate|apply Hr; exact RC]|].
    exfalso. apply N. rewrite (C3 eq_refl), (B3 eq_refl). apply A3. reflexivity.
Qed.

(** ** What an event changes *)
Lemma next_run C y u e y' : ui_run C y u -> ev_ok C y e -> in_time u e -> is_power e = false -> step C y e = Some y' -> ui_run C y' (ui_next C u (sensor_error y) e).
Proof. intros. apply (ui_step C y u e y'); assumption. Qed.
Lemma poll_cases C u e :
  (exists d, menu_limit (u_menu u) = Some d /\ d <= u_age u /\ u_menu (ui_poll C u e) = menu_expired C (u_menu u) /\ u_ramp (ui_poll C u e) = RNone /\ u_cfg (ui_poll C u e) = u_cfg u) \/
  (forall d, menu_limit (u_menu u) = Some d -> u_age u < d) /\ u_err u <> e /\
    u_menu (ui_poll C u e) = u_menu u /\ u_ramp (ui_poll C u e) = RNone /\ u_cfg (ui_poll C u e) = u_cfg u /\ u_age (ui_poll C u e) = u_age u \/
  (forall d, menu_limit (u_menu u) = Some d -> u_age u < d) /\ u_err u = e /\ ui_poll C u e = ui_ramp u.
Proof.
  destruct (menu_limit (u_menu u)) as [d|] eqn:El.
  - destruct (Z_le_gt_dec d (u_age u)) as [Hd|Hd].
    + left. exists d. split; [reflexivity|]. split; [exact Hd|]. apply (poll_limit C u e d El Hd).
    + right. assert (L : forall d', Some d = Some d' -> u_age u < d') by (intros d' X; injection X as <-; lia).
      destruct (Z.eq_dec (u_err u) e) as [He|He].
      * right. split; [exact L|]. split; [exact He|]. apply poll_eq; [rewrite El; exact L|exact He].
      * left. split; [exact L|]. split; [exact He|]. unfold ui_poll, ui_limit. rewrite El. replace (d <=? u_age u) with false by lia. unfold ui_error. replace (e =? u_err u) with false by lia. repeat split.
  - right. assert (L : forall d' : Z, None = Some d' -> u_age u < d') by (intros d' X; discriminate X). destruct (Z.eq_dec (u_err u) e) as [He|He].
    + right. split; [exact L|]. split; [exact He|]. apply poll_eq; [rewrite El; exact L|exact He].
    + left. split; [exact L|]. split; [exact He|]. unfold ui_poll, ui_limit. rewrite El. unfold ui_error. replace (e =? u_err u) with false by lia. repeat split.
Qed.
Lemma phase_run C y u up n k : ui_rel C y u -> u_ramp u = RRun up n k -> ramp_phase (n_ramp (y_menu y)) = Some (false, up).
Proof. intros R E. pose proof (uv_ramp _ _ _ R) as X. rewrite E in X. cbn [ramp_rel] in X. destruct X as (-> & _). destruct up; reflexivity. Qed.
Lemma menu_changes C y u e y' : build_conf C -> ui_run C y u -> ev_ok C y e -> in_time u e -> is_power e = false -> step C y e = Some y' ->
  n_state (y_menu y') <> n_state (y_menu y) ->
  (exists pins b, e = EButtons pins /\ sample_due u = true /\ b <> BUTTON_IRON /\ down (u_pins u) b = true /\ down pins b = false) \/
  (e = EMenu /\ exists d, menu_limit (n_state (y_menu y)) = Some d /\ d <= u_age u /\ n_state (y_menu y') = menu_expired C (n_state (y_menu y))) \/
  (e = EMenu /\ shows_preset (n_state (y_menu y)) = true /\ n_state (y_menu y') = MENU_CHGPRESET /\ exists up, ramp_phase (n_ramp (y_menu y)) = Some (false, up)).
Proof.
  intros HC R O Ht P E N. pose proof (next_run C y u e y' R O Ht P E) as R'. destruct (run_rel C y u HC R) as (_ & _ & _ & Rl). destruct (run_rel C _ _ HC R') as (_ & _ & _ & Rl').
  rewrite (uv_menu _ _ _ Rl'), (uv_menu _ _ _ Rl) in *. destruct e; cbn [ui_next] in *; try (exfalso; apply N; reflexivity).
  - right. destruct (poll_cases C u (sensor_error y)) as [(d & P1 & P2 & P3 & _)|[(_ & _ & P3 & _)|(_ & _ & P3)]].
    + left. split; [reflexivity|]. exists d. auto.
    + congruence.
    + rewrite P3 in *. destruct (ramp_cases u) as [(up & n & k & Q1 & _ & _ & _ & Q2)|(_ & Q2 & _)]; [|congruence]. rewrite Q2 in *. right. destruct (shows_preset (u_menu u)); [|congruence].
      repeat (split; [reflexivity|]). exists up. exact (phase_run C y u up n k Rl Q1).
  - left. destruct (sample_due u) eqn:Hd; [|unfold ui_sample in N; rewrite Hd in N; congruence]. destruct (proj2 (sample_stage C u pinb Hd) N) as (b & X1 & X2 & X3). exists pinb, b. auto.
Qed.
Lemma settings_changes C y u e y' : build_conf C -> ui_run C y u -> ev_ok C y e -> in_time u e -> is_power e = false -> step C y e = Some y' ->
  let x := x_cache (y_set y) in let x' := x_cache (y_set y') in
  same_settings x' x \/
  (exists pins a, e = EButtons pins /\ 0 <= a <= 5 /\ same_settings x' (set_s_active x a)) \/
  (e = EMenu /\ exists up, ramp_phase (n_ramp (y_menu y)) = Some (false, up) /\ same_settings x' (item_step (n_state (y_menu y)) (t_boost (y_ct y)) up x)).
Proof.
  intros HC R O Ht P E. cbv zeta. pose proof (next_run C y u e y' R O Ht P E) as R'. destruct (run_rel C y u HC R) as (_ & I & _ & Rl). destruct (run_rel C _ _ HC R') as (_ & _ & _ & Rl').
  pose proof (uv_cfg _ _ _ Rl) as X0. pose proof (uv_cfg _ _ _ Rl') as X1. rewrite (uv_menu _ _ _ Rl), (uv_boost _ _ _ Rl).
  assert (Same : u_cfg (ui_next C u (sensor_error y) e) = u_cfg u -> same_settings (x_cache (y_set y')) (x_cache (y_set y))).
  { intros X. eapply same_trans; [exact X1|]. rewrite X. apply same_sym. exact X0. }
  destruct e; cbn [ui_next] in *; try (left; apply Same; reflexivity).
  - destruct (poll_cases C u (sensor_error y)) as [(d & _ & _ & _ & _ & P3)|[(_ & _ & _ & _ & P3 & _)|(_ & _ & P3)]]; [left; apply Same; exact P3..|].
    rewrite P3 in *. destruct (ramp_cases u) as [(up & n & k & Q1 & _ & _ & Q2 & _)|(Q2 & _)]; [|left; apply Same; exact Q2].
    right. right. split; [reflexivity|]. exists up. split; [exact (phase_run C y u up n k Rl Q1)|]. eapply same_trans; [exact X1|]. rewrite Q2. apply item_cong. apply same_sym. exact X0.
  - unfold ui_sample in *. destruct (sample_due u) eqn:Hd; [|left; apply Same; reflexivity]. right. left.
    destruct (fold_cfg C (key_events (u_pins u) pinb) (set_u_sample u (u_count u + 1) pinb)) as (a & Ha & Ea).
    { change (0 <= s_active (u_cfg u) <= 5). rewrite (same_active _ _ X0). apply (i_set _ _ _ I). }
    exists pinb, a. split; [reflexivity|]. split; [exact Ha|]. eapply same_trans; [exact X1|]. rewrite Ea. apply same_act. apply same_sym. exact X0.
Qed.

(** ** C40 *)
Lemma limit_reached C y u d y' : build_conf C -> ui_run C y u -> in_time u EMenu -> step C y EMenu = Some y' ->
  menu_limit (n_state (y_menu y)) = Some d -> d <= u_age u ->
  n_state (y_menu y') = menu_expired C (n_state (y_menu y)) /\ n_ramp (y_menu y') = RAMP_NONE /\ same_settings (x_cache (y_set y')) (x_cache (y_set y)).
Proof.
  intros HC R Ht E El Hd. pose proof (next_run C y u EMenu y' R Logic.I Ht eq_refl E) as R'. destruct (run_rel C y u HC R) as (_ & _ & _ & Rl). destruct (run_rel C _ _ HC R') as (_ & _ & _ & Rl').
  cbn [ui_next] in *. rewrite (uv_menu _ _ _ Rl'), (uv_menu _ _ _ Rl) in *. destruct (poll_limit C u (sensor_error y) d El Hd) as (-> & Q1 & Q2). split; [reflexivity|].
  split; [pose proof (uv_ramp _ _ _ Rl') as X; rewrite Q1 in X; exact X|]. eapply same_trans; [exact (uv_cfg _ _ _ Rl')|]. rewrite Q2. apply same_sym. exact (uv_cfg _ _ _ Rl).
Qed.
Lemma limit_not_reached C y u e y' : build_conf C -> ui_run C y u -> ev_ok C y e -> in_time u e -> is_power e = false -> step C y e = Some y' ->
  (forall pins, e <> EButtons pins) -> n_ramp (y_menu y) = RAMP_NONE -> (forall d, menu_limit (n_state (y_menu y)) = Some d -> u_age u < d) ->
  n_state (y_menu y') = n_state (y_menu y).
Proof.
  intros HC R O Ht P E N Hr Hl. destruct (mstate_eqb (n_state (y_menu y')) (n_state (y_menu y))) eqn:Eq; [apply mstate_eqb_ok; exact Eq|]. apply eqb_spec in Eq. exfalso.
  destruct (menu_changes C y u e y' HC R O Ht P E Eq) as [(pins & b & X & _)|[(_ & d & X & Y & _)|(_ & _ & _ & up & X)]].
  - exact (N pins X).
  - specialize (Hl d X). lia.
  - rewrite Hr in X. discriminate X.
Qed.
Lemma age_clock C y u e y' : build_conf C -> ui_run C y u -> ev_ok C y e -> in_time u e -> is_power e = false -> step C y e = Some y' ->
  u_age (ui_next C u (sensor_error y) e) =
    if negb (mstate_eqb (n_state (y_menu y)) (n_state (y_menu y'))) then 0
    else if restarts (n_state (y_menu y)) && menu_touched u e then 0
    else u_age u + ticks_of e.
Proof.
  intros HC R O Ht P E. pose proof (next_run C y u e y' R O Ht P E) as R'. destruct (run_rel C y u HC R) as (_ & I & _ & Rl). destruct (run_rel C _ _ HC R') as (_ & _ & _ & Rl').
  rewrite (uv_menu _ _ _ Rl'), (uv_menu _ _ _ Rl). destruct e; cbn [ui_next menu_touched ticks_of]; rewrite ?mstate_refl, ?andb_false_r, ?Z.add_0_r; cbn [negb]; try reflexivity.
  - destruct (poll_cases C u (sensor_error y)) as [(d & P1 & P2 & P3 & _)|[(_ & _ & P3 & _ & _ & P4)|(_ & _ & P3)]].
    + assert (Ne : mstate_eqb (u_menu u) (menu_expired C (u_menu u)) = false).
      { destruct (mstate_eqb _ _) eqn:X; [|reflexivity]. apply mstate_eqb_ok in X. exfalso. pose proof (rel_allowed C y u I Rl) as Al. clear - X P1 Al. unfold menu_expired in X.
        assert (Y := next_after C _ Al). destruct (u_menu u); cbn in P1, Al; try discriminate; rewrite <- Y in X; unfold next_menu_state in X; rewrite ?Al in X; discriminate X. }
      rewrite P3, Ne. cbn [negb]. unfold ui_poll, ui_limit. rewrite P1. replace (d <=? u_age u) with true by lia. rewrite ui_enter_eq, Ne. unfold ui_error. destruct (_ =? _); reflexivity.
    + rewrite P3, P4, mstate_refl. reflexivity.
    + rewrite P3. unfold ui_ramp. destruct (u_ramp u) as [|up n|up n k]; [rewrite mstate_refl; reflexivity| |].
      * destruct (1000 <=? n); cbn [set_u_ramp]; uf; rewrite mstate_refl; reflexivity.
      * destruct (step_time k <=? n); [|rewrite mstate_refl; reflexivity]. destruct (shows_preset (u_menu u)); [rewrite ui_enter_eq; uf; cbn [set_u_ramp set_u_cfg]; uf; destruct (mstate_eqb _ _); reflexivity|].
        cbn [set_u_ramp set_u_cfg]. uf. rewrite mstate_refl. reflexivity.
  - destruct (sample_due u) eqn:Hd.
    + destruct (proj1 (sample_stage C u pinb Hd)) as (-> & _). cbn [andb]. change timed with restarts. destruct (mstate_eqb _ _); reflexivity.
    + unfold ui_sample. rewrite Hd, mstate_refl, andb_false_r. reflexivity.
Qed.
