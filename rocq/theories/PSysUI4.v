(** * Properties of keys, menus and ramps, part 2 *)
From Coq Require Import ZArith List Bool Lia ZifyBool.
From Verif Require Import Base PBase MConf MUtil MFixpt MScale MRing MFilter MTimer MPid MPwm MTempMap MCurr MSens
  SpecNum SpecPid SpecSmall PNum PSmall PScale PPid SpecCurr PCurr MSettings SpecSettings PSettings PSysSet
  MSseg MDisplay MText MState MTemp MMeas MMenu MMain SpecDisplay SpecSys SpecRun SpecUI PSys PSysMeas PSysMenu PSysDisp PSysBtn
  PSysStep PSysRun PSysCC PSysSafe PSysUI PSysUI2 PSysUI3.
Import ListNotations.
Open Scope Z_scope.
Ltac Zify.zify_post_hook ::= Z.div_mod_to_equations.

(** ** C38 *)
Lemma due_eq C y u pins : ui_rel C y u -> in_time u (EButtons pins) -> timer_expired (y_now y) (b_timer (y_btn y)) = sample_due u.
Proof.
  intros R (Ht & _). destruct (uv_now _ _ _ R) as (T0 & ->). destruct (uv_btn _ _ _ R) as (B1 & B2 & -> & _).
  replace (u16 (10 * u_count u)) with (u16 (10 * u_count u + 0)) by (f_equal; lia). rewrite expired_at by lia. unfold sample_due. lia.
Qed.
Lemma keys_calls C y u pins : build_conf C -> ui_run C y u -> is_u8 pins -> in_time u (EButtons pins) ->
  step C y (EButtons pins) =
    if sample_due u
    then run_calls C (set_y_btn y (mkBtn (buttons_get_raw pins) (u16 (10 * (u_count u + 1))))) (key_events (u_pins u) pins)
    else Some y.
Proof.
  intros HC R Hp Ht. destruct (run_rel C y u HC R) as (_ & _ & _ & Rl). cbn [step]. unfold buttons_work. cbv zeta. rewrite (due_eq C y u pins Rl Ht).
  destruct (uv_btn _ _ _ Rl) as (B1 & B2 & B3 & B4 & B5). destruct (sample_due u); cbn [negb]; [|reflexivity].
  unfold BUTTONS_DEBOUNCE_MS. rewrite add_ok by lia. cbn [bind]. rewrite B3, B4, sample_events by assumption. rewrite u16_shift. do 3 f_equal. f_equal. lia.
Qed.
Lemma other_pins C y p q : is_u8 p -> is_u8 q -> (forall b, down p b = down q b) -> step C y (EButtons p) = step C y (EButtons q).
Proof.
  intros Hp Hq E. assert (X : buttons_get_raw p = buttons_get_raw q) by (rewrite !raw_keyb by assumption; rewrite !E; reflexivity).
  cbn [step]. unfold buttons_work, sample_calls. rewrite X. reflexivity.
Qed.
Fixpoint run_alt (h : bool) (l : list bstate) : option bool :=
  match l with
  | [] => Some h
  | s :: r => match h, s with
              | false, BSTATE_POSEDGE | true, BSTATE_PRESSED => run_alt true r
              | true, BSTATE_NEGEDGE => run_alt false r
              | _, _ => None
              end
  end.
Lemma run_alt_alternate l : forall h g, run_alt h l = Some g -> alternate h l.
Proof.
  induction l as [|s l IH]; intros h g E; [constructor|]. cbn in E. destruct h, s; try discriminate E; constructor; eapply IH; exact E.
Qed.
Lemma run_alt_app a : forall h b, run_alt h (a ++ b) = match run_alt h a with Some g => run_alt g b | None => None end.
Proof.
  induction a as [|s a IH]; intros h b; [reflexivity|]. cbn. destruct h, s; try reflexivity; apply IH.
Qed.
Lemma key_event_alt p q k : run_alt (down p k) (key_event p q k) = Some (down q k).
Proof. unfold key_event. destruct (down p k), (down q k); reflexivity. Qed.
Lemma calls_app k a b : calls_of k (a ++ b) = calls_of k a ++ calls_of k b.
Proof. unfold calls_of. rewrite filter_app, map_app. reflexivity. Qed.
Lemma calls_one k b l : calls_of k (map (fun s => (b, s)) l) = if key_pin b =? key_pin k then l else [].
Proof.
  unfold calls_of. induction l as [|s l IH]; cbn [map filter fst]; [destruct (_ =? _); reflexivity|].
  destruct (key_pin b =? key_pin k); cbn [map snd]; [f_equal|]; exact IH.
Qed.
Lemma calls_events k p q : calls_of k (key_events p q) = key_event p q k.
Proof.
  unfold key_events, all_keys. cbn [flat_map]. rewrite !calls_app, !calls_one. destruct k; cbn [key_pin Z.eqb Pos.eqb app]; rewrite ?app_nil_r; reflexivity.
Qed.
Lemma delivered_ok C y u T s l : build_conf C -> delivered C y u T s l ->
  ui_run C y u /\ u_time u = T /\ u_count u = s /\ forall k, run_alt false (calls_of k l) = Some (down (u_pins u) k).
Proof.
  intros HC R. induction R as [pinb y Hp E|y v pinb y' R O E|y u T s l pins y' R (IH1 & IH2 & IH3 & IH4) Hp Ht Hx E|y u T s l pins R (IH1 & IH2 & IH3 & IH4) Hp Ht Hx E|y u T s l e y' R (IH1 & IH2 & IH3 & IH4) O Ht P N E].
  - split; [apply ui_boot; assumption|]. repeat split. destruct k; reflexivity.
  - split; [eapply ui_power; eassumption|]. repeat split. destruct k; reflexivity.
  - destruct (run_rel C y u HC IH1) as (_ & _ & _ & Rl). rewrite (due_eq C y u pins Rl Ht) in Hx. destruct (sample_pins C u pins Hx) as (P1 & P2 & P3 & _).
    split. { change (ui_sample C u pins) with (ui_next C u (sensor_error y) (EButtons pins)). apply (ui_step C y u _ y'); auto. }
    split; [congruence|]. split; [congruence|]. intros k. destruct (uv_btn _ _ _ Rl) as (_ & _ & _ & B4 & B5). rewrite B4, sample_events by assumption.
    rewrite calls_app, run_alt_app, IH4, calls_events, P1. apply key_event_alt.
  - auto.
  - split; [apply (ui_step C y u e y'); auto|]. destruct e; cbn [ui_next ticks_of]; rewrite ?Z.add_0_r; try (split; [exact IH2|split; [exact IH3|exact IH4]]).
    + cbn [ui_tick]. unfold ui_tick. uf. split; [lia|]. split; [exact IH3|exact IH4].
    + destruct (poll_clock C u (sensor_error y)) as (-> & -> & -> & _). auto.
    + exfalso. exact (N pinb eq_refl).
Qed.
Lemma keys_alternate C y u T s l : build_conf C -> delivered C y u T s l -> forall k, alternate false (calls_of k l).
Proof. intros HC R k. destruct (delivered_ok C y u T s l HC R) as (_ & _ & _ & A). exact (run_alt_alternate _ _ _ (A k)). Qed.
Lemma keys_rate C y u T s l : build_conf C -> delivered C y u T s l -> 10 * s <= T + 10.
Proof.
  intros HC R. destruct (delivered_ok C y u T s l HC R) as (R1 & <- & <- & _). destruct (run_rel C y u HC R1) as (_ & _ & _ & Rl). apply (uv_btn _ _ _ Rl).
Qed.

(** ** Samples with one key *)
Lemma only_sample C k u q : sample_due u = true -> only_key k (u_pins u) q ->
  ui_sample C u q = kfold C k (key_event (u_pins u) q k) (set_u_sample u (u_count u + 1) q).
Proof.
  intros Hd Ho. unfold ui_sample. rewrite Hd, fold_events.
  assert (E : forall b, b <> k -> key_event (u_pins u) q b = []) by (intros b Hb; destruct (Ho b Hb); apply key_event_up; assumption).
  destruct k; rewrite ?(E BUTTON_SET), ?(E BUTTON_MINUS), ?(E BUTTON_PLUS), ?(E BUTTON_IRON) by discriminate; reflexivity.
Qed.
Lemma sampled_run C y u pins y' : sampled C y u pins y' -> ui_run C y' (ui_sample C u pins).
Proof.
  intros (R & Hp & Ht & Hd & E). change (ui_sample C u pins) with (ui_next C u (sensor_error y) (EButtons pins)). apply (ui_step C y u _ y'); auto.
Qed.
Definition smp (u : ui) (q : Z) : ui := set_u_sample u (u_count u + 1) q.
Lemma released_ui C y u k y' : build_conf C -> is_iron k = false -> released_key C y u k y' ->
  exists pins, ui_rel C y u /\ ui_rel C y' (key_state C (smp u pins) k BSTATE_NEGEDGE) /\ allowed C (u_menu u) = true /\ reach C y'.
Proof.
  intros HC Hk (pins & S & Ho & D1 & D2). pose proof (sampled_run C y u pins y' S) as R'. destruct S as (R & Hp & Ht & Hd & E).
  exists pins. destruct (run_rel C y u HC R) as (_ & I & _ & Rl). destruct (run_rel C _ _ HC R') as (Rc & _ & _ & Rl'). split; [exact Rl|].
  rewrite (only_sample C k u pins Hd Ho) in Rl'. unfold key_event in Rl'. rewrite D1, D2 in Rl'. unfold kfold in Rl'. cbn [map fold_left] in Rl'. rewrite key_eq in Rl' by exact Hk.
  split; [exact Rl'|]. split; [apply (rel_allowed C y u I Rl)|exact Rc].
Qed.
Lemma pressed_ui C y u k y' : build_conf C -> is_iron k = false -> pressed_key C y u k y' ->
  exists pins, ui_rel C y u /\ ui_rel C y' (key_state C (key_state C (smp u pins) k BSTATE_POSEDGE) k BSTATE_PRESSED) /\ allowed C (u_menu u) = true /\ reach C y'.
Proof.
  intros HC Hk (pins & S & Ho & D1 & D2). pose proof (sampled_run C y u pins y' S) as R'. destruct S as (R & Hp & Ht & Hd & E).
  exists pins. destruct (run_rel C y u HC R) as (_ & I & _ & Rl). destruct (run_rel C _ _ HC R') as (Rc & _ & _ & Rl'). split; [exact Rl|].
  rewrite (only_sample C k u pins Hd Ho) in Rl'. unfold key_event in Rl'. rewrite D1, D2 in Rl'. unfold kfold in Rl'. cbn [map fold_left] in Rl'. rewrite !key_eq in Rl' by exact Hk.
  split; [exact Rl'|]. split; [apply (rel_allowed C y u I Rl)|exact Rc].
Qed.
Lemma set_release C y u y' : build_conf C -> released_key C y u BUTTON_SET y' ->
  n_state (y_menu y') = (if y_dbg y then n_state (y_menu y) else menu_after C (n_state (y_menu y))) /\ same_settings (x_cache (y_set y')) (x_cache (y_set y)) /\ n_ramp (y_menu y') = RAMP_NONE.
Proof.
  intros HC R. destruct (released_ui C y u BUTTON_SET y' HC eq_refl R) as (pins & R0 & R1 & Al & _).
  split. { rewrite (uv_menu _ _ _ R1), (uv_menu _ _ _ R0), (uv_dbg _ _ _ R0). reflexivity. }
  split. { pose proof (uv_cfg _ _ _ R1) as A. pose proof (uv_cfg _ _ _ R0) as B. unfold same_settings in *. rewrite A, B. unfold key_state. uf. reflexivity. }
  exact (uv_ramp _ _ _ R1).
Qed.
Lemma same_sym a b : same_settings a b -> same_settings b a.
Proof. unfold same_settings. congruence. Qed.
Lemma same_trans a b c : same_settings a b -> same_settings b c -> same_settings a c.
Proof. unfold same_settings. congruence. Qed.
Lemma same_act x c a : same_settings x c -> same_settings (set_s_active x a) (set_s_active c a).
Proof.
  intros E. apply (proj1 (same_ex _ _)) in E. rewrite E. set (v := s_serial x). clearbody v. reflexivity.
Qed.
Lemma adj_release C y u k y' : build_conf C -> k = BUTTON_PLUS \/ k = BUTTON_MINUS -> released_key C y u k y' ->
  n_state (y_menu y') = match n_state (y_menu y) with MENU_CURTEMP => MENU_SELPRESET | _ => n_state (y_menu y) end /\
  same_settings (x_cache (y_set y'))
    (match n_state (y_menu y) with
     | MENU_SELPRESET => set_s_active (x_cache (y_set y)) ((match k with BUTTON_PLUS => cycle_up 5 | _ => cycle_down 5 end) (s_active (x_cache (y_set y))))
     | _ => x_cache (y_set y) end) /\ n_ramp (y_menu y') = RAMP_NONE.
Proof.
  intros HC Hk R. assert (Hi : is_iron k = false) by (destruct Hk; subst; reflexivity).
  destruct (released_ui C y u k y' HC Hi R) as (pins & R0 & R1 & Al & _).
  split. { rewrite (uv_menu _ _ _ R1), (uv_menu _ _ _ R0). destruct Hk; subst k; reflexivity. }
  split; [|exact (uv_ramp _ _ _ R1)].
  eapply same_trans; [exact (uv_cfg _ _ _ R1)|]. rewrite (uv_menu _ _ _ R0). pose proof (uv_cfg _ _ _ R0) as B. rewrite <- (same_active _ _ B).
  unfold key_state, smp, set_u_sample. uf. destruct Hk; subst k; destruct (u_menu u); try (apply same_sym; exact B); apply same_act; apply same_sym; exact B.
Qed.
Lemma press_keeps C y u k y' : build_conf C -> pressed_key C y u k y' ->
  n_state (y_menu y') = n_state (y_menu y) /\ same_settings (x_cache (y_set y')) (x_cache (y_set y)).
Proof.
  intros HC R. destruct (is_iron k) eqn:Hi.
  - destruct R as (pins & S & Ho & D1 & D2). pose proof (sampled_run C y u pins y' S) as R'. destruct S as (R & Hp & Ht & Hd & E).
    destruct (run_rel C y u HC R) as (_ & _ & _ & Rl). destruct (run_rel C _ _ HC R') as (_ & _ & _ & Rl').
    rewrite (only_sample C k u pins Hd Ho) in Rl'. destruct k; try discriminate Hi.
    destruct (kfold_iron C (key_event (u_pins u) pins BUTTON_IRON) (set_u_sample u (u_count u + 1) pins)) as (_ & K1 & K2 & _).
    rewrite (uv_menu _ _ _ Rl'), (uv_menu _ _ _ Rl), K1. split; [reflexivity|].
    eapply same_trans; [exact (uv_cfg _ _ _ Rl')|]. rewrite K2. apply same_sym. exact (uv_cfg _ _ _ Rl).
  - destruct (pressed_ui C y u k y' HC Hi R) as (pins & R0 & R1 & _).
    rewrite (uv_menu _ _ _ R1), (uv_menu _ _ _ R0). split; [reflexivity|]. eapply same_trans; [exact (uv_cfg _ _ _ R1)|].
    unfold key_state, smp, set_u_sample. uf. eapply same_trans; [|apply same_sym; exact (uv_cfg _ _ _ R0)]. destruct k; apply same_refl.
Qed.

(** ** The key of a ramp is down *)
Definition ramp_dir (r : rphase) : option bool := match r with RNone => None | RWait up _ | RRun up _ _ => Some up end.
Definition ramp_key_of (up : bool) : button := if up then BUTTON_PLUS else BUTTON_MINUS.
Lemma held_ramp C u b : u_ramp (key_state C u b BSTATE_PRESSED) = u_ramp u.
Proof. unfold key_state. uf. cbn [is_neg]. destruct (rampable (u_menu u)) as [(pre, h)|]; reflexivity. Qed.
Lemma kfold_ramp C b p q u : is_iron b = false ->
  ramp_dir (u_ramp (kfold C b (key_event p q b) u)) = None \/
  ramp_dir (u_ramp (kfold C b (key_event p q b) u)) = ramp_dir (u_ramp u) /\ negb (down p b && negb (down q b)) = true \/
  down q b = true /\ exists up, b = ramp_key_of up /\ ramp_dir (u_ramp (kfold C b (key_event p q b) u)) = Some up.
Proof.
  intros Hb. unfold kfold, key_event. destruct (down p b), (down q b); cbn [map fold_left]; rewrite ?key_eq by exact Hb; rewrite ?held_ramp.
  - right. left. split; reflexivity.
  - left. reflexivity.
  - unfold key_state. uf. destruct b; try discriminate Hb; unfold key_ramp; cbn [is_neg is_pos is_minus is_plus].
    + right. left. split; [|reflexivity]. destruct (rampable (u_menu u)) as [(pre, h)|]; reflexivity.
    + destruct (rampable (u_menu u)) as [(pre, h)|]; [|right; left; split; reflexivity]. right. right. split; [reflexivity|]. exists false. split; [reflexivity|]. destruct pre; reflexivity.
    + destruct (rampable (u_menu u)) as [(pre, h)|]; [|right; left; split; reflexivity]. right. right. split; [reflexivity|]. exists true. split; [reflexivity|]. destruct pre; reflexivity.
  - right. left. split; reflexivity.
Qed.
Definition key_inv (u : ui) : Prop := forall up, ramp_dir (u_ramp u) = Some up -> down (u_pins u) (ramp_key_of up) = true.
Lemma sample_key C u q : key_inv u -> key_inv (ui_sample C u q).
Proof.
  intros K. destruct (sample_due u) eqn:Hd; [|unfold ui_sample; rewrite Hd; exact K].
  intros up E. rewrite (proj1 (sample_pins C u q Hd)). unfold ui_sample in E. rewrite Hd, fold_events in E.
  set (p := u_pins u) in *. set (u0 := set_u_sample u (u_count u + 1) q) in *.
  set (u1 := kfold C BUTTON_SET (key_event p q BUTTON_SET) u0) in *. set (u2 := kfold C BUTTON_MINUS (key_event p q BUTTON_MINUS) u1) in *.
  set (u3 := kfold C BUTTON_PLUS (key_event p q BUTTON_PLUS) u2) in *. destruct (kfold_iron C (key_event p q BUTTON_IRON) u3) as (_ & _ & _ & E3 & _). rewrite E3 in E. clear E3.
  assert (K0 : forall up, ramp_dir (u_ramp u0) = Some up -> down p (ramp_key_of up) = true) by exact K.
  assert (K1 : forall up, ramp_dir (u_ramp u1) = Some up -> down p (ramp_key_of up) = true).
  { intros w Ew. destruct (kfold_ramp C BUTTON_SET p q u0 eq_refl) as [X|[(X & _)|(_ & v & X & _)]]; fold u1 in X; [congruence|apply K0; congruence|destruct v; discriminate X]. }
  assert (K2 : forall up, ramp_dir (u_ramp u2) = Some up -> if up then down p BUTTON_PLUS = true else down q BUTTON_MINUS = true).
  { intros w Ew. destruct (kfold_ramp C BUTTON_MINUS p q u1 eq_refl) as [X|[(X & Y)|(Y & v & X & Z)]].
    - fold u2 in X. congruence.
    - fold u2 in X. rewrite X in Ew. specialize (K1 w Ew). destruct w; [exact K1|]. change (down p BUTTON_MINUS = true) in K1. rewrite K1 in Y. destruct (down q BUTTON_MINUS); [reflexivity|discriminate Y].
    - fold u2 in Z. destruct v; [discriminate X|]. assert (w = false) by congruence. subst w. exact Y. }
  destruct (kfold_ramp C BUTTON_PLUS p q u2 eq_refl) as [X|[(X & Y)|(Y & v & X & Z)]].
  - fold u3 in X. congruence.
  - fold u3 in X. rewrite X in E. specialize (K2 up E). destruct up; [|exact K2]. rewrite K2 in Y. cbn [ramp_key_of]. destruct (down q BUTTON_PLUS); [reflexivity|discriminate Y].
  - fold u3 in Z. destruct v; [|discriminate X]. assert (up = true) by congruence. subst up. exact Y.
Qed.
Lemma poll_ramp_dir C u e : ramp_dir (u_ramp (ui_poll C u e)) = None \/ ramp_dir (u_ramp (ui_poll C u e)) = ramp_dir (u_ramp u).
Proof.
  unfold ui_poll. assert (A : forall w, ramp_dir (u_ramp (ui_ramp w)) = ramp_dir (u_ramp w)).
  { intros w. unfold ui_ramp. destruct (u_ramp w) as [|up n|up n k] eqn:Ew; [rewrite Ew; reflexivity| |].
    - destruct (1000 <=? n); [reflexivity|rewrite Ew; reflexivity].
    - destruct (step_time k <=? n); [|rewrite Ew; reflexivity]. destruct (shows_preset (u_menu w)); [rewrite ui_enter_eq|]; reflexivity. }
  rewrite A. unfold ui_error. destruct (e =? _); [|left; reflexivity]. unfold ui_limit. destruct (menu_limit _); [|right; reflexivity]. destruct (_ <=? _); [left|right]; reflexivity.
Qed.
Lemma run_key C y u : ui_run C y u -> key_inv u.
Proof.
  intros R. induction R as [pinb y Hp E|y v pinb y' R O E|y u e y' R IH O Ht P E]; [intros up X; discriminate X..|].
  destruct e; cbn [ui_next]; try exact IH.
  - intros up X. unfold ui_tick in *. cbn [u_pins u_ramp] in *. apply IH. destruct (u_ramp u); exact X.
  - intros up X. destruct (poll_clock C u (sensor_error y)) as (_ & _ & -> & _). apply IH. destruct (poll_ramp_dir C u (sensor_error y)); congruence.
  - apply sample_key. exact IH.
Qed.
Lemma rel_dir C y u : ui_rel C y u -> ramp_dir (u_ramp u) = option_map snd (ramp_phase (n_ramp (y_menu y))).
Proof.
  intros R. pose proof (uv_ramp _ _ _ R) as X. destruct (u_ramp u) as [|[] n|[] n k]; cbn [ramp_rel] in X; [rewrite X|destruct X as (-> & _)..]; reflexivity.
Qed.
Lemma ramp_key_down C y u p up : build_conf C -> ui_run C y u -> ramp_phase (n_ramp (y_menu y)) = Some (p, up) -> down (u_pins u) (if up then BUTTON_PLUS else BUTTON_MINUS) = true.
Proof.
  intros HC R E. destruct (run_rel C y u HC R) as (_ & _ & _ & Rl). apply (run_key C y u R up). rewrite (rel_dir C y u Rl), E. reflexivity.
Qed.

(** ** What a ramp step and a poll do *)
Lemma item_cong s m up x c : same_settings x c -> same_settings (item_step s m up x) (item_step s m up c).
Proof.
  intros E. apply (proj1 (same_ex _ _)) in E. rewrite E. set (v := s_serial x). clearbody v. destruct s; reflexivity.
Qed.
Lemma ramp_cases u :
  (exists up n k, u_ramp u = RRun up n k /\ step_time k <= n /\ u_ramp (ui_ramp u) = RRun up n (S k) /\
     u_cfg (ui_ramp u) = item_step (u_menu u) (u_boost u) up (u_cfg u) /\
     u_menu (ui_ramp u) = if shows_preset (u_menu u) then MENU_CHGPRESET else u_menu u) \/
  (u_cfg (ui_ramp u) = u_cfg u /\ u_menu (ui_ramp u) = u_menu u /\ u_age (ui_ramp u) = u_age u /\
   u_ramp (ui_ramp u) = match u_ramp u with RWait up n => if 1000 <=? n then RRun up 0 0 else u_ramp u | r => r end /\
   forall up n k, u_ramp u = RRun up n k -> n < step_time k).
Proof.
  unfold ui_ramp. destruct (u_ramp u) as [|up n|up n k] eqn:Er.
  - right. rewrite Er. repeat split. discriminate.
  - right. destruct (1000 <=? n); [cbn [set_u_ramp]; uf|rewrite Er]; repeat split; discriminate.
  - destruct (step_time k <=? n) eqn:Ek.
    + left. exists up, n, k. split; [reflexivity|]. split; [lia|]. destruct (shows_preset (u_menu u)); [rewrite ui_enter_eq|]; repeat split.
    + right. rewrite Er. repeat split. intros a b c X. injection X as <- <- <-. lia.
Qed.
Lemma poll_eq C u e : (forall d, menu_limit (u_menu u) = Some d -> u_age u < d) -> u_err u = e -> ui_poll C u e = ui_ramp u.
Proof.
  intros Ha He. unfold ui_poll, ui_limit. destruct (menu_limit (u_menu u)) as [d|] eqn:El.
  - specialize (Ha d eq_refl). replace (d <=? u_age u) with false by lia. unfold ui_error. rewrite He, Z.eqb_refl. reflexivity.
  - unfold ui_error. rewrite He, Z.eqb_refl. reflexivity.
Qed.
Lemma poll_limit C u e d : menu_limit (u_menu u) = Some d -> d <= u_age u ->
  u_menu (ui_poll C u e) = menu_expired C (u_menu u) /\ u_ramp (ui_poll C u e) = RNone /\ u_cfg (ui_poll C u e) = u_cfg u.
Proof.
  intros El Hd. unfold ui_poll, ui_limit. rewrite El. replace (d <=? u_age u) with true by lia. rewrite ui_enter_eq. unfold ui_error. destruct (e =? _); repeat split.
Qed.
