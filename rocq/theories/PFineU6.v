(** * The user interface with interrupts inside the work functions, part 6: the iron key, samples *)
From Coq Require Import ZArith List Bool Lia ZifyBool.
From Verif Require Import Base PBase MConf MUtil MFixpt MScale MRing MFilter MTimer MPid MPwm MTempMap MCurr MSens
  SpecNum SpecPid SpecSmall PNum PSmall PScale PPid SpecCurr PCurr MSettings SpecSettings PSettings PSysSet
  MSseg MDisplay MText MState MTemp MMeas MMenu MMain SpecDisplay PDisplay SpecSys SpecRun SpecUI PSys PSysMeas PSysMenu PSysDisp PSysBtn PSysStep PSysRun
  PSysCC PSysSafe MFine SpecFine SpecFineLive SpecFineUI PFine PFine2 PFine3 PFine4 PSysUI PSysUI2 PFineU PFineU2 PFineU3 PFineU4 PFineU5.
Import ListNotations.
Open Scope Z_scope.
Ltac Zify.zify_post_hook ::= Z.div_mod_to_equations.

(** ** The age of the iron key's press in the automaton *)
Definition iron_step (u u' : ui) : Prop :=
  forall n', u_iron u' = Some n' -> n' <= u_time u' - u_time u \/ exists n, u_iron u = Some n /\ n' = n + (u_time u' - u_time u).
Lemma iron_step_trans a b c : u_time a <= u_time b -> iron_step a b -> iron_step b c -> iron_step a c.
Proof.
  intros T H K n' E. destruct (K n' E) as [L|(n & En & ->)]; [left; lia|]. destruct (H n En) as [L|(m & Em & ->)]; [left; lia|]. right. exists m. split; [exact Em|lia].
Qed.
Lemma iron_step_later a b : later a b -> iron_step a b.
Proof.
  intros (k & Hk & ->) n'. uf. destruct (u_iron a) as [n|] eqn:E; intros H; [|discriminate]. right. exists n. split; [reflexivity|]. apply Some_inj in H. lia.
Qed.
Lemma iron_step_eq a b : u_iron b = u_iron a -> u_time b = u_time a -> iron_step a b.
Proof. intros E T n' H. right. exists n'. split; [congruence|lia]. Qed.
Lemma iron_step_none a b : u_iron b = None -> iron_step a b.
Proof. intros E n' H. congruence. Qed.
Lemma iron_key_frame C u s : u_time (ui_iron_key C u s) = u_time u /\ iron_step u (ui_iron_key C u s) /\
  u_menu (ui_iron_key C u s) = u_menu u /\ u_age (ui_iron_key C u s) = u_age u /\ u_ramp (ui_iron_key C u s) = u_ramp u /\
  u_count (ui_iron_key C u s) = u_count u /\ u_pins (ui_iron_key C u s) = u_pins u.
Proof.
  unfold ui_iron_key. destruct (c_boost C), (c_idle C), s, (u_idle u), (u_iron u) as [m|] eqn:E, (c_idletoggle C); cbn [andb]; try destruct (1000 <=? m); uf;
    (split; [reflexivity|]); (split; [|repeat split; reflexivity]).
  all: try (apply iron_step_none; reflexivity).
  all: try (apply iron_step_eq; reflexivity).
  all: intros n'; uf; intros H; apply Some_inj in H; left; lia.
Qed.
Lemma press_frame u b : u_time (ui_press u b) = u_time u /\ u_iron (ui_press u b) = u_iron u /\ u_count (ui_press u b) = u_count u /\
  u_pins (ui_press u b) = u_pins u /\ u_menu (ui_press u b) = u_menu u /\ u_age (ui_press u b) = u_age u.
Proof. destruct u as [tm ct pn mn ag rm er ir id bo db cf]. destruct b, mn; repeat split; reflexivity. Qed.
Lemma release_frame C u b : u_time (ui_release C u b) = u_time u /\ u_iron (ui_release C u b) = u_iron u /\ u_count (ui_release C u b) = u_count u /\
  u_pins (ui_release C u b) = u_pins u /\ u_ramp (ui_release C u b) = RNone /\
  u_age (ui_release C u b) = (if mstate_eqb (u_menu u) (u_menu (ui_release C u b)) then u_age u else 0).
Proof.
  destruct u as [tm ct pn mn ag rm er ir id bo db cf]. unfold ui_release. destruct b, mn, db; uf; rewrite ?ui_enter_eq; uf; repeat split; reflexivity.
Qed.
Lemma restarted_frame u : u_time (restarted u) = u_time u /\ u_iron (restarted u) = u_iron u /\ u_count (restarted u) = u_count u /\ u_pins (restarted u) = u_pins u /\
  u_menu (restarted u) = u_menu u /\ u_ramp (restarted u) = u_ramp u.
Proof. unfold restarted. destruct (restarts _); repeat split; reflexivity. Qed.
Lemma later_frame a b : later a b -> u_count b = u_count a /\ u_pins b = u_pins a.
Proof. intros (k & _ & ->). split; reflexivity. Qed.
Definition full_act (C : conf) (u : ui) (b : button) (s : bstate) : ui :=
  match s with BSTATE_POSEDGE => ui_press u b | BSTATE_NEGEDGE => ui_release C u b | BSTATE_PRESSED => u end.
Lemma act_frame C u b s : u_time (full_act C u b s) = u_time u /\ u_iron (full_act C u b s) = u_iron u /\ u_count (full_act C u b s) = u_count u /\ u_pins (full_act C u b s) = u_pins u.
Proof.
  destruct s; cbn [full_act]; [destruct (press_frame u b) as (? & ? & ? & ? & _)|destruct (release_frame C u b) as (? & ? & ? & ? & _)|]; repeat split; assumption || reflexivity.
Qed.
Lemma other_key C u b s u' : is_iron b = false -> fui_key C u (b, s) u' -> exists u1 u2, later u u1 /\ later (restarted u1) u2 /\ later (full_act C u2 b s) u'.
Proof. intros H K. destruct b; try discriminate H; exact K. Qed.
Lemma key_step C u k u' : fui_key C u k u' -> u_time u <= u_time u' /\ iron_step u u' /\ u_count u' = u_count u /\ u_pins u' = u_pins u.
Proof.
  destruct k as (b & s). intros H. destruct (is_iron b) eqn:Eb.
  - destruct b; try discriminate Eb. destruct H as (u1 & L1 & L2). destruct (iron_key_frame C u1 s) as (T & I & _ & _ & _ & Hc & Hp).
    pose proof (later_time _ _ L1). pose proof (later_time _ _ L2). destruct (later_frame _ _ L1), (later_frame _ _ L2). split; [lia|]. split; [|split; congruence].
    eapply iron_step_trans with (b := u1); [lia|apply iron_step_later; exact L1|]. eapply iron_step_trans; [|exact I|apply iron_step_later; exact L2]. lia.
  - destruct (other_key C u b s u' Eb H) as (u1 & u2 & L1 & L2 & L3). destruct (act_frame C u2 b s) as (T & E & Ec & Ep). set (w := full_act C u2 b s) in *. clearbody w.
    destruct (restarted_frame u1) as (T1 & E1 & C1 & P1 & _).
    pose proof (later_time _ _ L1). pose proof (later_time _ _ L2). pose proof (later_time _ _ L3). destruct (later_frame _ _ L1), (later_frame _ _ L2), (later_frame _ _ L3).
    split; [lia|]. split; [|split; congruence].
    eapply iron_step_trans with (b := u1); [lia|apply iron_step_later; exact L1|]. eapply iron_step_trans with (b := restarted u1); [lia|apply iron_step_eq; assumption|].
    eapply iron_step_trans with (b := u2); [lia|apply iron_step_later; exact L2|]. eapply iron_step_trans with (b := w); [lia|apply iron_step_eq; assumption|apply iron_step_later; exact L3].
Qed.

Section Keys.
Variable C : conf.
Hypothesis HC : build_conf C.
Local Notation B := relaxed.
Local Notation HB := bok_relaxed.
Local Notation mok := (mok B C).
Local Notation inv := (inv B C).
Local Notation core := (core B C).
Local Notation fine := (fine B C).
Local Notation to := (to C).

Lemma ctrl_rel y u y' i b o : ui_rel C y u -> ctrl_frame y y' -> t_idle (y_ct y') = i -> t_boost (y_ct y') = b -> (c_boost C = false -> b = 0) ->
  iron_rel C (u_time u) (y_ct y') o i -> ui_rel C y' (set_u_iron (set_u_boost (set_u_idle u i) b) o).
Proof.
  intros [Q1 Q2 Q3 Q4 Q5 Q6 Q7 Q8 Q9 Q10 Q11 Q12] (F & (up & Fn) & _) Hi Hb H0 Ho.
  assert (Fx : y_dbg y' = y_dbg y /\ y_set y' = y_set y /\ y_now y' = y_now y /\ y_btn y' = y_btn y) by (rewrite F; repeat split; reflexivity).
  destruct Fx as (X1 & X2 & X3 & X4). constructor; uf; rewrite ?X1, ?X2, ?X3, ?X4, ?Fn; try assumption.
Qed.
Lemma iron_at z v bs z' : inv z -> ramp_ok (y_menu z) -> ui_rel C z v -> (forall n, u_iron v = Some n -> n < 30000) ->
  contrtemp_button_handler C z BUTTON_IRON bs = Some z' -> ui_rel C z' (ui_iron_key C v bs).
Proof.
  intros I Ro R Hn E. apply (key_ok C z v BUTTON_IRON bs z' I Ro R Hn). unfold call_button_handlers. rewrite E. reflexivity.
Qed.
Lemma iron_bd N y u bs : inv y -> ramp_ok (y_menu y) -> ui_rel C y u -> (forall n, u_iron u = Some n -> n + N < 30000) ->
  bd N (contrtemp_button_handler_f C y BUTTON_IRON bs) (to N u (fui_key C u (BUTTON_IRON, bs))).
Proof.
  intros I Ro R Hn. apply bd_pos. intros HN. unfold contrtemp_button_handler_f. destruct (c_boost C && c_idle C) eqn:Ebi.
  2:{ apply bd_lift. intros y' E. exists (ui_iron_key C u bs). split; [exists u; split; apply later_refl|]. split; [destruct (iron_key_frame C u bs) as (-> & _); lia|].
      eapply iron_at; [exact I|exact Ro|exact R| |exact E]. intros n En. specialize (Hn n En). lia. }
  assert (Eb : c_boost C = true) by (apply andb_prop in Ebi; apply Ebi).
  unfold button_boost_idle_f. cbv zeta. cbn [is_iron negb]. pose proof (uv_idle _ _ _ R) as Ei. destruct (uv_now _ _ _ R) as (T0 & Tn). destruct (is_pos bs) eqn:Ep.
  - destruct bs; try discriminate Ep. cbn [is_held is_neg andb]. apply bd_bind. apply (bd_point B C HC HB); [apply inv_core; exact I|]. intros k n m x Hk O En.
    apply bd_step. intros t Et. change (y_now (mv y n m x)) with n in Et. rewrite arm_ok in Et by (unfold CONTRTEMP_BUTTON_BOOST_DELAY; lia). apply Some_inj in Et. subst t. apply bd_ret.
    cbn [set_y_ct y_ct set_t_bilet t_bilet]. unfold CONTRTEMP_BUTTON_BOOST_DELAY. pose proof (mv_inv _ _ _ _ _ _ I O) as I1.
    apply (bd_point B C HC HB); [apply inv_core; apply inv_bi; exact I1|]. intros j n' m' x' Hj O2 En'.
    assert (O3 : mok y n' m' x') by (eapply mok_trans; [exact O|eapply mok_ext; [| |exact O2]; reflexivity]).
    change (y_now (set_y_ct (mv y n m x) (set_t_bilet (set_t_bitimer (y_ct (mv y n m x)) (u16 (n + 1000))) true))) with n in En'.
    assert (En2 : n' = u16 (y_now y + (k + j))) by (rewrite En', En, u16_shift; f_equal; lia).
    pose proof (wait_rel B C y u n' m' x' (k + j) R O3 ltac:(lia) En2) as R3. pose proof (mv_inv _ _ _ _ _ _ I O3) as I3.
    set (w := mv (set_y_ct (mv y n m x) (set_t_bilet (set_t_bitimer (y_ct (mv y n m x)) (u16 (n + 1000))) true)) n' m' x').
    assert (Ew : w = set_y_ct (mv y n' m' x') (set_t_bilet (set_t_bitimer (y_ct (mv y n' m' x')) (u16 (n + 1000))) true)) by reflexivity.
    assert (Fw : ctrl_frame (mv y n' m' x') w) by (rewrite Ew; apply bi_frame). assert (Iw : inv w) by (rewrite Ew; apply inv_bi; exact I3).
    assert (Wi : t_idle (y_ct w) = u_idle u) by exact Ei. assert (Wb : t_boost (y_ct w) = u_boost u) by exact (uv_boost _ _ _ R).
    assert (Wt : t_bilet (y_ct w) = true /\ t_bitimer (y_ct w) = u16 (n + 1000)) by (split; reflexivity).
    clearbody w. clear Ew. rewrite Ei, orb_false_r. destruct (u_idle u) eqn:Eu; cbn [negb].
    + apply bd_step. intros z Ez. destruct (idle_step_ok B C w false Iw) as (z' & Ez' & Iz & Fz & Z1 & Z2 & _). rewrite Ez in Ez'. apply Some_inj in Ez'. subst z'. apply bd_ret.
      exists (ui_wait j (set_u_iron (set_u_idle (ui_wait k u) false) None)). split; [|split; [uf; lia|]].
      * exists (ui_wait k u). split; [apply later_wait; lia|]. unfold ui_iron_key. rewrite Ebi. uf. rewrite Eu. apply later_wait. lia.
      * pose proof (ctrl_rel _ _ (set_y_ct z (set_t_bilet (y_ct z) false)) false (u_boost u) None R3) as X. rewrite <- wait_wait in X. replace (set_u_iron (set_u_boost (set_u_idle (ui_wait j (ui_wait k u)) false) (u_boost u)) None) with (ui_wait j (set_u_iron (set_u_idle (ui_wait k u) false) None)) in X by reflexivity.
        apply X; [eapply ctrl_trans; [exact Fw|]; eapply ctrl_trans; [exact Fz|apply bilet_frame]|exact Z1|cbn; congruence|congruence|reflexivity].
    + apply bd_ret. exists (ui_wait j (set_u_iron (ui_wait k u) (Some 0))). split; [|split; [uf; lia|]].
      * exists (ui_wait k u). split; [apply later_wait; lia|]. unfold ui_iron_key. rewrite Ebi. uf. rewrite Eu. apply later_wait. lia.
      * pose proof (ctrl_rel _ _ w false (u_boost u) (Some j) R3) as X. rewrite <- wait_wait in X.
        replace (set_u_iron (set_u_boost (set_u_idle (ui_wait j (ui_wait k u)) false) (u_boost u)) (Some j)) with (ui_wait j (set_u_iron (ui_wait k u) (Some 0))) in X by (unfold ui_wait; uf; rewrite Eu; reflexivity).
        apply X; [exact Fw|exact Wi|exact Wb|congruence|]. unfold iron_rel. uf. destruct Wt as (W1 & W2). split; [exact W1|]. split; [|split; [lia|split; [reflexivity|exact Ebi]]].
        rewrite W2, En, Tn, (u16_shift (u_time u)), u16_shift. f_equal. lia.
  - apply bd_done. pose proof (uv_iron _ _ _ R) as Rx. unfold iron_rel in Rx. destruct (t_bilet (y_ct y)) eqn:Et.
    2:{ apply bd_ret. exists u. split; [|split; [lia|exact R]]. exists u. split; [apply later_refl|]. destruct (u_iron u) as [n|] eqn:Eo; [exfalso; destruct Rx; congruence|].
        unfold ui_iron_key. rewrite Ebi, Eo. destruct bs; try discriminate Ep; apply later_refl. }
    apply (bd_point B C HC HB); [apply inv_core; exact I|]. intros k n m x Hk O En. pose proof (mv_inv _ _ _ _ _ _ I O) as I1.
    pose proof (wait_rel B C y u n m x k R O ltac:(lia) En) as R1. set (z := mv y n m x) in *.
    assert (Zt : t_bilet (y_ct z) = true) by exact Et. assert (Zi : t_idle (y_ct y) = t_idle (y_ct z)) by reflexivity. assert (Rz : ramp_ok (y_menu z)) by exact Ro. clearbody z. rewrite Zi.
    assert (Fin : forall z', contrtemp_button_handler C z BUTTON_IRON bs = Some z' -> to N u (fui_key C u (BUTTON_IRON, bs)) z' (N - k)).
    { intros z' E. exists (ui_iron_key C (ui_wait k u) bs). split; [exists (ui_wait k u); split; [apply later_wait; lia|apply later_refl]|].
      split; [destruct (iron_key_frame C (ui_wait k u) bs) as (-> & _); uf; lia|]. eapply iron_at; [exact I1|exact Rz|exact R1| |exact E].
      intros p. uf. destruct (u_iron u) as [q|]; [|discriminate]. intros H. apply Some_inj in H. specialize (Hn q eq_refl). lia. }
    unfold contrtemp_button_handler, button_boost_idle in Fin. rewrite Ebi in Fin. cbv zeta in Fin. cbn [is_iron negb] in Fin. rewrite Ep in Fin. cbn [bind] in Fin. rewrite Zt in Fin.
    destruct (t_idle (y_ct z) || is_held bs && timer_expired (y_now z) (t_bitimer (y_ct z))).
    + apply bd_step. intros a Ea. apply bd_ret. apply Fin. rewrite Ea. reflexivity.
    + destruct (is_neg bs); [|apply bd_ret; apply Fin; reflexivity]. apply bd_step. intros a Ea. apply bd_ret. apply Fin. rewrite Ea. reflexivity.
Qed.
Lemma other_ctrl y b bs : is_iron b = false -> contrtemp_button_handler_f C y b bs = ret y.
Proof.
  intros H. unfold contrtemp_button_handler_f, contrtemp_button_handler, button_boost_idle_f, button_boost_idle, button_boost, button_idle. rewrite H. cbn [negb].
  destruct (c_boost C), (c_idle C); reflexivity.
Qed.
Lemma call_bd N y u b bs : inv y -> ramp_ok (y_menu y) -> ui_rel C y u -> (forall n, u_iron u = Some n -> n + N < 30000) ->
  bd N (call_button_handlers_f C y b bs) (fun y' N' => fine y y' /\ to N u (fui_key C u (b, bs)) y' N').
Proof.
  intros I Ro R Hn. apply bd_and.
  { unfold call_button_handlers_f. eapply fok_seq; [apply (ctrl_button_fine B C HC HB); assumption|]. intros y1 F1.
    eapply fok_mono; [apply (menu_handler_fine B C HC HB); apply F1|]. intros y2 F2. eapply fine_trans; eassumption. }
  unfold call_button_handlers_f. destruct (is_iron b) eqn:Eb.
  - destruct b; try discriminate Eb. eapply bd_seq; [apply iron_bd; [exact I|exact Ro|exact R|exact Hn]|]. intros y1 N1 H. apply bd_ret. exact H.
  - rewrite other_ctrl by exact Eb. apply bd_done. apply (handler_bd C HC); assumption.
Qed.
Lemma calls_bd l : forall N y u, inv y -> ramp_ok (y_menu y) -> ui_rel C y u -> N < 30000 -> (forall n, u_iron u = Some n -> n + N < 30000) ->
  bd N (run_calls_f C y l) (to N u (fui_keys C l u)).
Proof.
  induction l as [|(b & bs) l IH]; intros N y u I Ro R HN Hn; cbn [run_calls_f fui_keys].
  - apply bd_ret. exists u. split; [apply later_refl|]. split; [lia|exact R].
  - eapply bd_seq; [apply call_bd; [exact I|exact Ro|exact R|exact Hn]|]. intros y1 N1 (F1 & u1 & K & T & R1). destruct (key_step C _ _ _ K) as (T1 & St & _).
    eapply bd_mono; [apply IH; [apply F1|apply F1|exact R1|lia|]|].
    + intros n En. destruct (St n En) as [L|(p & Ep & ->)]; [lia|]. specialize (Hn p Ep). lia.
    + intros y' N' (u' & K' & T' & R'). exists u'. split; [exists u1; auto|]. split; [lia|exact R'].
Qed.
Lemma sample_bd N y u pins : inv y -> ramp_ok (y_menu y) -> ui_rel C y u -> is_u8 pins -> N < 1000 ->
  u_time u - 10 * u_count u < 30000 -> (forall n, u_iron u = Some n -> n < 29000) ->
  bd N (buttons_work_f C y pins) (to N u (fui_sample C u pins)).
Proof.
  intros I Ro R Hp HN Ht Hn. apply bd_pos. intros HN0. unfold buttons_work_f. apply (bd_point B C HC HB); [apply inv_core; exact I|]. intros k n m x Hk O En.
  pose proof (wait_rel B C y u n m x k R O ltac:(lia) En) as R1. pose proof (mv_inv _ _ _ _ _ _ I O) as I1. cbv zeta.
  assert (Ro1 : ramp_ok (y_menu (mv y n m x))) by exact Ro. set (z := mv y n m x) in *. clearbody z. clear y I Ro R O En.
  set (u1 := ui_wait k u) in *. assert (T1 : u_time u1 = u_time u + k) by reflexivity. assert (L1 : later u u1) by (apply later_wait; lia). assert (Hc : u_count u1 = u_count u) by reflexivity.
  assert (Hi : forall p, u_iron u1 = Some p -> p + (N - k) < 30000).
  { intros p. unfold u1. uf. destruct (u_iron u) as [q|]; [|discriminate]. intros E. apply Some_inj in E. specialize (Hn q eq_refl). lia. }
  clearbody u1. pose proof R1 as R0. destruct R0 as [Q1 Q2 Q3 Q4 Q5 Q6 Q7 (T0 & Tn) (B1 & B2 & B3 & B4 & B5) Q10 Q11 Q12]. rewrite Tn, B3.
  assert (Ex : timer_expired (u16 (u_time u1)) (u16 (10 * u_count u1)) = sample_due u1).
  { replace (u16 (10 * u_count u1)) with (u16 (10 * u_count u1 + 0)) by (f_equal; lia). rewrite expired_at by lia. unfold sample_due.
    destruct (10 * u_count u1 <=? u_time u1) eqn:E; lia. }
  rewrite Ex. destruct (sample_due u1) eqn:Ed; cbn [negb].
  - apply bd_step. intros t Et. rewrite add_ok in Et by (unfold BUTTONS_DEBOUNCE_MS; lia). apply Some_inj in Et. subst t. rewrite B4, sample_events by assumption.
    unfold sample_due in Ed. eapply bd_mono; [apply calls_bd with (u := set_u_sample u1 (u_count u1 + 1) pins)|].
    + clear - I1. destruct I1. constructor; sy; try assumption. apply raw_u8.
    + exact Ro1.
    + unfold BUTTONS_DEBOUNCE_MS. constructor; uf; sy; try assumption; auto.
      split; [lia|]. split; [lia|]. split; [rewrite u16_shift; f_equal; lia|]. split; [reflexivity|exact Hp].
    + lia.
    + exact Hi.
    + intros y' N' (u' & K & T & R'). exists u'. split; [|split; [rewrite T; uf; lia|exact R']]. exists u1. split; [exact L1|]. unfold sample_due. rewrite Ed. exact K.
  - apply bd_ret. exists u1. split; [|split; [lia|exact R1]]. exists u1. split; [exact L1|]. rewrite Ed. reflexivity.
Qed.
End Keys.
