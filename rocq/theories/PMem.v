(** * Which work functions touch the memory of the temperature controller *)
From Coq Require Import ZArith List Bool Lia ZifyBool.
From Verif Require Import Base PBase MConf MUtil MFixpt MScale MRing MFilter MTimer MPid MPwm MTempMap MCurr MSens
  SpecNum SpecPid SpecSmall PNum PSmall PScale PPid SpecCurr PCurr MSettings SpecSettings PSettings PSysSet
  MSseg MDisplay MText MState MTemp MMeas MMenu MMain SpecDisplay PDisplay SpecSys PSys PSysMeas PSysMenu PSysDisp PSysBtn
  PSysStep PSysRun PSysCC SpecRun PSysSafe PSysProp PSysWin PSysLog PStore SpecControl PControl.
Import ListNotations.
Open Scope Z_scope.

Definition mem (y : sys) : Z * Z := memory (t_pid (y_ct y)).
(** The memory, the gains, the switch and the boost mode are kept. *)
Definition pk (y y' : sys) : Prop :=
  mem y' = mem y /\ p_k (t_pid (y_ct y')) = p_k (t_pid (y_ct y)) /\ t_enabled (y_ct y') = t_enabled (y_ct y) /\ t_boost (y_ct y') = t_boost (y_ct y).
Definition pz (y : sys) : Prop := mem y = (0, 0).
Definition pkz (y y' : sys) : Prop := pk y y' \/ pz y'.
(** Kept, or cleared with the controller switched on or off. *)
Definition psw (y y' : sys) : Prop := pk y y' \/ pz y' /\ t_enabled (y_ct y') = negb (t_enabled (y_ct y)).
Lemma pk_refl y : pk y y. Proof. repeat split; reflexivity. Qed.
Lemma pk_trans a b c : pk a b -> pk b c -> pk a c.
Proof. intros (A1 & A2 & A3 & A4) (B1 & B2 & B3 & B4). unfold pk. rewrite B1, B2, B3, B4. auto. Qed.
Lemma pkz_refl y : pkz y y. Proof. left. apply pk_refl. Qed.
Lemma pkz_trans a b c : pkz a b -> pkz b c -> pkz a c.
Proof. intros [A|A] [B|B]; [left; eapply pk_trans; eassumption|right; exact B|right|right; exact B]. destruct B as (B & _). unfold pz. rewrite B. exact A. Qed.
Lemma pk_psw a b c : pk a b -> psw b c -> psw a c.
Proof. intros A [B|(B1 & B2)]; [left; eapply pk_trans; eassumption|right]. split; [exact B1|]. destruct A as (_ & _ & A & _). congruence. Qed.
Lemma psw_pk a b c : psw a b -> pk b c -> psw a c.
Proof. intros [A|(A1 & A2)] B; [left; eapply pk_trans; eassumption|right]. destruct B as (B1 & _ & B2 & _). unfold pz. rewrite B1, B2. auto. Qed.
Lemma psw_pkz a b : psw a b -> pkz a b.
Proof. intros [A|(A & _)]; [left|right]; exact A. Qed.
Ltac prf := solve [repeat split; reflexivity | repeat split; sy; reflexivity].

Lemma set_boost_z C y m y' : contrtemp_set_boost_mode C y m = Some y' ->
  pz y' /\ t_enabled (y_ct y') = t_enabled (y_ct y) /\ t_boost (y_ct y') = (if c_boost C then m else t_boost (y_ct y)).
Proof. unfold contrtemp_set_boost_mode. intros H. invs H. unfold menu_request_display_update. destruct (c_boost C); prf. Qed.
Lemma update_setpoint_p C y y' : contrtemp_update_setpoint C y = Some y' -> pk y y'.
Proof. unfold contrtemp_update_setpoint. intros H. invs H; prf. Qed.
Lemma set_enabled_p C y b y' : contrtemp_set_enabled C y b = Some y' -> psw y y' /\ (t_enabled (y_ct y) = b -> pk y y').
Proof.
  unfold contrtemp_set_enabled, do_set_enabled. intros H. destruct (Bool.eqb _ b) eqn:Eb; cbn [negb] in H; [inv1 H; split; [left|intros _]; apply pk_refl|].
  cbv zeta in H. inv1 H. inv1 H.
  match goal with K : contrtemp_set_boost_mode _ _ _ = Some _ |- _ => apply set_boost_z in K; destruct K as (A & B & _) end. sy in B. split.
  - right. unfold pz, mem in *. sy. split; [exact A|]. rewrite B. destruct (t_enabled (y_ct y)), b; cbn in *; congruence.
  - intros Q. rewrite Q, eqb_reflx in Eb. discriminate Eb.
Qed.
Lemma arm_p y ms y' : arm_menu_timeout y ms = Some y' -> pk y y'.
Proof. unfold arm_menu_timeout. intros H. invs H. prf. Qed.
Lemma set_state_p C y s y' : menu_set_state C y s = Some y' ->
  psw y y' /\ (t_enabled (y_ct y) = true -> adjusting s = false -> pk y y') /\ (s = MENU_SELPRESET \/ s = MENU_CHGPRESET -> pk y y').
Proof.
  unfold menu_set_state. intros H. destruct (mstate_eqb _ _); [inv1 H; split; [left; apply pk_refl|split; intros; apply pk_refl]|]. cbv zeta in H. inv1 H. inv1 H.
  match goal with K : match s with _ => _ end = Some ?z |- _ =>
    enough (S1 : psw y z /\ (t_enabled (y_ct y) = true -> adjusting s = false -> pk y z) /\ (s = MENU_SELPRESET \/ s = MENU_CHGPRESET -> pk y z)); [|rename K into F] end.
  { destruct S1 as (S1 & S2 & S3). match goal with |- psw y (menu_request_display_update ?z) /\ _ => assert (L : pk z (menu_request_display_update z)) by prf end.
    split; [eapply psw_pk; eassumption|]. split; intros; (eapply pk_trans; [|exact L]); auto. }
  assert (Y1 : pk y (set_y_menu y (set_n_state (y_menu y) s))) by prf.
  destruct s; repeat (inv1 F);
    repeat match goal with
           | K : arm_menu_timeout _ _ = Some _ |- _ => apply arm_p in K
           | K : contrtemp_set_enabled _ _ _ = Some _ |- _ => apply set_enabled_p in K; destruct K end;
    cbn [adjusting];
    (split; [first [left; solve [eauto using pk_trans] | eapply pk_psw; [|eassumption]; eauto using pk_trans]
            |split; [intros Q1 Q2; try discriminate Q2; try solve [eauto using pk_trans]|intros [Q|Q]; try discriminate Q; eauto using pk_trans]]).
Qed.
Lemma store_p y s y' : sys_store (put_settings y s) = Some y' -> pk y y'.
Proof. unfold sys_store, put_settings. sy. rewrite store_eq. cbn [bind]. intros H. inv1 H. prf. Qed.
Lemma presets_store_p C y s y' : presets_store C (put_settings y s) = Some y' -> pk y y'.
Proof.
  unfold presets_store. intros H. inv1 H. inv1 H. inv1 H.
  match goal with K : sys_store _ = Some _ |- _ => apply store_p in K; eapply pk_trans; [exact K|] end.
  match goal with K : contrtemp_update_setpoint _ _ = Some _ |- _ => apply update_setpoint_p in K; eapply pk_trans; [exact K|] end. prf.
Qed.
Definition k_handler (h : rhandler) : bool := match h with HKp | HKi | HKd => true | _ => false end.
Lemma handler_p C y h up y' : call_ramp_handler C y h up = Some y' -> pkz y y' /\ (forall g, h = Some g -> k_handler g = false -> pk y y').
Proof.
  unfold call_ramp_handler. intros H. inv1 H. subst h.
  enough (K : if k_handler x then pz y' else pk y y').
  { destruct (k_handler x) eqn:Ek; (split; [first [right; exact K|left; exact K]|]); intros g G; injection G as <-; congruence. }
  destruct x; cbn [k_handler].
  - unfold settemp_ramp_handler in H. inv1 H. inv1 H. inv1 H. unfold presets_set_active_value in *.
    match goal with K : context[zupd] |- _ => cbv zeta in K; inv1 K; apply presets_store_p in K; eapply pk_trans; [exact K|] end.
    apply set_state_p in H. destruct H as (_ & _ & H). auto.
  - unfold idletemp_ramp_handler in H. inv1 H. unfold contrtemp_set_idle_setpoint in H. destruct (c_idle C); [|inv1 H; apply pk_refl]. cbv zeta in H. inv1 H.
    match goal with K : contrtemp_update_setpoint _ _ = Some _ |- _ => apply update_setpoint_p in K; eapply pk_trans; [|eapply pk_trans; [exact K|]] end; [prf|].
    unfold sys_store in H. inv1 H. inv1 H. prf.
  - unfold adj_ramp_handler in H. inv1 H. inv1 H. unfold meastemp_adjust_set, measure_adjust_set in H. destruct (c_adj C); [|inv1 H; apply pk_refl]. cbv zeta in H. inv1 H.
    match goal with K : bind (zget _ _) _ = Some _ |- _ => inv1 K; inv1 K; inv1 K end. inv1 H.
    match goal with K : sys_store _ = Some _ |- _ => apply store_p in K; eapply pk_trans; [|eapply pk_trans; [exact K|]] end; [prf|]. inv1 H. prf.
  - unfold kconf_kp_ramp_handler, do_ramp_k in H. cbv zeta in H. inv1 H. inv1 H. inv1 H. inv1 H. apply set_boost_z in H. apply H.
  - unfold kconf_ki_ramp_handler, do_ramp_k in H. cbv zeta in H. inv1 H. inv1 H. inv1 H. inv1 H. apply set_boost_z in H. apply H.
  - unfold kconf_kd_ramp_handler, do_ramp_k in H. cbv zeta in H. inv1 H. inv1 H. inv1 H. inv1 H. apply set_boost_z in H. apply H.
Qed.
Lemma start_p y up w h y' : start_ramping y up w h = Some y' -> pk y y'.
Proof. unfold start_ramping. intros H. cbv zeta in H. inv1 H. inv1 H. prf. Qed.
Lemma start_button_p y b bs w h y' : start_ramping_button y b bs w h = Some y' -> pk y y'.
Proof. unfold start_ramping_button. intros H. destruct (is_pos bs); [|inv1 H; apply pk_refl]. destruct (is_minus b); [eapply start_p; exact H|]. destruct (is_plus b); [eapply start_p; exact H|inv1 H; apply pk_refl]. Qed.
Lemma timeouts_p C y y' : menu_timeouts C y = Some y' -> pkz y y' /\
  (t_enabled (y_ct y) = true -> adjusting (n_state (y_menu y)) = false -> pk y y').
Proof.
  unfold menu_timeouts. intros H.
  assert (K : forall a b, (if mstate_eqb (n_state (y_menu y)) MENU_IDLETEMP then menu_set_state C y MENU_CURTEMP else menu_set_next_state C y) = Some a -> Some (stop_ramping a) = Some b ->
    pkz y b /\ ((n_state (y_menu y) = MENU_SELPRESET \/ n_state (y_menu y) = MENU_CHGPRESET \/ n_state (y_menu y) = MENU_IDLETEMP) -> t_enabled (y_ct y) = true -> pk y b)).
  { intros a b E F. inv1 F. assert (L : pk a (stop_ramping a)) by prf. split.
    - eapply pkz_trans; [|left; exact L]. apply psw_pkz. destruct (mstate_eqb _ _); apply set_state_p in E; apply E.
    - intros S En. eapply pk_trans; [|exact L]. destruct S as [S|[S|S]]; unfold menu_set_next_state in E; rewrite S in E; cbn [mstate_eqb next_menu_state] in E;
        apply set_state_p in E; destruct E as (_ & E & _); apply E; auto. }
  destruct (n_state (y_menu y)); try (inv1 H; split; [apply pkz_refl|intros; apply pk_refl]);
    (destruct (timer_expired _ _); [|inv1 H; split; [apply pkz_refl|intros; apply pk_refl]]; inv1 H;
     match goal with A : _ = Some _ |- _ => specialize (K _ _ A H) end; destruct K as (K1 & K2); split; [exact K1|];
     intros En Ad; first [discriminate Ad|apply K2; auto]).
Qed.
Lemma errors_p y : pk y (menu_errors y).
Proof. unfold menu_errors. cbv zeta. destruct (negb _); [prf|apply pk_refl]. Qed.
Lemma heating_p y : pk y (menu_heating y).
Proof. unfold menu_heating. cbv zeta. destruct (negb _); [prf|apply pk_refl]. Qed.
Lemma ramping_p C y y' : menu_ramping C y = Some y' -> pkz y y' /\
  (ramp_ok (y_menu y) -> adjusting (n_state (y_menu y)) = false -> pk y y').
Proof.
  unfold menu_ramping. intros H. cbv zeta in H.
  assert (P : forall up z, (if timer_expired (y_now y) (n_pretimer (y_menu y)) then start_ramping y up false (n_handler (y_menu y)) else Some y) = Some z -> pk y z).
  { intros up z E. destruct (timer_expired _ _); [eapply start_p; exact E|inv1 E; apply pk_refl]. }
  assert (Q : forall up z, n_ramp (y_menu y) <> RAMP_NONE -> ramp_step C y up = Some z -> pkz y z /\ (ramp_ok (y_menu y) -> adjusting (n_state (y_menu y)) = false -> pk y z)).
  { intros up z Nr E. unfold ramp_step in E. destruct (timer_expired (y_now y) (n_rtimer (y_menu y))); [|inv1 E; split; [apply pkz_refl|intros; apply pk_refl]]. inv1 E. cbv zeta in E. inv1 E. inv1 E.
    match goal with K : call_ramp_handler _ _ _ _ = Some _ |- _ => apply handler_p in K; destruct K as (K1 & K2) end.
    match goal with |- pkz y ?z /\ _ => assert (L : pk x z) by prf end.
    split; [eapply pkz_trans; [exact K1|left; exact L]|]. intros [R|(h & Eh & R)] Ad; [contradiction|]. eapply pk_trans; [|exact L]. apply (K2 h Eh).
    destruct h; cbn [ramp_of_menu k_handler] in *; try reflexivity; rewrite R in Ad; discriminate Ad. }
  destruct (n_ramp (y_menu y)) eqn:Er;
    [inv1 H; split; [apply pkz_refl|intros; apply pk_refl]| | | |];
    first [solve [apply (Q true); [discriminate|exact H]]|solve [apply (Q false); [discriminate|exact H]]|pose proof (P _ _ H) as K; split; [left; exact K|intros; exact K]].
Qed.
Lemma update_display_p C y y' : menu_update_display C y = Some y' -> pk y y'.
Proof. unfold menu_update_display. intros H. inv1 H. destruct x. inv1 H. inv1 H. inv1 H. prf. Qed.
Lemma menu_p C y y' : reach C y -> build_conf C -> menu_work C y = Some y' -> pkz y y' /\ (t_enabled (y_ct y) = true -> pk y y').
Proof.
  intros R HC H. pose proof (reach_s4 C y HC R) as S4. pose proof (s4_inv _ _ _ S4) as I.
  destruct (menu_work_ok relaxed C y bok_relaxed I (s4_ramp _ _ _ S4)) as (y1 & y2 & y3 & y0 & E & _ & _ & _ & _ & _ & E1 & I1 & R1 & Ey2 & I2 & R2 & E3 & _ & _ & (ds & Ey0)).
  rewrite H in E. apply Some_inj in E. subst y0. apply timeouts_p in E1. destruct E1 as (A1 & A2).
  apply ramping_p in E3. destruct E3 as (B1 & B2).
  assert (M : pk y1 y2) by (subst y2; eapply pk_trans; [apply errors_p|apply heating_p]).
  assert (L : pk y3 y') by (rewrite Ey0; prf).
  split; [eapply pkz_trans; [exact A1|]; eapply pkz_trans; [left; exact M|]; eapply pkz_trans; [exact B1|left; exact L]|].
  intros En. pose proof (i_en _ _ _ I) as He. rewrite En in He. assert (Ad : adjusting (n_state (y_menu y)) = false) by (apply negb_true_iff; congruence).
  pose proof (A2 En Ad) as P1. pose proof (pk_trans _ _ _ P1 M) as P2. eapply pk_trans; [exact P2|]. eapply pk_trans; [|exact L]. apply B2; [exact R2|].
  pose proof (i_en _ _ _ I2) as He2. destruct P2 as (_ & _ & P2 & _). apply negb_true_iff. congruence.
Qed.

Lemma debug_p C y b y' : debug_enable C y b = Some y' -> pk y y'.
Proof. unfold debug_enable. intros H. destruct (c_debug C); [|inv1 H; apply pk_refl]. cbv zeta in H. inv1 H. destruct x. inv1 H. prf. Qed.
Lemma do_idle_p C y b y' : contrtemp_do_idle C y b = Some y' -> pk y y'.
Proof. unfold contrtemp_do_idle. intros H. cbv zeta in H. inv1 H. inv1 H. match goal with K : contrtemp_update_setpoint _ _ = Some _ |- _ => apply update_setpoint_p in K; eapply pk_trans; [|eapply pk_trans; [exact K|]] end; prf. Qed.
Lemma switch_p C y b bs y' : menu_button_switch C y b bs = Some y' -> pk y y'.
Proof.
  unfold menu_button_switch. intros H. destruct (n_state (y_menu y)).
  - inv1 H. match goal with K : start_ramping_button _ _ _ _ _ = Some _ |- _ => apply start_button_p in K; eapply pk_trans; [exact K|] end.
    destruct (_ && _); [apply set_state_p in H; destruct H as (_ & _ & H); auto|inv1 H; apply pk_refl].
  - inv1 H. match goal with K : arm_menu_timeout _ _ = Some _ |- _ => apply arm_p in K; rename K into A end. inv1 H. apply start_button_p in H.
    match goal with K : (if is_neg bs then _ else _) = Some _ |- _ => rename K into F end. eapply pk_trans; [exact A|]. eapply pk_trans; [|exact H].
    destruct (is_neg bs); [|inv1 F; apply pk_refl].
    destruct (is_plus b); [|destruct (is_minus b)].
    + unfold presets_next in F. cbv zeta in F. apply presets_store_p in F. exact F.
    + unfold presets_prev in F. cbv zeta in F. apply presets_store_p in F. exact F.
    + inv1 F. apply pk_refl.
  - inv1 H. match goal with K : arm_menu_timeout _ _ = Some _ |- _ => apply arm_p in K; rename K into A end. apply start_button_p in H. eapply pk_trans; eassumption.
  - destruct (negb _); [inv1 H; apply pk_refl|]. inv1 H. match goal with K : arm_menu_timeout _ _ = Some _ |- _ => apply arm_p in K; rename K into A end. apply start_button_p in H. eapply pk_trans; eassumption.
  - destruct (negb _); [inv1 H; apply pk_refl|]. destruct (is_pos bs); [|inv1 H; apply pk_refl]. destruct (is_plus b); [eapply debug_p; exact H|].
    destruct (is_minus b); [|inv1 H; apply pk_refl]. inv1 H. inv1 H. match goal with K : debug_enable _ _ _ = Some _ |- _ => apply debug_p in K; eapply pk_trans; [exact K|prf] end.
  - inv1 H; apply pk_refl.
  - destruct (negb _); [inv1 H; apply pk_refl|]. eapply start_button_p; exact H.
  - inv1 H; apply pk_refl.
  - destruct (negb _); [inv1 H; apply pk_refl|]. eapply start_button_p; exact H.
  - inv1 H; apply pk_refl.
  - destruct (negb _); [inv1 H; apply pk_refl|]. eapply start_button_p; exact H.
  - inv1 H; apply pk_refl.
  - destruct (negb _); [inv1 H; apply pk_refl|]. eapply start_button_p; exact H.
Qed.
(** Which keys change the mode of the controller: SET released, and the key of the iron. *)
Lemma other_call_p C y b bs y' : is_iron b = false -> is_set b && is_neg bs = false -> call_button_handlers C y b bs = Some y' -> pk y y'.
Proof.
  unfold call_button_handlers, menu_button_handler. intros Ni Ns H. inv1 H.
  assert (x = y).
  { match goal with K : contrtemp_button_handler _ _ _ _ = Some _ |- _ => unfold contrtemp_button_handler, button_boost_idle, button_boost, button_idle in K; rewrite Ni in K; cbn [negb] in K; cbv zeta in K; invs K; reflexivity end. }
  subst x. rewrite Ni in H. inv1 H. match goal with K : menu_button_switch _ _ _ _ = Some _ |- _ => apply switch_p in K; eapply pk_trans; [exact K|] end.
  destruct (is_neg bs); [|inv1 H; apply pk_refl]. rewrite andb_true_r in Ns. rewrite Ns in H. cbv zeta in H. inv1 H. prf.
Qed.
Lemma set_call_p C y bs y' : call_button_handlers C y BUTTON_SET bs = Some y' -> psw y y'.
Proof.
  destruct (is_neg bs) eqn:En; [|intros H; left; eapply other_call_p; [| |exact H]; [reflexivity|rewrite En; reflexivity]].
  unfold call_button_handlers, menu_button_handler. intros H. inv1 H.
  assert (x = y).
  { match goal with K : contrtemp_button_handler _ _ _ _ = Some _ |- _ => unfold contrtemp_button_handler, button_boost_idle, button_boost, button_idle in K; cbn [is_iron negb] in K; cbv zeta in K; invs K; reflexivity end. }
  subst x. cbn [is_iron is_set] in H. inv1 H. match goal with K : menu_button_switch _ _ _ _ = Some _ |- _ => apply switch_p in K; eapply pk_psw; [exact K|] end.
  rewrite En in H. cbv zeta in H. assert (Z : pk x (stop_ramping x)) by prf. eapply pk_psw; [exact Z|].
  destruct (negb _); [|inv1 H; left; apply pk_refl]. apply set_state_p in H. apply H.
Qed.
(** The key of the iron: kept, or cleared with another boost mode; then no call of the same sample changes it again. *)
Definition pboost (y y' : sys) : Prop := pz y' /\ t_enabled (y_ct y') = t_enabled (y_ct y) /\ t_boost (y_ct y') <> t_boost (y_ct y).
Lemma next_boost_p C y y' : c_boost C = true -> 0 <= t_boost (y_ct y) <= 2 -> contrtemp_do_next_boost_mode C y = Some y' -> pboost y y'.
Proof.
  intros Cb B. unfold contrtemp_do_next_boost_mode, NR_BOOST_MODES. rewrite Cb. intros H. apply set_boost_z in H. rewrite Cb in H. destruct H as (A1 & A2 & A3).
  split; [exact A1|]. split; [exact A2|]. rewrite A3. rewrite u8_id by lia. change (3 - 1) with 2. rewrite ring_next_eq by lia. destruct (_ =? _) eqn:F; lia.
Qed.
Lemma iron_call C y bs y' : call_button_handlers C y BUTTON_IRON bs = Some y' -> contrtemp_button_handler C y BUTTON_IRON bs = Some y'.
Proof. unfold call_button_handlers, menu_button_handler. intros H. inv1 H. cbn [is_iron] in H. inv1 H. assumption. Qed.
Lemma iron_p C y bs y' : (c_boost C = true -> 0 <= t_boost (y_ct y) <= 2) -> contrtemp_button_handler C y BUTTON_IRON bs = Some y' ->
  pk y y' \/ (c_boost C = true /\ pboost y y' /\ bs <> BSTATE_PRESSED /\ (c_idle C = true -> t_bilet (y_ct y') = false)).
Proof.
  intros B. unfold contrtemp_button_handler, button_boost_idle, button_boost, button_idle. cbn [is_iron negb]. intros H.
  destruct (c_boost C) eqn:Cb; [destruct (c_idle C) eqn:Ci|destruct (c_idle C) eqn:Ci]; cbn [andb] in H; cbv zeta in H.
  - inv1 H. assert (S1 : pk y x) by (destruct (is_pos bs); repeat inv1 H0; prf). clear H0.
    destruct (t_bilet (y_ct x)); [|inv1 H; left; exact S1]. destruct (_ || _).
    + inv1 H. inv1 H. apply do_idle_p in H0. left. eapply pk_trans; [exact S1|]. eapply pk_trans; [exact H0|prf].
    + destruct (is_neg bs) eqn:En; [|inv1 H; left; exact S1]. inv1 H. inv1 H. right. split; [reflexivity|].
      destruct S1 as (_ & _ & S3 & S4). apply next_boost_p in H0; [|exact Cb|rewrite S4; auto]. destruct H0 as (A1 & A2 & A3).
      split; [|split; [destruct bs; discriminate|intros _; sy; reflexivity]]. unfold pboost, pz, mem in *. sy. split; [exact A1|]. split; congruence.
  - destruct (is_pos bs) eqn:Ep; [|inv1 H; left; apply pk_refl]. right. split; [reflexivity|]. split; [eapply next_boost_p; eauto|]. split; [destruct bs; discriminate|discriminate].
  - left. destruct (negb _); [eapply do_idle_p; exact H|inv1 H; apply pk_refl].
  - inv1 H. left. apply pk_refl.
Qed.
Lemma pressed_p C y y' : c_boost C = true -> (c_idle C = true -> t_bilet (y_ct y) = false) -> contrtemp_button_handler C y BUTTON_IRON BSTATE_PRESSED = Some y' -> y' = y.
Proof.
  intros Cb Bl. unfold contrtemp_button_handler, button_boost_idle, button_boost. rewrite Cb. cbn [is_iron negb is_pos]. intros H.
  destruct (c_idle C); cbn [andb] in H; cbv zeta in H; [|inv1 H; reflexivity]. inv1 H. inv1 H0. rewrite (Bl eq_refl) in H. inv1 H. reflexivity.
Qed.
Lemma run_app C a : forall y b y', run_calls C y (a ++ b) = Some y' -> exists z, run_calls C y a = Some z /\ run_calls C z b = Some y'.
Proof.
  induction a as [|(k, s) a IH]; cbn [run_calls app]; intros y b y' H; [eauto|]. inv1 H. destruct (IH _ _ _ H) as (z & A & B). exists z.
  match goal with K : call_button_handlers _ _ _ _ = Some _ |- _ => rewrite K end. cbn [bind]. auto.
Qed.
Lemma others_p C l : forall y y', Forall (fun c => is_iron (fst c) = false /\ is_set (fst c) && is_neg (snd c) = false) l -> run_calls C y l = Some y' -> pk y y'.
Proof.
  induction l as [|(b, bs) l IH]; cbn [run_calls]; intros y y' F H; [inv1 H; apply pk_refl|]. inversion F as [|? ? (A1 & A2) A3]; subst. inv1 H.
  match goal with K : call_button_handlers _ _ _ _ = Some _ |- _ => eapply pk_trans; [eapply other_call_p; [exact A1|exact A2|exact K]|] end. eapply IH; eassumption.
Qed.
(** The calls for one button: an edge, then the level. *)
Definition one (b : button) (l : list (button * bstate)) : Prop :=
  exists e p, l = e ++ p /\ (e = [] \/ e = [(b, BSTATE_POSEDGE)] \/ e = [(b, BSTATE_NEGEDGE)]) /\ (p = [] \/ p = [(b, BSTATE_PRESSED)]).
Lemma calls_one s pe ne b : one b (button_calls s pe ne b).
Proof.
  unfold button_calls. cbv zeta. eexists _, _. split; [reflexivity|]. split.
  - destruct (negb (Z.land pe _ =? 0)); [auto|]. destruct (negb _); auto.
  - destruct (negb _); auto.
Qed.
Lemma set_calls_p C y l y' : one BUTTON_SET l -> run_calls C y l = Some y' -> psw y y'.
Proof.
  intros (e & p & -> & [->|[->| ->]] & Hp) H; cbn [app run_calls] in H.
  - left. eapply others_p; [|exact H]. destruct Hp as [->| ->]; repeat constructor.
  - inv1 H. match goal with K : call_button_handlers _ _ _ _ = Some _ |- _ => apply set_call_p in K; eapply psw_pk; [exact K|] end. eapply others_p; [|exact H]. destruct Hp as [->| ->]; repeat constructor.
  - inv1 H. match goal with K : call_button_handlers _ _ _ _ = Some _ |- _ => apply set_call_p in K; eapply psw_pk; [exact K|] end. eapply others_p; [|exact H]. destruct Hp as [->| ->]; repeat constructor.
Qed.
Lemma iron_calls_p C y l y' : (c_boost C = true -> 0 <= t_boost (y_ct y) <= 2) -> one BUTTON_IRON l -> run_calls C y l = Some y' ->
  pk y y' \/ (c_boost C = true /\ pboost y y').
Proof.
  intros B (e & p & -> & He & Hp) H. apply run_app in H. destruct H as (z & E1 & E2).
  assert (K1 : pk y z \/ (c_boost C = true /\ pboost y z /\ (c_idle C = true -> t_bilet (y_ct z) = false))).
  { destruct He as [->|[->| ->]]; cbn [run_calls] in E1; [inv1 E1; left; apply pk_refl| |]; inv1 E1; inv1 E1; match goal with K : call_button_handlers _ _ _ _ = Some _ |- _ => apply iron_call in K; apply (iron_p _ _ _ _ B) in K end;
      match goal with K : _ \/ _ |- _ => destruct K as [K|(K1 & K2 & _ & K3)]; [left; exact K|right; auto] end. }
  destruct Hp as [->| ->]; cbn [run_calls] in E2; [inv1 E2; destruct K1 as [K1|(K1 & K2 & _)]; auto|].
  inv1 E2. inv1 E2. match goal with K : call_button_handlers _ _ _ _ = Some _ |- _ => apply iron_call in K; rename K into P end.
  destruct K1 as [K1|(K1 & K2 & K3)].
  - left. eapply pk_trans; [exact K1|]. apply iron_p in P; [|intros Cb; destruct K1 as (_ & _ & _ & ->); auto]. destruct P as [P|(_ & _ & P & _)]; [exact P|congruence].
  - right. split; [exact K1|]. apply pressed_p in P; [subst; exact K2|exact K1|exact K3].
Qed.
Lemma buttons_p C y pins y' : (c_boost C = true -> 0 <= t_boost (y_ct y) <= 2) -> buttons_work C y pins = Some y' ->
  pk y y' \/ pz y' /\ (t_enabled (y_ct y) = true -> t_enabled (y_ct y') = false \/ t_boost (y_ct y') <> t_boost (y_ct y)).
Proof.
  intros B. unfold buttons_work. intros H. cbv zeta in H. destruct (negb _); [inv1 H; left; apply pk_refl|]. inv1 H.
  unfold sample_calls in H. cbn [flat_map] in H. cbv zeta in H.
  set (s := buttons_get_raw pins) in *. set (pe := u8 (Z.land (Z.land s (Z.lnot (b_prev (y_btn y)))) BUTTONS_MASK)) in *. set (ne := u8 (Z.land (Z.land (Z.lnot s) (b_prev (y_btn y))) BUTTONS_MASK)) in *.
  set (y0 := set_y_btn y (mkBtn s x)) in *. assert (P0 : pk y y0) by prf.
  apply run_app in H. destruct H as (y1 & E1 & H). apply set_calls_p in E1; [|apply calls_one].
  apply run_app in H. destruct H as (y2 & E2 & H). apply run_app in H. destruct H as (y3 & E3 & H). rewrite app_nil_r in H.
  assert (P : pk y1 y3).
  { assert (K : forall b, is_iron b = false -> is_set b = false -> Forall (fun c => is_iron (fst c) = false /\ is_set (fst c) && is_neg (snd c) = false) (button_calls s pe ne b)).
    { intros b N1 N2. destruct (calls_one s pe ne b) as (e & p & -> & He & Hp). apply Forall_app. split;
        [destruct He as [->|[->| ->]]|destruct Hp as [->| ->]]; repeat constructor; cbn [fst snd]; rewrite ?N2; auto. }
    eapply pk_trans; eapply others_p; [|exact E2| |exact E3]; apply K; reflexivity. }
  clear E2 E3. assert (Q : psw y y3) by (eapply pk_psw; [exact P0|]; eapply psw_pk; eassumption). clear P0 E1 P.
  destruct Q as [Q|(Q1 & Q2)].
  - apply iron_calls_p in H; [|intros Cb; destruct Q as (_ & _ & _ & ->); auto|apply calls_one]. destruct H as [H|(_ & H1 & H2 & H3)].
    + left. eapply pk_trans; eassumption.
    + right. split; [exact H1|]. intros _. right. destruct Q as (_ & _ & _ & Q). congruence.
  - assert (W : pz y' /\ t_enabled (y_ct y') = t_enabled (y_ct y3)).
    { destruct (calls_one s pe ne BUTTON_IRON) as (e & p & El & He & Hp). rewrite El in H. clear El.
      assert (Any : forall l a b, Forall (fun c => fst c = BUTTON_IRON) l -> run_calls C a l = Some b -> pz a -> pz b /\ t_enabled (y_ct b) = t_enabled (y_ct a)).
      { clear. induction l as [|(k, bs) l IH]; cbn [run_calls]; intros a b F H Z; [inv1 H; auto|]. inversion F as [|? ? A1 A2]; subst. cbn [fst] in A1. subst k. inv1 H.
        assert (pz x /\ t_enabled (y_ct x) = t_enabled (y_ct a)) as (X1 & X2).
        { apply iron_call in H0. unfold contrtemp_button_handler, button_boost_idle, button_boost, button_idle in H0. cbn [is_iron negb] in H0.
          assert (KP : pk a x -> pz x /\ t_enabled (y_ct x) = t_enabled (y_ct a)) by (intros (P1 & _ & P2 & _); split; [unfold pz; rewrite P1; exact Z|exact P2]).
          destruct (c_boost C); [destruct (c_idle C)|destruct (c_idle C)]; cbn [andb] in H0; cbv zeta in H0.
          - inv1 H0. assert (S1 : pk a x0) by (destruct (is_pos bs); repeat inv1 H1; prf). clear H1.
            destruct (t_bilet (y_ct x0)); [|inv1 H0; apply KP; exact S1]. destruct (_ || _).
            + inv1 H0. inv1 H0. apply do_idle_p in H1. apply KP. eapply pk_trans; [exact S1|]. eapply pk_trans; [exact H1|prf].
            + destruct (is_neg bs); [|inv1 H0; apply KP; exact S1]. inv1 H0. inv1 H0. apply set_boost_z in H1. destruct H1 as (B1 & B2 & _).
              destruct S1 as (_ & _ & S1 & _). unfold pz, mem in *. sy. split; [exact B1|congruence].
          - destruct (is_pos bs); [|inv1 H0; auto]. apply set_boost_z in H0. destruct H0 as (B1 & B2 & _). auto.
          - destruct (negb _); [apply do_idle_p in H0; apply KP; exact H0|inv1 H0; auto].
          - inv1 H0. auto. }
        destruct (IH _ _ A2 H X1) as (Y1 & Y2). split; [exact Y1|congruence]. }
      apply (Any _ _ _) in H; [exact H| |exact Q1]. apply Forall_app. split; [destruct He as [->|[->| ->]]|destruct Hp as [->| ->]]; repeat constructor. }
    right. destruct W as (W1 & W2). split; [exact W1|]. intros En. left. rewrite W2, Q2, En. reflexivity.
Qed.

(** ** The measurement *)
Lemma contr_run_p y r y' : contrtemp_run y r = Some y' -> t_enabled (y_ct y') = t_enabled (y_ct y) /\ t_emerg (y_ct y') = t_emerg (y_ct y) /\
  (pk y y' \/ t_enabled (y_ct y) = true /\ t_emerg (y_ct y) = false).
Proof.
  unfold contrtemp_run. intros H. destruct (t_enabled (y_ct y)) eqn:En; cbn [negb] in H; [|inv1 H; rewrite En; auto using pk_refl].
  destruct (t_emerg (y_ct y)) eqn:Em; [inv1 H; rewrite En, Em; auto using pk_refl|].
  cbv zeta in H. inv1 H. inv1 H. inv1 H. inv1 H. destruct (CONTRTEMP_POSLIM <? r); inv1 H; inv1 H; sy; auto.
Qed.
Lemma feedback_p y r y' : contrtemp_set_feedback y r = Some y' -> t_enabled (y_ct y') = t_enabled (y_ct y) /\
  (pk y y' \/ t_enabled (y_ct y) = true /\ t_emerg (y_ct y') = false).
Proof.
  unfold contrtemp_set_feedback. intros H. cbv zeta in H.
  set (z := if negb (r =? t_feedback (y_ct y)) then _ else y) in *. assert (Z : pk y z) by (unfold z; destruct (negb _); [prf|apply pk_refl]).
  apply contr_run_p in H. destruct H as (A1 & A2 & A3). pose proof Z as (_ & _ & Z3 & _). split; [congruence|].
  destruct A3 as [A3|(A3 & A4)]; [left; eapply pk_trans; eassumption|right; split; congruence].
Qed.
Lemma set_emerg_p y b : pk y (contrtemp_set_emerg y b).
Proof. unfold contrtemp_set_emerg, do_set_emerg. destruct (negb _); [|apply pk_refl]. destruct b; prf. Qed.
Lemma temp_result_p y v p y' : meastemp_result_handler y v p = Some y' -> t_enabled (y_ct y') = t_enabled (y_ct y) /\
  (pk y y' \/ t_enabled (y_ct y) = true /\ t_emerg (y_ct y') = false).
Proof.
  unfold meastemp_result_handler. intros H. destruct p; cbv zeta in H.
  - match type of H with contrtemp_set_feedback ?z _ = _ => assert (Z : pk y z) by (eapply pk_trans; [apply (set_emerg_p y false)|prf]) end.
    apply feedback_p in H. destruct H as (A1 & A2). pose proof Z as (_ & _ & Z3 & _). split; [congruence|].
    destruct A2 as [A2|(A2 & A3)]; [left; eapply pk_trans; eassumption|right; split; congruence].
  - apply feedback_p in H. exact H.
  - inv1 H. pose proof (set_emerg_p y true) as Z. split; [apply Z|left; exact Z].
Qed.
Lemma handle_p C y y' : measure_handle_result C y = Some y' -> t_enabled (y_ct y') = t_enabled (y_ct y) /\
  (pk y y' \/ (m_chan (y_meas y) =? MEAS_CHAN_TEMP) = true /\ t_enabled (y_ct y) = true /\ t_emerg (y_ct y') = false).
Proof.
  unfold measure_handle_result. intros H. cbv zeta in H. inv1 H. inv1 H. inv1 H.
  destruct (measure_user_filter_handler y (m_chan (y_meas y)) x1) as (y1, r) eqn:F.
  assert (S1 : pk y y1).
  { unfold measure_user_filter_handler, meascurr_filter_handler in F. destruct (_ =? _); [|inversion F; apply pk_refl].
    destruct (if u_init _ then _ else _) as (u, f). inversion F. prf. }
  inv1 H. inv1 H. inv1 H. destruct x4 as ((ch, ph), pl). inv1 H. unfold measure_user_result_handler in H.
  match type of H with (if _ then meastemp_result_handler ?z _ _ else _) = _ => assert (Z : pk y z) by (eapply pk_trans; [exact S1|prf]) end.
  pose proof Z as (_ & _ & Z3 & _).
  destruct (_ =? MEAS_CHAN_TEMP) eqn:Ch.
  - apply temp_result_p in H. destruct H as (A1 & A2). split; [congruence|]. destruct A2 as [A2|(A2 & A3)]; [left; eapply pk_trans; eassumption|right; repeat split; congruence].
  - assert (K : pk y y'); [|split; [apply K|left; exact K]]. eapply pk_trans; [exact Z|].
    unfold meascurr_result_handler in H. cbv zeta in H. inv1 H. inv1 H. destruct x6. inv1 H. prf.
Qed.
Lemma measure_p C y y' : measure_work C y = Some y' -> t_enabled (y_ct y') = t_enabled (y_ct y) /\
  (pk y y' \/ m_avail (y_meas y) = true /\ m_chan (y_meas y) = 1 /\ t_enabled (y_ct y) = true /\ t_emerg (y_ct y') = false).
Proof.
  unfold measure_work. intros H. cbv zeta in H. destruct (m_avail _) eqn:Av; [|inv1 H; split; [reflexivity|left; prf]]. inv1 H.
  match goal with K : measure_handle_result _ ?z = Some _ |- _ => assert (Z : pk y z) by prf; apply handle_p in K; destruct K as (A1 & A2) end.
  assert (T : y_ct y' = y_ct x) by (unfold adc_trigger_next_chan in H; invs H; reflexivity).
  assert (L : pk x y') by (unfold pk, mem; rewrite T; auto). rewrite T. pose proof Z as (_ & _ & Z3 & _). split; [congruence|].
  destruct A2 as [A2|(A2 & A3 & A4)]; [left; eapply pk_trans; [exact Z|exact (pk_trans _ _ _ A2 L)]|right]. sy in A2. change MEAS_CHAN_TEMP with 1 in A2.
  repeat split; [apply Z.eqb_eq; exact A2|congruence|exact A4].
Qed.

(** ** C75: the memory of the temperature controller *)
Lemma fresh_mem C y : fresh C y -> mem y = (0, 0) /\ memory (cc_pid (y_cc y)) = (0, 0) /\ cc_rstate (y_cc y) = REnabled /\ cc_prev_y (y_cc y) = 0.
Proof. intros (x & k & a & p & -> & _). unfold booted. cbn [y_cc y_ct mem]. repeat split. Qed.
Lemma step_p C y e y' : build_conf C -> reach C y -> ev_ok C y e -> is_power e = false -> step C y e = Some y' ->
  (forall r, ~ temp_processed y e y' r) ->
  pk y y' \/ pz y' /\ (t_enabled (y_ct y) = true -> t_enabled (y_ct y') = false \/ t_boost (y_ct y') <> t_boost (y_ct y)).
Proof.
  intros HC R O P E N. pose proof (s4_inv _ _ _ (reach_s4 C y HC R)) as I. destruct e; try discriminate P; cbn [step] in E.
  - apply Some_inj in E. subst y'. left. prf.
  - apply Some_inj in E. left. destruct (m_adc (y_meas y)) eqn:Ea; subst y'; [|apply pk_refl].
    unfold pk, mem. assert (T : y_ct (adc_isr y raw) = y_ct y) by (unfold adc_isr; cbv zeta; repeat match goal with |- context[if ?b then _ else _] => destruct b end; reflexivity). rewrite T. auto.
  - left. destruct (x_eerie (y_set y)); [|apply Some_inj in E; subst; apply pk_refl]. destruct (x_busy (y_set y)); [apply Some_inj in E; subst; apply pk_refl|].
    destruct (ee_ready_isr C (y_set y)); [|discriminate E]. cbn [bind] in E. apply Some_inj in E. subst y'. prf.
  - left. apply Some_inj in E. subst y'. prf.
  - apply measure_p in E. destruct E as (_ & [K|(K1 & K2 & K3 & K4)]); [left; exact K|]. destruct (N (t_feedback (y_ct y'))). unfold temp_processed. auto 10.
  - apply (menu_p C y y' R HC) in E. destruct E as (E1 & E2). destruct (t_enabled (y_ct y)) eqn:En; [left; auto|]. destruct E1 as [E1|E1]; [left; exact E1|right]. split; [exact E1|discriminate].
  - left. unfold sys_display_work in E. inv1 E. destruct x. inv1 E. prf.
  - eapply buttons_p; [|exact E]. intros Cb. destruct (i_ct _ _ _ I) as (_ & Bm & _). exact (Bm Cb).
  - left. apply Some_inj in E. subst y'. prf.
Qed.
Lemma temp_memory C y e y' : build_conf C -> reach C y -> ev_ok C y e -> is_power e = false -> step C y e = Some y' ->
  (forall r, ~ temp_processed y e y' r) ->
  let M := memory (t_pid (y_ct y)) in let M' := memory (t_pid (y_ct y')) in
  (M' = M \/ M' = (0, 0)) /\
  (M' <> M -> t_enabled (y_ct y) = true -> t_enabled (y_ct y') = false \/ t_boost (y_ct y') <> t_boost (y_ct y)) /\
  (used_gains C y' <> used_gains C y \/ t_enabled (y_ct y') <> t_enabled (y_ct y) -> M' = (0, 0)).
Proof.
  intros HC R O P E N M M'. pose proof (reach_step C y e y' R O E) as R'.
  destruct (gains_used C y HC R) as (G & _). destruct (gains_used C y' HC R') as (G' & _).
  destruct (step_p C y e y' HC R O P E N) as [(K1 & K2 & K3 & K4)|(K1 & K2)].
  - split; [left; exact K1|]. split; [intros X; destruct (X K1)|]. intros [X|X]; [|contradiction]. destruct X. congruence.
  - split; [right; exact K1|]. split; [intros _; exact K2|intros _; exact K1].
Qed.
Lemma temp_off C y : build_conf C -> reach C y -> t_enabled (y_ct y) = false -> memory (t_pid (y_ct y)) = (0, 0).
Proof.
  intros HC R. induction R as [pinb y Hp E|y e y' R IH O E]; intros En.
  - exact (proj1 (fresh_mem C y (boot_fresh C pinb y HC E))).
  - destruct (is_power e) eqn:P.
    + destruct e; try discriminate P. exact (proj1 (fresh_mem C y' (power_fresh C y v pinb y' HC R O E))).
    + assert (D : (exists r, temp_processed y e y' r) \/ forall r, ~ temp_processed y e y' r).
      { destruct e; try (right; intros r (X & _); discriminate X). cbn [step] in E. apply measure_p in E. destruct E as (E1 & _).
        right. intros r (_ & _ & _ & X & _). congruence. }
      destruct D as [(r & -> & _ & _ & X & _)|D].
      * cbn [step] in E. apply measure_p in E. destruct E as (E1 & _). congruence.
      * destruct (step_p C y e y' HC R O P E D) as [(K1 & _ & K3 & _)|(K1 & _)]; [|exact K1]. unfold mem in K1. rewrite K1. apply IH. congruence.
Qed.

(** ** C76: the memory of the current controller *)
Definition ck (c c' : cc) : Prop :=
  memory (cc_pid c') = memory (cc_pid c) /\ cc_rstate c' = cc_rstate c /\ cc_model c' = cc_model c /\ cc_prev_y c' = cc_prev_y c.
Lemma quiet_keeps ops : forall now c n c', Forall quiet_op ops -> cc_exec now c ops = Some (n, c') -> ck c c'.
Proof.
  induction ops as [|o t IH]; intros now c n c' F E; cbn [cc_exec] in E.
  - apply Some_inj in E. injection E as <- <-. repeat split.
  - inversion F; subst. destruct (cc_step now c o) as [[n1 c1]|] eqn:E1; [|discriminate E]. cbn [bind] in E.
    assert (K : ck c c1).
    { destruct o; cbn [quiet_op] in *; try contradiction; cbn [cc_step] in E1.
      - apply Some_inj in E1. injection E1 as <- <-. repeat split.
      - apply Some_inj in E1. injection E1 as <- <-. repeat split.
      - destruct (contrcurr_set_emerg c flags) as [c2|] eqn:E2; [|discriminate E1]. cbn [bind] in E1. apply Some_inj in E1. injection E1 as <- <-.
        destruct (emerg_keeps _ _ _ E2) as (A1 & A2 & A3 & A4 & _). unfold ck, memory. rewrite A1. auto. }
    destruct (IH n1 c1 n c' ltac:(assumption) E) as (B1 & B2 & B3 & B4). destruct K as (A1 & A2 & A3 & A4). unfold ck. rewrite B1, B2, B3, B4. auto.
Qed.
Lemma curr_memory C y e y' : build_conf C -> reach C y -> ev_ok C y e -> is_power e = false -> step C y e = Some y' -> ~ result y e 0 ->
  memory (cc_pid (y_cc y')) = memory (cc_pid (y_cc y)) /\ cc_rstate (y_cc y') = cc_rstate (y_cc y) /\
  cc_model (y_cc y') = cc_model (y_cc y) /\ cc_prev_y (y_cc y') = cc_prev_y (y_cc y).
Proof.
  intros HC R O P E N. pose proof (reach_s4 C y HC R) as S4. change (ck (y_cc y) (y_cc y')).
  destruct (pending y e) eqn:Pn.
  - destruct (pending_cases _ _ _ _ (s4_inv _ _ _ S4) Pn) as [X|(X1 & X2 & X3)]; [destruct (N X)|].
    destruct (step_pending relaxed C y e y' HC bok_relaxed S4 Pn E) as (c0 & c1 & raw & _ & _ & _ & _ & _ & _ & _ & _ & Ht & _).
    destruct (Ht X3) as (c1' & v & v' & p & _ & _ & _ & (_ & _ & _ & _ & _ & _ & _ & (ops & Q1 & _ & Q2 & _) & _) & _).
    exact (quiet_keeps ops _ _ _ _ Q1 Q2).
  - destruct (step_calm relaxed C y e y' HC bok_relaxed S4 O P Pn E) as (_ & _ & _ & _ & _ & _ & _ & [(A2 & _)|(A2 & _)]); rewrite A2; repeat split.
Qed.
Lemma boot_memory C ee pinb y : build_conf C -> (ee = factory_ee C \/ exists y0 v, reach C y0 /\ ev_ok C y0 (EPower v pinb) /\ ee = ee_after_crash (y_set y0) v) ->
  boot C ee pinb = Some y ->
  memory (t_pid (y_ct y)) = (0, 0) /\ memory (cc_pid (y_cc y)) = (0, 0) /\ src_of (cc_rstate (y_cc y)) = Real /\ cc_prev_y (y_cc y) = 0.
Proof.
  intros HC H E.
  assert (F : fresh C y).
  { destruct H as [->|(y0 & v & R & O & ->)]; [exact (boot_fresh C pinb y HC E)|exact (power_fresh C y0 v pinb y HC R O E)]. }
  destruct (fresh_mem C y F) as (A1 & A2 & A3 & A4). rewrite A3. auto.
Qed.
