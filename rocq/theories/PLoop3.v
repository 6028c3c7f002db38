(** * The settings are in the EEPROM soon after the keys are released *)
From Coq Require Import ZArith List Bool Lia ZifyBool.
From Verif Require Import Base PBase MConf MUtil MFixpt MScale MRing MFilter MTimer MPid MPwm MTempMap MCurr MSens
  MSettings SpecSettings PSettings PSysSet
  MSseg MDisplay MText MState MTemp MMeas MMenu MMain SpecDisplay SpecSys SpecRun SpecUI SpecLive SpecLoop PSys PSysRun PSysSafe PSysWin PSysProp
  PSysUI PSysUI2 PSysUI3 PSysUI4 PSysUI7 PLive PStore PLoop PLoop2.
Import ListNotations.
Open Scope Z_scope.
Ltac Zify.zify_post_hook ::= Z.div_mod_to_equations.

(** ** Quiet and no request: the EEPROM holds the settings *)
Definition nring (y : sys) : Prop :=
  (busy y = true -> x_eerie (y_set y) = false -> x_offset (y_set y) = 64) /\
  (x_request (y_set y) = false -> forall k, 0 <= k < (if quiet (y_set y) then 64 else x_offset (y_set y)) -> eff (y_set y) k = cb (x_cache (y_set y)) k).
Section Noring.
Variable C : conf.
Hypothesis HE : c_eering C = false.
Hypothesis HN : 1 <= c_slots C.
Lemma read_plain ee k : 0 <= k < 64 -> ee_read_byte C ee k = ee k.
Proof. intros H. apply ee_read_in. lia. Qed.
Lemma init_nring y ee : ee_ok ee -> settings_init C ee = Some (y_set y) -> nring y.
Proof.
  intros Ho E. assert (E' := E). apply init_shape in E'. destruct E' as (A1 & A2 & A3 & A4 & A5). unfold nring, busy, quiet, eff. rewrite A2, A3, A4. split; [discriminate|].
  cbn [negb andb]. intros _ k Hk. unfold settings_init in E. rewrite HE in E. cbn [bind] in E. inv1 E. rewrite <- E. sx. rewrite cb_settings_of; [rewrite Z.mul_0_r, Z.add_0_l, read_plain by lia; reflexivity| |exact Hk].
  intros i Hi. rewrite Z.mul_0_r, Z.add_0_l, read_plain by lia. apply Ho.
Qed.
Lemma nring_step B S y pg iq s a e y' : inv B C y -> clocks S y pg iq s a -> ev_ok C y ESettings -> is_power e = false -> step C y e = Some y' -> nring y -> nring y'.
Proof.
  intros I K X Pw E (N1 & N2). destruct (step_set C y e y' (i_now _ _ _ I) Pw E) as (_ & Kd).
  destruct (i_set _ _ _ I) as (Sx & _). rewrite HE in Sx. destruct Sx as (X1 & X2 & X3 & X4 & X5 & X6 & X7).
  destruct Kd as [Es Ne Eo|s' He Es|He Eo Es|d He Wt Ei Ez Eof Eee Erq Etm|He Eb Es].
  - unfold nring, busy. rewrite Es. split; assumption.
  - unfold nring, busy. rewrite Es. split; [exact N1|]. discriminate.
  - subst e. cbn [opens] in Eo. apply andb_true_iff in Eo. destruct Eo as (Rq & Ex). specialize (X Rq Ex). destruct (quiet_off _ X) as (Q1 & Q2).
    unfold nring, busy. rewrite Es. unfold settings_work. rewrite Rq, Ex, HE. cbn [negb]. sx. split; [unfold busy in Q2; rewrite Q2; discriminate|]. intros _ k. unfold quiet. sx. cbn [negb andb]. lia.
  - subst e. assert (Bf : busy y = false) by (unfold waiting in Wt; apply andb_true_iff in Wt; destruct (busy y); [discriminate (proj2 Wt)|reflexivity]).
    assert (Ee : x_eerie (y_set y) = true) by (unfold waiting in Wt; apply andb_true_iff in Wt; apply Wt). pose proof (X5 Ee) as Ho.
    assert (Xb : x_busy (y_set y) = None) by (unfold busy in Bf; destruct (x_busy _); [discriminate Bf|reflexivity]).
    assert (Qf : quiet (y_set y) = false) by (unfold quiet; rewrite Ee; reflexivity). rewrite Qf in N2. unfold eff in N2. rewrite Xb in N2.
    unfold ee_ready_isr in Ei. rewrite HE in Ei. cbv zeta in Ei. unfold NR_EE_SETTINGS in Ei. rewrite HE in Ei. cbn [Z.leb Z.ltb Z.compare andb] in Ei.
    rewrite zget_bytes in Ei by (assumption || lia). cbn [bind] in Ei. rewrite Z.mul_0_r, Z.add_0_l, read_plain in Ei by lia.
    assert (Eu : u8 (x_offset (y_set y) + 1) = x_offset (y_set y) + 1) by (apply u8_id; lia). rewrite Eu in *. unfold SIZEOF_SETTINGS in Ei. apply Some_inj in Ei.
    assert (Fo : 64 <= x_offset (y_set y) + 1 -> x_offset (y_set y) + 1 = 64) by lia.
    unfold nring, busy, quiet, eff. rewrite <- Ei.
    destruct (x_ee (y_set y) (x_offset (y_set y)) =? cb (x_cache (y_set y)) (x_offset (y_set y))) eqn:D; destruct (64 <=? x_offset (y_set y) + 1) eqn:F; sx; rewrite ?Xb, ?Ee; cbn [negb andb];
      (split; [intros Z1 Z2; first [discriminate Z1|discriminate Z2|lia]|]; intros Rq k Hk).
    + destruct (Z.eq_dec k (x_offset (y_set y))) as [->|Nk]; [lia|apply N2; [exact Rq|lia]].
    + destruct (Z.eq_dec k (x_offset (y_set y))) as [->|Nk]; [lia|apply N2; [exact Rq|lia]].
    + destruct (Z.eq_dec k (x_offset (y_set y))) as [->|Nk]; [apply fupd_same|rewrite fupd_other by exact Nk; apply N2; [exact Rq|lia]].
    + destruct (Z.eq_dec k (x_offset (y_set y))) as [->|Nk]; [apply fupd_same|rewrite fupd_other by exact Nk; apply N2; [exact Rq|lia]].
  - subst e. unfold busy in Eb. destruct (x_busy (y_set y)) as [(p, d)|] eqn:Xb; [|discriminate Eb]. unfold busy in N1. rewrite Xb in N1. specialize (N1 eq_refl).
    assert (Qf : quiet (y_set y) = false) by (unfold quiet; rewrite Xb, andb_false_r; reflexivity). rewrite Qf in N2. unfold eff in N2. rewrite Xb in N2.
    unfold nring, busy, quiet, eff. rewrite Es. unfold ee_prog_done. rewrite Xb. sx. split; [discriminate|]. intros Rq k Hk. apply N2; [exact Rq|].
    rewrite andb_true_r in Hk. destruct (x_eerie (y_set y)); cbn [negb] in Hk; [exact Hk|]. rewrite (N1 eq_refl). exact Hk.
Qed.
Lemma nring_load B y v : inv B C y -> nring y -> quiet (y_set y) = true -> x_request (y_set y) = false ->
  exists x, settings_init C (ee_after_crash (y_set y) v) = Some x /\ x_cache x = x_cache (y_set y).
Proof.
  intros I (_ & N2) Hq Rq. destruct (i_set _ _ _ I) as (Sx & _). rewrite HE in Sx. destruct Sx as (_ & _ & X3 & _).
  rewrite Hq in N2. assert (Xb : x_busy (y_set y) = None) by (destruct (quiet_off _ Hq) as (_ & Q2); unfold busy in Q2; destruct (x_busy _); [discriminate Q2|reflexivity]).
  unfold ee_after_crash. unfold eff in N2. rewrite Xb in *. unfold settings_init. rewrite HE. cbn [bind]. eexists. split; [reflexivity|]. sx.
  rewrite <- (settings_of_cb _ X3). apply settings_of_ext. intros k Hk. rewrite Z.mul_0_r, Z.add_0_l, read_plain by lia. apply N2; assumption.
Qed.
End Noring.
Lemma ring_load C B y v : ring_conf C -> inv B C y -> quiet (y_set y) = true -> x_request (y_set y) = false ->
  exists x, settings_init C (ee_after_crash (y_set y) v) = Some x /\ x_cache x = x_cache (y_set y).
Proof.
  intros HR I Hq Rq. destruct (i_set _ _ _ I) as (Sx & _). rewrite (proj1 HR) in Sx. destruct Sx as (Ho & Hw & c & D).
  assert (Iq : inv_quiet C (y_set y) c).
  { destruct D as [D|(i & Hof & He & _ & _ & _ & Hb & _)]; [exact D|exfalso]. apply quiet_iff in Hq. destruct Hq as (Q1 & Q2). unfold busy_ok in Hb. rewrite Q2 in Hb. rewrite He in Q1. lia. }
  destruct Iq as (E1 & E2 & Hc & _ & Hd). unfold ee_after_crash. rewrite E2.
  destruct (boot_inv C HR _ _ _ Ho Hc) as (A & _). eexists. split; [exact A|]. sx. rewrite <- (settings_of_cb _ Hw). unfold slot. apply settings_of_ext. intros k Hk. apply Hd; assumption.
Qed.

Section Saved.
Variables (S : speed) (lo hi : Z) (C : conf).
Hypothesis HC : build_conf C.
Hypothesis HS : speed_ok S.
Hypothesis HQ : quick S.
Let W := h_pass S.
Notation linv := (linv S C).
Notation adv := (advance lo hi C).
Notation sgap := (sgap S).

Record hinv (t : station) (s a : Z) : Prop := mkHinv {
  hi_l : linv t s a;
  hi_p : pinv S C t;
  hi_gap : x_request (y_set (st_y t)) = true -> a <= 999 + sgap (st_at t) (v_poll (st_w t));
  hi_pins : adjust_keys (u_pins (st_u t)) = true -> st_hands t <= u_time (st_u t) - 10 * (u_count (st_u t) - 1);
  hi_req : x_request (y_set (st_y t)) = true -> st_hands t <= a + 10 + 2 * W;
  hi_store : quiet (y_set (st_y t)) = false -> st_hands t <= 1009 + 4 * W + s;
  hi_ring : c_eering C = false -> nring (st_y t)
}.
Lemma edit_key p q : adjust_keys p = false -> Forall (fun c => edits (fst c) (snd c) = false) (key_events p q).
Proof.
  unfold adjust_keys. intros H. apply orb_false_iff in H. destruct H as (H1 & H2). unfold key_events, all_keys. cbn [flat_map]. unfold key_event. rewrite H1, H2.
  destruct (down p BUTTON_SET), (down p BUTTON_IRON), (down q BUTTON_SET), (down q BUTTON_MINUS), (down q BUTTON_PLUS), (down q BUTTON_IRON); cbn [map app]; repeat constructor.
Qed.
(** Settings change only while PLUS or MINUS was down in the last sample. *)
Lemma edit_hands t s a e y' : hinv t s a -> may S C t e -> is_power e = false -> step C (st_y t) e = Some y' ->
  y_set y' = y_set (st_y t) \/ (e = EMenu \/ exists pins, e = EButtons pins) /\ st_hands t <= 10 + 2 * W \/ e = EReady \/ e = EDone \/ e = ESettings.
Proof.
  intros H M Pw E. destruct (hi_p _ _ _ H) as (m & b & Pm & _ & Hb). destruct (prompt_ok C _ _ _ _ HC Pm) as (Ru & Lg). destruct (run_rel C _ _ HC Ru) as (_ & _ & _ & Rl).
  pose proof (linv_poll S C _ _ _ (hi_l _ _ _ H)) as V. fold W in V.
  assert (Hd : adjust_keys (u_pins (st_u t)) = true -> st_hands t <= 10 + 2 * W).
  { intros Ak. pose proof (hi_pins _ _ _ H Ak). pose proof (lg_keys _ _ _ _ Lg). unfold bgap in Hb. fold W in Hb. destruct (st_at t); lia. }
  destruct e; cbn [step] in E; try discriminate Pw.
  - inv1 E. left. reflexivity.
  - inv1 E. left. destruct (m_adc _); [|reflexivity]. unfold adc_isr. cbv zeta. destruct (timer_expired _ _); reflexivity.
  - auto.
  - auto.
  - left. apply measure_same in E. apply E.
  - apply menu_kept in E. destruct E as (_ & E). destruct (n_ramp (y_menu (st_y t))) eqn:Nr; [left; apply (E eq_refl)|..]; right; left; (split; [left; reflexivity|]); apply Hd;
      pose proof (rel_dir C _ _ Rl) as Rd; rewrite Nr in Rd; cbn in Rd; pose proof (run_key C _ _ Ru _ Rd) as Kd; unfold adjust_keys; cbn [ramp_key_of] in Kd; rewrite Kd; rewrite ?orb_true_r; reflexivity.
  - left. apply display_same in E. apply E.
  - destruct M as (_ & M). destruct (adjust_keys (u_pins (st_u t))) eqn:Ak.
    + right. left. split; [right; eauto|]. apply Hd. reflexivity.
    + left. apply buttons_kept in E. destruct E as (_ & E). apply E. right. destruct (uv_btn _ _ _ Rl) as (_ & _ & _ & -> & U). rewrite sample_events by assumption. apply edit_key. exact Ak.
  - auto 6.
Qed.
Lemma req_pos y y' e a : 0 <= a -> 0 <= req_after C y y' e a.
Proof. unfold req_after. intros. destruct e; try lia; destruct (_ =? _); lia. Qed.
Lemma hinv_step t s a e y' : hinv t s a -> may S C t e -> is_power e = false -> step C (st_y t) e = Some y' ->
  hinv (adv t e y') (store_after (st_y t) y' e s) (req_after C (st_y t) y' e a).
Proof.
  intros H M Pw E. pose proof (hi_l _ _ _ H) as I. pose proof (hi_p _ _ _ H) as Pi. pose proof (edit_hands _ _ _ _ _ H M Pw E) as Ed.
  pose proof (linv_step S lo hi C HC HS _ _ _ _ _ I M Pw E) as I'. pose proof (pinv_step S lo hi C HC HS HQ _ _ _ _ _ I Pi M Pw E) as Pi'.
  pose proof (linv_poll S C _ _ _ I) as V. fold W in V. destruct (linv_ev S C HC HS _ _ _ _ I M) as (O & _).
  pose proof (k_reach _ _ _ _ (li_core _ _ _ _ _ I)) as R. pose proof (reach_u16 C HC _ R) as U. pose proof (li_clocks _ _ _ _ _ I) as K.
  destruct (step_set C _ e y' U Pw E) as (N & Kd). unfold now_ok in N.
  pose proof (clocks_expired S C HS _ _ _ _ _ U K) as Xq. pose proof (c_a _ _ _ _ _ _ K) as Ha. pose proof (c_s _ _ _ _ _ _ K) as Hs.
  destruct H as [_ _ H1 H3 H4 H5 H6]. rewrite (adv_eq lo hi C _ _ _ Pw) in *. unfold quick in HQ. fold W in HQ.
  assert (Hh : forall x, 0 <= x -> st_hands t <= x -> (match e with EButtons pins => if adjust_keys pins then 0 else st_hands t | _ => st_hands t + ticks_of e end) <= x + ticks_of e).
  { intros x X0 X1. destruct e; cbn [ticks_of]; try lia. destruct (adjust_keys pinb); lia. }
  assert (T0 : 0 <= ticks_of e <= 1) by (destruct e; cbn; lia).
  (* the request and its age *)
  assert (Rq : x_request (y_set y') = true ->
    (x_request (y_set (st_y t)) = true /\ y_set y' = y_set (st_y t) /\ req_after C (st_y t) y' e a = a + ticks_of e /\ opens C (st_y t) e = false) \/
    (x_request (y_set (st_y t)) = true /\ (e = EReady \/ e = EDone)) \/
    ((e = EMenu \/ exists pins, e = EButtons pins) /\ req_after C (st_y t) y' e a = 0 /\ st_hands t <= 10 + 2 * W)).
  { intros Q. assert (Ka : y_set y' = y_set (st_y t) -> req_after C (st_y t) y' e a = a + ticks_of e).
    { intros Es. rewrite Es in Q. assert (Tm := c_req _ _ _ _ _ _ K Q). specialize (H1 Q).
      assert (Z0 : (x_timer (y_set y') =? u16 (y_now y' + 1000)) = true -> ticks_of e = 0 -> a = 0).
      { rewrite Es, Tm, N. intros Z1 Z2. rewrite Z2 in Z1. apply Z.eqb_eq in Z1. assert (a <= 1999) by (unfold PLoop2.sgap in H1; fold W in H1; destruct (st_at t); lia). clear - Z1 U H Ha. unfold u16, is_u16 in *. lia. }
      unfold req_after. destruct e; cbn [ticks_of] in *; try lia; (destruct (_ =? _) eqn:Z1; [rewrite (Z0 eq_refl eq_refl)|]; lia). }
    destruct Kd as [Es Ne Eo|s' He Es|He Eo Es|d He Wt Ei Ez Eof Eee Erq Etm|He Eb Es].
    - left. split; [congruence|]. auto.
    - right. right. split; [exact He|]. assert (En : y_now y' = y_now (st_y t)) by (rewrite N; destruct He as [->|(pins & ->)]; cbn [ticks_of]; clear - U; unfold u16, is_u16 in *; lia).
      split; [unfold req_after; rewrite Es, En; destruct He as [->|(pins & ->)]; cbn [stored set_x_timer x_timer]; rewrite Z.eqb_refl; reflexivity|].
      destruct Ed as [Ed|[(_ & Ed)|[Ed|[Ed|Ed]]]]; [|exact Ed|exfalso; destruct He as [->|(pins & ->)]; discriminate Ed..].
      (* a store that changes nothing *)
      assert (Q1 : x_request (y_set (st_y t)) = true) by congruence. specialize (Ka Ed). unfold req_after in Ka.
      assert (X1 : x_timer (y_set y') =? u16 (y_now y' + 1000) = true) by (rewrite Es, En; apply Z.eqb_refl). rewrite X1 in Ka.
      assert (a = 0) by (destruct He as [->|(pins & ->)]; cbn [ticks_of] in Ka; lia). specialize (H4 Q1). lia.
    - exfalso. subst e. cbn [opens] in Eo. apply andb_true_iff in Eo. rewrite Es in Q. unfold settings_work in Q. rewrite (proj1 Eo), (proj2 Eo) in Q. cbn [negb] in Q. destruct (c_eering C); discriminate Q.
    - right. left. split; [congruence|auto].
    - right. left. split; [|auto]. rewrite Es in Q. unfold ee_prog_done in Q. destruct (x_busy _) as [(?, ?)|]; exact Q. }
  assert (Hp : forall r, place_after (st_at t) e = r -> r = place_after (st_at t) e) by auto. destruct M as (D & M).
  assert (R' : x_request (y_set y') = true -> req_after C (st_y t) y' e a <= 999 + sgap (place_after (st_at t) e) (v_poll (watch_step lo hi (st_y t) (st_w t) e y'))).
  { intros Q. rewrite poll_after. destruct (Rq Q) as [(Q1 & Es & Ea & Eo)|[(Q1 & He)|(He & Ea & _)]].
    - rewrite Ea. specialize (H1 Q1). unfold PLoop2.sgap in *. fold W in H1 |- *. destruct e; cbn [ticks_of place_after due] in *; try discriminate Pw; try rewrite D in *; first [lia|destruct (st_at t); lia|idtac].
      (* settings_work has found the request too young *)
      cbn [opens] in Eo. rewrite Q1 in Eo. cbn [andb] in Eo. rewrite (c_req _ _ _ _ _ _ K Q1), expired_elapsed in Eo by (assumption || lia). lia.
    - specialize (H1 Q1). destruct He as [->| ->]; exact H1.
    - rewrite Ea. unfold PLoop2.sgap. fold W. destruct He as [->|(pins & ->)]; cbn [place_after]; lia. }
  assert (R4 : x_request (y_set y') = true -> (match e with EButtons pins => if adjust_keys pins then 0 else st_hands t | _ => st_hands t + ticks_of e end) <= req_after C (st_y t) y' e a + 10 + 2 * W).
  { intros Q. destruct (Rq Q) as [(Q1 & Es & Ea & Eo)|[(Q1 & He)|(He & Ea & X)]].
    - rewrite Ea. specialize (Hh (a + 10 + 2 * W) ltac:(lia) (H4 Q1)). lia.
    - specialize (H4 Q1). destruct He as [->| ->]; cbn [req_after ticks_of]; lia.
    - rewrite Ea. specialize (Hh (10 + 2 * W) ltac:(lia) X). destruct He as [->|(pins & ->)]; cbn [ticks_of] in *; lia. }
  constructor; cbn [st_y st_w st_at st_u st_hands]; try assumption.
  - (* pins *)
    destruct Pi as (m & b & Pm & _ & Hb). destruct (prompt_ok C _ _ _ _ HC Pm) as (Ru & Lg). destruct (run_rel C _ _ HC Ru) as (_ & _ & _ & Rl). destruct (uv_btn _ _ _ Rl) as (_ & U2 & _).
    destruct e; cbn [ui_next ticks_of]; try (rewrite Z.add_0_r; exact H3); try discriminate Pw.
    + intros Ak. specialize (H3 Ak). cbn [ui_tick u_time u_count]. lia.
    + destruct (poll_clock C (st_u t) (sensor_error (st_y t))) as (-> & -> & -> & _). rewrite Z.add_0_r. exact H3.
    + destruct (sample_due (st_u t)) eqn:Sd.
      * destruct (sample_pins C (st_u t) pinb Sd) as (-> & -> & -> & _). intros ->. unfold sample_due in Sd. lia.
      * unfold ui_sample. rewrite Sd. intros Ak. specialize (H3 Ak). destruct (adjust_keys pinb); lia.
  - (* store *)
    intros Q. unfold store_after. destruct (quiet (y_set (st_y t))) eqn:Q0.
    + (* it begins *)
      assert (He : e = ESettings /\ opens C (st_y t) e = true).
      { destruct Kd as [Es Ne Eo|s' He Es|He Eo Es|d He Wt Ei Ez Eof Eee Erq Etm|He Eb Es].
        - rewrite Es in Q. congruence.
        - rewrite Es in Q. change (quiet (y_set (st_y t)) = false) in Q. congruence.
        - auto.
        - exfalso. rewrite quiet_cases, Wt, andb_false_r in Q0. discriminate Q0.
        - exfalso. rewrite quiet_cases, Eb in Q0. discriminate Q0. }
      destruct He as (-> & Eo). cbn [opens ticks_of] in *. apply andb_true_iff in Eo. destruct Eo as (Q1 & _). specialize (H1 Q1). specialize (H4 Q1). unfold PLoop2.sgap in H1. fold W in H1. destruct (st_at t); lia.
    + specialize (H5 eq_refl). specialize (Hh (1009 + 4 * W + s) ltac:(lia) H5). lia.
  - intros En. destruct (HC) as [(X & _)|(_ & Hn)]; [congruence|]. eapply (nring_step C En Hn relaxed S); [apply (s4_inv _ _ _ (reach_s4 C _ HC R))|exact K|exact Xq|exact Pw|exact E|exact (H6 En)].
Qed.
Lemma hinv_start y pinb ee : linv (start C y pinb) 0 0 -> pinv S C (start C y pinb) -> ee_ok ee -> settings_init C ee = Some (y_set y) -> hinv (start C y pinb) 0 0.
Proof.
  intros I Pi Ho E. assert (E' := E). apply init_shape in E'. destruct E' as (A1 & A2 & A3 & _).
  constructor; try assumption; cbn [start st_y st_u st_hands].
  - rewrite A1. discriminate.
  - unfold ui_start. cbn [u_pins]. discriminate.
  - rewrite A1. discriminate.
  - unfold quiet. rewrite A2, A3. discriminate.
  - intros En. destruct HC as [(X & _)|(_ & Hn)]; [congruence|]. eapply init_nring; eassumption.
Qed.
Lemma crash_ok y v : reach C y -> is_u8 v -> ee_ok (ee_after_crash (y_set y) v).
Proof.
  intros R Hv. destruct (i_set _ _ _ (s4_inv _ _ _ (reach_s4 C _ HC R))) as (Sx & _).
  assert (Ho : ee_ok (x_ee (y_set y))) by (destruct (c_eering C); [apply Sx|destruct Sx as (_ & X & _); exact X]).
  unfold ee_after_crash. destruct (x_busy _) as [(p, d)|]; [apply ee_ok_upd; assumption|exact Ho].
Qed.
Lemma loop_hinv ok t : loop S lo hi C ok t -> exists s a, hinv t s a.
Proof.
  intros D. induction D as [pinb y Hp E|t e y' D (s & a & H) M E Ok].
  - exists 0, 0. eapply hinv_start.
    + eapply (linv_start S C HC HS); [econstructor; eassumption|eapply boot_fresh; eassumption|econstructor; eassumption|eapply boot_set; eassumption].
    + exists 0, 0. split; [eapply pm_boot; eassumption|cbn; lia].
    + apply (proj1 (factory_slot C)).
    + eapply boot_set; eassumption.
  - destruct (is_power e) eqn:Pw; [|eexists _, _; apply hinv_step; eassumption].
    pose proof (hi_l _ _ _ H) as I. destruct (linv_ev S C HC HS _ _ _ _ I M) as (O & _). pose proof (k_reach _ _ _ _ (li_core _ _ _ _ _ I)) as R.
    pose proof (start_linv S lo hi C HC HS ok t e y' s a D I M Pw E) as I'. exists 0, 0. destruct e; try discriminate Pw. cbn [advance] in *. eapply hinv_start.
    + exact I'.
    + exists 0, 0. split; [|cbn; lia]. cbn [start st_y st_u]. eapply pm_power; eassumption.
    + exact (crash_ok (st_y t) v R (proj1 O)).
    + exact (power_set C _ v pinb y' HC R O E).
Qed.

(** ** C73 *)
Lemma loop_idle ok t : loop S lo hi C ok t -> safe_ms S <= st_hands t ->
  quiet (y_set (st_y t)) = true /\ x_request (y_set (st_y t)) = false /\
  forall v, exists x, settings_init C (ee_after_crash (y_set (st_y t)) v) = Some x /\ x_cache x = x_cache (y_set (st_y t)).
Proof.
  intros D Hs. destruct (loop_hinv ok t D) as (s & a & H). unfold safe_ms in Hs. fold W in Hs. pose proof (hi_l _ _ _ H) as I. pose proof (li_clocks _ _ _ _ _ I) as K.
  pose proof (linv_poll S C _ _ _ I) as V. fold W in V. destruct HS as (_ & P0 & Q0 & _). assert (M0 : 0 <= store_ms S) by (unfold store_ms; lia).
  assert (Q1 : quiet (y_set (st_y t)) = true).
  { destruct (quiet _) eqn:Q; [reflexivity|exfalso]. pose proof (hi_store _ _ _ H Q). pose proof (clocks_store S HS _ _ _ _ _ K Q). lia. }
  assert (Q2 : x_request (y_set (st_y t)) = false).
  { destruct (x_request _) eqn:Q; [exfalso|reflexivity]. pose proof (hi_req _ _ _ H Q). pose proof (hi_gap _ _ _ H Q) as G. unfold PLoop2.sgap in G. fold W in G. destruct (st_at t); lia. }
  split; [exact Q1|]. split; [exact Q2|]. intros v. pose proof (s4_inv _ _ _ (reach_s4 C _ HC (k_reach _ _ _ _ (li_core _ _ _ _ _ I)))) as Iv.
  destruct (HC) as [HR|(En & Hn)]; [eapply ring_load; eassumption|]. eapply nring_load; try eassumption. exact (hi_ring _ _ _ H En).
Qed.
Lemma loop_saved ok t v pinb : loop S lo hi C ok t -> safe_ms S <= st_hands t -> is_u8 v -> is_u8 pinb ->
  may S C t (EPower v pinb) /\ exists y', step C (st_y t) (EPower v pinb) = Some y' /\ x_cache (y_set y') = x_cache (y_set (st_y t)) /\
  same_settings (x_cache (y_set y')) (u_cfg (st_u t)).
Proof.
  intros D Hs Hv Hp. destruct (loop_idle ok t D Hs) as (Q1 & Q2 & Ld). destruct (quiet_off _ Q1) as (_ & Qb).
  assert (M : may S C t (EPower v pinb)) by (split; [exact Logic.I|]; auto). split; [exact M|].
  destruct (loop_environment S lo hi C HC HS ok t D) as (R & O). specialize (O _ M). destruct (loop_defined S lo hi C HC HS ok t _ D M) as (y' & E). exists y'. split; [exact E|].
  pose proof (power_set C _ v pinb y' HC R O E) as X. destruct (Ld v) as (x & Ex & Ec). rewrite X in Ex. apply Some_inj in Ex. subst x. split; [exact Ec|]. rewrite Ec.
  pose proof (loop_shows S lo hi C HC HS HQ ok t D) as Sh. apply Sh.
Qed.
End Saved.
