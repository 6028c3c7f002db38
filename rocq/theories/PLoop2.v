(** * The main loop on hardware of known speed: no deadlock; the settings are stored *)
From Coq Require Import ZArith List Bool Lia ZifyBool.
From Verif Require Import Base PBase MConf MUtil MFixpt MScale MRing MFilter MTimer MPid MPwm MTempMap MCurr MSens
  MSettings SpecSettings PSettings PSysSet
  MSseg MDisplay MText MState MTemp MMeas MMenu MMain SpecDisplay SpecSys SpecRun SpecUI SpecLive SpecLoop PSys PSysRun PSysSafe PSysWin PSysProp
  PSysUI PSysUI2 PSysUI3 PSysUI7 PLive PStore PLoop.
Import ListNotations.
Open Scope Z_scope.
Ltac Zify.zify_post_hook ::= Z.div_mod_to_equations.

Section Loop2.
Variables (S : speed) (lo hi : Z) (C : conf).
Hypothesis HC : build_conf C.
Hypothesis HS : speed_ok S.
Notation linv := (linv S C).
Notation adv := (advance lo hi C).

Lemma adv_eq t e y' : is_power e = false -> adv t e y' =
  mkStation y' (place_after (st_at t) e) (watch_step lo hi (st_y t) (st_w t) e y') (ui_next C (st_u t) (sensor_error (st_y t)) e)
    (prog_after (st_y t) y' e (st_prog t)) (irq_after (st_y t) y' e (st_irq t))
    (match e with EButtons pins => if adjust_keys pins then 0 else st_hands t | _ => st_hands t + ticks_of e end).
Proof. intros Pw. destruct e; try reflexivity; discriminate Pw. Qed.
Lemma poll_after y w e y' : v_poll (watch_step lo hi y w e y') = match e with ETick => v_poll w + 1 | EMeasure => 0 | _ => v_poll w end.
Proof.
  destruct e; cbn [watch_step watch_state watch_tick v_poll]; try reflexivity.
  - unfold watch_adc. destruct (m_adc (y_meas y)); reflexivity.
  - unfold watch_poll. destruct (m_avail (y_meas y)); [destruct (m_chan (y_meas y) =? 1)|]; reflexivity.
Qed.

(** ** No deadlock *)
Definition good (t : station) : Prop := exists s a, linv t s a.
Lemma good_go t e : good t -> may S C t e -> is_power e = false -> exists y', step C (st_y t) e = Some y' /\ good (adv t e y').
Proof.
  intros (s & a & I) M Pw. destruct (linv_ev S C HC HS _ _ _ _ I M) as (O & _).
  destruct (step_ok relaxed C (st_y t) e HC bok_relaxed (reach_s4 C _ HC (k_reach _ _ _ _ (li_core _ _ _ _ _ I))) O) as (y' & E & _).
  exists y'. split; [exact E|]. eexists _, _. apply linv_step; eassumption.
Qed.
Lemma moves_app t l t1 l' t2 : moves S lo hi C t l t1 -> moves S lo hi C t1 l' t2 -> moves S lo hi C t (l ++ l') t2.
Proof. intros M. revert l' t2. induction M as [|t e l y' t1 M1 E M IH]; intros l' t2 M2; cbn [app]; [exact M2|]. eapply moves_cons; eauto. Qed.
Lemma moves_one t e y' : may S C t e -> step C (st_y t) e = Some y' -> moves S lo hi C t [e] (adv t e y').
Proof. intros M E. eapply moves_cons; [exact M|exact E|apply moves_nil]. Qed.
Lemma ms_app l l' : duration (l ++ l') = duration l + duration l'.
Proof. induction l as [|e l IH]; cbn [duration app fold_right]; [reflexivity|]. unfold duration in *. rewrite IH. lia. Qed.

Definition next_work (p : place) : event :=
  match p with AtMeasure => EMeasure | AtMenu => EMenu | AtDisplay => EDisplay | AtButtons => EButtons 255 | AtSettings => ESettings end.
Lemma work_may t : may S C t (next_work (st_at t)).
Proof. unfold may, due. destruct (st_at t); cbn; try (split; [reflexivity|exact Logic.I]). split; [reflexivity|unfold is_u8; lia]. Qed.
Lemma work_go t : good t -> exists t', moves S lo hi C t [next_work (st_at t)] t' /\ good t' /\
  st_at t' = place_after (st_at t) (next_work (st_at t)) /\ (st_at t = AtMeasure -> v_poll (st_w t') = 0).
Proof.
  intros G. assert (Pw : is_power (next_work (st_at t)) = false) by (destruct (st_at t); reflexivity).
  destruct (good_go t _ G (work_may t) Pw) as (y' & E & G'). eexists. split; [apply moves_one; [apply work_may|exact E]|]. split; [exact G'|].
  rewrite (adv_eq _ _ _ Pw). cbn [st_at st_w]. split; [reflexivity|]. intros H. rewrite poll_after, H. reflexivity.
Qed.
(** Finish the iteration and call measure_work. *)
Lemma to_measure t : good t -> exists l t', moves S lo hi C t l t' /\ good t' /\ v_poll (st_w t') = 0 /\ duration l = 0.
Proof.
  assert (G0 : forall t, good t -> st_at t = AtMeasure -> exists l t', moves S lo hi C t l t' /\ good t' /\ v_poll (st_w t') = 0 /\ duration l = 0).
  { intros u G H. destruct (work_go u G) as (u' & M & G' & _ & Z). exists [next_work (st_at u)], u'. split; [exact M|]. split; [exact G'|]. split; [exact (Z H)|]. rewrite H. reflexivity. }
  assert (Gn : forall p, (forall t, good t -> st_at t = place_after p (next_work p) -> exists l t', moves S lo hi C t l t' /\ good t' /\ v_poll (st_w t') = 0 /\ duration l = 0) ->
    forall t, good t -> st_at t = p -> exists l t', moves S lo hi C t l t' /\ good t' /\ v_poll (st_w t') = 0 /\ duration l = 0).
  { intros p K u G H. destruct (work_go u G) as (u1 & M & G1 & H1 & _). rewrite H in H1. destruct (K u1 G1 H1) as (l & u2 & M2 & G2 & V & L).
    eexists _, u2. split; [eapply moves_app; [exact M|exact M2]|]. split; [exact G2|]. split; [exact V|]. rewrite ms_app, L. rewrite H. destruct p; reflexivity. }
  intros G. destruct (st_at t) eqn:H.
  - exact (G0 t G H).
  - exact (Gn AtMenu (Gn AtDisplay (Gn AtButtons (Gn AtSettings G0))) t G H).
  - exact (Gn AtDisplay (Gn AtButtons (Gn AtSettings G0)) t G H).
  - exact (Gn AtButtons (Gn AtSettings G0) t G H).
  - exact (Gn AtSettings G0 t G H).
Qed.
Lemma one_tick t : finite_speed S -> good t -> exists l t', moves S lo hi C t l t' /\ good t' /\ duration l = 1.
Proof.
  intros (F1 & F2 & F3 & F4 & F5) G. destruct (to_measure t G) as (l0 & t0 & M0 & G0 & V0 & L0).
  (* EDone, EReady *)
  assert (Md : may S C t0 EDone) by (split; exact Logic.I). destruct (good_go t0 EDone G0 Md eq_refl) as (y1 & E1 & G1). rewrite adv_eq in G1 by reflexivity. pose proof (moves_one _ _ _ Md E1) as M1. rewrite adv_eq in M1 by reflexivity.
  assert (B1 : busy y1 = false).
  { cbn [step] in E1. inv1 E1. unfold busy, ee_prog_done. sy. destruct (x_busy (y_set (st_y t0))) as [(?, ?)|] eqn:B; sx; rewrite ?B; reflexivity. }
  match type of M1 with moves _ _ _ _ _ _ ?z => set (t1 := z) in * end. assert (Y1 : st_y t1 = y1) by reflexivity. assert (V1 : v_poll (st_w t1) = 0) by (cbn [t1 st_w]; rewrite poll_after; exact V0). clearbody t1.
  assert (Mr : may S C t1 EReady) by (split; exact Logic.I). destruct (good_go t1 EReady G1 Mr eq_refl) as (y2 & E2 & G2). rewrite adv_eq in G2 by reflexivity. pose proof (moves_one _ _ _ Mr E2) as M2. rewrite adv_eq in M2 by reflexivity.
  match type of M2 with moves _ _ _ _ _ _ ?z => set (t2 := z) in * end. assert (V2 : v_poll (st_w t2) = 0) by (cbn [t2 st_w]; rewrite poll_after; exact V1).
  assert (P2 : st_prog t2 = 0) by (cbn [t2 st_prog]; unfold prog_after; rewrite Y1, B1; reflexivity).
  assert (Q2 : st_irq t2 = 0) by (cbn [t2 st_irq]; unfold irq_after; rewrite andb_false_r; reflexivity). clearbody t2. clear E1 E2 Md Mr Y1 B1 y1 y2 G1.
  (* a conversion *)
  assert (K : exists l t3, moves S lo hi C t2 l t3 /\ good t3 /\ v_poll (st_w t3) = 0 /\ st_prog t3 = 0 /\ st_irq t3 = 0 /\ duration l = 0 /\ (m_adc (y_meas (st_y t3)) = true -> v_sample (st_w t3) < h_sample S)).
  { destruct (Z_lt_le_dec (v_sample (st_w t2)) (h_sample S)) as [Hs|Hs]; [exists [], t2; split; [apply moves_nil|]; auto 10|].
    destruct (m_adc (y_meas (st_y t2))) eqn:Ea; [|exists [], t2; split; [apply moves_nil|]; rewrite Ea; split; [exact G2|]; repeat (split; [assumption || reflexivity|]); discriminate].
    assert (Ma : may S C t2 (EAdc 512)).
    { split; [exact Logic.I|]. cbn [on_time]. split; [lia|]. intros _. cbn [limits_of l_rate]. destruct G2 as (s & a & I). pose proof (li_conv _ _ _ _ _ I). pose proof (k_pos _ _ _ _ (li_core _ _ _ _ _ I)). lia. }
    destruct (good_go t2 _ G2 Ma eq_refl) as (y3 & E3 & G3). rewrite adv_eq in G3 by reflexivity. pose proof (moves_one _ _ _ Ma E3) as M3. rewrite adv_eq in M3 by reflexivity.
    eexists _, _. split; [exact M3|]. split; [exact G3|]. cbn [st_w st_prog st_irq st_y]. rewrite poll_after. split; [exact V2|]. unfold prog_after, irq_after. rewrite P2, Q2. cbn [ticks_of].
    split; [destruct (_ && _); reflexivity|]. split; [destruct (_ && _); reflexivity|]. split; [reflexivity|]. intros _. cbn [watch_step watch_state v_sample]. unfold watch_adc. rewrite Ea. cbn [v_sample]. lia. }
  destruct K as (l3 & t3 & M3 & G3 & V3 & P3 & Q3 & L3 & H3).
  assert (Mt : may S C t3 ETick).
  { split; [exact Logic.I|]. cbn [on_time limits_of l_sample l_poll]. rewrite V3, P3, Q3. repeat split; try (intros; lia); try exact H3; lia. }
  destruct (good_go t3 _ G3 Mt eq_refl) as (y4 & E4 & G4). eexists _, _. split; [|split; [exact G4|]].
  - eapply moves_app; [exact M0|]. eapply moves_app; [exact M1|]. eapply moves_app; [exact M2|]. eapply moves_app; [exact M3|]. apply moves_one; assumption.
  - rewrite !ms_app, L0, L3. reflexivity.
Qed.
Lemma loop_no_deadlock ok t n : finite_speed S -> loop S lo hi C ok t -> 0 <= n -> exists l t', moves S lo hi C t l t' /\ duration l = n.
Proof.
  intros F D Hn. assert (G : good t) by exact (loop_linv S lo hi C HC HS ok t D). clear D.
  enough (K : exists l t', moves S lo hi C t l t' /\ good t' /\ duration l = n) by (destruct K as (l & t' & M & _ & L); eauto).
  revert n Hn. apply natlike_ind; [exists [], t; split; [apply moves_nil|auto]|].
  intros n Hn (l & t1 & M & G1 & L). destruct (one_tick t1 F G1) as (l' & t2 & M2 & G2 & L2). exists (l ++ l'), t2. split; [eapply moves_app; eassumption|]. split; [exact G2|]. rewrite ms_app. lia.
Qed.

(** ** The user interface is served promptly *)
Section Quick.
Hypothesis HQ : quick S.
Let W := h_pass S.
Definition mgap (p : place) (v : Z) : Z := match p with AtMenu => W + v | _ => v end.
Definition bgap (p : place) (v : Z) : Z := match p with AtSettings | AtMeasure => v | _ => W + v end.
Definition sgap (p : place) (v : Z) : Z := match p with AtMeasure => v | _ => W + v end.
Definition pinv (t : station) : Prop :=
  exists m b, prompt C (st_y t) (st_u t) m b /\ m <= mgap (st_at t) (v_poll (st_w t)) /\ b <= bgap (st_at t) (v_poll (st_w t)).
Lemma linv_poll t s a : linv t s a -> 0 <= v_poll (st_w t) <= W.
Proof. intros I. pose proof (k_pos _ _ _ _ (li_core _ _ _ _ _ I)) as K. cbn [limits_of l_poll l_rate] in K. unfold W. lia. Qed.
Lemma pinv_step t s a e y' : linv t s a -> pinv t -> may S C t e -> is_power e = false -> step C (st_y t) e = Some y' -> pinv (adv t e y').
Proof.
  intros I (m & b & Pm & Hm & Hb) M Pw E. pose proof (linv_poll _ _ _ I) as V. destruct (linv_ev S C HC HS _ _ _ _ I M) as (O & _). destruct M as (D & M). unfold quick in HQ. fold W in HQ.
  rewrite (adv_eq _ _ _ Pw). unfold pinv. cbn [st_y st_u st_at st_w]. rewrite poll_after.
  assert (Oth : e <> ETick -> e <> EMenu -> (forall pins, e <> EButtons pins) -> prompt C y' (st_u t) m b) by (intros; eapply pm_other; eassumption).
  destruct e; try discriminate Pw; cbn [due] in D; cbn [ui_next place_after].
  - (* tick *) destruct M as ((_ & M) & _). cbn [limits_of l_poll] in M. fold W in M. exists (m + 1), (b + 1). split; [|unfold mgap, bgap in *; destruct (st_at t); lia].
    eapply pm_tick; [exact Pm| | |exact E]; unfold mgap, bgap in *; destruct (st_at t); lia.
  - exists m, b. split; [apply Oth; discriminate|auto].
  - exists m, b. split; [apply Oth; discriminate|auto].
  - exists m, b. split; [apply Oth; discriminate|auto].
  - rewrite D in *. cbn [mgap bgap] in *. exists m, b. split; [apply Oth; discriminate|lia].
  - rewrite D in *. cbn [mgap bgap] in *. exists 0, b. split; [eapply pm_menu; eassumption|lia].
  - rewrite D in *. cbn [mgap bgap] in *. exists m, b. split; [apply Oth; discriminate|lia].
  - rewrite D in *. cbn [mgap bgap] in *. exists m, 0. split; [eapply pm_keys; eassumption|lia].
  - rewrite D in *. cbn [mgap bgap] in *. exists m, b. split; [apply Oth; discriminate|lia].
Qed.
Lemma loop_pinv ok t : loop S lo hi C ok t -> pinv t.
Proof.
  intros D. induction D as [pinb y Hp E|t e y' D IH M E Ok].
  - exists 0, 0. split; [eapply pm_boot; eassumption|cbn; lia].
  - destruct (loop_linv S lo hi C HC HS _ t D) as (s & a & I). destruct (is_power e) eqn:Pw; [|eapply pinv_step; eassumption].
    destruct (linv_ev S C HC HS _ _ _ _ I M) as (O & _). destruct e; try discriminate Pw. exists 0, 0.
    split; [|cbn; lia]. cbn [advance start st_y st_u]. eapply pm_power; [apply (k_reach _ _ _ _ (li_core _ _ _ _ _ I))|exact O|exact E].
Qed.
Lemma loop_prompt ok t : loop S lo hi C ok t -> exists m b, prompt C (st_y t) (st_u t) m b.
Proof. intros D. destruct (loop_pinv ok t D) as (m & b & K & _). eauto. Qed.
Lemma loop_shows ok t : loop S lo hi C ok t -> shows C (st_y t) (st_u t).
Proof. intros D. destruct (loop_prompt ok t D) as (m & b & K). eapply prompt_shows; eassumption. Qed.
End Quick.
End Loop2.
