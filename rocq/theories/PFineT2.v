(** * Interrupts inside the work functions, part 10: the handling of a result *)
From Coq Require Import ZArith List Bool Lia ZifyBool.
From Verif Require Import Base PBase MConf MUtil MFixpt MScale MRing MFilter MTimer MPid MPwm MTempMap MCurr MSens
  MSettings MSseg MDisplay MText MState MTemp MMeas MMenu MMain SpecSys SpecRun PSys PSysMeas MFine PFineT.
Import ListNotations.
Open Scope Z_scope.
Ltac Zify.zify_post_hook ::= Z.div_mod_to_equations.

Lemma fbind_inv {A B} (m : F A) (f : A -> F B) o b o' : fbind m f o = Some (b, o') -> exists a o1, m o = Some (a, o1) /\ f a o1 = Some (b, o').
Proof. unfold fbind. destruct (m o) as [[a o1]|]; [|discriminate]. eauto. Qed.
Lemma lift_inv {A} (m : option A) o a o' : lift m o = Some (a, o') -> m = Some a /\ o' = o.
Proof. unfold lift. destruct m; [|discriminate]. cbn [bind]. intros E. injection E as <- <-. auto. Qed.
Lemma ret_inv {A} (a b : A) o o' : ret a o = Some (b, o') -> b = a /\ o' = o.
Proof. unfold ret. intros E. injection E as <- <-. auto. Qed.
Ltac fb H := apply fbind_inv in H; let a := fresh "a" in let o := fresh "o" in let E := fresh "E" in destruct H as (a & o & E & H).
Ltac fv H := apply fbind_inv in H; let a := fresh "a" in let o := fresh "o" in let E := fresh "E" in destruct H as (a & o & E & H); apply lift_inv in E; destruct E as (E & ->).

Fixpoint ticks (l : list irq) : Z := match l with [] => 0 | ITick :: r => 1 + ticks r | _ :: r => ticks r end.
Lemma ticks_pos l : 0 <= ticks l.
Proof. induction l as [|[| | |] l IH]; cbn [ticks]; lia. Qed.
Lemma ticks_app a b : ticks (a ++ b) = ticks a + ticks b.
Proof. induction a as [|[| | |] a IH]; cbn [ticks app]; lia. Qed.
(** With the converter off interrupts only count the time. *)
Lemma pfires_off l : forall n m, is_u16 n -> m_adc m = false -> pfires (n, m) l = (u16 (n + ticks l), m).
Proof.
  unfold pfires. induction l as [|i l IH]; intros n m Hn Ha.
  - cbn. f_equal. unfold is_u16, u16 in *. lia.
  - cbn [fold_left]. assert (pfire (n, m) i = (u16 (n + match i with ITick => 1 | _ => 0 end), m)) as ->.
    { assert (N0 : n = u16 (n + 0)) by (unfold is_u16, u16 in *; lia). destruct i; cbn [pfire fst snd]; [reflexivity| |rewrite <- N0; reflexivity|rewrite <- N0; reflexivity].
      rewrite <- N0. destruct (_ && _); [rewrite Ha|]; reflexivity. }
    rewrite IH; [|unfold is_u16, u16; lia|exact Ha]. f_equal. destruct i; cbn [ticks]; unfold u16; lia.
Qed.

Section Result.
Variable C : conf.

(** What the plausibility check leaves of a channel: [b] plausible, timer started at [n1], checked at [n2] *)
Definition recheck (b : bool) (n1 n2 : Z) (c : chan) : chan :=
  if b then mkChan (ch_adj c) false false (ch_timer c)
  else let t := if ch_running c then ch_timer c else u16 (n1 + 3000) in
       mkChan (ch_adj c) (ch_timeout c || timer_expired n2 t) true t.
Lemma recheck_bare b n1 n2 c : set_ch_adj (recheck b n1 n2 c) 0 = recheck b n1 n2 (set_ch_adj c 0).
Proof. unfold recheck. destruct b; reflexivity. Qed.

Lemma pt_tr y o y' o' : pt C y o = Some (y', o') -> exists l, uses o o' l /\ pj y' = pfires (pj y) l.
Proof. apply (tr_pt C y y eq_refl). Qed.
Lemma plaus_tr cfg y ch v o y' ch' v' p o' : is_u16 (y_now y) -> m_adc (y_meas y) = false -> mc_plaus_ms cfg = 3000 ->
  plaus_check_f C cfg y ch v o = Some ((y', (ch', v', p)), o') ->
  exists l d b, uses o o' l /\ pj y' = (u16 (y_now y + ticks l), bare (y_meas y)) /\ 0 <= d <= ticks l /\
    ch' = recheck b (u16 (y_now y + d)) (u16 (y_now y + ticks l)) ch.
Proof.
  intros Hn Ha Hm E. unfold plaus_check_f in E. rewrite Hm in E.
  set (b := negb (v <? mc_plaus_neg cfg) && negb (mc_plaus_pos cfg <? v)).
  assert (exists w, (if v <? mc_plaus_neg cfg then (ch, mc_plaus_neg cfg, MEAS_NOT_PLAUSIBLE)
            else if mc_plaus_pos cfg <? v then (ch, mc_plaus_pos cfg, MEAS_NOT_PLAUSIBLE)
            else (set_ch_timeout (set_ch_running ch false) false, v, MEAS_PLAUSIBLE)) =
            (if b then (set_ch_timeout (set_ch_running ch false) false, w, MEAS_PLAUSIBLE) else (ch, w, MEAS_NOT_PLAUSIBLE))) as (w & Ew).
  { unfold b. destruct (v <? _); [eexists; reflexivity|]. destruct (_ <? v); eexists; reflexivity. }
  rewrite Ew in E. clear Ew. destruct b.
  - fb E. destruct a as [y1 c1]. apply ret_inv in E0. destruct E0 as (E0 & ->). inversion E0; subst; clear E0. fb E. destruct (pt_tr _ _ _ _ E0) as (l & U & P).
    cbv zeta in E. apply ret_inv in E. destruct E as (E & ->). injection E as Ey' Ec' _ _; subst y' ch'. cbn [set_ch_timeout set_ch_running ch_running ch_timeout andb].
    exists l, 0, true. split; [exact U|]. split; [rewrite P; unfold pj; apply pfires_off; [exact Hn|exact Ha]|]. pose proof (ticks_pos l). split; [lia|reflexivity].
  - fb E. destruct a as [y1 c1]. cbv iota beta in E.
    assert (exists l1, uses o o0 l1 /\ pj y1 = (u16 (y_now y + ticks l1), bare (y_meas y)) /\
      c1 = if ch_running ch then ch else mkChan (ch_adj ch) (ch_timeout ch) true (u16 (u16 (y_now y + ticks l1) + 3000))) as (l1 & U1 & P1 & Ec).
    { destruct (ch_running ch) eqn:Er; cbn [negb] in E0.
      - apply ret_inv in E0. destruct E0 as (E0 & ->). inversion E0; subst; clear E0. exists []. split; [apply uses_nil|]. split; [|reflexivity].
        unfold pj. f_equal. cbn [ticks]. unfold is_u16, u16 in *. lia.
      - fb E0. destruct (pt_tr _ _ _ _ E1) as (l & U & P). unfold pj in P at 2. rewrite pfires_off in P; [|exact Hn|exact Ha].
        fv E0. apply ret_inv in E0. destruct E0 as (E0 & ->). inversion E0; subst; clear E0. exists l. split; [exact U|]. split; [exact P|].
        assert (N : y_now a = u16 (y_now y + ticks l)) by (unfold pj in P; congruence). rewrite <- N.
        rewrite arm_ok in E2 by lia. apply Some_inj in E2. subst a0. reflexivity. }
    assert (N1 : y_now y1 = u16 (y_now y + ticks l1)) by (unfold pj in P1; congruence).
    assert (M1 : bare (y_meas y1) = bare (y_meas y)) by (unfold pj in P1; congruence).
    fb E. destruct (pt_tr _ _ _ _ E1) as (l2 & U2 & P2). rewrite P1 in P2. rewrite pfires_off in P2; [|unfold is_u16, u16; lia|exact Ha].
    cbv zeta in E. apply ret_inv in E. destruct E as (E & ->). injection E as Ey' Ec' _ _; subst y' ch'. exists (l1 ++ l2), (ticks l1), false.
    split; [eapply uses_app; eassumption|]. pose proof (ticks_pos l1). pose proof (ticks_pos l2). rewrite ticks_app.
    assert (Nn : u16 (u16 (y_now y + ticks l1) + ticks l2) = u16 (y_now y + (ticks l1 + ticks l2))) by (unfold u16; lia).
    rewrite Nn in P2. split; [exact P2|]. split; [lia|]. assert (N2 : y_now a = u16 (y_now y + (ticks l1 + ticks l2))) by (unfold pj in P2; congruence).
    rewrite N2, Ec. unfold recheck. cbv zeta. destruct ch as [ad to ru ti]. cbn [ch_running ch_timer ch_timeout ch_adj]. destruct ru; cbn [ch_running ch_timer andb];
      destruct (timer_expired _ _); cbn [set_ch_timeout ch_adj ch_timeout ch_running ch_timer]; rewrite ?orb_true_r, ?orb_false_r; reflexivity.
Qed.
Lemma bare_fields m m' : bare m = bare m' -> m_chan m = m_chan m' /\ m_count m = m_count m' /\ m_sum m = m_sum m' /\ m_timer m = m_timer m' /\ m_avail m = m_avail m' /\ m_adc m = m_adc m' /\
  map (fun c => set_ch_adj c 0) (m_chans m) = map (fun c => set_ch_adj c 0) (m_chans m').
Proof. destruct m, m'. unfold bare, set_m_chans. cbn. intros E. injection E. intros. repeat split; congruence. Qed.
Lemma pj_inv y n m : pj y = (n, m) -> y_now y = n /\ bare (y_meas y) = m.
Proof. unfold pj. intros E. split; congruence. Qed.
Lemma two_inj {A} (a b c d : A) : [a; b] = [c; d] -> a = c /\ b = d.
Proof. intros E. split; congruence. Qed.
Definition barec (c : chan) : chan := set_ch_adj c 0.
Lemma measure_tr y o y' o' c0 c1 : is_u16 (y_now y) -> m_adc (y_meas y) = false -> m_avail (y_meas y) = true -> m_chan (y_meas y) = 0 \/ m_chan (y_meas y) = 1 ->
  m_chans (y_meas y) = [c0; c1] -> measure_work_f C y o = Some (y', o') ->
  exists l d1 d2 b, uses o o' l /\ 0 <= d1 <= d2 /\ d2 <= ticks l /\ y_now y' = u16 (y_now y + ticks l) /\
    m_chan (y_meas y') = 1 - m_chan (y_meas y) /\ m_count (y_meas y') = 0 /\ m_sum (y_meas y') = 0 /\
    m_timer (y_meas y') = u16 (y_now y' + averaging_ms (1 - m_chan (y_meas y))) /\ m_avail (y_meas y') = false /\ m_adc (y_meas y') = true /\
    map barec (m_chans (y_meas y')) =
      if m_chan (y_meas y) =? 0 then [recheck b (u16 (y_now y + d1)) (u16 (y_now y + d2)) (barec c0); barec c1]
      else [barec c0; recheck b (u16 (y_now y + d1)) (u16 (y_now y + d2)) (barec c1)].
Proof.
  intros Hn Ha Hv Hc Hch E. unfold measure_work_f in E. cbv zeta in E. rewrite Hv in E. set (y1 := set_y_meas y (set_m_avail (y_meas y) false)) in E.
  fb E. rename a into z. unfold measure_handle_result_f in E0. fb E0. destruct (pt_tr _ _ _ _ E1) as (l1 & U1 & P1). clear E1.
  assert (H1 : pj y1 = (y_now y, bare (y_meas y1))) by reflexivity. rewrite H1, pfires_off in P1 by assumption. clear H1.
  assert (N1 : y_now a = u16 (y_now y + ticks l1)) by (unfold pj in P1; congruence).
  assert (M1 : bare (y_meas a) = bare (y_meas y1)) by (unfold pj in P1; congruence). apply bare_fields in M1. destruct M1 as (A1 & A2 & A3 & A4 & A5 & A6 & A7).
  change (m_chan (y_meas y1)) with (m_chan (y_meas y)) in A1. change (m_adc (y_meas y1)) with (m_adc (y_meas y)) in A6. change (m_avail (y_meas y1)) with false in A5. change (m_chans (y_meas y1)) with (m_chans (y_meas y)) in A7.
  change (m_timer (y_meas y1)) with (m_timer (y_meas y)) in A4. change (m_sum (y_meas y1)) with (m_sum (y_meas y)) in A3. change (m_count (y_meas y1)) with (m_count (y_meas y)) in A2.
  cbv zeta in E0. rewrite A1 in E0. fv E0. rename a0 into ch, E1 into Ech. fv E0. rename a0 into cfg, E1 into Ecfg. fv E0. rename a0 into raw. clear E1.
  assert (exists u r, measure_user_filter_handler a (m_chan (y_meas y)) raw = (set_y_mc a u, r)) as (u & r & Ef).
  { unfold measure_user_filter_handler, meascurr_filter_handler. destruct (_ =? _); [destruct (u_init (y_mc a)); [destruct (lp_filter_u16_run _ _ _)|]; eexists _, _; reflexivity|]. exists (y_mc a), raw. destruct a; reflexivity. }
  rewrite Ef in E0. fv E0. clear E1. fv E0. clear E1. fb E0. destruct a2 as [z2 [[ch' v'] p]]. rename E1 into Ep.
  assert (Hcfg : mc_plaus_ms cfg = 3000).
  { unfold chan_config in Ecfg. destruct Hc as [Hc|Hc]; rewrite Hc in Ecfg; cbn in Ecfg; apply Some_inj in Ecfg; subst cfg; [reflexivity|]. destruct (c_smd C); reflexivity. }
  apply plaus_tr in Ep; [|change (is_u16 (y_now a)); rewrite N1; unfold is_u16, u16; lia|change (m_adc (y_meas a) = false); congruence|exact Hcfg].
  destruct Ep as (l2 & d & b & U2 & P2 & Hd & Ech').
  change (y_now (set_y_mc a u)) with (y_now a) in *. change (y_meas (set_y_mc a u)) with (y_meas a) in *. rewrite N1 in *.
  assert (N2 : y_now z2 = u16 (y_now y + (ticks l1 + ticks l2))) by (apply pj_inv in P2; rewrite (proj1 P2); unfold u16; lia).
  assert (M2 : bare (y_meas z2) = bare (y_meas a)) by (unfold pj in P2; congruence). apply bare_fields in M2. destruct M2 as (B1 & B2 & B3 & B4 & B5 & B6 & B7).
  fv E0. rename a2 into chans, E1 into Ez. destruct (user_result_tr C (set_y_meas z2 (set_m_chans (y_meas z2) chans)) _ _ _ _ _ _ E0) as (l3 & U3 & P3). clear E0.
  unfold pj at 2 in P3. rewrite pfires_off in P3; [|change (is_u16 (y_now z2)); rewrite N2; unfold is_u16, u16; lia|change (m_adc (y_meas z2) = false); congruence].
  change (y_now (set_y_meas z2 _)) with (y_now z2) in P3. rewrite N2 in P3.
  assert (N3 : y_now z = u16 (y_now y + (ticks l1 + ticks l2 + ticks l3))) by (apply pj_inv in P3; rewrite (proj1 P3); unfold u16; lia).
  assert (M3 : bare (y_meas z) = bare (set_m_chans (y_meas z2) chans)) by (apply pj_inv in P3; exact (proj2 P3)). apply bare_fields in M3.
  destruct M3 as (D1 & D2 & D3 & D4 & D5 & D6 & D7).
  change (m_chan (set_m_chans (y_meas z2) chans)) with (m_chan (y_meas z2)) in D1. change (m_avail (set_m_chans (y_meas z2) chans)) with (m_avail (y_meas z2)) in D5.
  change (m_adc (set_m_chans (y_meas z2) chans)) with (m_adc (y_meas z2)) in D6. change (m_chans (set_m_chans (y_meas z2) chans)) with chans in D7.
  unfold adc_trigger_next_chan_f in E. cbv zeta in E. rewrite D1, B1, A1 in E.
  assert (Rn : ring_next (m_chan (y_meas y)) (NR_MEAS_CHANS - 1) = 1 - m_chan (y_meas y)) by (destruct Hc as [-> | ->]; reflexivity). rewrite Rn in E.
  fv E. rename a2 into cfg2, E0 into Ecfg2. fb E. destruct (pt_tr _ _ _ _ E0) as (l4 & U4 & P4). clear E0.
  unfold pj at 2 in P4. rewrite pfires_off in P4; [|change (is_u16 (y_now z)); rewrite N3; unfold is_u16, u16; lia|change (m_adc (y_meas z) = false); congruence].
  change (y_now (set_y_meas z _)) with (y_now z) in P4. rewrite N3 in P4. fv E. rename a3 into tm, E0 into Et. apply ret_inv in E. destruct E as (-> & ->).
  assert (N4 : y_now a2 = u16 (y_now y + (ticks l1 + ticks l2 + ticks l3 + ticks l4))) by (apply pj_inv in P4; rewrite (proj1 P4); unfold u16; lia).
  assert (M4 : bare (y_meas a2) = bare (set_m_count (set_m_sum (set_m_chan (y_meas z) (1 - m_chan (y_meas y))) 0) 0)) by (apply pj_inv in P4; exact (proj2 P4)).
  apply bare_fields in M4. destruct M4 as (G1 & G2 & G3 & G4 & G5 & G6 & G7). cbn [set_m_count set_m_sum set_m_chan m_chan m_count m_sum m_avail m_adc m_chans m_timer] in G1, G2, G3, G5, G6, G7.
  exists (l1 ++ l2 ++ l3 ++ l4), (ticks l1 + d), (ticks l1 + ticks l2), b. pose proof (ticks_pos l1). pose proof (ticks_pos l2). pose proof (ticks_pos l3). pose proof (ticks_pos l4).
  rewrite !ticks_app.
  split; [eapply uses_app; [exact U1|eapply uses_app; [exact U2|eapply uses_app; [exact U3|exact U4]]]|]. split; [lia|]. split; [lia|].
  change (y_now (set_y_meas a2 _)) with (y_now a2). split; [rewrite N4; f_equal; lia|].
  cbn [set_y_meas y_meas set_m_adc set_m_timer m_chan m_count m_sum m_avail m_adc m_chans m_timer]. split; [exact G1|]. split; [exact G2|]. split; [exact G3|].
  split.
  { assert (mc_avg_ms cfg2 = averaging_ms (1 - m_chan (y_meas y))).
    { unfold chan_config in Ecfg2. destruct Hc as [Hc|Hc]; rewrite Hc in Ecfg2; cbn in Ecfg2; apply Some_inj in Ecfg2; subst cfg2; rewrite Hc; [destruct (c_smd C); reflexivity|reflexivity]. }
    rewrite H3 in Et. rewrite arm_ok in Et by (unfold averaging_ms; destruct (_ =? _); lia). apply Some_inj in Et. subst tm. reflexivity. }
  split; [congruence|]. split; [reflexivity|].
  change barec with (fun c => set_ch_adj c 0). rewrite G7, D7.
  assert (Ezc : map (fun c => set_ch_adj c 0) (m_chans (y_meas z2)) = [barec c0; barec c1]) by (rewrite B7, A7, Hch; reflexivity).
  assert (Eac : map (fun c => set_ch_adj c 0) (m_chans (y_meas a)) = [barec c0; barec c1]) by (rewrite A7, Hch; reflexivity).
  assert (Q1 : u16 (u16 (y_now y + ticks l1) + d) = u16 (y_now y + (ticks l1 + d))) by (unfold u16; lia).
  assert (Q2 : u16 (u16 (y_now y + ticks l1) + ticks l2) = u16 (y_now y + (ticks l1 + ticks l2))) by (unfold u16; lia). rewrite Q1, Q2 in Ech'.
  destruct (m_chans (y_meas a)) as [|k0 [|k1 [|]]]; try discriminate Eac. apply (two_inj (barec k0) (barec k1)) in Eac. destruct Eac as (K0 & K1).
  destruct (m_chans (y_meas z2)) as [|j0 [|j1 [|]]]; try discriminate Ezc. apply (two_inj (barec j0) (barec j1)) in Ezc. destruct Ezc as (J0 & J1).
  destruct Hc as [Hc|Hc]; rewrite Hc in *; cbn in Ech, Ez |- *; apply Some_inj in Ech; apply Some_inj in Ez; subst chans ch; cbn [map].
  - rewrite Ech', recheck_bare. change (set_ch_adj k0 0) with (barec k0). change (set_ch_adj j1 0) with (barec j1). rewrite K0, J1. reflexivity.
  - rewrite Ech', recheck_bare. change (set_ch_adj k1 0) with (barec k1). change (set_ch_adj j0 0) with (barec j0). rewrite K1, J0. reflexivity.
Qed.
End Result.
