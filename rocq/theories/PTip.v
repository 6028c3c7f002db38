(** * Proofs about the tip in the loop *)
From Coq Require Import ZArith List Bool Lia.
From Verif Require Import Base PBase MConf MTimer MPid MCurr MSettings SpecSettings MState MMeas MMenu MMain SpecSys SpecRun SpecUI SpecLive SpecLoop
  MFine SpecFine MHeat SpecHeat SpecTip PLive2 PLive3 PSysSafe PLoop PLoopEx PHeat PHeat2.
Import ListNotations.
Open Scope Z_scope.

Lemma first_code_ok C a c v t : temp_of_code C a c t -> (first_code C a v <= c <-> v < t).
Proof. unfold temp_of_code, first_code. generalize (if c_adj C then a else 0) (if c_smd C then 210 else 209). intros x k H. lia. Qed.
Lemma hot_codes C a c v : temp_of_code C a c v -> (hot_lo C a <= c <= hot_hi C a <-> 480 * 64 < v <= 500 * 64).
Proof.
  intros T. unfold hot_lo, hot_hi. pose proof (first_code_ok C a c (480 * 64) v T). pose proof (first_code_ok C a c (500 * 64) v T). lia.
Qed.

Definition K_any (p q adj : Z) (t : station) : Z :=
  if s_adj (x_cache (y_set (st_y t))) =? adj then Z.min (v_steady (st_w t) - p - 1) (v_calm (st_w t) - q - 1) else -1.
Lemma wall_hot_any S lo hi C : build_conf C -> speed_ok S -> forall t h u l, lwired S lo hi C adj_99 t h u l ->
  (forall c v, lo <= c <= hi -> temp_of_code C (s_adj (x_cache (y_set (st_y t)))) c v -> 480 * 64 < v <= 500 * 64) ->
  reaction S < v_steady (st_w t) -> reaction S < v_calm (st_w t) -> w_pin h = true.
Proof.
  intros HC HS t h u l W Hot V1 V2. set (adj := s_adj (x_cache (y_set (st_y t)))) in *.
  set (L := limits_of S). assert (LP : limits_ok L) by exact (proj1 HS).
  assert (PQ : 0 <= slow_cycle L /\ 0 <= slow_window L) by (destruct LP as (A & B & _); unfold slow_cycle, slow_window; lia).
  set (p := slow_cycle L + slow_window L). assert (Hp : 0 <= p /\ slow_cycle L <= p) by (unfold p; lia).
  assert (Rp : reaction S = p + 261) by reflexivity.
  assert (Lt : lately (126 * K_any p p adj t + u) (fun t => pwm_off (st_y t)) l).
  { apply (since S lo hi C HC HS adj_99 (K_any p p adj) (fun t => pwm_off (st_y t))) with (h := h).
    - intros x (q & y & _ & _ & ->). unfold K_any. rewrite start_watch. cbn [watch_zero v_steady v_calm]. destruct (_ =? _); lia.
    - intros x e y' P. destruct e; try discriminate P. unfold K_any. cbn [advance]. rewrite start_watch. cbn [watch_zero v_steady v_calm]. destruct (_ =? _); lia.
    - intros x e y' P. unfold K_any. rewrite advance_y. pose proof (steady_step lo hi C x e y' P) as A. destruct (calm_step lo hi C x e y' P) as (B & B').
      destruct (s_adj (x_cache (y_set y')) =? adj) eqn:E1; [|left; lia].
      destruct (s_adj (x_cache (y_set (st_y x))) =? adj) eqn:E2; [|left; rewrite B' by lia; lia]. destruct e; cbn [ticks_of] in *; lia.
    - intros x D K. unfold K_any in K. destruct (s_adj (x_cache (y_set (st_y x))) =? adj) eqn:E; [|lia].
      eapply live_over_temp; [exact HC|exact LP|exact (loop_served S lo hi C HC HS x D)|fold L; fold p; lia|fold L; lia|].
      intros c v Hc Tc. apply (Hot c v Hc). replace adj with (s_adj (x_cache (y_set (st_y x)))) by lia. exact Tc.
    - exact W.
    - unfold K_any. fold adj. rewrite Z.eqb_refl. lia. }
  apply (heat_off _ _ _ _ (lfirst_R S lo hi C adj_99) (lnext_R S lo hi C adj_99) (loop_ocr S lo hi C HC HS adj_99) _ _ _ _ W).
  destruct (lwired_ok S lo hi C HC HS adj_99 _ _ _ _ W) as (_ & U).
  revert Lt. apply lately_weaken; [|auto]. unfold K_any, PERIOD. fold adj. rewrite Z.eqb_refl. lia.
Qed.

Lemma ztake_all {A} (l : list A) n : zlen l <= n -> ztake n l = l.
Proof.
  revert n. induction l as [|a l IH]; intros n H; [reflexivity|]. rewrite zlen_cons in H. pose proof (zlen_nonneg _ l). cbn [ztake].
  replace (n <=? 0) with false by lia. rewrite IH by lia. reflexivity.
Qed.
Lemma forall_ztake_le {A} (P : A -> Prop) l : forall m n, m <= n -> Forall P (ztake n l) -> Forall P (ztake m l).
Proof.
  induction l as [|a l IH]; intros m n H F; cbn [ztake] in *; [constructor|].
  destruct (Z.leb_spec m 0); [constructor|]. replace (n <=? 0) with false in F by lia. inversion F; subst. constructor; [assumption|].
  apply (IH (m - 1) (n - 1)); [lia|assumption].
Qed.

(** ** The invariant: for [n] units the tip was hotter than the limit (or n = 0) *)
Section Tip.
Variables (I : iron) (S : speed) (C : conf) (a : Z).
Hypothesis HC : build_conf C.
Hypothesis HS : speed_ok S.
Hypothesis HI : iron_ok I.
Hypothesis HM : tip_max I S + i_err I <= 500 * 1000000.
Let N0 : Z := 126 * (reaction S + 1).
Record tinv (t : station) (u : Z) (l : list (station * bool)) (th n : Z) : Prop := {
  ti_n : 0 <= n <= zlen l;
  ti_th : th <= 480 * 1000000 + i_err I + i_rise I * Z.min n (N0 + i_lag I);
  ti_steady : n <= 126 * v_steady (st_w t) + u;
  ti_calm : n <= 126 * v_calm (st_w t) + u;
  ti_pos : 0 <= v_steady (st_w t) /\ 0 <= v_calm (st_w t);
  ti_pins : Forall (fun s => snd s = true) (ztake (n - N0 + 1) l)
}.
Lemma reaction_pos : 0 <= reaction S.
Proof. destruct HS as ((A & B & _) & _). unfold reaction, slow_cycle, slow_window. lia. Qed.
Lemma min_bound n : 0 <= n -> i_rise I * Z.min n (N0 + i_lag I) <= i_rise I * (N0 + i_lag I).
Proof. intros. destruct HI. apply Z.mul_le_mono_nonneg_l; lia. Qed.

Lemma watch_pos lo hi t : loop S lo hi C adj_99 t -> 0 <= v_steady (st_w t) /\ 0 <= v_calm (st_w t).
Proof.
  induction 1 as [p y P B|t e y' D IH M E O]; [cbn; lia|].
  destruct e; cbn [advance start st_w watch_step watch_state v_steady v_calm watch_tick watch_zero];
    try (split; [lia|destruct (_ && _); lia]); try lia.
  - unfold watch_adc. destruct (m_adc _); cbn [v_steady v_calm]; [split; [destruct (_ && _)|destruct (_ && _)]; lia|split; [lia|destruct (_ && _); lia]].
  - unfold watch_poll. destruct (m_avail _); [destruct (_ =? 1)|]; cbn [v_steady v_calm]; (split; [lia|destruct (_ && _); lia]).
Qed.

Lemma tip_wired t h u l th : tip I S C a t h u l th -> hot_wired S C a t h u l /\ undisturbed a t.
Proof.
  induction 1 as [t h u th W U T|t h u l th e t' R [W U] N NT NP U' Sn|t h u l th th' R [W U] E Wm|t h u l th t' th' R [W U] E N U' Wm].
  - auto.
  - split; [|exact U']. exact (wi_event (lfirst C) (hot_next S C a) (fun t : station => cc_ocr (y_cc (st_y t))) t h u l e t' W N NT NP).
  - split; [|exact U]. exact (wi_unit (lfirst C) (hot_next S C a) (fun t : station => cc_ocr (y_cc (st_y t))) t h u l W E).
  - split; [|exact U']. exact (wi_tick (lfirst C) (hot_next S C a) (fun t : station => cc_ocr (y_cc (st_y t))) t h u l t' W E N).
Qed.
(** The pin is high when the count is high. *)
Lemma tip_pin t h u l n : hot_wired S C a t h u l -> undisturbed a t -> n <= 126 * v_steady (st_w t) + u -> n <= 126 * v_calm (st_w t) + u ->
  N0 <= n -> w_pin h = true.
Proof.
  intros W [_ U] V1 V2 B. destruct (lwired_ok S _ _ C HC HS adj_99 _ _ _ _ W) as (_ & Uu).
  eapply (wall_hot_any S (hot_lo C a) (hot_hi C a) C HC HS _ _ _ _ W).
  - rewrite U. intros c v Hc T. apply (hot_codes C a c v T). exact Hc.
  - unfold N0 in B. lia.
  - unfold N0 in B. lia.
Qed.
(** One unit *)
Lemma tip_warm t u l th th' n t' u' pin h' : tinv t u l th n -> 
  hot_wired S C a t' h' u' ((t, pin) :: l) -> undisturbed a t' -> pin = w_pin h' ->
  126 * v_steady (st_w t) + u + 1 <= 126 * v_steady (st_w t') + u' -> 126 * v_calm (st_w t) + u + 1 <= 126 * v_calm (st_w t') + u' ->
  0 <= v_steady (st_w t') /\ 0 <= v_calm (st_w t') ->
  warms I ((t, pin) :: l) th th' -> tinv t' u' ((t, pin) :: l) th' (n + 1).
Proof.
  intros [A B V1 V2 V3 F] W U P S1 S2 S3 [Wm1 Wm2]. pose proof reaction_pos as RP. destruct HI as (H1 & H2 & H3).
  assert (F' : Forall (fun s : station * bool => snd s = true) (ztake (n + 1 - N0 + 1) ((t, pin) :: l))).
  { cbn [ztake]. destruct (Z.leb_spec (n + 1 - N0 + 1) 0) as [|G]; [constructor|]. constructor.
    - cbn [snd]. rewrite P. apply (tip_pin t' h' u' _ (n + 1) W U); [lia|lia|lia].
    - replace (n + 1 - N0 + 1 - 1) with (n - N0 + 1) by lia. exact F. }
  constructor; try assumption; try lia.
  - rewrite zlen_cons. lia.
  - destruct (Z.le_gt_cases (N0 + i_lag I) n) as [G|G].
    + assert (th' <= th) as Q. { apply Wm2. split; [rewrite zlen_cons; lia|]. eapply forall_ztake_le; [|exact F']. lia. }
      replace (Z.min (n + 1) (N0 + i_lag I)) with (N0 + i_lag I) by lia. replace (Z.min n (N0 + i_lag I)) with (N0 + i_lag I) in B by lia. lia.
    + replace (Z.min (n + 1) (N0 + i_lag I)) with (n + 1) by lia. replace (Z.min n (N0 + i_lag I)) with n in B by lia.
      rewrite Z.mul_add_distr_l. lia.
Qed.

Lemma tip_inv t h u l th : tip I S C a t h u l th -> exists n, tinv t u l th n.
Proof.
  intros R. pose proof reaction_pos as RP. assert (N0p : 0 < N0) by (unfold N0; lia). destruct HI as (H1 & H2 & H3).
  induction R as [t h u th W U T|t h u l th e t' R IH N NT NP U' Sn|t h u l th th' R IH E Wm|t h u l th t' th' R IH E N U' Wm].
  - destruct (lwired_ok S _ _ C HC HS adj_99 _ _ _ _ W) as (D & Uu). pose proof (watch_pos _ _ _ D) as V.
    exists 0. constructor; try lia.
    + rewrite zlen_nil. lia.
    + constructor.
  - destruct IH as (n & [A B V1 V2 V3 F]). destruct (tip_wired _ _ _ _ _ R) as [W U].
    destruct (lwired_ok S _ _ C HC HS adj_99 _ _ _ _ W) as (D & Uu).
    destruct N as (M & y' & Es & O & ->).
    assert (D' : loop S (hot_lo C a) (hot_hi C a) C adj_99 (advance (hot_lo C a) (hot_hi C a) C t e y')) by (apply loop_step; assumption).
    pose proof (watch_pos _ _ _ D') as V'.
    assert (Cm : v_calm (st_w (advance (hot_lo C a) (hot_hi C a) C t e y')) = v_calm (st_w t)).
    { destruct U as [U1 U2]. destruct U' as [U3 U4]. rewrite advance_y in U3, U4.
      destruct e; try discriminate NP; try congruence; cbn [advance st_w watch_step watch_state v_calm]; rewrite U1, U2, U3, U4, Z.eqb_refl; cbn [andb]; try reflexivity.
      - unfold watch_adc. destruct (m_adc _); reflexivity.
      - unfold watch_poll. destruct (m_avail _); [destruct (_ =? 1)|]; reflexivity. }
    destruct (Z.le_gt_cases th (480 * 1000000 + i_err I)) as [G|G].
    + exists 0. constructor; try lia.
      * rewrite ztake_le by lia. constructor.
    + assert (St : v_steady (st_w (advance (hot_lo C a) (hot_hi C a) C t e y')) = v_steady (st_w t)).
      { destruct e; try discriminate NP; try congruence; cbn [advance st_w watch_step watch_state v_steady]; try reflexivity.
        - unfold watch_adc. destruct (m_adc (y_meas (st_y t))) eqn:Ad; cbn [v_steady]; [|reflexivity].
          destruct (Z.eqb_spec (m_chan (y_meas (st_y t))) 1) as [Ch|]; [|reflexivity]. cbn [andb].
          cbn [sensed] in Sn. specialize (Sn Ad Ch). destruct (code_temp C a raw) as (v & Tv). specialize (Sn v Tv).
          assert (480 * 64 < v <= 500 * 64) as Hv.
          { unfold MICRO in Sn. pose proof (min_bound n ltac:(lia)) as Mb. unfold tip_max in HM. fold N0 in HM. lia. }
          apply (hot_codes C a raw v Tv) in Hv.
          replace ((hot_lo C a <=? raw) && (raw <=? hot_hi C a)) with true by lia. reflexivity.
        - unfold watch_poll. destruct (m_avail _); [destruct (_ =? 1)|]; reflexivity. }
      exists n. constructor; try assumption; try lia.
  - destruct IH as (n & Iv). destruct (tip_wired _ _ _ _ _ R) as [W U]. exists (n + 1).
    eapply tip_warm; [exact Iv|exact (wi_unit (lfirst C) (hot_next S C a) (fun t : station => cc_ocr (y_cc (st_y t))) t h u l W E)|exact U|reflexivity|lia|lia|exact (ti_pos _ _ _ _ _ Iv)|exact Wm].
  - destruct IH as (n & Iv). destruct (tip_wired _ _ _ _ _ R) as [W U]. exists (n + 1).
    destruct (lwired_ok S _ _ C HC HS adj_99 _ _ _ _ W) as (D & Uu).
    pose proof (wi_tick (lfirst C) (hot_next S C a) (fun t : station => cc_ocr (y_cc (st_y t))) t h u l t' W E N) as W'. pose proof U' as U''. unfold UNITS_PER_TICK in E.
    assert (Vt : v_steady (st_w t') = v_steady (st_w t) + 1 /\ v_calm (st_w t') = v_calm (st_w t) + 1).
    { destruct N as (M & y' & Es & O & ->). destruct U as [U1 U2]. destruct U' as [U3 U4]. rewrite advance_y in U3, U4.
      cbn [advance st_w watch_step watch_state v_steady v_calm watch_tick]. rewrite U1, U2, U3, U4, Z.eqb_refl. split; reflexivity. }
    destruct Vt as [Vs Vc]. pose proof (ti_pos _ _ _ _ _ Iv) as Po.
    eapply tip_warm; [exact Iv|exact W'|exact U''|reflexivity|lia|lia|lia|exact Wm].
Qed.
Lemma tip_bound t h u l th : tip I S C a t h u l th -> th <= tip_max I S.
Proof.
  intros R. destruct (tip_inv _ _ _ _ _ R) as (n & [A B _ _ _ _]). pose proof (min_bound n ltac:(lia)). unfold tip_max. fold N0. lia.
Qed.
End Tip.
