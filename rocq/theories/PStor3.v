(** * The storage of the settings inside the whole firmware *)
From Coq Require Import ZArith List Bool Lia ZifyBool.
From Verif Require Import Base PBase MConf MFixpt MRing MTimer MPid MCurr MSettings SpecSettings MSseg MDisplay MState MTemp MMeas
  MMenu MMain SpecSys MFine SpecFine SpecStor PSettings PStor PStor2.
Import ListNotations.
Open Scope Z_scope.

Section S.
Variable C : conf.
Notation same := (PStor2.same).

(** ** Boot *)
Lemma do_enabled_same y b y' : do_set_enabled C y b = Some y' -> same y y'.
Proof.
  unfold do_set_enabled. cbv zeta. intros H. destruct (contrtemp_set_boost_mode C _ 0) as [y1|] eqn:E; cbn [bind] in H; [|discriminate H]. injection H as <-.
  destruct (boost_same C _ _ _ E) as (A & B). split; [exact A|exact B].
Qed.
Lemma enabled_same y b y' : contrtemp_set_enabled C y b = Some y' -> same y y'.
Proof. unfold contrtemp_set_enabled. destruct (negb _); [apply do_enabled_same|]. intros [= <-]. split; reflexivity. Qed.
Lemma state_same y s y' : menu_set_state C y s = Some y' -> same y y'.
Proof.
  unfold menu_set_state. destruct (mstate_eqb _ _); [intros [= <-]; split; reflexivity|]. cbv zeta. set (y0 := set_y_menu y _).
  assert (S0 : same y y0) by (split; reflexivity). clearbody y0. intros H. destruct (match s with MENU_CURTEMP => _ | _ => _ end) as [y1|] eqn:E; cbn [bind] in H; [|discriminate H].
  injection H as <-. apply (same_trans _ y0 _ S0). assert (X : same y0 y1); [|destruct X as (A & B); split; [exact A|exact B]].
  destruct s; cbv iota in E;
    repeat match type of E with
    | (if ?b then _ else _) = Some _ => destruct b
    | bind ?m _ = Some _ => let F := fresh "F" in destruct m eqn:F; cbn [bind] in E; [|discriminate E]; apply arm_same in F
    end;
    first [ injection E as <-; split; reflexivity | exact (enabled_same _ _ _ E) | exact (arm_same _ _ _ E)
          | match goal with F : same _ ?z |- _ => exact (same_trans _ z _ F (enabled_same _ _ _ E)) end ].
Qed.
Lemma dbg_same y b y' : debug_enable C y b = Some y' -> same y y'.
Proof.
  unfold debug_enable. destruct (c_debug C); [|intros [= <-]; split; reflexivity]. intros H.
  destruct (display_enable _ _ _ _) as [[h d]|]; cbn [bind] in H; [|discriminate H]. injection H as <-. split; reflexivity.
Qed.
Lemma boot_stored ee pinb y : boot C ee pinb = Some y -> exists x, settings_init C ee = Some x /\ y_set y = x /\ y_now y = 0.
Proof.
  unfold boot. cbv zeta. intros H. destruct (if c_debug C then _ else _) as [y1|] eqn:E1; cbn [bind] in H; [|discriminate H].
  assert (N1 : y_now y1 = 0). { destruct (c_debug C); [|injection E1 as <-; reflexivity]. unfold debug_uart_init in E1. apply dbg_same in E1. destruct E1 as (_ & B). rewrite B. reflexivity. }
  destruct (settings_init C ee) as [x|]; cbn [bind] in H; [|discriminate H]. exists x. split; [reflexivity|].
  destruct (display_init _ _ _) as [[h d]|]; cbn [bind] in H; [|discriminate H].
  destruct (meastemp_init C _) as [y2|] eqn:E2; cbn [bind] in H; [|discriminate H].
  assert (S2 : y_set y2 = x /\ y_now y2 = 0).
  { unfold meastemp_init in E2. destruct (c_adj C).
    - destruct (adjust_same C _ _ _ _ E2) as (A & B). rewrite A, B. split; [reflexivity|exact N1].
    - injection E2 as <-. split; [reflexivity|exact N1]. }
  destruct (contrcurr_init _ _) as [c|]; cbn [bind] in H; [|discriminate H].
  destruct (contrtemp_init C _) as [y3|] eqn:E3; cbn [bind] in H; [|discriminate H].
  assert (S3 : y_set y3 = x /\ y_now y3 = 0).
  { unfold contrtemp_init in E3. destruct (zget _ 0) as [k|]; cbn [bind] in E3; [|discriminate E3]. cbv zeta in E3.
    destruct (presets_get_active_value _) as [v|]; cbn [bind] in E3; [|discriminate E3].
    destruct (do_set_enabled C _ true) as [y4|] eqn:E4; cbn [bind] in E3; [|discriminate E3]. injection E3 as <-. apply do_enabled_same in E4. destruct E4 as (A & B).
    unfold do_set_emerg. cbn. split; [etransitivity; [exact A|exact (proj1 S2)]|etransitivity; [exact B|exact (proj2 S2)]]. }
  destruct (menu_init C _ pinb) as [y5|] eqn:E5; cbn [bind] in H; [|discriminate H].
  assert (S5 : same y3 y5).
  { unfold menu_init in E5. assert (Z : forall z, same y3 z -> forall s, menu_set_state C z s = Some y5 -> same y3 y5).
    { intros z Sz s Es. exact (same_trans _ z _ Sz (state_same _ _ _ Es)). }
    assert (S0 : same y3 (sys_pwmcurr_init y3)) by (split; reflexivity).
    destruct (c_debug C); [|exact (Z _ S0 _ E5)]. destruct (button_is_pressed pinb BUTTON_SET); [|exact (Z _ S0 _ E5)].
    destruct (debug_enable C _ true) as [y6|] eqn:E6; cbn [bind] in E5; [|discriminate E5]. eapply (Z y6); [|exact E5]. exact (same_trans _ _ _ S0 (dbg_same _ _ _ E6)). }
  unfold measure_start, adc_trigger_next_chan in H. cbv zeta in H. destruct (chan_config C _) as [cf|]; cbn [bind] in H; [|discriminate H].
  destruct (timer_arm _ _) as [t|]; cbn [bind] in H; [|discriminate H]. injection H as <-. destruct S5 as (A & B), S3 as (D & F). cbn. split; congruence.
Qed.

(** ** One event *)
Lemma fpr_run (m : F sys) Q o y' : fpr m Q -> ('(y, _) <- m o ;; Some y) = Some y' -> Q y'.
Proof. intros H E. destruct (m o) as [[y o']|] eqn:Em; cbn [bind] in E; [|discriminate E]. injection E as <-. exact (H o y o' Em). Qed.
Lemma stor_event y w y' : settings_wf (x_cache (y_set y)) -> stored_as w y -> stor C y y' ->
  exists ops w', srun C w ops w' /\ Forall inner ops /\ stored_as w' y'.
Proof. intros W H S. exact (proj2 (S W) w H). Qed.
Lemma event_stored y e y' w : settings_wf (x_cache (y_set y)) -> fnext C y e y' -> stored_as w y ->
  exists ops w', srun C w ops w' /\ ops_of e ops /\ stored_as w' y'.
Proof.
  intros W (O & o & E) H. unfold fstep in E.
  assert (Irq : forall i, e = irq_event i -> step C y e = Some y' -> exists ops w', srun C w ops w' /\ Forall inner ops /\ stored_as w' y').
  { intros i Ei Es. apply (stor_event y w y' W H). apply (fires_stor C y [i]). cbn [fires]. unfold fire. rewrite <- Ei. rewrite Es.
    destruct (ev_okb C y e) eqn:Eo; [reflexivity|]. exfalso. subst e. destruct i as [|raw| |]; cbn in Eo, O; try discriminate Eo.
    destruct O as (O1 & O2). rewrite (proj2 (Z.ltb_lt _ _) O2) in Eo. lia. }
  assert (L : forall m, ('(y, _) <- lift m o ;; Some y) = Some y' -> m = Some y').
  { intros m Em. unfold lift in Em. destruct m; cbn [bind] in Em; [exact Em|discriminate Em]. }
  destruct e as [|raw| | | | | |pinb| |v pinb]; cbn [ops_of].
  - exact (Irq ITick eq_refl (L _ E)).
  - exact (Irq (IAdc raw) eq_refl (L _ E)).
  - exact (Irq IReady eq_refl (L _ E)).
  - exact (Irq IDone eq_refl (L _ E)).
  - exact (stor_event y w y' W H (fpr_run _ _ _ _ (measure_stor C y) E)).
  - exact (stor_event y w y' W H (fpr_run _ _ _ _ (menu_stor C y) E)).
  - apply L in E. cbn [step] in E. unfold sys_display_work in E. destruct (display_work _ _ _) as [[h d]|]; cbn [bind] in E; [|discriminate E]. injection E as <-.
    exists [], w. split; [constructor|]. split; [constructor|]. exact H.
  - exact (stor_event y w y' W H (fpr_run _ _ _ _ (buttons_stor C y pinb) E)).
  - apply L in E. cbn [step] in E. injection E as <-. destruct H as (Hx & Hn). exists [SWork], (observe w (settings_work C (w_now w) (w_x w))). split; [|split; [reflexivity|]].
    + econstructor; [|reflexivity|constructor]. cbn [op_basic]. rewrite Hx, Hn. exact O.
    + split; [rewrite obs_x, Hx, Hn; reflexivity|rewrite obs_now; exact Hn].
  - apply L in E. cbn [step] in E. destruct (boot_stored _ _ _ E) as (x & Ex & A & B). destruct H as (Hx & Hn).
    exists [SPower v], (mkW 0 x (x_cache x) None). split; [|split; [reflexivity|split; [symmetry; exact A|symmetry; exact B]]].
    econstructor; [exact (proj1 O)| |constructor]. cbn [sstep]. rewrite Hx, Ex. reflexivity.
Qed.
Lemma srun_sreach w ops w' : sreach C false w -> srun C w ops w' -> sreach C false w'.
Proof. intros R H. induction H as [|w op w1 ops w2 Hb Hs _ IH]; [exact R|]. apply IH. eapply sreach_step; [exact R|exact Hb|discriminate|exact Hs]. Qed.

Hypothesis HC : ring_conf C.
Lemma reach_stored y : freach C y -> exists w, sreach C false w /\ stored_as w y.
Proof.
  induction 1 as [pinb y Hp Hb|y e y' R IH N].
  - destruct (boot_stored _ _ _ Hb) as (x & Ex & A & B). exists (mkW 0 x (x_cache x) None). split; [|split; [symmetry; exact A|symmetry; exact B]].
    apply sreach_boot. unfold sboot. rewrite Ex. reflexivity.
  - destruct IH as (w & Rw & H). destruct (sreach_inv C HC _ _ Rw) as (_ & Wf & _). rewrite (proj1 H) in Wf.
    destruct (event_stored y e y' w Wf N H) as (ops & w' & A & _ & B). exists w'. split; [exact (srun_sreach _ _ _ Rw A)|exact B].
Qed.
Lemma reach_event y e y' w : freach C y -> sreach C false w -> stored_as w y -> fnext C y e y' ->
  exists ops w', srun C w ops w' /\ ops_of e ops /\ stored_as w' y' /\ sreach C false w'.
Proof.
  intros R Rw H N. destruct (sreach_inv C HC _ _ Rw) as (_ & Wf & _). rewrite (proj1 H) in Wf.
  destruct (event_stored y e y' w Wf N H) as (ops & w' & A & B & D). exists ops, w'. split; [exact A|]. split; [exact B|]. split; [exact D|exact (srun_sreach _ _ _ Rw A)].
Qed.

(** ** Consequences *)
Lemma stor_survive y v pinb y' : freach C y -> quiet (y_set y) = true -> x_request (y_set y) = false -> fnext C y (EPower v pinb) y' ->
  x_cache (y_set y') = x_cache (y_set y) /\ x_index (y_set y') = x_index (y_set y).
Proof.
  intros R Q Rq (O & o & E). destruct (reach_stored y R) as (w & Rw & Hx & Hn). rewrite <- Hx in Q, Rq |- *.
  destruct (durable C HC false w Rw Q Rq) as (x' & A & B & D). unfold fstep, lift in E. cbn [step] in E.
  destruct (boot C (ee_after_crash (y_set y) v) pinb) as [y1|] eqn:E1; cbn [bind] in E; [|discriminate E]. injection E as <-.
  destruct (boot_stored _ _ _ E1) as (x & Ex & F & _). rewrite <- Hx in Ex. apply quiet_iff in Q. unfold ee_after_crash in Ex. rewrite (proj2 Q) in Ex.
  rewrite A in Ex. injection Ex as <-. rewrite F. split; assumption.
Qed.
Lemma inner_request w ops w' : srun C w ops w' -> Forall inner ops ->
  (x_request (w_x w) = true -> x_request (w_x w') = true) /\ (x_request (w_x w') = true \/ x_cache (w_x w') = x_cache (w_x w)) /\ x_index (w_x w') = x_index (w_x w).
Proof.
  induction 1 as [w|w op w1 ops w2 Hb Hs _ IH]; intros F; [split; [auto|split; [right; reflexivity|reflexivity]]|].
  inversion F as [|? ? F1 F2]; subst. destruct (IH F2) as (I1 & I2 & I3).
  assert (X : (x_request (w_x w) = true -> x_request (w_x w1) = true) /\ (x_request (w_x w1) = true \/ x_cache (w_x w1) = x_cache (w_x w)) /\ x_index (w_x w1) = x_index (w_x w)).
  { destruct op as [|f| | | |v]; cbn [sstep inner] in *; try contradiction.
    - injection Hs as <-. auto.
    - unfold store_settings in Hs. destruct (timer_arm _ _) as [t|]; cbn [bind] in Hs; [|discriminate Hs]. injection Hs as <-. rewrite obs_x. cbn. auto.
    - destruct (x_eerie (w_x w)); [|injection Hs as <-; auto]. destruct (x_busy (w_x w)); [injection Hs as <-; auto|].
      destruct (ee_ready_isr C (w_x w)) as [x1|] eqn:E1; cbn [bind] in Hs; [|discriminate Hs]. injection Hs as <-. rewrite obs_x.
      assert (Y : x_request x1 = x_request (w_x w) /\ x_cache x1 = x_cache (w_x w) /\ x_index x1 = x_index (w_x w)).
      { unfold ee_ready_isr in E1. destruct (_ && _); [|discriminate E1]. destruct (zget _ _) as [d|]; cbn [bind] in E1; [|discriminate E1].
        injection E1 as <-. destruct (_ <=? _), (_ =? _); repeat split; reflexivity. }
      destruct Y as (Y1 & Y2 & Y3). rewrite Y1. auto.
    - injection Hs as <-. rewrite obs_x. unfold ee_prog_done. destruct (x_busy (w_x w)) as [[a v]|]; cbn; auto. }
  destruct X as (X1 & X2 & X3). split; [auto|]. split; [|congruence]. destruct I2 as [I2|I2]; [auto|]. destruct X2 as [X2|X2]; [auto|right; congruence].
Qed.
Lemma stor_requested y e y' : freach C y -> fnext C y e y' -> is_power e = false ->
  (x_request (y_set y') = true \/ same_content (x_cache (y_set y')) (x_cache (y_set y))) /\
  (e <> ESettings -> (x_request (y_set y) = true -> x_request (y_set y') = true) /\ x_index (y_set y') = x_index (y_set y)).
Proof.
  intros R N P. destruct (reach_stored y R) as (w & Rw & H). destruct (reach_event y e y' w R Rw H N) as (ops & w' & A & B & D & _).
  destruct (match e with ESettings => true | _ => false end) eqn:Es.
  - destruct e; try discriminate Es. split; [right|congruence]. cbn [ops_of] in B. subst ops. inversion A as [|? ? w1 ? ? _ S1 R1]; subst. inversion R1; subst.
    cbn [sstep] in S1. injection S1 as <-. destruct D as (D & _). rewrite obs_x in D. rewrite <- D, <- (proj1 H). unfold settings_work.
    destruct (negb _); [repeat split|]. destruct (negb _); [repeat split|]. destruct (c_eering C); repeat split.
  - assert (F : Forall inner ops) by (destruct e; try discriminate Es; try discriminate P; exact B).
    destruct (inner_request _ _ _ A F) as (I1 & I2 & I3). rewrite (proj1 H), (proj1 D) in I1, I2, I3. split; [|intros _; auto].
    destruct I2 as [I2|I2]; [left; exact I2|right; rewrite I2; repeat split].
Qed.
Lemma stor_ready y y' : freach C y -> step C y EReady = Some y' ->
  x_ee (y_set y') = x_ee (y_set y) /\
  (y_set y' = y_set y \/ x_busy (y_set y') = None \/
   exists k, 0 <= k < 64 /\
     x_busy (y_set y') = Some (64 * x_index (y_set y) + k, nth (Z.to_nat k) (settings_bytes (x_cache (y_set y))) 0) /\
     nth (Z.to_nat k) (settings_bytes (x_cache (y_set y))) 0 <> x_ee (y_set y) (64 * x_index (y_set y) + k)).
Proof.
  intros R E. destruct (reach_stored y R) as (w & Rw & Hx & Hn).
  assert (X : exists w', sstep C w SReady = Some w' /\ w_x w' = y_set y').
  { cbn [sstep step] in *. rewrite Hx. destruct (x_eerie (y_set y)); [|injection E as <-; eauto]. destruct (x_busy (y_set y)); [injection E as <-; eauto|].
    destruct (ee_ready_isr C (y_set y)) as [x1|]; cbn [bind] in *; [|discriminate E]. injection E as <-. eexists. split; [reflexivity|]. apply obs_x. }
  destruct X as (w' & S & Hx'). rewrite <- Hx, <- Hx'. exact (isr_discipline C HC false w w' Rw S).
Qed.
Lemma inner_cells w ops w' a : sreach C false w -> srun C w ops w' -> Forall no_power ops -> Forall (fun op => op <> SWork) ops ->
  x_ee (w_x w') a <> x_ee (w_x w) a -> 64 * x_index (w_x w) <= a < 64 * x_index (w_x w) + 64.
Proof.
  intros Rw H. induction H as [w|w op w1 ops w2 Hb Hs Hr IH]; intros P1 P2 Ne; [congruence|].
  inversion P1 as [|? ? P3 P4]; inversion P2 as [|? ? P5 P6]; subst.
  assert (R1 : sreach C false w1) by (eapply sreach_step; [exact Rw|exact Hb|discriminate|exact Hs]).
  destruct (Z.eq_dec (x_ee (w_x w1) a) (x_ee (w_x w) a)) as [Q|Q].
  - rewrite <- Q in Ne. specialize (IH R1 P4 P6 Ne).
    assert (I : inner op) by (destruct op; cbn in *; auto; congruence).
    destruct (inner_request w [op] w1) as (_ & _ & I3); [econstructor; [exact Hb|exact Hs|constructor]|repeat constructor; exact I|]. rewrite I3 in IH. exact IH.
  - exact (proj1 (cells_discipline C HC false w op w1 a Rw Hb Hs Q)).
Qed.
Lemma stor_cells y e y' a : freach C y -> fnext C y e y' -> is_power e = false -> x_ee (y_set y') a <> x_ee (y_set y) a ->
  e <> ESettings /\ 64 * x_index (y_set y) <= a < 64 * x_index (y_set y) + 64.
Proof.
  intros R N P Ne. destruct (reach_stored y R) as (w & Rw & H). destruct (reach_event y e y' w R Rw H N) as (ops & w' & A & B & D & _).
  assert (E : e <> ESettings).
  { intros ->. cbn [ops_of] in B. subst ops. inversion A as [|? ? w1 ? ? _ S1 R1]; subst. inversion R1; subst. cbn [sstep] in S1. injection S1 as <-.
    destruct D as (D & _). rewrite obs_x in D. rewrite <- D, <- (proj1 H) in Ne. unfold settings_work in Ne. destruct (negb _); [congruence|]. destruct (negb _); [congruence|]. destruct (c_eering C); apply Ne; reflexivity. }
  split; [exact E|]. rewrite <- (proj1 H) in Ne |- *. rewrite <- (proj1 D) in Ne.
  assert (F : Forall inner ops) by (destruct e; try discriminate P; try congruence; exact B).
  apply (inner_cells w ops w' a Rw A); [| |exact Ne]; eapply Forall_impl; try exact F; intros op I; destruct op; cbn in *; try contradiction; auto; discriminate.
Qed.

(** ** A store completes *)
Definition op_of (e : event) : sop := match e with EReady => SReady | EDone => SDone | _ => STick end.
Lemma ee_mirror l : Forall (fun e => e = EReady \/ e = EDone) l -> forall y w w', freach C y -> stored_as w y -> sexec C w (map op_of l) = Some w' ->
  exists y', run C y l = Some y' /\ stored_as w' y' /\ freach C y'.
Proof.
  induction 1 as [|e l He _ IH]; intros y w w' R H E; cbn [map sexec run] in *; [injection E as <-; eauto|].
  destruct (sstep C w (op_of e)) as [w1|] eqn:E1; cbn [bind] in E; [|discriminate E].
  assert (X : exists y1, step C y e = Some y1 /\ stored_as w1 y1).
  { destruct H as (Hx & Hn). destruct He as [-> | ->]; cbn [op_of sstep step] in *; rewrite Hx in E1.
    - destruct (x_eerie (y_set y)); [|injection E1 as <-; eexists; split; [reflexivity|split; assumption]].
      destruct (x_busy (y_set y)); [injection E1 as <-; eexists; split; [reflexivity|split; assumption]|].
      destruct (ee_ready_isr C (y_set y)) as [x1|]; cbn [bind] in *; [|discriminate E1]. injection E1 as <-. eexists. split; [reflexivity|]. split; [apply obs_x|rewrite obs_now; exact Hn].
    - injection E1 as <-. eexists. split; [reflexivity|]. split; [apply obs_x|rewrite obs_now; exact Hn]. }
  destruct X as (y1 & Ey & H1). rewrite Ey. cbn [bind]. apply (IH y1 w1 w'); [|exact H1|exact E].
  apply (freach_step C y e y1 R). split; [destruct He as [-> | ->]; exact I|]. exists []. unfold fstep, lift. destruct He as [-> | ->]; rewrite Ey; reflexivity.
Qed.
Lemma rounds_ops n : map op_of (rounds n) = drounds n.
Proof. induction n as [|n IHn]; [reflexivity|]. change (rounds (S n)) with (EDone :: EReady :: rounds n). change (drounds (S n)) with (SDone :: SReady :: drounds n). cbn [map op_of]. rewrite IHn. reflexivity. Qed.
Lemma rounds_ee n : Forall (fun e => e = EReady \/ e = EDone) (rounds n).
Proof. induction n as [|n IHn]; [constructor; [right; reflexivity|constructor]|]. change (rounds (S n)) with (EDone :: EReady :: rounds n). constructor; [auto|]. constructor; auto. Qed.
Lemma stor_completes y : freach C y -> exists y', run C y (rounds 64) = Some y' /\ freach C y' /\ quiet (y_set y') = true /\
  x_cache (y_set y') = x_cache (y_set y) /\ x_request (y_set y') = x_request (y_set y).
Proof.
  intros R. destruct (reach_stored y R) as (w & Rw & H). destruct (reach_completes C false w HC Rw) as (w' & E & Q & A & B).
  rewrite <- rounds_ops in E. destruct (ee_mirror _ (rounds_ee 64) y w w' R H E) as (y' & Ey & H' & R').
  exists y'. split; [exact Ey|]. split; [exact R'|]. rewrite <- (proj1 H), <- (proj1 H'). auto.
Qed.
Lemma run_app l : forall y l', run C y (l ++ l') = (z <- run C y l ;; run C z l').
Proof. induction l as [|e l IH]; intros y l'; cbn [app run bind]; [reflexivity|]. destruct (step C y e) as [y1|]; cbn [bind]; [apply IH|reflexivity]. Qed.
Lemma stor_saved y : freach C y -> (x_request (y_set y) = true -> timer_expired (y_now y) (x_timer (y_set y)) = true) ->
  exists z y1, run C y (rounds 64) = Some z /\ run C z (ESettings :: rounds 64) = Some y1 /\ freach C y1 /\
    forall v pinb y2, fnext C y1 (EPower v pinb) y2 -> same_content (x_cache (y_set y2)) (x_cache (y_set y)).
Proof.
  intros R Due. destruct (stor_completes y R) as (z & Ez & Rz & Qz & Cz & Rqz). set (z1 := sys_settings_work C z).
  assert (N : fnext C z ESettings z1) by (split; [intros _ _; exact Qz|exists []; reflexivity]).
  assert (R1 : freach C z1) by (eapply freach_step; eassumption). destruct (stor_completes z1 R1) as (y1 & E1 & Ry1 & Q1 & C1 & Rq1).
  exists z, y1. split; [exact Ez|]. split; [exact E1|]. split; [exact Ry1|]. intros v pinb y2 N2.
  assert (Tm : x_timer (y_set z) = x_timer (y_set y) /\ y_now z = y_now y).
  { clear - Ez. assert (G : forall l, Forall (fun e => e = EReady \/ e = EDone) l -> forall y z, run C y l = Some z -> x_timer (y_set z) = x_timer (y_set y) /\ y_now z = y_now y).
    { induction 1 as [|e l He _ IH]; intros a b E; cbn [run] in E; [injection E as <-; auto|]. destruct (step C a e) as [a1|] eqn:Ea; cbn [bind] in E; [|discriminate E].
      destruct (IH _ _ E) as (A & B). rewrite A, B. destruct He as [-> | ->]; cbn [step] in Ea.
      - destruct (x_eerie _); [|injection Ea as <-; auto]. destruct (x_busy _); [injection Ea as <-; auto|]. destruct (ee_ready_isr C (y_set a)) as [x1|] eqn:Ei; cbn [bind] in Ea; [|discriminate Ea].
        injection Ea as <-. split; [exact (proj2 (isr_cache C _ _ Ei))|reflexivity].
      - injection Ea as <-. split; [|reflexivity]. cbn [set_y_set y_set]. unfold ee_prog_done. destruct (x_busy (y_set a)) as [[p q]|]; reflexivity. }
    exact (G _ (rounds_ee 64) y z Ez). }
  assert (Rq : x_request (y_set y1) = false).
  { rewrite Rq1. unfold z1, sys_settings_work. cbn [set_y_set y_set]. unfold settings_work. destruct (x_request (y_set z)) eqn:Eq; cbn [negb]; [|exact Eq].
    symmetry in Rqz. rewrite (proj1 Tm), (proj2 Tm), (Due Rqz). cbn [negb]. destruct (c_eering C); reflexivity. }
  destruct (stor_survive y1 v pinb y2 Ry1 Q1 Rq N2) as (F & _). rewrite F, C1, <- Cz. unfold z1, sys_settings_work. cbn [set_y_set y_set]. unfold settings_work.
  destruct (negb _); [repeat split|]. destruct (negb _); [repeat split|]. destruct (c_eering C); repeat split.
Qed.
End S.
