(** * The firmware drives the storage of the settings as C49-C53 assume, with interrupts inside the work functions *)
From Coq Require Import ZArith List Bool Lia.
From Verif Require Import Base PBase MConf MFixpt MRing MTimer MPid MCurr MSettings SpecSettings MSseg MDisplay MState MTemp MMeas
  MMenu MMain SpecSys MFine SpecFine SpecStor PSettings.
Import ListNotations.
Open Scope Z_scope.

(** ** Partial correctness of computations with interrupts *)
Definition fpr {A} (m : F A) (Q : A -> Prop) : Prop := forall o a o', m o = Some (a, o') -> Q a.
Lemma fpr_ret {A} (a : A) (Q : A -> Prop) : Q a -> fpr (ret a) Q.
Proof. intros H o b o' E. unfold ret in E. injection E as <- <-. exact H. Qed.
Lemma fpr_lift {A} (m : option A) (Q : A -> Prop) : (forall a, m = Some a -> Q a) -> fpr (lift m) Q.
Proof. intros H o a o' E. unfold lift in E. destruct m as [b|]; cbn [bind] in E; [|discriminate]. injection E as <- <-. apply H. reflexivity. Qed.
Lemma fpr_bind {A B} (m : F A) (f : A -> F B) (Q : B -> Prop) : fpr m (fun a => fpr (f a) Q) -> fpr (fbind m f) Q.
Proof. intros H o b o' E. unfold fbind in E. destruct (m o) as [[a o1]|] eqn:Em; [|discriminate]. exact (H o a o1 Em o1 b o' E). Qed.
Lemma fpr_mono {A} (m : F A) (P Q : A -> Prop) : fpr m P -> (forall a, P a -> Q a) -> fpr m Q.
Proof. intros H I o a o' E. exact (I a (H o a o' E)). Qed.

Section S.
Variable C : conf.

Definition stor (y y' : sys) : Prop :=
  settings_wf (x_cache (y_set y)) -> settings_wf (x_cache (y_set y')) /\
  forall w, stored_as w y -> exists ops w', srun C w ops w' /\ Forall inner ops /\ stored_as w' y'.

Lemma srun_app w ops w1 ops' w2 : srun C w ops w1 -> srun C w1 ops' w2 -> srun C w (ops ++ ops') w2.
Proof. induction 1; cbn; [auto|]. intros H2. econstructor; eauto. Qed.
Lemma stor_same y y' : y_set y' = y_set y -> y_now y' = y_now y -> stor y y'.
Proof.
  intros A B W. rewrite A. split; [exact W|]. intros w (D & E). exists [], w. split; [constructor|]. split; [constructor|].
  split; congruence.
Qed.
Lemma stor_trans a b c : stor a b -> stor b c -> stor a c.
Proof.
  intros H1 H2 W. destruct (H1 W) as (W1 & R1). destruct (H2 W1) as (W2 & R2). split; [exact W2|].
  intros w Hw. destruct (R1 w Hw) as (o1 & w1 & A1 & A2 & A3). destruct (R2 w1 A3) as (o2 & w2 & B1 & B2 & B3).
  exists (o1 ++ o2), w2. split; [exact (srun_app _ _ _ _ _ A1 B1)|]. split; [|exact B3]. apply Forall_app. auto.
Qed.
Lemma stor_upd a b c : stor a b -> y_set c = y_set b -> y_now c = y_now b -> stor a c.
Proof. intros H A B. exact (stor_trans a b c H (stor_same b c A B)). Qed.

(** ** Interrupts: they do not read the store timer *)
Definition tied (t : Z) (w : world) (y : sys) : Prop := w_x w = set_x_timer (y_set y) t /\ w_now w = y_now y.
Lemma obs_x w x : w_x (observe w x) = x.
Proof. unfold observe. destruct (w_inflight w); [destruct (quiet x)|destruct (x_eerie x)]; reflexivity. Qed.
Lemma obs_now w x : w_now (observe w x) = w_now w.
Proof. unfold observe. destruct (w_inflight w); [destruct (quiet x)|destruct (x_eerie x)]; reflexivity. Qed.
Lemma isr_cache x x' : ee_ready_isr C x = Some x' -> x_cache x' = x_cache x /\ x_timer x' = x_timer x.
Proof.
  unfold ee_ready_isr. destruct (_ && _); [|discriminate]. destruct (zget _ _) as [d|]; cbn [bind]; [|discriminate].
  intros [= <-]. destruct (_ <=? _), (_ =? _); split; reflexivity.
Qed.
Lemma isr_timer x t : ee_ready_isr C (set_x_timer x t) = match ee_ready_isr C x with Some x' => Some (set_x_timer x' t) | None => None end.
Proof.
  unfold ee_ready_isr. cbn [set_x_timer x_index x_offset x_cache x_ee]. destruct (_ && _); [|reflexivity].
  destruct (zget _ _) as [d|]; cbn [bind]; [|reflexivity]. destruct (_ <=? _), (_ =? _); reflexivity.
Qed.
Lemma fire_tied t y i y' w : fire C y i = Some y' -> tied t w y ->
  exists ops w', srun C w ops w' /\ Forall inner ops /\ tied t w' y' /\ x_cache (y_set y') = x_cache (y_set y).
Proof.
  unfold fire. destruct (ev_okb C y (irq_event i)); [|intros [= <-] H; exists [], w; repeat split; try constructor; apply H].
  intros E (Hx & Hn). destruct i as [|raw| |]; cbn [irq_event step] in E.
  - injection E as <-. exists [STick]. eexists. split; [econstructor; [exact I|reflexivity|constructor]|].
    split; [repeat constructor|]. split; [|reflexivity]. split; cbn [w_x w_now]; [exact Hx|rewrite Hn; reflexivity].
  - injection E as <-. exists [], w. split; [constructor|]. split; [constructor|].
    destruct (m_adc (y_meas y)); [|repeat split; assumption]. unfold adc_isr. repeat split; assumption.
  - destruct (x_eerie (y_set y)) eqn:E1; [|injection E as <-; exists [], w; repeat split; try constructor; assumption].
    destruct (x_busy (y_set y)) eqn:E2; [injection E as <-; exists [], w; repeat split; try constructor; assumption|].
    destruct (ee_ready_isr C (y_set y)) as [x1|] eqn:E3; cbn [bind] in E; [|discriminate]. injection E as <-.
    exists [SReady], (observe w (set_x_timer x1 t)). split.
    { econstructor; [exact I| |constructor]. cbn [sstep]. rewrite Hx. cbn [set_x_timer x_eerie x_busy]. rewrite E1, E2.
      change (mkSst t (x_request (y_set y)) (x_cache (y_set y)) (x_index (y_set y)) (x_offset (y_set y)) (x_ee (y_set y)) (x_eerie (y_set y)) (x_busy (y_set y)))
        with (set_x_timer (y_set y) t). rewrite isr_timer, E3. reflexivity. }
    split; [repeat constructor|]. split; [split; [apply obs_x|rewrite obs_now; exact Hn]|]. exact (proj1 (isr_cache _ _ E3)).
  - injection E as <-. exists [SDone], (observe w (ee_prog_done (w_x w))). split; [econstructor; [exact I|reflexivity|constructor]|].
    split; [repeat constructor|]. split; [split|].
    + rewrite obs_x, Hx. cbn [set_y_set y_set]. unfold ee_prog_done. cbn [set_x_timer x_busy]. destruct (x_busy (y_set y)) as [[a v]|]; reflexivity.
    + rewrite obs_now. exact Hn.
    + cbn [set_y_set y_set]. unfold ee_prog_done. destruct (x_busy (y_set y)) as [[a v]|]; reflexivity.
Qed.
Lemma fires_tied t l : forall y y' w, fires C y l = Some y' -> tied t w y ->
  exists ops w', srun C w ops w' /\ Forall inner ops /\ tied t w' y' /\ x_cache (y_set y') = x_cache (y_set y).
Proof.
  induction l as [|i l IH]; intros y y' w E H; cbn [fires] in E.
  - injection E as <-. exists [], w. repeat split; try constructor; apply H.
  - destruct (fire C y i) as [y1|] eqn:E1; cbn [bind] in E; [|discriminate].
    destruct (fire_tied t y i y1 w E1 H) as (o1 & w1 & A1 & A2 & A3 & A4). destruct (IH y1 y' w1 E A3) as (o2 & w2 & B1 & B2 & B3 & B4).
    exists (o1 ++ o2), w2. split; [exact (srun_app _ _ _ _ _ A1 B1)|]. split; [apply Forall_app; auto|]. split; [exact B3|congruence].
Qed.
Lemma fire_timer y i y' : fire C y i = Some y' -> x_timer (y_set y') = x_timer (y_set y).
Proof.
  unfold fire. destruct (ev_okb _ _ _); [|now intros [= <-]]. destruct i as [|raw| |]; cbn [irq_event step].
  - now intros [= <-].
  - intros [= <-]. destruct (m_adc _); reflexivity.
  - destruct (x_eerie _); [|now intros [= <-]]. destruct (x_busy _); [now intros [= <-]|].
    destruct (ee_ready_isr C (y_set y)) as [x1|] eqn:E3; cbn [bind]; [|discriminate]. intros [= <-]. exact (proj2 (isr_cache _ _ E3)).
  - intros [= <-]. cbn [set_y_set y_set]. unfold ee_prog_done. destruct (x_busy (y_set y)) as [[a v]|]; reflexivity.
Qed.
Lemma fires_timer l : forall y y', fires C y l = Some y' -> x_timer (y_set y') = x_timer (y_set y).
Proof.
  induction l as [|i l IH]; intros y y' E; cbn [fires] in E; [now injection E as <-|].
  destruct (fire C y i) as [y1|] eqn:E1; cbn [bind] in E; [|discriminate]. rewrite (IH _ _ E). exact (fire_timer _ _ _ E1).
Qed.
Lemma timer_self x : set_x_timer x (x_timer x) = x.
Proof. destruct x. reflexivity. Qed.
Lemma fires_stor y l y' : fires C y l = Some y' -> stor y y'.
Proof.
  intros E W.
  assert (X : forall w, stored_as w y -> exists ops w', srun C w ops w' /\ Forall inner ops /\ stored_as w' y' /\ x_cache (y_set y') = x_cache (y_set y)).
  { intros w (Hx & Hn). destruct (fires_tied (x_timer (y_set y)) l y y' w E) as (ops & w' & A1 & A2 & (A3 & A4) & A5); [split; [rewrite timer_self; exact Hx|exact Hn]|].
    exists ops, w'. split; [exact A1|]. split; [exact A2|]. split; [|exact A5]. split; [|exact A4].
    rewrite A3, <- (fires_timer _ _ _ E). apply timer_self. }
  split.
  - destruct (X (mkW (y_now y) (y_set y) (x_cache (y_set y)) None)) as (_ & _ & _ & _ & _ & H); [split; reflexivity|]. rewrite H. exact W.
  - intros w Hw. destruct (X w Hw) as (ops & w' & A & B & D & _). eauto.
Qed.
Lemma fpr_pt y0 y (Q : sys -> Prop) : stor y0 y -> (forall y', stor y0 y' -> Q y') -> fpr (pt C y) Q.
Proof.
  intros H HQ o a o' E. unfold pt in E. destruct o as [|l r].
  - injection E as <- <-. apply HQ. exact H.
  - destruct (fires C y l) as [y1|] eqn:E1; cbn [bind] in E; [|discriminate]. injection E as <- <-. apply HQ.
    exact (stor_trans _ _ _ H (fires_stor _ _ _ E1)).
Qed.

(** ** A change of the settings followed by store_settings *)
Lemma arm_eq now : exists t, timer_arm now 1000 = Some t.
Proof. unfold timer_arm. eexists. reflexivity. Qed.
Definition wf_change (s s' : settings) : Prop := (settings_wf s -> settings_wf s') /\ s_serial s' = s_serial s.
Lemma serial_self s : set_s_serial s (s_serial s) = s.
Proof. destruct s. reflexivity. Qed.
Lemma modify_ok w s : settings_wf s -> s_serial s = s_serial (x_cache (w_x w)) ->
  exists t, srun C w [SModify (fun s0 => set_s_serial s (s_serial s0))] (observe w (set_x_timer (set_x_request (set_x_cache (w_x w) s) true) t)) /\
    timer_arm (w_now w) 1000 = Some t.
Proof.
  intros Ws Es. destruct (arm_eq (w_now w)) as (t & Et). exists t. split; [|exact Et]. econstructor; [| |constructor].
  - intros s0 (_ & _ & _ & _ & _ & _ & W0). split; [|reflexivity]. destruct Ws as (A1 & A2 & A3 & A4 & A5 & A6 & _).
    exact (conj A1 (conj A2 (conj A3 (conj A4 (conj A5 (conj A6 W0)))))).
  - cbn [sstep]. rewrite <- Es, serial_self. unfold store_settings. rewrite Et. reflexivity.
Qed.
Lemma store_stor y y1 s : y_set y1 = set_x_cache (y_set y) s -> y_now y1 = y_now y -> wf_change (x_cache (y_set y)) s ->
  fpr (sys_store_f C y1) (stor y).
Proof.
  intros Es En (Hwf & Hser). unfold sys_store_f. apply fpr_bind. intros o y2 o' E2. apply fpr_lift. intros y3 E3 W.
  assert (F2 : exists l, fires C (set_y_set y1 (set_x_request (y_set y1) true)) l = Some y2).
  { unfold pt in E2. destruct o as [|l r]; [exists []; cbn [fires]; congruence|]. exists l.
    destruct (fires C _ l) as [z|]; cbn [bind] in E2; [congruence|discriminate]. }
  destruct F2 as (l & F2). unfold sys_store, store_settings in E3. destruct (arm_eq (y_now y2)) as (t2 & Et2). rewrite Et2 in E3. cbn [bind] in E3.
  injection E3 as <-. specialize (Hwf W). cbn [set_y_set y_set set_x_timer set_x_request x_cache].
  assert (X : forall w, stored_as w y -> exists ops w', srun C w ops w' /\ Forall inner ops /\
     stored_as w' (set_y_set y2 (set_x_timer (set_x_request (y_set y2) true) t2)) /\ x_cache (y_set y2) = s).
  { intros w (Hx & Hn). destruct (modify_ok w s Hwf) as (t1 & R1 & _); [rewrite Hx; exact Hser|].
    destruct (fires_tied t1 l _ y2 (observe w (set_x_timer (set_x_request (set_x_cache (w_x w) s) true) t1)) F2) as (ops & w' & A1 & A2 & (A3 & A4) & A5).
    { split; [rewrite obs_x, Hx; cbn [set_y_set y_set]; rewrite Es; reflexivity|]. rewrite obs_now, Hn. cbn [set_y_set y_now]. symmetry. exact En. }
    cbn [set_y_set y_set set_x_request x_cache] in A5. rewrite Es in A5. cbn [set_x_cache x_cache] in A5.
    assert (Ec : x_cache (w_x w') = s) by (rewrite A3; exact A5).
    destruct (modify_ok w' s Hwf) as (t3 & R3 & Et3); [rewrite Ec; reflexivity|]. rewrite A4, Et2 in Et3. injection Et3 as <-.
    eexists. eexists. split; [exact (srun_app _ _ _ _ _ (srun_app _ _ _ _ _ R1 A1) R3)|]. split.
    { apply Forall_app. split; [apply Forall_app; split; [repeat constructor|exact A2]|repeat constructor]. }
    split; [|exact A5]. split.
    - rewrite obs_x, A3. cbn [set_y_set y_set]. destruct (y_set y2). cbn in A5. subst. reflexivity.
    - rewrite obs_now, A4. reflexivity. }
  split.
  - destruct (X (mkW (y_now y) (y_set y) (x_cache (y_set y)) None)) as (_ & _ & _ & _ & _ & H); [split; reflexivity|].
    destruct (y_set y2). cbn in *. subst. exact Hwf.
  - intros w Hw. destruct (X w Hw) as (ops & w' & A & B & D & _). eauto.
Qed.
End S.
