(** * Measurement windows: C32, C33, C66 *)
From Coq Require Import ZArith List Bool Lia ZifyBool.
From Verif Require Import Base PBase MConf MUtil MFixpt MScale MRing MFilter MTimer MPid MPwm MTempMap MCurr MSens
  SpecNum SpecPid SpecSmall PNum PSmall PScale PPid SpecCurr PCurr MSettings SpecSettings PSettings PSysSet
  MSseg MDisplay MText MState MTemp MMeas MMenu MMain SpecDisplay SpecSys SpecRun PSys PSysMeas PSysMenu PSysDisp PSysBtn
  PSysStep PSysRun PSysCC PSysSafe.
Import ListNotations.
Open Scope Z_scope.
Ltac Zify.zify_post_hook ::= Z.div_mod_to_equations.

(** How an event that handles no result acts on the measurement state. *)
Definition same_window (m m' : meas) : Prop :=
  m_sum m' = m_sum m /\ m_count m' = m_count m /\ m_avail m' = m_avail m /\ m_adc m' = m_adc m /\ m_chan m' = m_chan m /\ m_timer m' = m_timer m.
Lemma same_window_refl m : same_window m m.
Proof. unfold same_window. repeat split. Qed.
Lemma same_window_side y y' : side_frame y y' -> same_window (y_meas y) (y_meas y').
Proof. intros (_ & _ & _ & (l & -> & _) & _). unfold same_window. repeat split. Qed.
Definition sampled (y : sys) (raw : Z) (y' : sys) : Prop :=
  m_sum (y_meas y') = m_sum (y_meas y) + raw /\ m_count (y_meas y') = m_count (y_meas y) + 1 /\
  m_avail (y_meas y') = timer_expired (y_now y) (m_timer (y_meas y)) /\ m_chan (y_meas y') = m_chan (y_meas y) /\ m_timer (y_meas y') = m_timer (y_meas y).
Lemma step_window C y e y' : build_conf C -> reach C y -> ev_ok C y e -> is_power e = false -> pending y e = false -> step C y e = Some y' ->
  (exists raw, e = EAdc raw /\ m_adc (y_meas y) = true /\ sampled y raw y') \/
  (forall raw, e = EAdc raw -> m_adc (y_meas y) = false) /\ same_window (y_meas y) (y_meas y').
Proof.
  intros HC R O P N E. pose proof (reach_s4 C y HC R) as [I Ro H S]. destruct e; cbn [step is_power ev_ok pending] in *; try discriminate P.
  2:{ apply Some_inj in E. destruct (m_adc (y_meas y)) eqn:Ea; subst y'.
      - left. exists raw. destruct (adc_isr_ok relaxed C y raw I H Ea (proj1 O) (proj2 O)) as (_ & _ & A1 & A2 & A3 & _ & _ & A4 & A5). unfold sampled. auto 10.
      - right. split; [reflexivity|apply same_window_refl]. }
  all: right; split; [discriminate|].
  - apply Some_inj in E. subst y'. apply same_window_refl.
  - destruct (x_eerie (y_set y)); [|apply Some_inj in E; subst; apply same_window_refl].
    destruct (x_busy (y_set y)); [apply Some_inj in E; subst; apply same_window_refl|].
    destruct (ee_ready_isr C (y_set y)) as [x|]; [|discriminate E]. cbn [bind] in E. apply Some_inj in E. subst. apply same_window_refl.
  - apply Some_inj in E. subst y'. apply same_window_refl.
  - rewrite (measure_idle relaxed C y I N) in E. apply Some_inj in E. subst y'. apply same_window_refl.
  - destruct (menu_work_ok relaxed C y bok_relaxed I Ro) as (y1 & y2 & y3 & y0 & E' & _ & _ & F & _). rewrite E' in E. apply Some_inj in E. subst y0.
    apply same_window_side; exact F.
  - unfold sys_display_work in E. destruct (display_work _ _ _) as [[h d]|]; [|discriminate E]. cbn [bind] in E. apply Some_inj in E. subst y'.
    apply same_window_refl.
  - destruct (buttons_ok relaxed C y pinb bok_relaxed I Ro) as (y0 & E' & _ & _ & _ & F & _). rewrite E' in E. apply Some_inj in E. subst y0.
    apply same_window_side; exact F.
  - apply Some_inj in E. subst y'. apply same_window_refl.
Qed.
Lemma fresh_window C y : fresh C y -> m_sum (y_meas y) = 0 /\ m_count (y_meas y) = 0 /\ m_avail (y_meas y) = false /\ m_chan (y_meas y) = 1 /\
  m_timer (y_meas y) = 50 /\ y_now y = 0.
Proof. intros (x & k & a & p & -> & _). unfold booted. cbn [y_meas y_now]. vm_compute. repeat split. Qed.
Lemma pending_result y e : pending y e = true -> result y e (m_chan (y_meas y)).
Proof. destruct e; try discriminate. cbn. unfold result. auto. Qed.
Lemma not_pending y e : (forall chan, ~ result y e chan) -> pending y e = false.
Proof. intros N. destruct (pending y e) eqn:P; [|reflexivity]. destruct (N _ (pending_result y e P)). Qed.
Lemma result_pending y e chan : result y e chan -> pending y e = true.
Proof. intros (-> & X & _). exact X. Qed.

(** ** C32 *)
Lemma window_inv C y l : build_conf C -> window C y l -> reach C y /\ m_sum (y_meas y) = zsum l /\ m_count (y_meas y) = Z.of_nat (length l) /\
  Forall (fun x => 0 <= x <= 1023) l.
Proof.
  intros HC D. induction D as [pinb y Hp E|y e y' l D (R & Q) O E W|y raw y' l D (R & Q1 & Q2 & Q3) O E W|y e y' l D (R & Q1 & Q2 & Q3) O E W N].
  - destruct (fresh_window C y (boot_fresh C pinb y HC E)) as (A1 & A2 & _). split; [econstructor; eassumption|]. auto.
  - split; [econstructor; eassumption|]. destruct e; try discriminate W.
    + cbn [starts_window] in W.
      destruct (step_pending relaxed C y EMeasure y' HC bok_relaxed (reach_s4 C y HC R) W E) as (c0 & c1 & raw & _ & _ & _ & _ & _ & _ & A1 & A2 & _). auto.
    + destruct (fresh_window C y' (power_fresh C y v pinb y' HC R O E)) as (A1 & A2 & _). auto.
  - split; [econstructor; eassumption|].
    destruct (step_window C y (EAdc raw) y' HC R O eq_refl eq_refl E) as [(r & Er & _ & A1 & A2 & _)|(N & _)]; [|rewrite (N _ eq_refl) in W; discriminate W].
    injection Er as <-. rewrite A1, A2, Q1, Q2. split; [|split].
    + clear. unfold zsum. induction l as [|x t IH]; cbn [app fold_right]; lia.
    + rewrite app_length. cbn [length]. clear. lia.
    + apply Forall_app. split; [exact Q3|]. constructor; [exact (proj1 O)|constructor].
  - split; [econstructor; eassumption|].
    assert (P : is_power e = false) by (destruct e; try reflexivity; discriminate W).
    assert (Pn : pending y e = false) by (destruct e; try reflexivity; exact W).
    destruct (step_window C y e y' HC R O P Pn E) as [(r & Er & Ea & _)|(_ & A1 & A2 & _)]; [rewrite (N _ Er) in Ea; discriminate Ea|].
    rewrite A1, A2. auto.
Qed.
Lemma zsum_bounds a b l : Forall (fun x => a <= x <= b) l -> a * Z.of_nat (length l) <= zsum l <= b * Z.of_nat (length l).
Proof.
  unfold zsum. induction 1 as [|x t Hx _ IH]; cbn [fold_right length]; [lia|]. rewrite Nat2Z.inj_succ. lia.
Qed.
Lemma sys_average C y l e chan : build_conf C -> window C y l -> result y e chan ->
  l <> [] /\ raw_average (y_meas y) = Some (zsum l / Z.of_nat (length l)) /\
  (forall a b, Forall (fun x => a <= x <= b) l -> a <= zsum l / Z.of_nat (length l) <= b).
Proof.
  intros HC W X. destruct (window_inv C y l HC W) as (R & Q1 & Q2 & Q3). pose proof (reach_s4 C y HC R) as [I Ro H S]. destruct X as (_ & X & _).
  destruct H as (_ & H). specialize (H X). destruct (average_ok C (y_meas y) _ (i_meas _ _ _ I) H) as (r & Er & Ev & _).
  rewrite Er, Ev, Q1, Q2. split; [intros ->; cbn in Q2; lia|]. split; [reflexivity|].
  intros a b F. apply zsum_bounds in F. rewrite Q2 in H. split; [apply Z.div_le_lower_bound; lia|apply Z.div_le_upper_bound; lia].
Qed.
Lemma sys_mean C y l e chan : build_conf C -> window C y l -> result y e chan -> mean_code y = zsum l / Z.of_nat (length l).
Proof. intros HC W X. destruct (window_inv C y l HC W) as (R & Q1 & Q2 & Q3). unfold mean_code. rewrite Q1, Q2. reflexivity. Qed.

(** ** C33 *)
Lemma sys_handover C y : build_conf C -> reach C y ->
  m_adc (y_meas y) = negb (m_avail (y_meas y)) /\ (m_avail (y_meas y) = true -> 0 < m_count (y_meas y)) /\
  (m_chan (y_meas y) = 0 \/ m_chan (y_meas y) = 1).
Proof.
  intros HC R. pose proof (reach_s4 C y HC R) as [I Ro (H1 & H2) S]. split; [exact H1|]. split; [exact H2|]. exact (proj1 (proj2 (i_meas _ _ _ I))).
Qed.
Lemma sys_once C y e y' chan : build_conf C -> reach C y -> result y e chan -> step C y e = Some y' ->
  m_avail (y_meas y') = false /\ m_count (y_meas y') = 0 /\ m_sum (y_meas y') = 0 /\ m_chan (y_meas y') = 1 - chan.
Proof.
  intros HC R (-> & X2 & <-) E.
  destruct (step_pending relaxed C y EMeasure y' HC bok_relaxed (reach_s4 C y HC R) X2 E) as (c0 & c1 & raw & _ & _ & _ & _ & A1 & A2 & A3 & A4 & _). auto.
Qed.
Lemma sys_not_twice C y : build_conf C -> reach C y -> m_avail (y_meas y) = false -> step C y EMeasure = Some y.
Proof. intros HC R N. exact (measure_idle relaxed C y (s4_inv _ _ _ (reach_s4 C y HC R)) N). Qed.
Fixpoint alternates (c : Z) (h : list Z) : Prop := match h with [] => c = 1 | x :: t => c = 1 - x /\ alternates x t end.
Lemma handled_inv C y h : build_conf C -> handled C y h -> reach C y /\ alternates (m_chan (y_meas y)) h.
Proof.
  intros HC D. induction D as [pinb y Hp E|y v pinb y' R O E|y h chan e y' D (R & Q) X E|y h e y' D (R & Q) O E P N].
  - destruct (fresh_window C y (boot_fresh C pinb y HC E)) as (_ & _ & _ & A & _). split; [econstructor; eassumption|exact A].
  - destruct (fresh_window C y' (power_fresh C y v pinb y' HC R O E)) as (_ & _ & _ & A & _). split; [econstructor; eassumption|exact A].
  - destruct (sys_once C y e y' chan HC R X E) as (_ & _ & _ & A). split; [|split; [exact A|]].
    + destruct X as (-> & _). exact (reach_step C y EMeasure y' R Logic.I E).
    + destruct X as (_ & _ & <-). exact Q.
  - split; [econstructor; eassumption|]. destruct (step_window C y e y' HC R O P (not_pending y e N) E) as [(r & _ & _ & _ & _ & _ & A & _)|(_ & _ & _ & _ & _ & A & _)];
      rewrite A; exact Q.
Qed.
Lemma alternates_nth h : forall c, alternates c h -> c = (if Nat.even (length h) then 1 else 0) /\
  forall i x, nth_error (rev h) i = Some x -> x = if Nat.even i then 1 else 0.
Proof.
  induction h as [|x t IH]; intros c A; cbn [alternates] in A.
  - split; [exact A|]. intros [|i] x H; discriminate H.
  - destruct A as (A1 & A2). destruct (IH x A2) as (B1 & B2). cbn [length rev]. rewrite Nat.even_succ, <- Nat.negb_even. split.
    + rewrite A1, B1. destruct (Nat.even (length t)); reflexivity.
    + intros i z H. destruct (Nat.lt_ge_cases i (length (rev t))) as [L|L].
      * rewrite nth_error_app1 in H by exact L. apply B2; exact H.
      * rewrite nth_error_app2 in H by exact L. destruct (i - length (rev t))%nat eqn:D; [|destruct n; discriminate H].
        cbn in H. apply Some_inj in H. subst z. rewrite rev_length in *. replace i with (length t) by lia. exact B1.
Qed.
Lemma sys_alternate C y h : build_conf C -> handled C y h -> forall i c, nth_error (rev h) i = Some c -> c = if Nat.even i then 1 else 0.
Proof. intros HC D. destruct (handled_inv C y h HC D) as (_ & A). exact (proj2 (alternates_nth h _ A)). Qed.

(** ** C66 *)
Lemma window_age_inv C y n : build_conf C -> window_age C y n -> reach C y /\ 0 <= n /\
  exists t0, 0 <= t0 <= 65535 /\ y_now y = u16 (t0 + n) /\ m_timer (y_meas y) = u16 (t0 + averaging_ms (m_chan (y_meas y))).
Proof.
  intros HC D. induction D as [pinb y Hp E|y v pinb y' R O E|y n y' D (R & N0 & t0 & B & Q1 & Q2) E|y n chan e y' D (R & N0 & t0 & B & Q1 & Q2) X E|y n e y' D (R & N0 & t0 & B & Q1 & Q2) O E P NT N].
  - destruct (fresh_window C y (boot_fresh C pinb y HC E)) as (_ & _ & _ & A1 & A2 & A3). split; [econstructor; eassumption|]. split; [lia|].
    exists 0. rewrite A1, A2, A3. split; [lia|]. split; reflexivity.
  - destruct (fresh_window C y' (power_fresh C y v pinb y' HC R O E)) as (_ & _ & _ & A1 & A2 & A3). split; [econstructor; eassumption|]. split; [lia|].
    exists 0. rewrite A1, A2, A3. split; [lia|]. split; reflexivity.
  - split; [exact (reach_step C y ETick y' R Logic.I E)|]. split; [lia|]. exists t0. split; [exact B|]. cbn [step] in E. apply Some_inj in E. subst y'.
    unfold sys_tick, timer_isr. cbn. split; [|exact Q2]. rewrite Q1. unfold u16. clear. lia.
  - assert (R' : reach C y') by (destruct X as (-> & _); exact (reach_step C y EMeasure y' R Logic.I E)). split; [exact R'|]. split; [lia|].
    exists (y_now y). pose proof (reach_s4 C y HC R) as [I Ro H S]. destruct X as (-> & X2 & X3). cbn [step] in E.
    destruct (i_meas _ _ _ I) as ((c0 & c1 & Ech & _) & Bc & _).
    destruct (measure_work_ok relaxed C y c0 c1 I bok_relaxed H X2 Ech) as (y0 & raw & E' & _ & F & _ & _ & _ & A1 & _ & _ & _ & A2 & _).
    rewrite E' in E. apply Some_inj in E. subst y0. destruct F as (Fn & _). rewrite Fn, Z.add_0_r, A1, A2. pose proof (i_now _ _ _ I) as In. unfold is_u16 in In.
    split; [lia|]. split; [symmetry; apply u16_id; lia|]. unfold averaging_ms. destruct Bc as [-> | ->]; reflexivity.
  - split; [econstructor; eassumption|]. split; [exact N0|]. exists t0. split; [exact B|].
    destruct (step_calm relaxed C y e y' HC bok_relaxed (reach_s4 C y HC R) O P (not_pending y e N) E) as (A1 & _).
    rewrite A1. split; [destruct e; congruence|].
    destruct (step_window C y e y' HC R O P (not_pending y e N) E) as [(r & _ & _ & _ & _ & _ & A & A')|(_ & _ & _ & _ & _ & A & A')]; rewrite A, A'; exact Q2.
Qed.
Lemma expired_age t0 n d : 0 <= t0 <= 65535 -> 0 <= d <= 50 -> 0 <= n < d + 32768 -> timer_expired (u16 (t0 + n)) (u16 (t0 + d)) = (d <=? n).
Proof.
  intros B D N. change (timer_expired (counter (t0 + n)) (counter (t0 + d)) = (d <=? n)). rewrite timer_expired_eq. unfold s16. lia.
Qed.
Lemma sys_window_end C y n raw y' : build_conf C -> window_age C y n -> ev_ok C y (EAdc raw) -> m_adc (y_meas y) = true -> step C y (EAdc raw) = Some y' ->
  n < averaging_ms (m_chan (y_meas y)) + 32768 ->
  m_avail (y_meas y') = (averaging_ms (m_chan (y_meas y)) <=? n) /\ m_adc (y_meas y') = negb (averaging_ms (m_chan (y_meas y)) <=? n).
Proof.
  intros HC D O A E L. destruct (window_age_inv C y n HC D) as (R & N0 & t0 & B & Q1 & Q2).
  destruct (step_window C y (EAdc raw) y' HC R O eq_refl eq_refl E) as [(r & _ & _ & _ & _ & A1 & _)|(N & _)]; [|rewrite (N _ eq_refl) in A; discriminate A].
  destruct (sys_handover C y' HC (reach_step C y _ y' R O E)) as (H & _). rewrite H, A1, Q1, Q2.
  rewrite expired_age; [split; reflexivity|exact B|unfold averaging_ms; destruct (_ =? 1); lia|lia].
Qed.
Lemma sys_window_only C y e y' : build_conf C -> reach C y -> ev_ok C y e -> is_power e = false -> step C y e = Some y' ->
  m_avail (y_meas y) = false -> m_avail (y_meas y') = true -> exists raw, e = EAdc raw.
Proof.
  intros HC R O P E A B. assert (Pn : pending y e = false) by (destruct e; try reflexivity; exact A).
  destruct (step_window C y e y' HC R O P Pn E) as [(r & -> & _)|(_ & _ & _ & H & _)]; [exists r; reflexivity|congruence].
Qed.
