(** * The storage in time *)
From Coq Require Import ZArith List Bool Lia ZifyBool.
From Verif Require Import Base PBase MConf MTimer MSettings SpecSettings MState MMain SpecSys MFine SpecFine SpecStor SpecStorT PSettings PStor PStor3.
Import ListNotations.
Open Scope Z_scope.

Section T.
Variables (D : deadlines) (C : conf).
Hypothesis HC : ring_conf C.
Hypothesis HD : dead_ok D.
Let P := d_prog D.
Let Q := d_irq D.
Let W := d_work D.

(** [s]: ms since the running store began *)
Record tinv (w : world) (k : stopwatch) (s : Z) : Prop := mkTinv {
  t_now : is_u16 (w_now w); t_pg : 0 <= k_prog k <= P; t_iq : 0 <= k_irq k <= Q; t_wk : 0 <= k_work k <= W; t_ch : 0 <= k_change k; t_s : 0 <= s;
  t_busy : writing w = true -> s + P <= x_offset (w_x w) * (P + Q) + k_prog k;
  t_wait : asking w = true -> s <= x_offset (w_x w) * (P + Q) + k_irq k;
  t_req : x_request (w_x w) = true -> x_timer (w_x w) = u16 (w_now w - k_change k + 1000);
  t_age : x_request (w_x w) = true -> k_change k < 1000 + k_work k;
  t_later : x_request (w_x w) = true -> quiet (w_x w) = false -> k_change k <= s;
  t_store : quiet (w_x w) = false -> k_change k < 1000 + W + s
}.
Lemma quiet_two w : quiet (w_x w) = negb (writing w) && negb (asking w).
Proof. unfold quiet, asking, writing. destruct (x_eerie _), (x_busy _); reflexivity. Qed.
Lemma mul_le o n : 0 <= P + Q -> o <= n -> o * (P + Q) <= n * (P + Q).
Proof. intros. apply Z.mul_le_mono_nonneg_r; assumption. Qed.
Lemma shape w : sinv C (w_x w) -> (x_eerie (w_x w) = true -> 0 <= x_offset (w_x w) < 64) /\ (writing w = true -> 1 <= x_offset (w_x w) <= 64).
Proof.
  intros (_ & _ & c & [(A & B & _)|(i & A & B & _ & _ & _ & E & _)]); unfold writing.
  - rewrite A, B. split; discriminate.
  - rewrite B. split; [lia|]. unfold busy_ok in E. destruct (x_busy (w_x w)) as [[a v]|]; [lia|discriminate].
Qed.
Lemma short_store w k s : sinv C (w_x w) -> tinv w k s -> quiet (w_x w) = false -> s <= 64 * (P + Q).
Proof.
  intros I K Hq. destruct (shape w I) as (S1 & S2). rewrite quiet_two in Hq. destruct HD as (P0 & Q0 & _). fold P in P0. fold Q in Q0.
  pose proof (t_pg _ _ _ K). pose proof (t_iq _ _ _ K). destruct (writing w) eqn:Eb.
  - pose proof (t_busy _ _ _ K Eb). specialize (S2 eq_refl). pose proof (mul_le (x_offset (w_x w)) 64 ltac:(lia) ltac:(lia)). lia.
  - destruct (asking w) eqn:Ew; [|discriminate Hq]. pose proof (t_wait _ _ _ K Ew). unfold asking in Ew. apply andb_true_iff in Ew. specialize (S1 (proj1 Ew)).
    pose proof (mul_le (x_offset (w_x w)) 63 ltac:(lia) ltac:(lia)). lia.
Qed.
Lemma work_free w k s : sinv C (w_x w) -> tinv w k s -> op_basic C w SWork.
Proof.
  intros I K Rq Ex. destruct (quiet (w_x w)) eqn:Hq; [reflexivity|exfalso]. pose proof (short_store w k s I K Hq). pose proof (t_later _ _ _ K Rq Hq).
  rewrite (t_req _ _ _ K Rq) in Ex. pose proof (expired_min _ _ (t_now _ _ _ K) (t_ch _ _ _ K) Ex). destruct HD as (_ & _ & X & _). fold P in X. fold Q in X. lia.
Qed.
Lemma op_free w k s op : sinv C (w_x w) -> tinv w k s -> in_time D w k op -> op_basic C w op.
Proof. intros I K T. destruct op; try exact I0; try exact T; try exact Logic.I. exact (work_free w k s I K). Qed.

Lemma u16_u w : is_u16 w -> u16 w = w.
Proof. unfold is_u16, u16. intros. lia. Qed.
Lemma step_tinv w k s op w' : sinv C (w_x w) -> tinv w k s -> in_time D w k op -> sstep C w op = Some w' -> exists s', tinv w' (stop_after w k op w') s'.
Proof.
  intros I K T E. pose proof (work_free w k s I K) as Wf. destruct (shape w I) as (S1 & S2). pose proof (quiet_two w) as Q2.
  destruct K as [K1 K2 K3 K4 K5 K6 K7 K8 K9 K10 K11 K12]. destruct HD as (P0 & Q0 & X & W0). fold P in P0, X. fold Q in Q0, X. fold W in W0.
  destruct op as [|f| | | |v]; cbn [sstep in_time stop_after tick_of] in *.
  - (* a millisecond *)
    assert (A : writing w' = writing w /\ asking w' = asking w /\ w_x w' = w_x w /\ w_now w' = u16 (w_now w + 1)) by (injection E as <-; auto).
    clear E. destruct A as (A1 & A2 & A3 & A4). destruct T as (T1 & T2 & T3). fold P in T1. fold Q in T2. fold W in T3.
    exists (if quiet (w_x w) then 0 else s + 1). rewrite A1, A2, !andb_diag, andb_true_r.
    constructor; rewrite ?A1, ?A2, ?A3, ?A4; cbn [k_prog k_irq k_work k_change]; try lia.
    + clear. unfold is_u16, u16. lia.
    + destruct (writing w) eqn:B; [specialize (T1 eq_refl)|]; lia.
    + destruct (asking w) eqn:B; [specialize (T2 eq_refl)|]; lia.
    + destruct (quiet (w_x w)); lia.
    + intros B. specialize (K7 B). rewrite Q2, B. cbn. lia.
    + intros B. specialize (K8 B). rewrite Q2, B, andb_false_r. lia.
    + intros Rq. rewrite (K9 Rq). clear. unfold u16. lia.
    + intros Rq Hq. specialize (K11 Rq Hq). rewrite Hq. lia.
    + intros Hq. specialize (K12 Hq). rewrite Hq. lia.
  - (* a change *)
    unfold store_settings in E. destruct (timer_arm _ _) as [t|] eqn:Et; cbn [bind] in E; [|discriminate E]. injection E as <-.
    assert (Ht : t = u16 (w_now w + 1000)) by (unfold timer_arm in Et; vm_compute timer_ms_to_count in Et; cbn [bind] in Et; injection Et as <-; reflexivity).
    set (w' := observe w _).
    assert (A : writing w' = writing w /\ asking w' = asking w /\ quiet (w_x w') = quiet (w_x w) /\ w_now w' = w_now w /\ x_offset (w_x w') = x_offset (w_x w) /\ x_timer (w_x w') = t).
    { unfold w', writing, asking, writing. rewrite !obs_x, obs_now. repeat split. }
    clearbody w'. destruct A as (A1 & A2 & A3 & A4 & A5 & A6). rewrite A1, A2, !andb_diag, andb_true_r, !Z.add_0_r.
    exists (if quiet (w_x w) then 0 else s).
    constructor; rewrite ?A1, ?A2, ?A3, ?A4, ?A5, ?A6; cbn [k_prog k_irq k_work k_change]; try assumption; try lia.
    + destruct (writing w); lia.
    + destruct (asking w); lia.
    + destruct (quiet (w_x w)); lia.
    + intros B. specialize (K7 B). rewrite Q2, B. cbn. lia.
    + intros B. specialize (K8 B). rewrite Q2, B, andb_false_r. lia.
    + intros _. rewrite Ht. f_equal. lia.
    + intros _ Hq. rewrite Hq. lia.
    + intros Hq. rewrite Hq. lia.
  - (* settings_work *)
    injection E as <-. set (x' := settings_work C (w_now w) (w_x w)).
    destruct (x_request (w_x w) && timer_expired (w_now w) (x_timer (w_x w))) eqn:Go.
    + apply andb_true_iff in Go. destruct Go as (G1 & G2). specialize (Wf G1 G2). specialize (K10 G1).
      assert (Y : x_request x' = false /\ x_offset x' = 0 /\ x_busy x' = x_busy (w_x w) /\ x_eerie x' = true).
      { unfold x', settings_work. rewrite G1, G2. cbn [negb]. destruct (c_eering C); cbn; auto. }
      destruct Y as (Y1 & Y2 & Y3 & Y4). clearbody x'. exists 0. rewrite Q2 in Wf. apply andb_true_iff in Wf. destruct Wf as (Wf1 & Wf2).
      assert (Wr : writing w = false) by (destruct (writing w); [discriminate Wf1|reflexivity]). assert (As : asking w = false) by (destruct (asking w); [discriminate Wf2|reflexivity]).
      assert (B : x_busy (w_x w) = None) by (unfold writing in Wr; destruct (x_busy (w_x w)); [discriminate Wr|reflexivity]).
      set (w' := observe w x').
      assert (A : writing w' = false /\ asking w' = true /\ w_x w' = x' /\ w_now w' = w_now w).
      { unfold w', asking, writing. rewrite obs_x, obs_now, Y3, Y4, B. auto. }
      clearbody w'. destruct A as (A1 & A2 & A3 & A4). rewrite Wr, As. cbn [andb].
      constructor; rewrite ?A1, ?A2, ?A3, ?A4, ?Y1, ?Y2; cbn [k_prog k_irq k_work k_change]; try assumption; try lia; try discriminate.
    + assert (Y : x' = w_x w).
      { unfold x', settings_work. destruct (x_request (w_x w)); [|reflexivity]. cbn [negb andb] in *. rewrite Go. reflexivity. }
      rewrite Y. exists (if quiet (w_x w) then 0 else s). set (w' := observe w (w_x w)).
      assert (A : writing w' = writing w /\ asking w' = asking w /\ w_x w' = w_x w /\ w_now w' = w_now w).
      { unfold w', asking, writing. rewrite obs_x, obs_now. repeat split. }
      clearbody w'. destruct A as (A1 & A2 & A3 & A4). rewrite A1, A2, !andb_diag, andb_true_r, !Z.add_0_r.
      constructor; rewrite ?A1, ?A2, ?A3, ?A4; cbn [k_prog k_irq k_work k_change]; try assumption; try lia.
      * destruct (writing w); lia.
      * destruct (asking w); lia.
      * destruct (quiet (w_x w)); lia.
      * intros B. specialize (K7 B). rewrite Q2, B. cbn. lia.
      * intros B. specialize (K8 B). rewrite Q2, B, andb_false_r. lia.
      * intros Rq. rewrite Rq in Go. cbn [andb] in Go. rewrite (K9 Rq) in Go. specialize (K10 Rq).
        rewrite expired_elapsed in Go by (assumption || lia). lia.
      * intros Rq Hq. rewrite Hq. exact (K11 Rq Hq).
      * intros Hq. rewrite Hq. exact (K12 Hq).
  - (* the interrupt *)
    assert (Same : exists s', tinv w (mkStop (if writing w && writing w then k_prog k + 0 else 0) (if asking w && asking w && false then k_irq k + 0 else 0) (k_work k + 0) (k_change k + 0)) s' \/ asking w = true).
    { destruct (asking w) eqn:Ea; [exists 0; right; reflexivity|]. exists s. left. rewrite andb_diag, !Z.add_0_r. cbn [andb].
      constructor; cbn [k_prog k_irq k_work k_change]; try assumption; try lia.
      - destruct (writing w); lia.
      - intros B. specialize (K7 B). rewrite B. exact K7.
      - rewrite Ea. discriminate. }
    destruct (x_eerie (w_x w)) eqn:Ee.
    + destruct (x_busy (w_x w)) eqn:Eb.
      * injection E as <-. destruct Same as (s' & [Same|A]); [exists s'; exact Same|]. unfold asking, writing in A. rewrite Eb, andb_false_r in A. discriminate A.
      * destruct (ee_ready_isr C (w_x w)) as [x'|] eqn:Ei; cbn [bind] in E; [|discriminate E]. injection E as <-.
        assert (Wr : writing w = false) by (unfold writing; rewrite Eb; reflexivity). assert (As : asking w = true) by (unfold asking; rewrite Ee, Wr; reflexivity).
        specialize (S1 eq_refl). specialize (K8 As). assert (Hq : quiet (w_x w) = false) by (rewrite Q2, As, andb_false_r; reflexivity).
        assert (Y : x_offset x' = x_offset (w_x w) + 1 /\ x_request x' = x_request (w_x w) /\ x_timer x' = x_timer (w_x w)).
        { unfold ee_ready_isr in Ei. cbv zeta in Ei. destruct (_ && _); [|discriminate Ei]. destruct (zget _ _) as [d|]; cbn [bind] in Ei; [|discriminate Ei]. injection Ei as <-.
          rewrite (u8_id (x_offset (w_x w) + 1)) by lia. destruct (_ <=? _), (_ =? _); cbn; auto. }
        destruct Y as (Y1 & Y2 & Y3). exists s. rewrite Wr, andb_false_r, !Z.add_0_r. cbn [andb].
        constructor; unfold writing, asking; rewrite ?obs_x, ?obs_now; cbn [k_prog k_irq k_work k_change]; rewrite ?Y1, ?Y2, ?Y3; try assumption; try lia; intros.
        all: first [apply K11; assumption | exact (K12 Hq)].
    + injection E as <-. destruct Same as (s' & [Same|A]); [exists s'; exact Same|]. unfold asking in A. rewrite Ee in A. discriminate A.
  - (* a byte is programmed *)
    injection E as <-. unfold ee_prog_done. destruct (x_busy (w_x w)) as [[a d]|] eqn:Eb.
    + assert (Wr : writing w = true) by (unfold writing; rewrite Eb; reflexivity). assert (As : asking w = false) by (unfold asking; rewrite Wr; apply andb_false_r).
      specialize (K7 Wr). specialize (S2 Wr). assert (Hq : quiet (w_x w) = false) by (rewrite Q2, Wr; reflexivity).
      exists s. rewrite As. unfold writing at 2. rewrite obs_x. cbn [set_x_busy set_x_ee x_busy andb]. rewrite andb_false_r, !Z.add_0_r.
      constructor; unfold writing, asking; rewrite ?obs_x, ?obs_now; cbn [k_prog k_irq k_work k_change set_x_busy set_x_ee x_busy x_offset x_request x_timer]; try assumption; try lia; try discriminate; intros.
      all: first [apply K11; assumption | exact (K12 Hq)].
    + exists s. assert (Wr : writing w = false) by (unfold writing; rewrite Eb; reflexivity).
      assert (A2 : writing (observe w (w_x w)) = false /\ asking (observe w (w_x w)) = asking w) by (unfold asking, writing; rewrite obs_x, Eb; auto).
      destruct A2 as (A2 & A3). rewrite A2, A3, Wr, !andb_diag, andb_true_r, !Z.add_0_r. cbn [andb].
      constructor; rewrite ?A2, ?A3, ?obs_x, ?obs_now; cbn [k_prog k_irq k_work k_change]; try assumption; try lia; try discriminate.
      * destruct (asking w); lia.
      * intros B. specialize (K8 B). rewrite B. exact K8.
  - (* power *)
    destruct (settings_init C _) as [x'|] eqn:Ei; cbn [bind] in E; [|discriminate E]. injection E as <-. unfold settings_init in Ei.
    destruct (if c_eering C then _ else _) as [n|]; cbn [bind] in Ei; [|discriminate Ei]. injection Ei as <-. exists 0.
    constructor; unfold writing, asking; cbn; try lia; try discriminate. unfold is_u16. lia.
Qed.
Lemma boot_tinv w : sboot C = Some w -> tinv w stop_zero 0.
Proof.
  unfold sboot. intros E. destruct (settings_init C _) as [x'|] eqn:Ei; cbn [bind] in E; [|discriminate E]. injection E as <-. unfold settings_init in Ei.
  destruct (if c_eering C then _ else _) as [n|]; cbn [bind] in Ei; [|discriminate Ei]. injection Ei as <-. destruct HD as (P0 & Q0 & _ & W0). fold P in P0. fold Q in Q0. fold W in W0.
  constructor; unfold writing, asking; cbn; try lia; try discriminate. unfold is_u16. lia.
Qed.
Lemma trun_inv w k ops w' k' : trun D C w k ops w' k' -> sreach C false w -> (exists s, tinv w k s) -> srun C w ops w' /\ sreach C false w' /\ exists s, tinv w' k' s.
Proof.
  induction 1 as [w k|w k op w1 ops w2 k2 T E H IH]; intros R (s & K); [split; [constructor|split; [exact R|exists s; exact K]]|].
  pose proof (sreach_inv C HC _ _ R) as I. pose proof (op_free w k s op I K T) as B.
  destruct IH as (A1 & A2 & A3); [eapply sreach_step; [exact R|exact B|discriminate|exact E]|exact (step_tinv w k s op w1 I K T E)|].
  split; [econstructor; eassumption|split; assumption].
Qed.
Lemma timed_inv w k : timed D C w k -> sreach C false w /\ exists s, tinv w k s.
Proof.
  intros (w0 & ops & E & H). destruct (trun_inv _ _ _ _ _ H) as (_ & A & B); [apply sreach_boot; exact E|exists 0; apply boot_tinv; exact E|auto].
Qed.
Lemma tinv_settled w k s : sinv C (w_x w) -> tinv w k s -> 1000 + d_work D + 64 * (d_prog D + d_irq D) <= k_change k ->
  quiet (w_x w) = true /\ x_request (w_x w) = false.
Proof.
  intros I K H. fold P Q W in H. assert (Q1 : quiet (w_x w) = true).
  { destruct (quiet (w_x w)) eqn:Hq; [reflexivity|]. pose proof (t_store _ _ _ K Hq). pose proof (short_store w k s I K Hq). lia. }
  split; [exact Q1|]. destruct (x_request (w_x w)) eqn:Rq; [|reflexivity]. pose proof (t_age _ _ _ K Rq). pose proof (t_wk _ _ _ K). destruct HD as (P0 & Q0 & _). fold P in P0. fold Q in Q0. lia.
Qed.

(** ** The firmware in time *)
Lemma ftimed_inv y w k : ftimed D C y w k -> freach C y /\ sreach C false w /\ stored_as w y /\ exists s, tinv w k s.
Proof.
  induction 1 as [pinb y w Hp Hb Hw|y w k e o y' ops w' k' _ (R & Rw & H & K) O E T Ops H'].
  - split; [econstructor; eassumption|]. split; [apply sreach_boot; exact Hw|]. split; [|exists 0; apply boot_tinv; exact Hw].
    destruct (boot_stored C _ _ _ Hb) as (x & Ex & A & B). unfold sboot in Hw. rewrite Ex in Hw. cbn [bind] in Hw. injection Hw as <-. split; cbn; congruence.
  - destruct (trun_inv _ _ _ _ _ T Rw K) as (A & B & F). split; [|auto]. apply (freach_step C y e y' R). split; [|exists o; exact E].
    destruct e; try (apply O; discriminate). cbn [ev_ok]. destruct K as (s & K). pose proof (work_free w k s (sreach_inv C HC _ _ Rw) K) as X. cbn [op_basic] in X. rewrite (proj1 H), (proj2 H) in X. exact X.
Qed.
End T.
