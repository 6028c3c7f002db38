(** * The EEPROM registers: what settings.c does with them is what MSettings says *)
From Coq Require Import ZArith List Bool Lia ZifyBool.
From Verif Require Import Base PBase MConf MUtil MFixpt MScale MRing MFilter MTimer MPid MPwm MTempMap MCurr MSens
  SpecNum SpecPid SpecSmall PNum PSmall PScale PPid SpecCurr PCurr MSettings SpecSettings PSettings PSysSet
  MSseg MDisplay MText MState MTemp MMeas MMenu MMain SpecDisplay SpecSys SpecRun PSys PSysMeas PSysMenu PSysDisp PSysBtn
  PSysStep PSysRun PSysProp PStore SpecLive SpecLoop PLoop MEep SpecEep.
Import ListNotations.
Open Scope Z_scope.
Ltac Zify.zify_post_hook ::= Z.div_mod_to_equations.

(** ** The registers *)
Lemma or_read C k r : e_prog r = None -> exists m, 0 <= m /\
  eecr_or C k EERE r = Some (mkEep (e_ar r) (ee_read_byte C (e_cells r) (e_ar r)) (e_rie r) m None (e_cells r)).
Proof.
  intros P. unfold eecr_or, write_eecr, eecr, eep_cycles. cbn -[Z.max]. rewrite P.
  destruct (e_rie r), (0 <? Z.max 0 (e_mpe r - k)) eqn:E; cbn -[Z.max];
    (eexists; split; [|reflexivity]); lia.
Qed.
Lemma or_mpe C k r : e_prog r = None -> eecr_or C k EEMPE r = Some (mkEep (e_ar r) (e_dr r) (e_rie r) 4 None (e_cells r)).
Proof.
  intros P. unfold eecr_or, write_eecr, eecr, eep_cycles. cbn -[Z.max]. rewrite P.
  destruct (e_rie r), (0 <? Z.max 0 (e_mpe r - k)) eqn:E; cbn -[Z.max]; reflexivity.
Qed.
Lemma or_pe C k r : e_prog r = None -> exists m, 0 <= m /\
  eecr_or C k EEPE r = Some (mkEep (e_ar r) (e_dr r) (e_rie r) m (if k <? e_mpe r then Some (e_ar r, e_dr r) else None) (e_cells r)).
Proof.
  intros P. unfold eecr_or, write_eecr, eecr, eep_cycles. cbn -[Z.max]. rewrite P.
  assert (Q : (0 <? Z.max 0 (e_mpe r - k)) = (k <? e_mpe r)) by lia.
  destruct (e_rie r), (0 <? Z.max 0 (e_mpe r - k)) eqn:E; cbn -[Z.max]; rewrite ?E, <- Q; cbn -[Z.max];
    (eexists; split; [|reflexivity]); lia.
Qed.
Lemma or_rie C k r : exists m, 0 <= m /\ eecr_or C k EERIE r = Some (mkEep (e_ar r) (e_dr r) true m (e_prog r) (e_cells r)).
Proof.
  unfold eecr_or, write_eecr, eecr, eep_cycles. cbn -[Z.max].
  destruct (e_rie r), (0 <? Z.max 0 (e_mpe r - k)) eqn:E, (e_prog r); cbn -[Z.max]; rewrite ?E;
    (eexists; split; [|reflexivity]); lia.
Qed.
Lemma clear_rie C k r : exists m, 0 <= m /\ eecr_clear C k EERIE r = Some (mkEep (e_ar r) (e_dr r) false m (e_prog r) (e_cells r)).
Proof.
  unfold eecr_clear, write_eecr, eecr, eep_cycles. cbn -[Z.max].
  destruct (e_rie r), (0 <? Z.max 0 (e_mpe r - k)) eqn:E, (e_prog r); cbn -[Z.max]; rewrite ?E;
    (eexists; split; [|reflexivity]); lia.
Qed.

(** ** settings.c *)
Lemma isr_refines C k x r x1 : k <= 3 -> with_hw x r = x -> e_prog r = None -> ee_ready_isr C x = Some x1 ->
  exists x' r', ee_ready_isr_r C k x r = Some (x', r') /\ with_hw x' r' = x1.
Proof.
  intros K W P E. unfold ee_ready_isr in E. unfold ee_ready_isr_r. cbv zeta in *.
  assert (W1 : x_ee x = e_cells r) by (rewrite <- W; reflexivity). assert (W2 : x_eerie x = e_rie r) by (rewrite <- W; reflexivity).
  assert (W3 : x_busy x = e_prog r) by (rewrite <- W; reflexivity).
  destruct (_ && _); [|discriminate E]. destruct (zget _ _) as [d|]; [|discriminate E]. cbn [bind] in *. apply Some_inj in E.
  set (a := 64 * _ + _) in *. unfold write_eear. rewrite P. cbn [bind].
  edestruct (or_read C k (mkEep a (e_dr r) (e_rie r) (e_mpe r) None (e_cells r)) eq_refl) as (m1 & Q1 & ->). cbn [bind e_ar e_dr e_cells e_rie].
  rewrite W1 in E. destruct (ee_read_byte C (e_cells r) a =? d).
  - cbn [bind]. unfold SIZEOF_SETTINGS in *. destruct (64 <=? u8 (x_offset x + 1)).
    + edestruct (clear_rie C k (mkEep a (ee_read_byte C (e_cells r) a) (e_rie r) m1 None (e_cells r))) as (m2 & Q2 & ->). cbn [bind e_ar e_dr e_cells e_rie e_prog].
      eexists _, _. split; [reflexivity|]. subst x1. unfold with_hw, set_x_eerie, set_x_offset, set_x_busy, set_x_ee, set_x_cache, set_x_index, set_x_request. cbn. rewrite W1, W3, P. reflexivity.
    + cbn [bind]. eexists _, _. split; [reflexivity|]. subst x1. unfold with_hw, set_x_eerie, set_x_offset, set_x_busy, set_x_ee, set_x_cache, set_x_index, set_x_request. cbn. rewrite W1, W2, W3, P. reflexivity.
  - unfold write_eedr. cbn [bind e_prog e_ar e_dr e_cells e_rie e_mpe]. rewrite or_mpe by reflexivity. cbn [bind e_prog e_ar e_dr e_cells e_rie e_mpe].
    edestruct (or_pe C k (mkEep a d (e_rie r) 4 None (e_cells r)) eq_refl) as (m2 & Q2 & ->). cbn [bind e_prog e_ar e_dr e_cells e_rie e_mpe].
    replace (k <? 4) with true by lia. unfold SIZEOF_SETTINGS in *. destruct (64 <=? u8 (x_offset x + 1)).
    + edestruct (clear_rie C k (mkEep a d (e_rie r) m2 (Some (a, d)) (e_cells r))) as (m3 & Q3 & ->). cbn [bind e_ar e_dr e_cells e_rie e_prog].
      eexists _, _. split; [reflexivity|]. subst x1. unfold with_hw, set_x_eerie, set_x_offset, set_x_busy, set_x_ee, set_x_cache, set_x_index, set_x_request. cbn. rewrite W1. reflexivity.
    + cbn [bind]. eexists _, _. split; [reflexivity|]. subst x1. unfold with_hw, set_x_eerie, set_x_offset, set_x_busy, set_x_ee, set_x_cache, set_x_index, set_x_request. cbn. rewrite W1, W2. reflexivity.
Qed.
Lemma work_refines C k now x r : with_hw x r = x ->
  exists x' r', settings_work_r C k now x r = Some (x', r') /\ with_hw x' r' = settings_work C now x.
Proof.
  intros W. unfold settings_work, settings_work_r. destruct (x_request x); cbn [negb]; [|eauto]. destruct (timer_expired now (x_timer x)); cbn [negb]; [|eauto]. cbv zeta.
  assert (W1 : x_ee x = e_cells r) by (rewrite <- W; reflexivity). assert (W3 : x_busy x = e_prog r) by (rewrite <- W; reflexivity).
  destruct (or_rie C k r) as (m & Q & ->). cbn [bind]. eexists _, _. split; [reflexivity|]. unfold with_hw, set_x_eerie, set_x_offset, set_x_busy, set_x_ee, set_x_cache, set_x_index, set_x_request. cbn [e_cells e_rie e_prog].
  destruct (c_eering C); cbn; rewrite W1, W3; reflexivity.
Qed.
Lemma done_refines x r : with_hw x r = x -> with_hw x (eep_done r) = ee_prog_done x.
Proof.
  intros W. assert (W1 : x_ee x = e_cells r) by (rewrite <- W; reflexivity). assert (W2 : x_eerie x = e_rie r) by (rewrite <- W; reflexivity).
  assert (W3 : x_busy x = e_prog r) by (rewrite <- W; reflexivity). unfold ee_prog_done, eep_done. rewrite W3.
  destruct (e_prog r) as [(a, v)|]; [|exact W]. unfold with_hw, set_x_eerie, set_x_offset, set_x_busy, set_x_ee, set_x_cache, set_x_index, set_x_request. cbn. rewrite W1, W2. reflexivity.
Qed.

(** ** Boot *)
Definition still (r r' : eep) : Prop := e_rie r' = e_rie r /\ e_prog r' = None /\ e_cells r' = e_cells (eep_done r).
Lemma done_none r : e_prog r = None -> eep_done r = r.
Proof. unfold eep_done. intros ->. reflexivity. Qed.
Lemma done_prog r : e_prog (eep_done r) = None.
Proof. unfold eep_done. destruct (e_prog r) as [(a, v)|] eqn:E; [reflexivity|exact E]. Qed.
Lemma done_rie r : e_rie (eep_done r) = e_rie r.
Proof. unfold eep_done. destruct (e_prog r) as [(a, v)|] eqn:E; reflexivity. Qed.
Lemma still_trans a b c : still a b -> still b c -> still a c.
Proof. intros (A1 & A2 & A3) (B1 & B2 & B3). rewrite (done_none b A2) in B3. repeat split; congruence. Qed.
Lemma read_refines C k a r : exists r', ee_read_byte_r C k a r = Some (ee_read_byte C (e_cells (eep_done r)) a, r') /\ still r r'.
Proof.
  unfold ee_read_byte_r. cbv zeta. unfold write_eear. rewrite done_prog. cbn [bind].
  edestruct (or_read C k (mkEep a (e_dr (eep_done r)) (e_rie (eep_done r)) (e_mpe (eep_done r)) None (e_cells (eep_done r))) eq_refl) as (m & Q & ->). cbn [bind e_ar e_dr e_cells e_rie e_prog].
  eexists. split; [reflexivity|]. unfold still. cbn. rewrite done_rie. auto.
Qed.
Fixpoint cells_from (f : Z -> Z) (a : Z) (n : nat) : list Z := match n with O => [] | S n => f a :: cells_from f (a + 1) n end.
Lemma cells_nth f n : forall a i, (i < n)%nat -> nth i (cells_from f a n) 0 = f (a + Z.of_nat i).
Proof.
  induction n as [|n IH]; intros a i H; [lia|]. destruct i as [|i]; cbn [cells_from nth]; [f_equal; lia|]. rewrite IH by lia. f_equal. lia.
Qed.
Lemma block_refines C k n : forall a r, exists r', ee_read_block_r C k a n r = Some (cells_from (ee_read_byte C (e_cells (eep_done r))) a n, r') /\
  (n <> O -> still r r') /\ (n = O -> r' = r).
Proof.
  induction n as [|n IH]; intros a r; [exists r; repeat split; congruence|]. cbn [ee_read_block_r].
  destruct (read_refines C k a r) as (r1 & -> & S1). cbn [bind]. destruct (IH (a + 1) r1) as (r2 & -> & S2 & S3). cbn [bind].
  exists r2. split; [|split; [|discriminate]].
  - destruct S1 as (_ & A2 & A3). rewrite (done_none r1 A2), A3. reflexivity.
  - intros _. destruct n as [|n]; [rewrite (S3 eq_refl); exact S1|]. eapply still_trans; [exact S1|apply S2; discriminate].
Qed.
Lemma scan_refines C k fuel : forall i s r found, ee_scan C (e_cells (eep_done r)) fuel i s = Some found ->
  exists r', ee_scan_r C k fuel i s r = Some (found, r') /\ still r r'.
Proof.
  induction fuel as [|f IH]; intros i s r found E; [discriminate E|]. cbn [ee_scan ee_scan_r] in *. cbv zeta in *.
  destruct (read_refines C k (64 * ring_next i (u8 (NR_EE_SETTINGS C + 1)) + 63) r) as (r1 & -> & S1). cbn [bind].
  destruct (negb (_ =? Z.land _ _)); [apply Some_inj in E; subst found; eauto|].
  destruct (negb (_ =? 0)); [|apply Some_inj in E; subst found; eauto].
  assert (Q : e_cells (eep_done r1) = e_cells (eep_done r)) by (destruct S1 as (_ & A2 & A3); rewrite (done_none r1 A2); exact A3).
  rewrite <- Q in E at 1. apply (IH _ _ r1) in E. destruct E as (r2 & -> & S2). exists r2. split; [reflexivity|]. eapply still_trans; eassumption.
Qed.
Lemma init_refines C k r x : settings_init C (e_cells (eep_done r)) = Some x ->
  exists l r', settings_init_r C k r = Some (x_index x, l, r') /\ still r r' /\
    x_cache x = settings_of (fun i => nth (Z.to_nat i) l 0) /\ length l = 64%nat.
Proof.
  intros E. unfold settings_init in E. unfold settings_init_r.
  destruct (c_eering C) eqn:Er.
  - destruct (read_refines C k 63 r) as (r1 & -> & S1). cbn [bind].
    assert (Q : e_cells (eep_done r1) = e_cells (eep_done r)) by (destruct S1 as (_ & A2 & A3); rewrite (done_none r1 A2); exact A3).
    destruct (ee_scan C (e_cells (eep_done r)) 300 0 (ee_read_byte C (e_cells (eep_done r)) 63)) as [found|] eqn:Es; [|discriminate E]. cbn [bind] in E. cbv zeta in E. apply Some_inj in E.
    rewrite <- Q in Es at 1. destruct (scan_refines C k _ _ _ r1 found Es) as (r2 & -> & S2). cbn [bind].
    pose proof (still_trans _ _ _ S1 S2) as S3. destruct (block_refines C k 64 (64 * found) r2) as (r3 & -> & S4 & _). cbn [bind].
    assert (Q2 : e_cells (eep_done r2) = e_cells (eep_done r)) by (destruct S3 as (_ & A2 & A3); rewrite (done_none r2 A2); exact A3).
    eexists _, r3. split; [subst x; reflexivity|]. split; [eapply still_trans; [exact S3|apply S4; discriminate]|]. split; [|reflexivity].
    subst x. cbn [x_cache]. apply settings_of_ext. intros i Hi. rewrite cells_nth by lia. rewrite Q2, Z2Nat.id by lia. reflexivity.
  - cbn [bind] in E. cbv zeta in E. apply Some_inj in E. cbn [bind]. destruct (block_refines C k 64 (64 * 0) r) as (r3 & -> & S4 & _). cbn [bind].
    eexists _, r3. split; [subst x; reflexivity|]. split; [apply S4; discriminate|]. split; [|reflexivity].
    subst x. cbn [x_cache]. apply settings_of_ext. intros i Hi. rewrite cells_nth by lia. rewrite Z2Nat.id by lia. reflexivity.
Qed.
Lemma init_total_r C k r : build_conf C -> exists i l r', settings_init_r C k r = Some (i, l, r').
Proof.
  intros HC. assert (T : exists x, settings_init C (e_cells (eep_done r)) = Some x).
  { destruct HC as [(E & N & _)|(E & _)]; [exact (init_total C _ N)|]. unfold settings_init. rewrite E. cbn. eauto. }
  destruct T as (x & E). destruct (init_refines C k r x E) as (l & r' & Q & _). eauto.
Qed.
Lemma init_shape C ee x : settings_init C ee = Some x -> x_ee x = ee /\ x_eerie x = false /\ x_busy x = None.
Proof. unfold settings_init. destruct (if c_eering C then _ else _); [|discriminate]. cbn [bind]. cbv zeta. intros E. apply Some_inj in E. subst x. auto. Qed.

(** ** The firmware *)
Record hwinv (C : conf) (y : sys) (r : eep) : Prop := mkHwinv { v_reach : reach C y; v_hw : with_hw (y_set y) r = y_set y }.
Lemma hwinv_start C k y r0 i l r : reach C y -> settings_init C (e_cells (eep_done r0)) = Some (y_set y) -> e_rie r0 = false ->
  settings_init_r C k r0 = Some (i, l, r) ->
  hwinv C y r /\ i = x_index (y_set y) /\ x_cache (y_set y) = settings_of (fun i => nth (Z.to_nat i) l 0).
Proof.
  intros R E Ri Er. destruct (init_refines C k r0 _ E) as (l' & r' & Q & (S1 & S2 & S3) & Q2 & _). rewrite Er in Q. apply Some_inj in Q. injection Q as -> -> ->.
  destruct (init_shape C _ _ E) as (A1 & A2 & A3). split; [|auto]. constructor; [exact R|]. unfold with_hw. rewrite S1, S2, S3, Ri.
  destruct (y_set y); cbn in *; congruence.
Qed.
Lemma set_set y : set_y_set y (y_set y) = y.
Proof. destruct y; reflexivity. Qed.
Lemma step_irq_r C k y r : build_conf C -> k <= 3 -> hwinv C y r -> ready_request r = true ->
  exists x' r', ee_ready_isr_r C k (y_set y) r = Some (x', r') /\ step C y EReady = Some (set_y_set y (with_hw x' r')) /\ hwinv C (set_y_set y (with_hw x' r')) r'.
Proof.
  intros HC K [R W] Q. unfold ready_request in Q. apply andb_true_iff in Q. destruct Q as (Q1 & Q2). destruct (e_prog r) eqn:P; [discriminate Q2|].
  assert (W2 : x_eerie (y_set y) = true) by (rewrite <- W; exact Q1). assert (W3 : x_busy (y_set y) = None) by (rewrite <- W; exact P).
  destruct (step_ok relaxed C y EReady HC bok_relaxed (reach_s4 C y HC R) Logic.I) as (y1 & E & _).
  pose proof E as E0. cbn [step] in E. rewrite W2, W3 in E. destruct (ee_ready_isr C (y_set y)) as [x1|] eqn:E1; [|discriminate E]. cbn [bind] in E. apply Some_inj in E.
  destruct (isr_refines C k (y_set y) r x1 K W P E1) as (x' & r' & A & B). exists x', r'. split; [exact A|]. rewrite B, E. split; [exact E0|].
  constructor; [exact (reach_step C y EReady y1 R Logic.I E0)|]. subst y1. cbn. rewrite <- B. reflexivity.
Qed.
Lemma step_done_r C y r : hwinv C y r ->
  step C y EDone = Some (set_y_set y (with_hw (y_set y) (eep_done r))) /\ hwinv C (set_y_set y (with_hw (y_set y) (eep_done r))) (eep_done r).
Proof.
  intros [R W]. pose proof (done_refines (y_set y) r W) as D. assert (E : step C y EDone = Some (set_y_set y (with_hw (y_set y) (eep_done r)))) by (cbn [step]; congruence).
  split; [exact E|]. constructor; [exact (reach_step C y EDone _ R Logic.I E)|]. reflexivity.
Qed.
Lemma step_work_r C k y r : hwinv C y r -> ev_ok C y ESettings ->
  exists x' r', settings_work_r C k (y_now y) (y_set y) r = Some (x', r') /\ step C y ESettings = Some (set_y_set y (with_hw x' r')) /\ hwinv C (set_y_set y (with_hw x' r')) r'.
Proof.
  intros [R W] O. destruct (work_refines C k (y_now y) (y_set y) r W) as (x' & r' & A & B). exists x', r'. split; [exact A|].
  assert (E : step C y ESettings = Some (set_y_set y (with_hw x' r'))) by (cbn [step]; unfold sys_settings_work; congruence).
  split; [exact E|]. constructor; [exact (reach_step C y ESettings _ R O E)|]. reflexivity.
Qed.
Lemma step_other_r C y r e y' : build_conf C -> hwinv C y r -> ev_ok C y e -> step C y e = Some y' -> ee_event e = false -> hwinv C y' r.
Proof.
  intros HC [R W] O E N. constructor; [exact (reach_step C y e y' R O E)|]. destruct (reach_s4 C y HC R) as [I _ _ _].
  assert (U : is_u16 (y_now y)) by exact (i_now _ _ _ I).
  destruct (step_set C y e y' U ltac:(destruct e; try reflexivity; discriminate N) E) as (_ & Kd).
  destruct Kd as [A|s A A2|A|d A|A]; try (subst e; discriminate N).
  - rewrite A. exact W.
  - rewrite A2. unfold stored, with_hw, set_x_timer, set_x_request, set_x_cache in *. destruct (y_set y); cbn in *; congruence.
Qed.
Lemma eerun_inv C k y r : build_conf C -> k <= 3 -> eerun C k y r -> hwinv C y r.
Proof.
  intros HC K D. induction D as [pinb y ar dr i l r Hp E Er|y r x' r' D IH Q E|y r D IH|y r x' r' D IH O E|y r n D IH Hn|y r e y' D IH O E N|y r v pinb y' ar dr i l r' D IH O E Er|y r pinb y' ar dr i l r' D IH O E Er].
  - refine (proj1 (hwinv_start C k y _ i l r (reach_boot C pinb y Hp E) _ _ Er)); [exact (boot_set C y pinb HC E)|reflexivity].
  - destruct (step_irq_r C k y r HC K IH Q) as (x1 & r1 & A & _ & B). rewrite E in A. apply Some_inj in A. injection A as -> ->. exact B.
  - apply (step_done_r C y r IH).
  - destruct (step_work_r C k y r IH O) as (x1 & r1 & A & _ & B). rewrite E in A. apply Some_inj in A. injection A as -> ->. exact B.
  - destruct IH as [R W]. constructor; [exact R|exact W].
  - exact (step_other_r C y r e y' HC IH O E N).
  - destruct IH as [R W]. pose proof (power_set C y v pinb y' HC R O E) as P. unfold ee_after_crash in P.
    assert (W1 : x_ee (y_set y) = e_cells r) by (rewrite <- W; reflexivity). assert (W3 : x_busy (y_set y) = e_prog r) by (rewrite <- W; reflexivity).
    rewrite W1, W3 in P. refine (proj1 (hwinv_start C k y' _ i l r' (reach_step C y _ y' R O E) _ _ Er)); [|reflexivity]. exact P.
  - destruct IH as [R W]. pose proof (power_set C y _ pinb y' HC R O E) as P. unfold ee_after_crash in P.
    assert (W1 : x_ee (y_set y) = e_cells r) by (rewrite <- W; reflexivity). assert (W3 : x_busy (y_set y) = e_prog r) by (rewrite <- W; reflexivity).
    rewrite W1, W3 in P. refine (proj1 (hwinv_start C k y' _ i l r' (reach_step C y _ y' R O E) _ _ Er)); [|reflexivity].
    unfold eep_reset, eep_done, programmed in *. cbn. destruct (e_prog r) as [(a, w)|]; exact P.
Qed.

(** ** The statements *)
Lemma ee_refines C k y r : build_conf C -> k <= 3 -> eerun C k y r ->
  reach C y /\ x_ee (y_set y) = e_cells r /\ x_eerie (y_set y) = e_rie r /\ x_busy (y_set y) = e_prog r.
Proof. intros HC K D. destruct (eerun_inv C k y r HC K D) as [R W]. split; [exact R|]. rewrite <- W. cbn. auto. Qed.
Lemma ee_progress C k y r : build_conf C -> k <= 3 -> eerun C k y r ->
  (ready_request r = true -> exists x' r', ee_ready_isr_r C k (y_set y) r = Some (x', r') /\ step C y EReady = Some (set_y_set y (with_hw x' r'))) /\
  (ready_request r = false -> step C y EReady = Some y) /\
  step C y EDone = Some (set_y_set y (with_hw (y_set y) (eep_done r))) /\
  (exists x' r', settings_work_r C k (y_now y) (y_set y) r = Some (x', r') /\ step C y ESettings = Some (set_y_set y (with_hw x' r'))) /\
  (forall ar dr, exists i l r', settings_init_r C k (eep_reset ar dr r) = Some (i, l, r')).
Proof.
  intros HC K D. pose proof (eerun_inv C k y r HC K D) as I. repeat apply conj.
  - intros Q. destruct (step_irq_r C k y r HC K I Q) as (x' & r' & A & B & _). eauto.
  - intros Q. destruct I as [R W]. cbn [step]. rewrite <- W. cbn [with_hw x_eerie x_busy]. unfold ready_request in Q. destruct (e_rie r); [|reflexivity]. destruct (e_prog r); [reflexivity|discriminate Q].
  - apply (step_done_r C y r I).
  - destruct I as [R W]. destruct (work_refines C k (y_now y) (y_set y) r W) as (x' & r' & A & B). exists x', r'. split; [exact A|]. cbn [step]. unfold sys_settings_work. congruence.
  - intros ar dr. apply init_total_r. exact HC.
Qed.
(** What the interrupt does to the EEPROM *)
Lemma ee_irq C k y r x' r' : build_conf C -> k <= 3 -> eerun C k y r -> ready_request r = true -> ee_ready_isr_r C k (y_set y) r = Some (x', r') ->
  exists d, let a := 64 * (if c_eering C then x_index (y_set y) else 0) + x_offset (y_set y) in
    zget (settings_bytes (x_cache (y_set y))) (x_offset (y_set y)) = Some d /\ 0 <= a < 64 * c_slots C /\
    e_cells r' = e_cells r /\ e_prog r' = (if e_cells r a =? d then None else Some (a, d)).
Proof.
  intros HC K D Q E. pose proof (eerun_inv C k y r HC K D) as [R W]. destruct (reach_s4 C y HC R) as [I _ _ _].
  unfold ee_ready_isr_r in E. cbv zeta in *. unfold ready_request in Q. apply andb_true_iff in Q. destruct Q as (Q1 & Q2). destruct (e_prog r) eqn:P; [discriminate Q2|].
  destruct (_ && _) eqn:B; [|discriminate E]. destruct (zget _ _) as [d|] eqn:Ed; [|discriminate E]. cbn [bind] in *. exists d. split; [reflexivity|].

  assert (Wf : settings_wf (x_cache (y_set y))) by (destruct (i_set _ _ _ I) as (_ & Rg & _); eapply rng_wf; exact Rg).
  assert (Ho : 0 <= x_offset (y_set y) < 64).
  { unfold zget in Ed. destruct (x_offset (y_set y) <? 0) eqn:L; [discriminate Ed|]. assert (N : nth_error (settings_bytes (x_cache (y_set y))) (Z.to_nat (x_offset (y_set y))) <> None) by congruence.
    apply nth_error_Some in N. rewrite settings_bytes_len in N by exact Wf. lia. }
  assert (Ha : 0 <= 64 * (if c_eering C then x_index (y_set y) else 0) + x_offset (y_set y) < 64 * c_slots C).
  { unfold NR_EE_SETTINGS in B. destruct HC as [(Er & _)|(Er & Hs)]; rewrite Er in *; lia. }
  split; [exact Ha|]. revert E Ha. generalize (64 * (if c_eering C then x_index (y_set y) else 0) + x_offset (y_set y)) as a. intros a E Ha. unfold write_eear in E. rewrite P in E. cbn [bind] in E.
  edestruct (or_read C k (mkEep a (e_dr r) (e_rie r) (e_mpe r) None (e_cells r)) eq_refl) as (m1 & Q3 & A1). rewrite A1 in E. clear A1. cbn [bind e_ar e_dr e_cells e_rie] in E.
  rewrite ee_read_in in E by exact Ha. destruct (e_cells r a =? d).
  - cbn [bind] in E. destruct (SIZEOF_SETTINGS <=? _).
    + edestruct (clear_rie C k (mkEep a (e_cells r a) (e_rie r) m1 None (e_cells r))) as (m2 & Q4 & A2). rewrite A2 in E. cbn in E. apply Some_inj in E. injection E as <- <-. auto.
    + cbn in E. apply Some_inj in E. injection E as <- <-. auto.
  - unfold write_eedr in E. cbn [bind e_prog e_ar e_dr e_cells e_rie e_mpe] in E. rewrite or_mpe in E by reflexivity. cbn [bind e_prog e_ar e_dr e_cells e_rie e_mpe] in E.
    edestruct (or_pe C k (mkEep a d (e_rie r) 4 None (e_cells r)) eq_refl) as (m2 & Q4 & A2). rewrite A2 in E. cbn [bind e_prog e_ar e_dr e_cells e_rie e_mpe] in E.
    replace (k <? 4) with true in E by lia. destruct (SIZEOF_SETTINGS <=? _).
    + edestruct (clear_rie C k (mkEep a d (e_rie r) m2 (Some (a, d)) (e_cells r))) as (m3 & Q5 & A3). rewrite A3 in E. cbn in E. apply Some_inj in E. injection E as <- <-. auto.
    + cbn in E. apply Some_inj in E. injection E as <- <-. auto.
Qed.
(** With an access of four cycles or more the EEPROM ignores the request. *)
Lemma ee_slow C k x r x' r' : 4 <= k -> ee_ready_isr_r C k x r = Some (x', r') -> e_prog r' = None /\ e_cells r' = e_cells r.
Proof.
  intros K E. unfold ee_ready_isr_r in E. cbv zeta in E. destruct (_ && _); [|discriminate E]. destruct (zget _ _) as [d|]; [|discriminate E]. cbn [bind] in E.
  revert E. generalize (64 * (if c_eering C then x_index x else 0) + x_offset x) as a. intros a E. unfold write_eear in E. destruct (e_prog r) eqn:P; [discriminate E|]. cbn [bind] in E.
  edestruct (or_read C k (mkEep a (e_dr r) (e_rie r) (e_mpe r) None (e_cells r)) eq_refl) as (m1 & Q3 & A1). rewrite A1 in E. clear A1. cbn [bind e_ar e_dr e_cells e_rie] in E.
  destruct (ee_read_byte C (e_cells r) a =? d).
  - cbn [bind] in E. destruct (SIZEOF_SETTINGS <=? _).
    + edestruct (clear_rie C k (mkEep a (ee_read_byte C (e_cells r) a) (e_rie r) m1 None (e_cells r))) as (m2 & Q4 & A2). rewrite A2 in E. cbn in E. apply Some_inj in E. injection E as <- <-. auto.
    + cbn in E. apply Some_inj in E. injection E as <- <-. auto.
  - unfold write_eedr in E. cbn [bind e_prog e_ar e_dr e_cells e_rie e_mpe] in E. rewrite or_mpe in E by reflexivity. cbn [bind e_prog e_ar e_dr e_cells e_rie e_mpe] in E.
    edestruct (or_pe C k (mkEep a d (e_rie r) 4 None (e_cells r)) eq_refl) as (m2 & Q4 & A2). rewrite A2 in E. cbn [bind e_prog e_ar e_dr e_cells e_rie e_mpe] in E.
    replace (k <? 4) with false in E by lia. destruct (SIZEOF_SETTINGS <=? _).
    + edestruct (clear_rie C k (mkEep a d (e_rie r) m2 None (e_cells r))) as (m3 & Q5 & A3). rewrite A3 in E. cbn in E. apply Some_inj in E. injection E as <- <-. auto.
    + cbn in E. apply Some_inj in E. injection E as <- <-. auto.
Qed.
Lemma isr_defined C k x r x1 : e_prog r = None -> ee_ready_isr C x = Some x1 -> exists x' r', ee_ready_isr_r C k x r = Some (x', r').
Proof.
  intros P E. unfold ee_ready_isr in E. unfold ee_ready_isr_r. cbv zeta in *.
  destruct (_ && _); [|discriminate E]. destruct (zget _ _) as [d|]; [|discriminate E]. cbn [bind] in *. clear E.
  generalize (64 * (if c_eering C then x_index x else 0) + x_offset x) as a. intros a. unfold write_eear. rewrite P. cbn [bind].
  edestruct (or_read C k (mkEep a (e_dr r) (e_rie r) (e_mpe r) None (e_cells r)) eq_refl) as (m1 & Q1 & ->). cbn [bind e_ar e_dr e_cells e_rie].
  assert (T : forall r, exists r', (if SIZEOF_SETTINGS <=? u8 (x_offset x + 1) then eecr_clear C k EERIE r else Some r) = Some r').
  { intros q. destruct (_ <=? _); [|eauto]. destruct (clear_rie C k q) as (m & _ & ->). eauto. }
  destruct (ee_read_byte C (e_cells r) a =? d).
  - cbn [bind]. edestruct T as (r' & ->). cbn. eauto.
  - unfold write_eedr. cbn [bind e_prog e_ar e_dr e_cells e_rie e_mpe]. rewrite or_mpe by reflexivity. cbn [bind e_prog e_ar e_dr e_cells e_rie e_mpe].
    edestruct (or_pe C k (mkEep a d (e_rie r) 4 None (e_cells r)) eq_refl) as (m2 & Q2 & ->). cbn [bind]. edestruct T as (r' & ->). cbn. eauto.
Qed.
Lemma ee_late C k k' y r : build_conf C -> k <= 3 -> eerun C k y r -> ready_request r = true -> 4 <= k' ->
  exists x' r', ee_ready_isr_r C k' (y_set y) r = Some (x', r') /\ e_prog r' = None /\ e_cells r' = e_cells r.
Proof.
  intros HC K D Q K'. destruct (eerun_inv C k y r HC K D) as [R W]. unfold ready_request in Q. apply andb_true_iff in Q. destruct Q as (Q1 & Q2). destruct (e_prog r) eqn:P; [discriminate Q2|].
  assert (W2 : x_eerie (y_set y) = true) by (rewrite <- W; exact Q1). assert (W3 : x_busy (y_set y) = None) by (rewrite <- W; exact P).
  destruct (step_ok relaxed C y EReady HC bok_relaxed (reach_s4 C y HC R) Logic.I) as (y1 & E & _). cbn [step] in E. rewrite W2, W3 in E.
  destruct (ee_ready_isr C (y_set y)) as [x1|] eqn:E1; [|discriminate E]. destruct (isr_defined C k' (y_set y) r x1 P E1) as (x' & r' & A). exists x', r'. split; [exact A|].
  exact (ee_slow C k' (y_set y) r x' r' K' A).
Qed.
(** Boot reads the settings of the cells as they are when the byte being programmed is finished. *)
Lemma ee_boot C k r : build_conf C -> exists x l r', settings_init C (e_cells (eep_done r)) = Some x /\
  settings_init_r C k r = Some (x_index x, l, r') /\ settings_of (fun i => nth (Z.to_nat i) l 0) = x_cache x /\
  e_cells r' = e_cells (eep_done r) /\ e_prog r' = None.
Proof.
  intros HC. assert (T : exists x, settings_init C (e_cells (eep_done r)) = Some x).
  { destruct HC as [(E & N & _)|(E & _)]; [exact (init_total C _ N)|]. unfold settings_init. rewrite E. cbn. eauto. }
  destruct T as (x & E). destruct (init_refines C k r x E) as (l & r' & Q & (_ & S2 & S3) & Q2 & _). exists x, l, r'. auto.
Qed.
(** Every execution of [reach] occurs. *)
Lemma ee_every C k y : build_conf C -> k <= 3 -> reach C y -> exists r, eerun C k y r.
Proof.
  intros HC K R. induction R as [pinb y Hp E|y e y' R IH O E].
  - destruct (init_total_r C k (mkEep 0 0 false 0 None (factory_ee C)) HC) as (i & l & r & Q). exists r. eapply er_boot; eassumption.
  - destruct IH as (r & D). pose proof (eerun_inv C k y r HC K D) as I. destruct (ee_event e) eqn:N.
    + destruct e; try discriminate N.
      * destruct (ready_request r) eqn:Q.
        -- destruct (step_irq_r C k y r HC K I Q) as (x' & r' & A & B & _). rewrite E in B. apply Some_inj in B. subst y'. exists r'. eapply er_irq; eassumption.
        -- destruct (ee_progress C k y r HC K D) as (_ & P & _). rewrite (P Q) in E. apply Some_inj in E. subst y'. eauto.
      * destruct (step_done_r C y r I) as (B & _). rewrite E in B. apply Some_inj in B. subst y'. exists (eep_done r). apply er_done. exact D.
      * destruct (step_work_r C k y r I O) as (x' & r' & A & B & _). rewrite E in B. apply Some_inj in B. subst y'. exists r'. eapply er_work; eassumption.
      * destruct (init_total_r C k (mkEep 0 0 false 0 None (match e_prog r with Some (a, _) => fupd (e_cells r) a v | None => e_cells r end)) HC) as (i & l & r' & Q).
        exists r'. eapply er_power; eassumption.
    + exists r. eapply er_other; eassumption.
Qed.
