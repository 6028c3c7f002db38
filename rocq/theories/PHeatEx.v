(** * Concrete executions with the heater pin *)
From Coq Require Import ZArith List Bool Lia ZifyBool.
From Verif Require Import Base PBase MConf MTimer MPid MPwm MCurr MSettings SpecSettings MState MTemp MMeas MMenu MMain SpecSys SpecRun SpecUI SpecLive SpecLoop
  Trace TraceLoop PSettingsEx PLoopEx MFine SpecFine PFine8 PFineEx PSysTrace MHeat SpecHeat PHeat PHeat2.
Import ListNotations.
Open Scope Z_scope.

Lemma ftick C y : fnext C y ETick (sys_tick y).
Proof. split; [exact Logic.I|]. exists []. reflexivity. Qed.
(** A state reached may last: [n] units with nothing but ticks *)
Lemma lasting C (Q : sys -> Prop) y o n : freach C y -> Q y -> (forall y, Q y -> cc_ocr (y_cc y) = o /\ Q (sys_tick y)) -> 0 <= n ->
  exists y' h u l, fwired C y' h u l /\ Q y' /\ lately n Q l.
Proof.
  intros R H T N. destruct (phase _ _ (fun y => cc_ocr (y_cc y)) y (freach_runs C y R) 0) as (h & l & W & S & _); [lia|].
  destruct (idle_ticks (ffirst C) (fnext C) (fun y => cc_ocr (y_cc y)) Q o) with (n := Z.to_nat n) (x := y) (h := h) (u := 0) (l := l) as (y' & u' & l' & W' & Q' & U' & Z' & F'); [|exact W|exact H|lia|].
  { intros x QX. destruct (T x QX) as (A & B). split; [exact A|]. exists (sys_tick x). split; [apply ftick|exact B]. }
  exists y', (units (Z.to_nat n) o h), u', (l' ++ l). split; [exact W'|]. split; [exact Q'|]. split; [rewrite zlen_app; pose proof (zlen_nonneg _ l); lia|].
  rewrite ztake_app_l by lia. apply Forall_forall. intros s I. rewrite Forall_forall in F'. apply F'. eapply ztake_In. exact I.
Qed.
Lemma ftoo_hot_tick C y : ftoo_hot C y -> ftoo_hot C (sys_tick y).
Proof. intros H. eapply fhot_still; [exact H|apply ftick|reflexivity|]. intros r (X & _). discriminate X. Qed.

(** Waiting for a number of ticks with the compare register at [o] *)
Fixpoint wait (n : nat) (o : Z) (y : sys) : option sys :=
  match n with
  | O => Some y
  | S n => if cc_ocr (y_cc y) =? o then wait n o (sys_tick y) else None
  end.
Lemma wait_ok C o n : forall y y' h l, wait n o y = Some y' -> fwired C y h 0 l -> exists l', fwired C y' (units (126 * n) o h) 0 l'.
Proof.
  induction n as [|n IH]; intros y y' h l E W.
  - cbn [wait] in E. injection E as <-. exists l. exact W.
  - cbn [wait] in E. destruct (cc_ocr (y_cc y) =? o) eqn:O; [|discriminate E].
    destruct (wait_tick _ _ (fun y => cc_ocr (y_cc y)) y (sys_tick y) (ftick C y) 125 h 0 l W eq_refl) as (l1 & W1).
    apply Z.eqb_eq in O. rewrite O in W1. destruct (IH _ _ _ _ E W1) as (l2 & W2). exists l2.
    replace (126 * S n)%nat with (126 + 126 * n)%nat by lia. rewrite units_app. exact W2.
Qed.
Lemma wait_reach C o n : forall y y', freach C y -> wait n o y = Some y' -> freach C y'.
Proof.
  induction n as [|n IH]; intros y y' R E; cbn [wait] in E; [injection E as <-; exact R|]. destruct (_ =? o); [|discriminate E].
  apply (IH (sys_tick y)); [|exact E]. eapply freach_step; [exact R|apply ftick].
Qed.
(** Up to the end of the period the effective value stays *)
Lemma units_keep n o c : forall h, settled c h -> pos h + Z.of_nat n <= 32767 -> settled c (units n o h).
Proof.
  induction n as [|n IH]; intros h S H; cbn [units]; [exact S|]. destruct S as ((P & T) & M & N).
  destruct (unit_next o h P T) as (Q & M' & P' & T' & N'); [lia|]. apply IH; [|lia].
  split; [split; assumption|]. rewrite M', N', N, Q, M. split; [reflexivity|]. destruct (pos h =? 4 * c + 3) eqn:E1; lia.
Qed.

(** Full power; a hot conversion comes in; 300 ticks later, just after the beginning of a period, measure_work
    finds 486 degrees. *)
Lemma hot_state : exists y y1 y2, freach conf_m88p y /\ wait 300 0 y = Some y1 /\ fstep conf_m88p y1 EMeasure [] = Some y2 /\
  freach conf_m88p y1 /\ temp_processed y1 EMeasure y2 (t_feedback (y_ct y2)) /\ 480 * 64 < t_feedback (y_ct y2).
Proof.
  destruct (fthen_ok conf_m88p (plainly (ticks 51 ++ [EAdc 250]) ++ [(EMeasure, busy 3)] ++ plainly (curr_cycle 0 ++ temp_cycle 250 ++ curr_cycle 0 ++ ticks 51)) (EAdc 415) []
    (fun _ y => match wait 300 0 y with
       | Some y1 => m_avail (y_meas y1) && (m_chan (y_meas y1) =? 1) && t_enabled (y_ct y1) &&
           match fstep conf_m88p y1 EMeasure [] with Some y2 => negb (t_emerg (y_ct y2)) && (30720 <? t_feedback (y_ct y2)) | None => false end
       | None => false end)) as (y0 & y & R & O & E & P); [vm_compute; reflexivity|].
  assert (Ry : freach conf_m88p y) by (eapply freach_step; [exact R|]; split; [exact O|exists []; exact E]).
  destruct (wait 300 0 y) as [y1|] eqn:W; [|discriminate P].
  pose proof (wait_reach conf_m88p 0 300 y y1 Ry W) as R1.
  apply andb_true_iff in P. destruct P as (P & P2). destruct (fstep conf_m88p y1 EMeasure []) as [y2|] eqn:E2; [|discriminate P2].
  exists y, y1, y2. repeat (apply andb_true_iff in P; destruct P as (P & ?)). apply andb_true_iff in P2. destruct P2 as (P2 & P3).
  split; [exact Ry|]. split; [exact W|]. split; [exact E2|]. split; [exact R1|]. split; [|lia].
  unfold temp_processed. repeat split; try assumption; try lia. destruct (t_emerg (y_ct y2)); [discriminate|reflexivity].
Qed.
Lemma hot_case : exists y, ftoo_hot conf_m88p y.
Proof.
  destruct hot_state as (y & y1 & y2 & R & W & E & R1 & T & B). exists y2. eapply fhot_now; [exact R1| |exact T|exact B]. split; [exact Logic.I|exists []; exact E].
Qed.
(** C84: no immediate effect. *)
Lemma late : exists y h u l, fwired conf_m88p y h u l /\ lately 32763 (ftoo_hot conf_m88p) l /\ w_pin h = false.
Proof.
  destruct hot_state as (y & y1 & y2 & R & W & E & R1 & T & B).
  destruct (phase _ _ (fun y => cc_ocr (y_cc y)) y (freach_runs conf_m88p y R) 27740) as (h & l & Wi & S & Q); [lia|].
  destruct (wait_ok conf_m88p 0 300 y y1 h l W Wi) as (l1 & W1).
  assert (N0 : Z.of_nat (126 * 300) = 37800) by lia.
  destruct (units_sane (126 * 300) 0 h S) as (_ & P1).
  pose proof (units_settle (126 * 300) 0 ltac:(lia) h S ltac:(lia)) as S1. rewrite N0, Q in P1. change ((27740 + 37800) mod 32768) with 4 in P1.
  set (h1 := units (126 * 300) 0 h) in *. clearbody h1. clear N0.
  assert (N : fnext conf_m88p y1 EMeasure y2) by (split; [exact Logic.I|exists []; exact E]).
  pose proof (wi_event _ _ _ _ _ _ _ _ _ W1 N ltac:(discriminate) eq_refl) as W2.
  assert (H2 : ftoo_hot conf_m88p y2) by (eapply fhot_now; eassumption).
  destruct (idle_ticks (ffirst conf_m88p) (fnext conf_m88p) (fun y => cc_ocr (y_cc y)) (ftoo_hot conf_m88p) 8191) with (n := Z.to_nat 32763) (x := y2) (h := h1) (u := 0) (l := l1) as (y' & u' & l' & W' & Q' & U' & Z' & F'); [|exact W2|exact H2|lia|].
  { intros x QX. split; [apply (f_too_hot conf_m88p x); [exact build_m88p|exact QX]|]. exists (sys_tick x). split; [apply ftick|apply ftoo_hot_tick; exact QX]. }
  destruct (units_sane (Z.to_nat 32763) 8191 h1 (proj1 S1)) as (_ & PP).
  destruct (units_keep (Z.to_nat 32763) 8191 0 h1 S1) as (_ & _ & PN); [lia|].
  exists y', (units (Z.to_nat 32763) 8191 h1), u', (l' ++ l1). split; [exact W'|]. split.
  - split; [rewrite zlen_app; pose proof (zlen_nonneg _ l1); lia|]. rewrite ztake_app_l by lia. apply Forall_forall. intros s I. rewrite Forall_forall in F'. apply F'. eapply ztake_In. exact I.
  - rewrite PN, PP, P1. lia.
Qed.

(** A failed sensor: the heater is driven for almost a tenth of the time, for ever. *)
Lemma dead_tick C y : fdead C y -> t_emerg (y_ct y) = true -> fdead C (sys_tick y).
Proof. intros D T. eapply fdead_step; [exact D|apply ftick|reflexivity|exact T]. Qed.
Lemma dead_heats : exists y h u l, fwired conf_m88p y h u l /\ lately (2 * PERIOD) (fdead conf_m88p) l /\ on_units PERIOD l = 3276.
Proof.
  destruct refute29 as (y & D & O). apply dead_fdead in D.
  pose proof build_m88p as HC.
  destruct (lasting conf_m88p (fun y => fdead conf_m88p y /\ cc_ocr (y_cc y) = 7372) y 7372 (2 * PERIOD)) as (y' & h & u & l & W & (D' & O') & L).
  - exact (proj1 (fdead_inv conf_m88p y HC D)).
  - auto.
  - intros x (DX & OX). split; [exact OX|]. split; [|exact OX]. apply dead_tick; [exact DX|]. exact (proj1 (proj2 (fdead_inv conf_m88p x HC DX))).
  - unfold PERIOD. lia.
  - exists y', h, u, l. split; [exact W|]. split.
    + revert L. apply lately_weaken; [lia|tauto].
    + rewrite (pin_exact conf_m88p HC y' h u l 7372 W); [lia|]. revert L. apply lately_weaken; [lia|tauto].
Qed.
Lemma hot_lasts : exists y h u l, fwired conf_m88p y h u l /\ lately PERIOD (ftoo_hot conf_m88p) l.
Proof.
  pose proof build_m88p as HC.
  destruct hot_case as (y & H). destruct (lasting conf_m88p (ftoo_hot conf_m88p) y 8191 PERIOD) as (y' & h & u & l & W & _ & L).
  - exact (proj1 (ftoo_hot_reach conf_m88p y HC H)).
  - exact H.
  - intros x HX. split; [exact (f_too_hot conf_m88p x HC HX)|apply ftoo_hot_tick; exact HX].
  - unfold PERIOD. lia.
  - exists y', h, u, l. auto.
Qed.

(** No sensor: the heater is driven for two fifths of the time. *)
Lemma cold_heats : exists y h u l, fwired conf_m88p y h u l /\ lately (2 * PERIOD) (fcold conf_m88p) l /\ on_units PERIOD l = 13104.
Proof.
  destruct refute30 as (y & D & O). apply cold_fcold in D. pose proof build_m88p as HC.
  destruct (lasting conf_m88p (fun y => fcold conf_m88p y /\ cc_ocr (y_cc y) = 4915) y 4915 (2 * PERIOD)) as (y' & h & u & l & W & (D' & O') & L).
  - exact (proj1 (fcold_inv conf_m88p y HC D)).
  - auto.
  - intros x (DX & OX). split; [exact OX|]. split; [|exact OX]. eapply fcold_step; [exact DX|apply ftick|reflexivity|]. intros ((X & _) & _). discriminate X.
  - unfold PERIOD. lia.
  - exists y', h, u, l. split; [exact W|]. split.
    + revert L. apply lately_weaken; [lia|tauto].
    + rewrite (pin_exact conf_m88p HC y' h u l 4915 W); [lia|]. revert L. apply lately_weaken; [lia|tauto].
Qed.
(** The main loop *)
Lemma loop_wired S lo hi C ok t q : loop S lo hi C ok t -> 0 <= q < PERIOD -> exists h l, lwired S lo hi C ok t h 0 l /\ 4 * w_tcnt h + w_pre h = q.
Proof.
  intros D Q. destruct (phase _ _ (fun t => cc_ocr (y_cc (st_y t))) t (loop_runs S lo hi C ok t D) q Q) as (h & l & W & _ & P). exists h, l. auto.
Qed.
Lemma free_wired C y q : freach C y -> 0 <= q < PERIOD -> exists h l, fwired C y h 0 l /\ 4 * w_tcnt h + w_pre h = q.
Proof.
  intros D Q. destruct (phase _ _ (fun y => cc_ocr (y_cc y)) y (freach_runs C y D) q Q) as (h & l & W & _ & P). exists h, l. auto.
Qed.
Lemma case85 : exists t h u l, lwired (mkSpeed 300 2 20 4 1) 412 422 conf_m88p adj_99 t h u l /\ 1272 < v_steady (st_w t) /\ 920 < v_calm (st_w t) /\ s_adj (x_cache (y_set (st_y t))) = 0.
Proof.
  destruct case74 as (t & D & H). destruct (loop_wired _ _ _ _ _ t 0 D) as (h & l & W & _); [unfold PERIOD; lia|]. exists t, h, 0, l. auto.
Qed.

Definition dull (n : nat) (raw : Z) : list event :=
  concat (repeat ([EMeasure; EMenu; EDisplay; EButtons NO_KEYS; ESettings] ++ concat (repeat [EAdc raw; ETick; ETick] 150)) n).
Lemma case85_dead : exists t h u l, lwired (mkSpeed 300 2 20 4 1) 484 1023 conf_m88p adj_99 t h u l /\ 5851 < v_steady (st_w t).
Proof.
  destruct (lcheck_loop (mkSpeed 300 2 20 4 1) 484 1023 conf_m88p adj_99 (dull 20 1000) (fun t => 5851 <? v_steady (st_w t))) as (t & D & H); [vm_compute; reflexivity|].
  destruct (loop_wired _ _ _ _ _ t 0 D) as (h & l & W & _); [unfold PERIOD; lia|]. exists t, h, 0, l. split; [exact W|lia].
Qed.
