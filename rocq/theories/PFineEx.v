(** * Concrete executions with interrupts inside the work functions *)
From Coq Require Import ZArith List Bool Lia ZifyBool.
From Verif Require Import Base PBase MConf MTimer MPid MCurr MSettings SpecSettings MSseg MDisplay MState MTemp
  MMeas MMenu MMain SpecDisplay SpecSys SpecRun Trace MFine SpecFine PFine8.
Import ListNotations.
Open Scope Z_scope.

Fixpoint frun_ok (C : conf) (y : sys) (l : list (event * plan)) : option sys :=
  match l with
  | [] => Some y
  | (e, o) :: r => if ev_okb C y e then y' <- fstep C y e o ;; frun_ok C y' r else None
  end.
Definition fexec (C : conf) (pinb : Z) (l : list (event * plan)) : option sys :=
  y <- boot C (factory_ee C) pinb ;; frun_ok C y l.
Lemma frun_reach C l : forall y y', freach C y -> frun_ok C y l = Some y' -> freach C y'.
Proof.
  induction l as [|(e, o) t IH]; intros y y' R E; cbn [frun_ok] in E; [apply Some_inj in E; subst; exact R|].
  destruct (ev_okb C y e) eqn:O; [|discriminate E]. destruct (fstep C y e o) as [y1|] eqn:S; [|discriminate E]. cbn [bind] in E.
  apply (IH y1 y'); [|exact E]. eapply freach_step; [exact R|]. split; [apply ev_okb_ok; exact O|exists o; exact S].
Qed.
(** The state before and after the last event *)
Definition fthen (C : conf) (l : list (event * plan)) (e : event) (o : plan) (P : sys -> sys -> bool) : bool :=
  match fexec C NO_KEYS l with
  | Some y => ev_okb C y e && match fstep C y e o with Some y' => P y y' | None => false end
  | None => false
  end.
Lemma fthen_ok C l e o P : fthen C l e o P = true -> exists y y', freach C y /\ ev_ok C y e /\ fstep C y e o = Some y' /\ P y y' = true.
Proof.
  unfold fthen, fexec. destruct (boot C (factory_ee C) NO_KEYS) as [y0|] eqn:E0; [|discriminate]. cbn [bind].
  destruct (frun_ok C y0 l) as [y|] eqn:E1; [|discriminate]. intros H. apply andb_true_iff in H. destruct H as (H1 & H2).
  destruct (fstep C y e o) as [y'|] eqn:E2; [|discriminate]. exists y, y'. split; [|split; [apply ev_okb_ok; exact H1|auto]].
  eapply frun_reach; [|exact E1]. eapply freach_boot; [|exact E0]. unfold is_u8, NO_KEYS. lia.
Qed.
Definition plainly (l : list event) : list (event * plan) := map (fun e => (e, [])) l.
(** A timer interrupt at each of the first points *)
Definition busy (n : nat) : plan := repeat [ITick] n.

(** Five timer interrupts inside the handling of the first temperature: the time of the controller's clock
    (t_dt) is neither the time before nor the time after. *)
Lemma fine_case81 : exists y o y', freach conf_m88p y /\ ev_ok conf_m88p y EMeasure /\ fstep conf_m88p y EMeasure o = Some y' /\ y_now y' = y_now y + 5 /\
  y_now y < t_dt (y_ct y') < y_now y' /\ p_setpoint (cc_pid (y_cc y')) = 5 * 640.
Proof.
  destruct (fthen_ok conf_m88p (plainly (ticks 51 ++ [EAdc 250])) EMeasure (busy 5)
    (fun y y' => (y_now y' =? y_now y + 5) && ((y_now y <? t_dt (y_ct y')) && (t_dt (y_ct y') <? y_now y') && (p_setpoint (cc_pid (y_cc y')) =? 3200)))) as (y & y' & R & O & E & P); [vm_compute; reflexivity|].
  exists y, (busy 5), y'. split; [exact R|]. split; [exact O|]. split; [exact E|]. lia.
Qed.
(** Heating at full power; the handling of a temperature of 486 degrees is interrupted. *)
Lemma fine_case82 : exists y o y', freach conf_m88p y /\ fstep conf_m88p y EMeasure o = Some y' /\ o = busy 4 /\ ftoo_hot conf_m88p y' /\ cc_ocr (y_cc y) = 0.
Proof.
  destruct (fthen_ok conf_m88p (plainly (ticks 51 ++ [EAdc 250]) ++ [(EMeasure, busy 3)] ++ plainly (curr_cycle 0 ++ temp_cycle 250 ++ curr_cycle 0 ++ ticks 51 ++ [EAdc 415])) EMeasure (busy 4)
    (fun y y' => m_avail (y_meas y) && (m_chan (y_meas y) =? 1) && (t_enabled (y_ct y) && negb (t_emerg (y_ct y')) && (30720 <? t_feedback (y_ct y')) && (cc_ocr (y_cc y) =? 0)))) as (y & y' & R & O & E & P); [vm_compute; reflexivity|].
  exists y, (busy 4), y'. split; [exact R|]. split; [exact E|]. split; [reflexivity|].
  repeat (apply andb_true_iff in P; destruct P as (P & ?)). repeat match goal with H : _ && _ = true |- _ => apply andb_true_iff in H; destruct H end. split; [|lia].
  apply (fhot_now conf_m88p y EMeasure y' (t_feedback (y_ct y')) R); [split; [exact O|exists (busy 4); exact E]| |lia].
  unfold temp_processed. repeat split; try assumption; try lia. destruct (t_emerg (y_ct y')); [discriminate|reflexivity].
Qed.
(** Before the first result nothing plausible has been measured. *)
Definition no_result (e : event) : bool := match e with EMeasure | EPower _ _ => false | _ => true end.
Lemma quiet_run C l : forall y y', forallb (fun x => no_result (fst x)) l = true -> flast_good C y None -> frun_ok C y l = Some y' -> flast_good C y' None.
Proof.
  induction l as [|(e, o) t IH]; intros y y' F R E; cbn [frun_ok] in E; [apply Some_inj in E; subst; exact R|].
  cbn [forallb fst] in F. apply andb_true_iff in F. destruct F as (F1 & F2).
  destruct (ev_okb C y e) eqn:O; [|discriminate E]. destruct (fstep C y e o) as [y1|] eqn:S; [|discriminate E]. cbn [bind] in E.
  apply (IH y1 y' F2); [|exact E]. eapply flg_other; [exact R|split; [apply ev_okb_ok; exact O|exists o; exact S]| |].
  - destruct e; [reflexivity..|discriminate].
  - intros ((-> & _) & _). discriminate.
Qed.
Lemma fthen_cold C l e o P : forallb (fun x => no_result (fst x)) l = true -> fthen C l e o P = true ->
  exists y y', flast_good C y None /\ ev_ok C y e /\ fstep C y e o = Some y' /\ P y y' = true.
Proof.
  unfold fthen, fexec. intros F. destruct (boot C (factory_ee C) NO_KEYS) as [y0|] eqn:E0; [|discriminate]. cbn [bind].
  destruct (frun_ok C y0 l) as [y|] eqn:E1; [|discriminate]. intros H. apply andb_true_iff in H. destruct H as (H1 & H2).
  destruct (fstep C y e o) as [y'|] eqn:E2; [|discriminate]. exists y, y'. split; [|split; [apply ev_okb_ok; exact H1|auto]].
  eapply quiet_run; [exact F| |exact E1]. eapply flg_boot; [|exact E0]. unfold is_u8, NO_KEYS. lia.
Qed.
(** 51 degrees; a converter sample and an EEPROM interrupt inside buttons_work, timer interrupts inside measure_work. *)
Lemma fine_case83 : exists y v, flast_good conf_m88p y (Some v) /\ v < 100 * 64 /\ y_now y = 56.
Proof.
  destruct (fthen_cold conf_m88p (plainly (ticks 51) ++ [(EButtons SET_KEY, [[IAdc 150; IReady]])]) EMeasure (busy 5)
    (fun y y' => m_avail (y_meas y) && (m_chan (y_meas y) =? 1) && (mean_code y =? 150) && (s_adj (x_cache (y_set y)) =? 0) && (y_now y' =? 56))) as (y & y' & L & O & E & P); [reflexivity|vm_compute; reflexivity|].
  repeat (apply andb_true_iff in P; destruct P as (P & ?)).
  exists y', 3296. split; [|lia]. apply (flg_good conf_m88p y None EMeasure 3296 y' L).
  - unfold result. repeat split; [exact P|lia].
  - split; [exact O|exists (busy 5); exact E].
  - replace (s_adj (x_cache (y_set y))) with 0 by lia. replace (mean_code y) with 150 by lia. unfold temp_of_code. vm_compute. discriminate.
  - lia.
Qed.
