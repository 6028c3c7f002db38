(** * A concrete execution with the converter *)
From Coq Require Import ZArith List Bool Lia ZifyBool.
From Verif Require Import Base PBase MConf MTimer MCurr MSettings SpecSettings MState MMeas MMenu MMain SpecSys SpecRun MAdc SpecAdc Trace PSettingsEx.
Import ListNotations.
Open Scope Z_scope.

Inductive act : Type := Convert (code : Z) | Serve (late : list Z) | Measure | Tick.
Definition in_code (c : Z) : bool := (0 <=? c) && (c <=? 1023).
Definition aact (C : conf) (s : sys * adc * list sample) (x : act) : option (sys * adc * list sample) :=
  let '(y, a, l) := s in
  match x with
  | Convert code => if in_code code then a' <- adc_complete a code ;; Some (y, a', l) else None
  | Serve late =>
      if forallb in_code late && (m_count (y_meas y) <? 65535) then
        a1 <- adc_enter a ;; '(y', a') <- adc_isr_r y a1 late ;; Some (y', a', (a_from a, a_data a) :: l)
      else None
  | Measure => '(y', a') <- measure_work_r C y a ;; Some (y', a', if m_avail (y_meas y) then [] else l)
  | Tick => y' <- step C y ETick ;; Some (y', a, l)
  end.
Fixpoint aacts (C : conf) (s : sys * adc * list sample) (xs : list act) : option (sys * adc * list sample) :=
  match xs with [] => Some s | x :: r => s <- aact C s x ;; aacts C s r end.
Definition met (C : conf) (s : sys * adc * list sample) : Prop := metered C (fst (fst s)) (snd (fst s)) (snd s).
Lemma in_codes l : forallb in_code l = true -> Forall (fun c => 0 <= c <= 1023) l.
Proof. intros H. apply Forall_forall. intros c Hc. rewrite forallb_forall in H. specialize (H c Hc). unfold in_code in H. lia. Qed.
Lemma aact_met C s x s' : met C s -> aact C s x = Some s' -> met C s'.
Proof.
  destruct s as ((y, a), l). unfold met. cbn [fst snd]. intros D E. destruct x as [code|late| |]; cbn [aact] in E.
  - destruct (in_code code) eqn:B; [|discriminate E]. destruct (adc_complete a code) as [a'|] eqn:E1; [|discriminate E]. cbn in E. injection E as <-. cbn [fst snd].
    eapply met_convert; [exact D| |exact E1]. unfold in_code in B. lia.
  - destruct (forallb in_code late && _) eqn:B; [|discriminate E]. apply andb_true_iff in B. destruct B as (B1 & B2).
    destruct (adc_enter a) as [a1|] eqn:E1; [|discriminate E]. cbn [bind] in E. destruct (adc_isr_r y a1 late) as [(y', a')|] eqn:E2; [|discriminate E]. cbn in E. injection E as <-. cbn [fst snd].
    eapply met_irq; [exact D|exact E1|exact E2|apply in_codes; exact B1|lia].
  - destruct (measure_work_r C y a) as [(y', a')|] eqn:E1; [|discriminate E]. cbn [bind] in E. apply Some_inj in E. subst s'. cbn [fst snd]. eapply met_measure; eassumption.
  - cbn in E. injection E as <-. cbn [fst snd]. eapply (met_other C y a l ETick); [exact D|exact Logic.I|reflexivity|reflexivity|discriminate|discriminate].
Qed.
Lemma aacts_met C xs : forall s s', met C s -> aacts C s xs = Some s' -> met C s'.
Proof.
  induction xs as [|x r IH]; intros s s' D E; cbn [aacts] in E; [injection E as <-; exact D|].
  destruct (aact C s x) as [s1|] eqn:E1; [|discriminate E]. cbn [bind] in E. eapply IH; [exact (aact_met C s x s1 D E1)|exact E].
Qed.
Definition acheck (C : conf) (xs : list act) (P : sys -> adc -> list sample -> bool) : bool :=
  match (y <- boot C (factory_ee C) NO_KEYS ;; a <- boot_r y [3] ;; aacts C (y, a, []) xs) with Some (y, a, l) => P y a l | None => false end.
Lemma acheck_met C xs P : acheck C xs P = true -> exists y a l, metered C y a l /\ P y a l = true.
Proof.
  unfold acheck. destruct (boot C (factory_ee C) NO_KEYS) as [y0|] eqn:B; [|discriminate]. cbn [bind]. destruct (boot_r y0 [3]) as [a0|] eqn:Ba; [|discriminate]. cbn [bind].
  destruct (aacts C (y0, a0, []) xs) as [((y, a), l)|] eqn:E; [|discriminate]. intros H. exists y, a, l. split; [|exact H].
  apply (aacts_met C xs (y0, a0, []) (y, a, l)); [|exact E]. unfold met. cbn [fst snd]. eapply met_boot; [|exact B|exact Ba]. unfold is_u8, NO_KEYS. lia.
Qed.
(** Two conversions of the temperature; the end of the window comes with a third one, while a fourth completes
    in the interrupt handler: it is discarded.  The first conversion of the next window is of the current. *)
Definition first_window : list act := [Convert 200; Serve []; Tick; Convert 210; Serve []] ++ repeat Tick 50 ++ [Convert 220; Serve [230]].
Lemma case87 :
  (exists y a l, metered conf_m88p y a l /\ m_avail (y_meas y) = true /\ l = [((1, 2), 220); ((1, 2), 210); ((1, 2), 200)] /\ a_data a = 230) /\
  exists y a l, metered conf_m88p y a l /\ m_avail (y_meas y) = false /\ m_chan (y_meas y) = 0 /\ l = [((2, 3), 7)].
Proof.
  split.
  - destruct (acheck_met conf_m88p first_window
      (fun y a l => m_avail (y_meas y) && (a_data a =? 230) && match l with [((1, 2), 220); ((1, 2), 210); ((1, 2), 200)] => true | _ => false end)) as (y & a & l & D & H); [vm_compute; reflexivity|].
    exists y, a, l. split; [exact D|]. apply andb_true_iff in H. destruct H as (H & Hl). split; [destruct (m_avail _); [reflexivity|lia]|]. split; [|lia].
    repeat match type of Hl with (match ?x with _ => _ end) = true => destruct x; try discriminate Hl end. reflexivity.
  - destruct (acheck_met conf_m88p (first_window ++ [Measure; Convert 7; Serve []])
      (fun y a l => negb (m_avail (y_meas y)) && (m_chan (y_meas y) =? 0) && match l with [((2, 3), 7)] => true | _ => false end)) as (y & a & l & D & H); [vm_compute; reflexivity|].
    exists y, a, l. split; [exact D|]. apply andb_true_iff in H. destruct H as (H & Hl). split; [destruct (m_avail _); [lia|reflexivity]|]. split; [lia|].
    repeat match type of Hl with (match ?x with _ => _ end) = true => destruct x; try discriminate Hl end. reflexivity.
Qed.
