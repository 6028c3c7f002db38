(** * Concrete executions with stopwatches, for the examples beside the theorems about reaction times *)
From Coq Require Import ZArith List Bool Lia ZifyBool.
From Verif Require Import Base PBase MConf MTimer MPid MCurr MSettings SpecSettings MSseg MDisplay MState MTemp
  MMeas MMenu MMain SpecDisplay SpecSys SpecRun SpecLive Trace.
Import ListNotations.
Open Scope Z_scope.

Definition on_timeb (L : limits) (C : conf) (y : sys) (w : watch) (e : event) : bool :=
  match e with
  | ETick => (negb (m_adc (y_meas y)) || (v_sample w <? l_sample L)) && (v_poll w <? l_poll L)
  | EAdc raw => (0 <=? raw) && (raw <=? 1023) && (negb (m_adc (y_meas y)) || (v_conv w <? l_rate L))
  | EPower _ _ => false
  | _ => ev_okb C y e
  end.
Lemma on_timeb_ok L C y w e : on_timeb L C y w e = true -> on_time L C y w e.
Proof.
  destruct e; cbn [on_timeb on_time]; try (apply ev_okb_ok); try discriminate.
  - destruct (m_adc _); cbn; intros; split; lia.
  - destruct (m_adc _); cbn; intros; split; lia.
Qed.
Fixpoint wrun (L : limits) (lo hi : Z) (C : conf) (y : sys) (w : watch) (l : list event) : option (sys * watch) :=
  match l with
  | [] => Some (y, w)
  | e :: r => if on_timeb L C y w e then y' <- step C y e ;; wrun L lo hi C y' (watch_step lo hi y w e y') r else None
  end.
Lemma wrun_served L lo hi C l : forall y w y' w', served L lo hi C y w -> wrun L lo hi C y w l = Some (y', w') -> served L lo hi C y' w'.
Proof.
  induction l as [|e r IH]; intros y w y' w' D E; cbn [wrun] in E; [injection E as <- <-; exact D|].
  destruct (on_timeb L C y w e) eqn:O; [|discriminate E]. destruct (step C y e) as [y1|] eqn:S; [|discriminate E]. cbn [bind] in E.
  eapply IH; [|exact E]. econstructor; [exact D|apply on_timeb_ok; exact O|exact S].
Qed.
Definition wexec (L : limits) (lo hi : Z) (C : conf) (l : list event) : option (sys * watch) :=
  y <- boot C (factory_ee C) NO_KEYS ;; wrun L lo hi C y watch_zero l.
Definition wcheck (L : limits) (lo hi : Z) (C : conf) (l : list event) (P : sys -> watch -> bool) : bool :=
  match wexec L lo hi C l with Some (y, w) => P y w | None => false end.
Lemma wcheck_served L lo hi C l P : wcheck L lo hi C l P = true -> exists y w, served L lo hi C y w /\ P y w = true.
Proof.
  unfold wcheck, wexec. destruct (boot C (factory_ee C) NO_KEYS) as [y0|] eqn:B; [|discriminate]. cbn [bind].
  destruct (wrun L lo hi C y0 watch_zero l) as [(y, w)|] eqn:E; [|discriminate]. intros H. exists y, w. split; [|exact H].
  eapply wrun_served; [|exact E]. eapply srv_boot; [|exact B]. unfold is_u8, NO_KEYS. lia.
Qed.
(** [n] averaging cycles: a conversion and a call of measure_work every ms, [t] the code of the
    temperature channel, [u] the code of the current channel. *)
Definition ms_of (raw : Z) (n : nat) : list event := concat (repeat [ETick; EAdc raw; EMeasure] n).
Definition live (n : nat) (t u : Z) : list event := concat (repeat (ms_of t 50 ++ ms_of u 5) n).
Definition brisk : limits := mkLimits 2 10 20.
