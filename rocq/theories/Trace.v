(** * Concrete executions, for the examples beside the theorems and for refutations *)
From Coq Require Import ZArith List Bool Lia ZifyBool.
From Verif Require Import Base PBase MConf MTimer MPid MCurr MSettings SpecSettings MSseg MDisplay MState MTemp
  MMeas MMenu MMain SpecDisplay SpecSys SpecRun.
Import ListNotations.
Open Scope Z_scope.

(** Power-up with the factory EEPROM, PINB reading [pinb], then the events [l]; [None] if an event
    breaks the assumptions about the environment. *)
Definition exec (C : conf) (pinb : Z) (l : list event) : option sys :=
  y <- boot C (factory_ee C) pinb ;; run_ok C y l.
(** All buttons released: PB0 (iron), PB2 (set), PB3 (minus), PB4 (plus) high; and one of them pressed. *)
Definition NO_KEYS : Z := 255.
Definition IRON_KEY : Z := 254.
Definition SET_KEY : Z := 251.
Definition MINUS_KEY : Z := 247.
Definition PLUS_KEY : Z := 239.
Definition ticks (n : nat) : list event := repeat ETick n.
(** One averaging window of the temperature and one of the current, all samples alike. *)
Definition temp_cycle (raw : Z) : list event := ticks 51 ++ [EAdc raw; EMeasure].
Definition curr_cycle (raw : Z) : list event := ticks 6 ++ [EAdc raw; EMeasure].
Definition cycles (n : nat) (t u : Z) : list event := concat (repeat (temp_cycle t ++ curr_cycle u) n).
(** [n] ms with PINB reading [pinb], sampled every ms. *)
Definition hold (n : nat) (pinb : Z) : list event := concat (repeat [ETick; EButtons pinb; EMenu] n).
Definition press (pinb : Z) : list event := hold 20 pinb ++ hold 20 NO_KEYS.

Lemma ev_okb_ok C y e : ev_okb C y e = true -> ev_ok C y e.
Proof.
  destruct e; cbn [ev_okb ev_ok]; unfold is_u8; intros; try lia.
  - rewrite H0, H1 in H. cbn in H. exact H.
  - split; [lia|]. split; [lia|]. intros E. rewrite E in H. destruct (x_busy (y_set y)); [|reflexivity]. cbn in H. lia.
Qed.
Lemma run_app C l1 : forall y l2, run_ok C y (l1 ++ l2) = (y' <- run_ok C y l1 ;; run_ok C y' l2).
Proof.
  induction l1 as [|e t IH]; intros y l2; cbn [run_ok app]; [reflexivity|]. destruct (ev_okb C y e); [|reflexivity].
  destruct (step C y e); cbn [bind]; [apply IH|reflexivity].
Qed.
Lemma run_reach C l : forall y y', reach C y -> run_ok C y l = Some y' -> reach C y'.
Proof.
  induction l as [|e t IH]; intros y y' R E; cbn [run_ok] in E; [apply Some_inj in E; subst; exact R|].
  destruct (ev_okb C y e) eqn:O; [|discriminate E]. destruct (step C y e) as [y1|] eqn:S; [|discriminate E]. cbn [bind] in E.
  apply (IH y1 y'); [|exact E]. econstructor; [exact R|apply ev_okb_ok; exact O|exact S].
Qed.
Lemma exec_reach C pinb l y : is_u8 pinb -> exec C pinb l = Some y -> reach C y.
Proof.
  intros H E. unfold exec in E. destruct (boot C (factory_ee C) pinb) as [y0|] eqn:B; [|discriminate E].
  apply (run_reach C l y0 y); [econstructor; eassumption|exact E].
Qed.
Lemma exec_app C pinb l1 l2 : exec C pinb (l1 ++ l2) = (y <- exec C pinb l1 ;; run_ok C y l2).
Proof. unfold exec. destruct (boot C (factory_ee C) pinb) as [y0|]; cbn [bind]; [apply run_app|reflexivity]. Qed.
Lemma exec_snoc C pinb l e y : exec C pinb l = Some y -> ev_okb C y e = true -> exec C pinb (l ++ [e]) = step C y e.
Proof. intros H O. rewrite exec_app, H. cbn [bind run_ok]. rewrite O. destruct (step C y e); reflexivity. Qed.
(** Reading a fact off a concrete execution. *)
Definition check (o : option sys) (P : sys -> bool) : bool := match o with Some y => P y | None => false end.
Lemma check_some o P : check o P = true -> exists y, o = Some y /\ P y = true.
Proof. destruct o as [y|]; [exists y; split; [reflexivity|assumption]|discriminate]. Qed.
