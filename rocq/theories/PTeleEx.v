(** * Concrete executions with the debug output *)
From Coq Require Import ZArith List Bool Lia.
From Verif Require Import Base PBase MConf MTimer MPid MCurr MSettings SpecSettings MState MTemp MMeas MMenu MMain MDebug SpecSys SpecRun PDebug MTele
  Trace PSysTrace SpecTele.
Import ListNotations.
Open Scope Z_scope.

Fixpoint trun (C : conf) (y : sys) (f : cells) (b : list Z) (l : list event) : option (sys * cells * list Z) :=
  match l with
  | [] => Some (y, f, b)
  | e :: r => if ev_okb C y e then '(y', f', s) <- tstep C y f e ;; trun C y' f' (b ++ concat s) r else None
  end.
Lemma trun_ok C l : forall y f b g y' f' b', tlog C y f b g -> trun C y f b l = Some (y', f', b') -> exists g', tlog C y' f' b' g'.
Proof.
  induction l as [|e l IH]; intros y f b g y' f' b' T E; cbn [trun] in E; [apply Some_inj in E; injection E as <- <- <-; eauto|].
  destruct (ev_okb C y e) eqn:O; [|discriminate E]. apply ev_okb_ok in O. apply bind_inv in E. destruct E as (((y1, f1), s1) & E1 & E).
  eapply IH; [|exact E]. eapply SpecTele.tl_step; eassumption.
Qed.
(** SET held at power-up: the m328p build starts in the debug mode. *)
Definition tele (l : list event) (P : sys -> cells -> list Z -> bool) : bool :=
  match tboot conf_m328p (factory_ee conf_m328p) SET_KEY with
  | Some (y, f, s) => match trun conf_m328p y f (concat s) l with Some (y, f, b) => P y f b | None => false end
  | None => false
  end.
Lemma tele_ok l P : tele l P = true -> exists y f b g, tlog conf_m328p y f b g /\ P y f b = true.
Proof.
  unfold tele. intros K. destruct (tboot _ _ _) as [((y0, f0), s0)|] eqn:B; [|discriminate K]. destruct (trun _ _ _ _ _) as [((y, f), b)|] eqn:E; [|discriminate K].
  assert (T : tlog conf_m328p y0 f0 (concat s0) (fun _ => 0)) by (eapply SpecTele.tl_boot; [|exact B]; unfold SET_KEY, is_u8; lia).
  destruct (trun_ok _ _ _ _ _ _ _ _ _ T E) as (g & T'). eauto 6.
Qed.
Definition showsb (b : list Z) (i : item) (v : Z) : bool := let (a, d) := r_val (receive b) i in (a =? v) && (d =? item_div i).
Lemma showsb_ok b i v : showsb b i v = true -> shows b i v.
Proof. unfold showsb, shows. destruct (r_val (receive b) i) as (a, d). intros H. andbs. subst. reflexivity. Qed.
(** Two measurements of each channel: 314.17 degrees, 0.2 A; the set value of the current is 2.26 A. *)
Lemma case79 : exists y f b g, tlog conf_m328p y f b g /\ y_dbg y = true /\ t_feedback (y_ct y) = 20107 /\ shows b Tr 20107 /\ shows b Cr1 130 /\ shows b Cy 2690 /\
  shows b Mt 310 /\ shows b Mc 100 /\ shows b Fc 12 /\ shows b Ty2 1449 /\ length b = 479%nat.
Proof.
  assert (K : tele (cycles 2 310 100) (fun y f b => y_dbg y && ((t_feedback (y_ct y) =? 20107) && (showsb b Tr 20107 && (showsb b Cr1 130 && (showsb b Cy 2690 &&
    (showsb b Mt 310 && (showsb b Mc 100 && (showsb b Fc 12 && (showsb b Ty2 1449 && Nat.eqb (length b) 479))))))))) = true) by (vm_compute; reflexivity).
  destruct (tele_ok _ _ K) as (y & f & b & g & T & P). cbv beta in P. rewrite !andb_true_iff in P. destruct P as (P0 & P1 & P2 & P3 & P4 & P5 & P6 & P7 & P8 & P9).
  exists y, f, b, g. split; [exact T|]. split; [exact P0|]. split; [apply Z.eqb_eq; exact P1|]. repeat (split; [apply showsb_ok; assumption|]). apply Nat.eqb_eq. exact P9.
Qed.
(** PLUS is pressed in the debug mode: a greeting, after which the receiver shows 0 although nothing has changed. *)
Lemma stale79 : exists y f b g, tlog conf_m328p y f b g /\ y_dbg y = true /\ t_feedback (y_ct y) = 20107 /\ shows b Tr 0.
Proof.
  assert (K : tele (cycles 1 310 100 ++ press NO_KEYS ++ press PLUS_KEY ++ cycles 1 310 100) (fun y f b => y_dbg y && ((t_feedback (y_ct y) =? 20107) && showsb b Tr 0)) = true)
    by (vm_compute; reflexivity).
  destruct (tele_ok _ _ K) as (y & f & b & g & T & P). cbv beta in P. rewrite !andb_true_iff in P. destruct P as (P0 & P1 & P2).
  exists y, f, b, g. split; [exact T|]. split; [exact P0|]. split; [apply Z.eqb_eq; exact P1|]. apply showsb_ok; assumption.
Qed.
(** A result of the current channel is about to be taken: it sends the most. *)
Lemma case80 : exists y f b g y' f' s, tlog conf_m328p y f b g /\ m_avail (y_meas y) = true /\ m_chan (y_meas y) = 0 /\ mean_code y = 100 /\ tstep conf_m328p y f EMeasure = Some (y', f', s) /\
  length (concat s) = 146%nat /\ length s = 10%nat.
Proof.
  assert (K : tele (temp_cycle 310 ++ ticks 6 ++ [EAdc 100]) (fun y f b => m_avail (y_meas y) && ((m_chan (y_meas y) =? 0) && ((mean_code y =? 100) &&
    match tstep conf_m328p y f EMeasure with Some (_, _, s) => Nat.eqb (length (concat s)) 146 && Nat.eqb (length s) 10 | None => false end))) = true) by (vm_compute; reflexivity).
  destruct (tele_ok _ _ K) as (y & f & b & g & T & P). cbv beta in P. destruct (tstep conf_m328p y f EMeasure) as [((y', f'), s)|] eqn:E; rewrite !andb_true_iff in P; [|destruct P as (_ & _ & _ & P); discriminate P].
  destruct P as (P0 & P1 & P2 & P3 & P4). exists y, f, b, g, y', f', s. split; [exact T|]. split; [exact P0|]. split; [apply Z.eqb_eq; exact P1|]. split; [apply Z.eqb_eq; exact P2|].
  split; [exact E|]. split; apply Nat.eqb_eq; assumption.
Qed.
(** and of the temperature channel *)
Lemma case79_temp : exists y f b g y' f' s, tlog conf_m328p y f b g /\ m_avail (y_meas y) = true /\ m_chan (y_meas y) = 1 /\ t_enabled (y_ct y) = true /\ tstep conf_m328p y f EMeasure = Some (y', f', s) /\
  t_emerg (y_ct y') = false /\ f' (CItem Ty2) = 1449.
Proof.
  assert (K : tele (cycles 1 310 100 ++ ticks 51 ++ [EAdc 310]) (fun y f b => m_avail (y_meas y) && ((m_chan (y_meas y) =? 1) && (t_enabled (y_ct y) &&
    match tstep conf_m328p y f EMeasure with Some (y', f', s) => negb (t_emerg (y_ct y')) && (f' (CItem Ty2) =? 1449) | None => false end))) = true) by (vm_compute; reflexivity).
  destruct (tele_ok _ _ K) as (y & f & b & g & T & P). cbv beta in P. destruct (tstep conf_m328p y f EMeasure) as [((y', f'), s)|] eqn:E; rewrite !andb_true_iff in P; [|destruct P as (_ & _ & _ & P); discriminate P].
  destruct P as (P0 & P1 & P2 & P3 & P4). exists y, f, b, g, y', f', s. split; [exact T|]. split; [exact P0|]. split; [apply Z.eqb_eq; exact P1|]. split; [exact P2|].
  split; [exact E|]. split; [apply negb_true_iff; exact P3|apply Z.eqb_eq; exact P4].
Qed.
