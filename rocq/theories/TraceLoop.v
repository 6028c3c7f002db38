(** * Concrete executions of the main loop, for the examples beside the theorems of PropLoop.v *)
From Coq Require Import ZArith List Bool Lia ZifyBool.
From Verif Require Import Base PBase MConf MTimer MPid MCurr MSettings SpecSettings MSseg MDisplay MState MTemp
  MMeas MMenu MMain SpecDisplay SpecSys SpecRun SpecUI SpecLive SpecLoop Trace TraceLive.
Import ListNotations.
Open Scope Z_scope.

Definition place_eqb (p q : place) : bool :=
  match p, q with
  | AtMeasure, AtMeasure | AtMenu, AtMenu | AtDisplay, AtDisplay | AtButtons, AtButtons | AtSettings, AtSettings => true
  | _, _ => false
  end.
Lemma place_eqb_ok p q : place_eqb p q = true -> p = q.
Proof. destruct p, q; try reflexivity; discriminate. Qed.
Definition mayb (S : speed) (C : conf) (t : station) (e : event) : bool :=
  match e with
  | ETick => on_timeb (limits_of S) C (st_y t) (st_w t) ETick && (negb (busy (st_y t)) || (st_prog t <? h_prog S)) &&
             (negb (waiting (st_y t)) || (st_irq t <? h_irq S))
  | EAdc raw => on_timeb (limits_of S) C (st_y t) (st_w t) (EAdc raw)
  | EReady | EDone => true
  | EMeasure => place_eqb (st_at t) AtMeasure
  | EMenu => place_eqb (st_at t) AtMenu
  | EDisplay => place_eqb (st_at t) AtDisplay
  | EButtons pins => place_eqb (st_at t) AtButtons && (0 <=? pins) && (pins <=? 255)
  | ESettings => place_eqb (st_at t) AtSettings
  | EPower _ _ => false
  end.
Lemma mayb_ok S C t e : mayb S C t e = true -> may S C t e.
Proof.
  unfold may. destruct e; cbn [mayb due]; intros H; try discriminate H; try (split; [apply place_eqb_ok; exact H|exact Logic.I]); try (split; exact Logic.I).
  - apply andb_true_iff in H. destruct H as (H & H3). apply andb_true_iff in H. destruct H as (H1 & H2). split; [exact Logic.I|]. split; [apply on_timeb_ok; exact H1|].
    destruct (busy (st_y t)), (waiting (st_y t)); cbn in *; split; intros X; try discriminate X; lia.
  - split; [exact Logic.I|]. apply on_timeb_ok; exact H.
  - apply andb_true_iff in H. destruct H as (H & H3). apply andb_true_iff in H. destruct H as (H1 & H2). split; [apply place_eqb_ok; exact H1|unfold is_u8; lia].
Qed.
Fixpoint lrun (S : speed) (lo hi : Z) (C : conf) (t : station) (l : list event) : option station :=
  match l with
  | [] => Some t
  | e :: r => if mayb S C t e then y' <- step C (st_y t) e ;; lrun S lo hi C (advance lo hi C t e y') r else None
  end.
Lemma mayb_power S C t e : mayb S C t e = true -> is_power e = false.
Proof. destruct e; try reflexivity; discriminate. Qed.
Lemma lrun_loop S lo hi C ok l : forall t t', loop S lo hi C ok t -> lrun S lo hi C t l = Some t' -> loop S lo hi C ok t'.
Proof.
  induction l as [|e r IH]; intros t t' D E; cbn [lrun] in E; [injection E as <-; exact D|].
  destruct (mayb S C t e) eqn:M; [|discriminate E]. destruct (step C (st_y t) e) as [y1|] eqn:St; [|discriminate E]. cbn [bind] in E.
  eapply IH; [|exact E]. eapply loop_step; [exact D|apply mayb_ok; exact M|exact St|]. rewrite (mayb_power _ _ _ _ M). discriminate.
Qed.
Definition lcheck (S : speed) (lo hi : Z) (C : conf) (l : list event) (P : station -> bool) : bool :=
  match boot C (factory_ee C) NO_KEYS with
  | Some y => match lrun S lo hi C (start C y NO_KEYS) l with Some t => P t | None => false end
  | None => false
  end.
Lemma lcheck_loop S lo hi C ok l P : lcheck S lo hi C l P = true -> exists t, loop S lo hi C ok t /\ P t = true.
Proof.
  unfold lcheck. destruct (boot C (factory_ee C) NO_KEYS) as [y0|] eqn:B; [|discriminate].
  destruct (lrun S lo hi C (start C y0 NO_KEYS) l) as [t|] eqn:E; [|discriminate]. intros H. exists t. split; [|exact H].
  eapply lrun_loop; [|exact E]. apply loop_boot; [unfold is_u8, NO_KEYS; lia|exact B].
Qed.
(** An iteration per ms with the keys [pins] and the conversion result [raw]; a byte is programmed in 1 ms. *)
Definition pass (pins raw : Z) : list event := [EAdc raw; EMeasure; EMenu; EDisplay; EButtons pins; ESettings; EDone; EReady; ETick].
Definition passes (n : nat) (pins raw : Z) : list event := concat (repeat (pass pins raw) n).
Definition swift : speed := mkSpeed 5 2 20 4 1.
