(** * Proofs of the properties of the debug output: invariants of executions *)
From Coq Require Import ZArith List Bool Lia.
From Verif Require Import Base PBase MUtil MConf MFixpt MScale MRing MFilter MTimer MPid MTempMap MPwm MCurr MSens MSettings
  SpecSettings MSseg MDisplay MText MState MTemp MMeas MMenu MMain MDebug SpecSys SpecRun PDebug MTele SpecTele PNum PScale PSmall PCurr
  PTele PTele2 PTele3 PTele4 PStore PSysSet PSys PSysMeas PSysCC PSysRun PSysSafe PControl PMem PTele5 SpecControl.
Import ListNotations.
Open Scope Z_scope.

Lemma after_ui l f : Forall is_uiact l -> after l f = f.
Proof. unfold after. intros H. revert f. induction H as [|a l P _ IH]; intros f; [reflexivity|]. cbn [fold_left]. rewrite IH. destruct a; [destruct P|reflexivity|reflexivity]. Qed.
Lemma tboot_eq C ee p y : boot C ee p = Some y ->
  exists l, boot_t C ee p = Some (y, l) /\ Forall is_uiact l /\ y_dbg y = fold_left enf l false /\
    if c_debug C then exists s, perform 0 false (fun _ => 0) l = Some (y_dbg y, fun _ => 0, s) /\ good (total l) s /\ tboot C ee p = Some (y, fun _ => 0, s)
    else tboot C ee p = Some (y, fun _ => 0, []).
Proof.
  intros E. pose proof (e_boot C ee p) as X. rewrite E in X. destruct (boot_t C ee p) as [(z, l)|] eqn:Et; [|discriminate X]. cbn [erase] in X. apply Some_inj in X. subst z.
  exists l. split; [reflexivity|]. pose proof (post_both _ _ _ _ (post_calls _ _ (c_boot C ee p)) Et) as U. cbv beta in U. split; [exact U|].
  pose proof (post_both _ _ _ _ (dk_boot C ee p) Et) as D. cbv beta in D. change (y_dbg (sys_reset ee)) with false in D. split; [exact D|].
  unfold tboot, tout. rewrite Et. cbn [bind]. destruct (c_debug C); [|reflexivity].
  destruct (perform_ok 0 l (ui_rng l U) false (fun _ => 0)) as (s & Ep & G). rewrite (after_ui l _ U) in Ep. rewrite Ep. cbn [bind]. exists s. rewrite D. split; [reflexivity|]. split; [exact G|reflexivity].
Qed.
Lemma fresh_mirrored C y : fresh C y -> mirrored (fun _ => 0) y.
Proof.
  intros F. destruct (fresh_mem C y F) as (_ & M & Rs & Py). destruct (fresh_temp C y F) as (_ & Tf). unfold memory in M. injection M as M1 M2.
  unfold mirrored. rewrite M1, M2, Rs, Py, Tf. repeat (split; [|]); try reflexivity. 2: right; split; reflexivity.
  destruct F as (x & k & a & p & -> & _). reflexivity.
Qed.
Lemma calm_mirrored f y e y' : calm y e y' -> mirrored f y -> mirrored f y'.
Proof.
  intros (_ & _ & _ & _ & _ & _ & Tf & [(Q & _)|(Q & _)]) M; unfold mirrored in *; rewrite Tf, Q; exact M.
Qed.
Lemma synced_off rc f g : synced rc false f g. Proof. intros X. discriminate X. Qed.
Definition tinv (C : conf) (y : sys) (f : cells) (b : list Z) (g : item -> Z) : Prop :=
  reach C y /\ (c_debug C = true -> mirrored f y) /\ (forall n, synced (rx_bytes rx_reset [] (n ++ b)) (y_dbg y) f g).
Lemma rx_more n b s : rx_bytes rx_reset [] (n ++ b ++ s) = rxb (rx_bytes rx_reset [] (n ++ b)) s.
Proof. rewrite app_assoc, rx_bytes_app. reflexivity. Qed.
Lemma not_debug C y : build_conf C -> reach C y -> c_debug C = false -> y_dbg y = false.
Proof.
  intros HC R X. destruct (y_dbg y) eqn:D; [|reflexivity]. pose proof (i_dbg _ _ _ (s4_inv _ _ _ (reach_s4 C y HC R))) as (D1 & _). destruct (D1 D) as (D2 & _). congruence.
Qed.
Lemma tlog_inv C y f b g : build_conf C -> tlog C y f b g -> tinv C y f b g.
Proof.
  intros HC. induction 1 as [pinb y f s Up E|y f b g e y' f' s T IH O E].
  - assert (exists z, boot C (factory_ee C) pinb = Some z) as (z & Ez) by (unfold tboot, tout in E; apply bind_inv in E; destruct E as ((z, l) & E & _); exists z; rewrite <- (e_boot C _ pinb), E; reflexivity).
    destruct (tboot_eq C _ _ _ Ez) as (l & Et & U & D & X).
    assert (R : reach C z) by exact (reach_boot C pinb z Up Ez).
    destruct (c_debug C) eqn:Cd.
    + destruct X as (s' & Ep & _ & X). rewrite X in E. apply Some_inj in E. injection E as <- <- <-. split; [exact R|]. split.
      * intros _. exact (fresh_mirrored C z (boot_fresh C pinb z HC Ez)).
      * intros n. rewrite rx_bytes_app. change (synced (rxb (rx_bytes rx_reset [] n) (concat s')) (y_dbg z) (fun _ => 0) (fun _ => 0)).
        destruct (ui_sync 0 l U false (fun _ => 0) (fun _ => 0) (rx_bytes rx_reset [] n) _ _ _ (synced_off _ _ _) Ep) as (_ & S).
        destruct (in_dec str_dec greeting s'); exact S.
    + rewrite X in E. apply Some_inj in E. injection E as <- <- <-. split; [exact R|]. split; [congruence|]. rewrite (not_debug C z HC R Cd). intros n; apply synced_off.
  - destruct IH as (R & M & S). destruct (tstep_eq C y f e HC R O) as (z & l & Ez & Et & Rn & D & X). cbv zeta in *.
    assert (R' : reach C z) by exact (reach_step C y e z R O Ez).
    destruct (c_debug C) eqn:Cd.
    2: { rewrite X in E. apply Some_inj in E. injection E as <- <- <-. split; [exact R'|]. split; [congruence|]. rewrite (not_debug C z HC R' Cd). intros n; apply synced_off. }
    destruct X as (s' & Ep & _ & X). rewrite X in E. apply Some_inj in E. injection E as <- <- <-. split; [exact R'|].
    assert (e = EMeasure \/ e <> EMeasure) as [->|Ne] by (destruct e; (left; reflexivity) || (right; discriminate)).
    + pose proof (post_both _ _ _ _ (p_measure relaxed C y bok_relaxed (reach_s4 C y HC R)) Et) as (_ & P2 & _). cbn [is_power] in *. split; [intros _; exact (P2 f (M eq_refl))|].
      intros n. rewrite rx_more. pose proof (post_both _ _ _ _ (post_calls _ _ (c_measure C y)) Et) as Re. cbv beta in Re.
      destruct (reports_sync _ l Rn Re _ _ _ _ _ _ _ (S n) Ep) as (_ & Ng & Sy). destruct (in_dec str_dec greeting s') as [X1|_]; [destruct (Ng X1)|exact Sy].
    + pose proof (ui_event C y e z l Ne Et) as U. split.
      * intros _. rewrite (after_ui l _ U). destruct (is_power e) eqn:Pw.
        -- destruct e; try discriminate Pw. exact (fresh_mirrored C z (power_fresh C y v pinb z HC R O Ez)).
        -- apply (calm_mirrored f y e z); [|exact (M eq_refl)]. apply (step_calm relaxed C y e z HC bok_relaxed (reach_s4 C y HC R) O Pw); [|exact Ez]. destruct e; try reflexivity. destruct (Ne eq_refl).
      * intros n. rewrite rx_more.
        assert (Sy : synced (rx_bytes rx_reset [] (n ++ b)) (if is_power e then false else y_dbg y) (if is_power e then fun _ => 0 else f) g) by (destruct (is_power e); [apply synced_off|exact (S n)]).
        exact (proj2 (ui_sync _ l U _ _ _ _ _ _ _ Sy Ep)).
Qed.
