(** * Interrupts inside the work functions: the statements of PropFineSense and concrete executions *)
From Coq Require Import ZArith List Bool Lia ZifyBool.
From Verif Require Import Base PBase MConf MTimer MPid MPwm MCurr SpecNum SpecCurr MSettings SpecSettings MSseg MDisplay MState MTemp
  MMeas MMenu MMain SpecDisplay SpecSys SpecRun SpecLive Trace TraceLive PSettingsEx SpecSense PSense PSense2
  MFine SpecFine SpecFineLive SpecFineSense PFine8 PFineEx PFineT6 PFineS.
Import ListNotations.
Open Scope Z_scope.
Ltac Zify.zify_post_hook ::= Z.div_mod_to_equations.

Lemma fsense_includes L lo hi C y w s : sensed L lo hi C y w s -> fsensed L lo hi C y w s.
Proof.
  intros D. induction D as [pinb y Hp E|y v pinb y' R O E Ad|y w s e y' D IH O E].
  - eapply fsns_boot; eassumption.
  - eapply fsns_power; [apply reach_freach; exact R|apply next_fnext; eassumption|exact Ad].
  - eapply (fsns_step L lo hi C y w s e [] y w s); [exact IH|constructor|exact O|apply fwork_nil; exact E].
Qed.
Lemma fsense_served L lo hi C y w s : fsensed L lo hi C y w s -> fserved L 0 1023 C y w.
Proof. exact (fsensed_fserved L lo hi C y w s). Qed.
Lemma fsense_failure L lo hi C y w s n : build_conf C -> limits_ok L -> 0 <= lo <= hi -> hi <= 1023 -> fsensed L lo hi C y w s ->
  (forall c v, shown_min lo (S n) <= c <= shown_max hi (S n) -> curr_of_code c v -> v < 0 \/ 5 * 640 < v) ->
  3000 + l_poll L + settle_ms L n + 2 * slow_cycle L < s -> Z.testbit (cc_emerg (y_cc y)) 0 = true /\ pwm_off y.
Proof. intros HC HL B1 B2. exact (fsensed_fault L lo hi C HC HL ltac:(lia) y w s n). Qed.
Lemma fsense_recovery L lo hi C y w s n : build_conf C -> limits_ok L -> 0 <= lo <= hi -> hi <= 1023 -> fsensed L lo hi C y w s ->
  (forall c v, shown_min lo (S n) <= c <= shown_max hi (S n) -> curr_of_code c v -> 0 <= v <= 5 * 640) ->
  settle_ms L n + slow_cycle L < s -> Z.testbit (cc_emerg (y_cc y)) 0 = false.
Proof. intros HC HL B1 B2. exact (fsensed_fine L lo hi C HC HL ltac:(lia) y w s n). Qed.
Lemma fsense_high L lo hi C y w s : build_conf C -> limits_ok L -> lo <= hi -> hi <= 1023 -> fsensed L lo hi C y w s ->
  (296 <= lo /\ 3000 + l_poll L + slow_window L + 99 * slow_cycle L < s \/ 512 <= lo /\ 3000 + l_poll L + slow_window L + 15 * slow_cycle L < s) ->
  Z.testbit (cc_emerg (y_cc y)) 0 = true /\ pwm_off y.
Proof.
  intros HC HL B1 B2 D [(B & S)|(B & S)].
  - apply (fsense_failure L lo hi C y w s 97 HC HL ltac:(lia) B2 D); [|unfold settle_ms; lia]. intros c v (Bc & _) Tc.
    pose proof (shown_min_mono 296 lo 98 B) as M. replace (shown_min 296 98) with 296 in M by (vm_compute; reflexivity). unfold curr_of_code in Tc. clear - M Bc Tc. lia.
  - apply (fsense_failure L lo hi C y w s 13 HC HL ltac:(lia) B2 D); [|unfold settle_ms; lia]. intros c v (Bc & _) Tc.
    pose proof (shown_min_mono 512 lo 14 B) as M. assert (296 <= shown_min 512 14) by (apply Z.leb_le; vm_compute; reflexivity). unfold curr_of_code in Tc. clear - H M Bc Tc. lia.
Qed.
Lemma fsense_low L lo hi C y w s : build_conf C -> limits_ok L -> 0 <= lo <= hi -> fsensed L lo hi C y w s ->
  (hi <= 295 /\ slow_window L + 112 * slow_cycle L < s \/ hi = 0 /\ slow_window L + 20 * slow_cycle L < s) ->
  Z.testbit (cc_emerg (y_cc y)) 0 = false.
Proof.
  intros HC HL B1 D [(B & S)|(B & S)].
  - apply (fsense_recovery L lo hi C y w s 111 HC HL B1 ltac:(lia) D); [|unfold settle_ms; lia]. intros c v (Bd & Bc) Tc.
    pose proof (shown_max_mono hi 295 112 B) as M. replace (shown_max 295 112) with 295 in M by (vm_compute; reflexivity).
    pose proof (shown_min_nonneg lo 112 ltac:(lia)) as Sl. unfold curr_of_code in Tc. clear - M Bc Tc Bd Sl. lia.
  - apply (fsense_recovery L lo hi C y w s 19 HC HL B1 ltac:(lia) D); [|unfold settle_ms; lia]. intros c v (Bd & Bc) Tc.
    rewrite B in Bc. assert (M : shown_max 0 20 <= 295) by (apply Z.leb_le; vm_compute; reflexivity).
    pose proof (shown_min_nonneg lo 20 ltac:(lia)) as Sl. unfold curr_of_code in Tc. clear - M Bc Tc Bd Sl. lia.
Qed.

(** Concrete executions *)
Lemma srun_spath L lo hi C l : forall y w s y' w' s', srun L lo hi C y w s l = Some (y', w', s') -> spath L lo hi C y w s l y' w' s'.
Proof.
  induction l as [|e r IH]; intros y w s y' w' s' E; cbn [srun] in E; [injection E as <- <- <-; constructor|].
  destruct (on_timeb L C y w e) eqn:O; [|discriminate E]. destruct (step C y e) as [y1|] eqn:S; [|discriminate E]. cbn [bind] in E.
  econstructor; [apply on_timeb_ok; exact O|exact S|apply IH; exact E].
Qed.
Fixpoint fsrun (L : limits) (lo hi : Z) (C : conf) (y : sys) (w : watch) (s : Z) (l : list (event * plan)) : option (sys * watch * Z) :=
  match l with
  | [] => Some (y, w, s)
  | (e, o) :: r =>
    '(y1, w1, s1) <- srun L lo hi C y w s (map irq_event (concat o)) ;;
    if on_timeb L C y1 w1 e then
      '(y', o') <- fwork C y e o ;;
      match o' with [] => fsrun L lo hi C y' (watch_step 0 1023 y1 w1 e y') (sense_step lo hi y1 s1 e) r | _ => None end
    else None
  end.
Lemma fsrun_sensed L lo hi C l : forall y w s y' w' s', fsensed L lo hi C y w s -> fsrun L lo hi C y w s l = Some (y', w', s') -> fsensed L lo hi C y' w' s'.
Proof.
  induction l as [|(e, o) r IH]; intros y w s y' w' s' D E; cbn [fsrun] in E; [injection E as <- <- <-; exact D|].
  destruct (srun L lo hi C y w s (map irq_event (concat o))) as [((y1, w1), s1)|] eqn:P; [|discriminate E]. cbn [bind] in E. apply srun_spath in P.
  destruct (on_timeb L C y1 w1 e) eqn:O; [|discriminate E]. destruct (fwork C y e o) as [(y2, o')|] eqn:S; [|discriminate E]. cbn [bind] in E.
  destruct o'; [|discriminate E]. eapply IH; [|exact E]. eapply fsns_step; [exact D|exact P|apply on_timeb_ok; exact O|exact S].
Qed.
Definition fscheck (L : limits) (lo hi : Z) (C : conf) (l : list (event * plan)) (P : sys -> watch -> Z -> bool) : bool :=
  match (y <- boot C (factory_ee C) NO_KEYS ;; fsrun L lo hi C y watch_zero 0 l) with Some (y, w, s) => P y w s | None => false end.
Lemma fscheck_sensed L lo hi C l P : fscheck L lo hi C l P = true -> exists y w s, fsensed L lo hi C y w s /\ P y w s = true.
Proof.
  unfold fscheck. destruct (boot C (factory_ee C) NO_KEYS) as [y0|] eqn:B; [|discriminate]. cbn [bind].
  destruct (fsrun L lo hi C y0 watch_zero 0 l) as [((y, w), s)|] eqn:E; [|discriminate]. intros H. exists y, w, s. split; [|exact H].
  eapply fsrun_sensed; [|exact E]. eapply fsns_boot; [|exact B]. unfold is_u8, NO_KEYS. lia.
Qed.
(** The sensor fails while the iron heats; two timer interrupts inside the handling of every result. *)
Lemma case109 : (exists y w s, fsensed brisk 1000 1023 conf_m88p y w s /\ s = 7 /\ Z.testbit (cc_emerg (y_cc y)) 0 = false /\ cc_ocr (y_cc y) = 4915) /\
  exists y w s, fsensed brisk 1000 1023 conf_m88p y w s /\ 3000 + l_poll brisk + settle_ms brisk 5 + 2 * slow_cycle brisk < s /\
  forall c v, shown_min 1000 6 <= c <= shown_max 1023 6 -> curr_of_code c v -> v < 0 \/ 5 * 640 < v.
Proof.
  split.
  - destruct (fscheck_sensed brisk 1000 1023 conf_m88p (flive 2 100 0 ++ plainly (ms_of 100 5)) (fun y w s => (s =? 7) && negb (Z.testbit (cc_emerg (y_cc y)) 0) && (cc_ocr (y_cc y) =? 4915)))
      as (y & w & s & D & H); [vm_compute; reflexivity|]. exists y, w, s. split; [exact D|]. destruct (Z.testbit _ 0); split; [lia|split; [lia|lia]|lia|split; [reflexivity|lia]].
  - destruct (fscheck_sensed brisk 1000 1023 conf_m88p (flive 2 100 0 ++ flive 63 100 1023) (fun y w s => 3625 <? s)) as (y & w & s & D & H); [vm_compute; reflexivity|].
    exists y, w, s. split; [exact D|]. split; [replace (3000 + l_poll brisk + settle_ms brisk 5 + 2 * slow_cycle brisk) with 3625 by reflexivity; lia|].
    intros c v (Bc & _) Tc. assert (M : 296 <= shown_min 1000 6) by (apply Z.leb_le; vm_compute; reflexivity). unfold curr_of_code in Tc. clear - M Bc Tc. lia.
Qed.
Lemma case109_zero : exists y w s, fsensed brisk 0 0 conf_m88p y w s /\ slow_window brisk + 20 * slow_cycle brisk < s /\ cc_ocr (y_cc y) < 8191.
Proof.
  destruct (fscheck_sensed brisk 0 0 conf_m88p (flive 31 100 0) (fun y w s => (1642 <? s) && (cc_ocr (y_cc y) <? 8191))) as (y & w & s & D & H); [vm_compute; reflexivity|].
  exists y, w, s. split; [exact D|]. replace (slow_window brisk + 20 * slow_cycle brisk) with 1642 by reflexivity. lia.
Qed.
