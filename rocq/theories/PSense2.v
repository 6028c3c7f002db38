(** * The current sensor: codes above and below 5 A, concrete executions *)
From Coq Require Import ZArith List Bool Lia ZifyBool.
From Verif Require Import Base PBase MConf MTimer MPid MPwm MCurr SpecNum SpecCurr MSettings SpecSettings MSseg MDisplay MState MTemp
  MMeas MMenu MMain SpecDisplay SpecSys SpecRun SpecLive Trace TraceLive PSettingsEx SpecSense PSense.
Import ListNotations.
Open Scope Z_scope.
Ltac Zify.zify_post_hook ::= Z.div_mod_to_equations.

Lemma settled_mono c d a b n : c <= d -> a <= b -> settled c a n <= settled d b n.
Proof. intros Hc Hb. induction n as [|n IH]; cbn [settled]; [exact Hb|]. apply filt_mono; assumption. Qed.
Lemma shown_min_mono c d n : c <= d -> shown_min c n <= shown_min d n.
Proof. intros H. unfold shown_min. apply Z.div_le_mono; [lia|]. apply settled_mono; lia. Qed.
Lemma shown_max_mono c d n : c <= d -> shown_max c n <= shown_max d n.
Proof. intros H. unfold shown_max. apply Z.div_le_mono; [lia|]. apply settled_mono; lia. Qed.

Lemma shown_min_nonneg c n : 0 <= c -> 0 <= shown_min c n.
Proof. intros H. unfold shown_min. pose proof (settled_low c n H). apply Z.div_pos; lia. Qed.

Lemma sense_failure L lo hi C y w s n : build_conf C -> limits_ok L -> 0 <= lo <= hi -> hi <= 1023 -> sensed L lo hi C y w s ->
  (forall c v, shown_min lo (S n) <= c <= shown_max hi (S n) -> curr_of_code c v -> v < 0 \/ 5 * 640 < v) ->
  3000 + settle_ms L n + 2 * slow_cycle L < s -> Z.testbit (cc_emerg (y_cc y)) 0 = true /\ pwm_off y.
Proof. intros HC HL B1 B2. exact (sensed_fault L lo hi C HC HL ltac:(lia) y w s n). Qed.
Lemma sense_recovery L lo hi C y w s n : build_conf C -> limits_ok L -> 0 <= lo <= hi -> hi <= 1023 -> sensed L lo hi C y w s ->
  (forall c v, shown_min lo (S n) <= c <= shown_max hi (S n) -> curr_of_code c v -> 0 <= v <= 5 * 640) ->
  settle_ms L n + slow_cycle L < s -> Z.testbit (cc_emerg (y_cc y)) 0 = false.
Proof. intros HC HL B1 B2. exact (sensed_fine L lo hi C HC HL ltac:(lia) y w s n). Qed.
Lemma sense_high L lo hi C y w s : build_conf C -> limits_ok L -> lo <= hi -> hi <= 1023 -> sensed L lo hi C y w s ->
  (296 <= lo /\ 3000 + slow_window L + 99 * slow_cycle L < s \/ 512 <= lo /\ 3000 + slow_window L + 15 * slow_cycle L < s) ->
  Z.testbit (cc_emerg (y_cc y)) 0 = true /\ pwm_off y.
Proof.
  intros HC HL B1 B2 D [(B & S)|(B & S)].
  - apply (sense_failure L lo hi C y w s 97 HC HL ltac:(lia) B2 D); [|unfold settle_ms; lia]. intros c v (Bc & _) Tc.
    pose proof (shown_min_mono 296 lo 98 B) as M. replace (shown_min 296 98) with 296 in M by (vm_compute; reflexivity). unfold curr_of_code in Tc. clear - M Bc Tc. lia.
  - apply (sense_failure L lo hi C y w s 13 HC HL ltac:(lia) B2 D); [|unfold settle_ms; lia]. intros c v (Bc & _) Tc.
    pose proof (shown_min_mono 512 lo 14 B) as M. assert (296 <= shown_min 512 14) by (apply Z.leb_le; vm_compute; reflexivity). unfold curr_of_code in Tc. clear - H M Bc Tc. lia.
Qed.
Lemma sense_low L lo hi C y w s : build_conf C -> limits_ok L -> 0 <= lo <= hi -> sensed L lo hi C y w s ->
  (hi <= 295 /\ slow_window L + 112 * slow_cycle L < s \/ hi = 0 /\ slow_window L + 20 * slow_cycle L < s) ->
  Z.testbit (cc_emerg (y_cc y)) 0 = false.
Proof.
  intros HC HL B1 D [(B & S)|(B & S)].
  - apply (sense_recovery L lo hi C y w s 111 HC HL B1 ltac:(lia) D); [|unfold settle_ms; lia]. intros c v (Bd & Bc) Tc.
    pose proof (shown_max_mono hi 295 112 B) as M. replace (shown_max 295 112) with 295 in M by (vm_compute; reflexivity).
    pose proof (shown_min_nonneg lo 112 ltac:(lia)) as Sl. unfold curr_of_code in Tc. clear - M Bc Tc Bd Sl. lia.
  - apply (sense_recovery L lo hi C y w s 19 HC HL B1 ltac:(lia) D); [|unfold settle_ms; lia]. intros c v (Bd & Bc) Tc.
    rewrite B in Bc. assert (M : shown_max 0 20 <= 295) by (apply Z.leb_le; vm_compute; reflexivity).
    pose proof (shown_min_nonneg lo 20 ltac:(lia)) as Sl. unfold curr_of_code in Tc. clear - M Bc Tc Bd Sl. lia.
Qed.

(** Concrete executions *)
Fixpoint srun (L : limits) (lo hi : Z) (C : conf) (y : sys) (w : watch) (s : Z) (l : list event) : option (sys * watch * Z) :=
  match l with
  | [] => Some (y, w, s)
  | e :: r => if on_timeb L C y w e then y' <- step C y e ;; srun L lo hi C y' (watch_step 0 1023 y w e y') (sense_step lo hi y s e) r else None
  end.
Lemma srun_sensed L lo hi C l : forall y w s y' w' s', sensed L lo hi C y w s -> srun L lo hi C y w s l = Some (y', w', s') -> sensed L lo hi C y' w' s'.
Proof.
  induction l as [|e r IH]; intros y w s y' w' s' D E; cbn [srun] in E; [injection E as <- <- <-; exact D|].
  destruct (on_timeb L C y w e) eqn:O; [|discriminate E]. destruct (step C y e) as [y1|] eqn:S; [|discriminate E]. cbn [bind] in E.
  eapply IH; [|exact E]. econstructor; [exact D|apply on_timeb_ok; exact O|exact S].
Qed.
Definition scheck (L : limits) (lo hi : Z) (C : conf) (l : list event) (P : sys -> watch -> Z -> bool) : bool :=
  match (y <- boot C (factory_ee C) NO_KEYS ;; srun L lo hi C y watch_zero 0 l) with Some (y, w, s) => P y w s | None => false end.
Lemma scheck_sensed L lo hi C l P : scheck L lo hi C l P = true -> exists y w s, sensed L lo hi C y w s /\ P y w s = true.
Proof.
  unfold scheck. destruct (boot C (factory_ee C) NO_KEYS) as [y0|] eqn:B; [|discriminate]. cbn [bind].
  destruct (srun L lo hi C y0 watch_zero 0 l) as [((y, w), s)|] eqn:E; [|discriminate]. intros H. exists y, w, s. split; [|exact H].
  eapply srun_sensed; [|exact E]. eapply sns_boot; [|exact B]. unfold is_u8, NO_KEYS. lia.
Qed.
(** The sensor fails while the iron heats: code 1023 for 3685 ms. *)
Lemma case95 : (exists y w s, sensed brisk 1000 1023 conf_m88p y w s /\ s = 5 /\ Z.testbit (cc_emerg (y_cc y)) 0 = false /\ cc_ocr (y_cc y) = 4915) /\
  exists y w s, sensed brisk 1000 1023 conf_m88p y w s /\ 3000 + settle_ms brisk 5 + 2 * slow_cycle brisk < s /\
  forall c v, shown_min 1000 6 <= c <= shown_max 1023 6 -> curr_of_code c v -> v < 0 \/ 5 * 640 < v.
Proof.
  split.
  - destruct (scheck_sensed brisk 1000 1023 conf_m88p (live 2 100 0 ++ ms_of 100 5) (fun y w s => (s =? 5) && negb (Z.testbit (cc_emerg (y_cc y)) 0) && (cc_ocr (y_cc y) =? 4915)))
      as (y & w & s & D & H); [vm_compute; reflexivity|]. exists y, w, s. split; [exact D|]. destruct (Z.testbit _ 0); split; [lia|split; [lia|lia]|lia|split; [reflexivity|lia]].
  - destruct (scheck_sensed brisk 1000 1023 conf_m88p (live 2 100 0 ++ live 67 100 1023) (fun y w s => 3615 <? s)) as (y & w & s & D & H); [vm_compute; reflexivity|].
    exists y, w, s. split; [exact D|]. split; [replace (3000 + settle_ms brisk 5 + 2 * slow_cycle brisk) with 3615 by reflexivity; lia|].
    intros c v (Bc & _) Tc. assert (M : 296 <= shown_min 1000 6) by (apply Z.leb_le; vm_compute; reflexivity). unfold curr_of_code in Tc. clear - M Bc Tc. lia.
Qed.
(** A sensor that shows no current while the heater is driven with 2 A. *)
Lemma case95_zero : exists y w s, sensed brisk 0 0 conf_m88p y w s /\ slow_window brisk + 20 * slow_cycle brisk < s /\ cc_ocr (y_cc y) < 8191.
Proof.
  destruct (scheck_sensed brisk 0 0 conf_m88p (live 31 100 0) (fun y w s => (1642 <? s) && (cc_ocr (y_cc y) <? 8191))) as (y & w & s & D & H); [vm_compute; reflexivity|].
  exists y, w, s. split; [exact D|]. replace (slow_window brisk + 20 * slow_cycle brisk) with 1642 by reflexivity. lia.
Qed.
