(** * Concrete executions for the property about the heating of a cold iron *)
From Coq Require Import ZArith List Bool Lia ZifyBool.
From Verif Require Import Base PBase MConf MTimer MPid MCurr SpecCurr MSettings SpecSettings MSseg MDisplay MState MTemp
  MMeas MMenu MMain SpecDisplay SpecSys SpecRun SpecLive SpecWarm Trace TraceLive PSettingsEx.
Import ListNotations.
Open Scope Z_scope.

Fixpoint grun (L : limits) (lo hi chi : Z) (C : conf) (W : Z) (y : sys) (w : watch) (n : Z) (l : list event) : option (sys * watch * Z) :=
  match l with
  | [] => Some (y, w, n)
  | e :: r =>
      if on_timeb L C y w e && match e with EAdc raw => negb (m_chan (y_meas y) =? 0) || (raw <=? chi) | _ => true end then
        y' <- step C y e ;;
        grun L lo hi chi C W y' (watch_step lo hi y w e y')
          (if eager C W y && eager C W y' then n + match e with ETick => 1 | _ => 0 end else 0) r
      else None
  end.
Lemma grun_wanting L lo hi chi C W l : forall y w n y' w' n', wanting L lo hi chi C W y w n ->
  grun L lo hi chi C W y w n l = Some (y', w', n') -> wanting L lo hi chi C W y' w' n'.
Proof.
  induction l as [|e r IH]; intros y w n y' w' n' D E; cbn [grun] in E; [injection E as <- <- <-; exact D|].
  destruct (on_timeb L C y w e && _) eqn:O in E; [|discriminate E]. apply andb_true_iff in O. destruct O as (O1 & O2).
  destruct (step C y e) as [y1|] eqn:S; [|discriminate E]. cbn [bind] in E. eapply IH; [|exact E].
  econstructor; [exact D|apply on_timeb_ok; exact O1|exact S|]. intros raw -> Q. rewrite Q in O2. cbn in O2. lia.
Qed.
Definition gcheck (L : limits) (lo hi chi : Z) (C : conf) (W : Z) (l : list event) (P : sys -> watch -> Z -> bool) : bool :=
  match (y <- boot C (factory_ee C) NO_KEYS ;; grun L lo hi chi C W y watch_zero 0 l) with Some (y, w, n) => P y w n | None => false end.
Lemma gcheck_wanting L lo hi chi C W l P : gcheck L lo hi chi C W l P = true -> exists y w n, wanting L lo hi chi C W y w n /\ P y w n = true.
Proof.
  unfold gcheck. destruct (boot C (factory_ee C) NO_KEYS) as [y0|] eqn:B; [|discriminate]. cbn [bind].
  destruct (grun L lo hi chi C W y0 watch_zero 0 l) as [((y, w), n)|] eqn:E; [|discriminate]. intros H. exists y, w, n. split; [|exact H].
  eapply grun_wanting; [|exact E]. eapply want_boot; [|exact B]. unfold is_u8, NO_KEYS. lia.
Qed.
(** The iron is switched on with the factory settings and the tip at room temperature: 330 ms later. *)
Lemma case86 : exists y w n, wanting brisk 130 140 203 conf_m88p (350 * 64) y w n /\
  3 * slow_cycle brisk < n /\ 3 * slow_cycle brisk < v_calm w /\ 3 * slow_cycle brisk + slow_window brisk < v_steady w /\
  (forall c x, 130 <= c <= 140 -> temp_of_code conf_m88p (s_adj (x_cache (y_set y))) c x -> 15 * 64 <= x <= 40 * 64).
Proof.
  destruct (gcheck_wanting brisk 130 140 203 conf_m88p (350 * 64) (live 6 134 140)
    (fun y w n => (237 <? n) && (237 <? v_calm w) && (299 <? v_steady w) && (s_adj (x_cache (y_set y)) =? 0))) as (y & w & n & D & H); [vm_compute; reflexivity|].
  exists y, w, n. split; [exact D|]. change (slow_cycle brisk) with 79. change (slow_window brisk) with 62. split; [lia|]. split; [lia|]. split; [lia|].
  intros c v Bc Tc. unfold temp_of_code in Tc. replace (s_adj (x_cache (y_set y))) with 0 in Tc by lia. change (c_adj conf_m88p) with true in Tc. change (c_smd conf_m88p) with true in Tc. cbv iota in Tc. clear - Bc Tc. lia.
Qed.
(** The factory settings and a tip at about 420 degrees: 330 ms after power-up. *)
Lemma case88 : exists y w n, wanting brisk 372 378 1023 conf_m88p (350 * 64) y w n /\
  3 * slow_cycle brisk < n /\ 3 * slow_cycle brisk < v_calm w /\ 3 * slow_cycle brisk + slow_window brisk < v_steady w /\
  (forall c x, 372 <= c <= 378 -> temp_of_code conf_m88p (s_adj (x_cache (y_set y))) c x -> 410 * 64 <= x <= 430 * 64).
Proof.
  destruct (gcheck_wanting brisk 372 378 1023 conf_m88p (350 * 64) (live 6 375 140)
    (fun y w n => (237 <? n) && (237 <? v_calm w) && (299 <? v_steady w) && (s_adj (x_cache (y_set y)) =? 0))) as (y & w & n & D & H); [vm_compute; reflexivity|].
  exists y, w, n. split; [exact D|]. change (slow_cycle brisk) with 79. change (slow_window brisk) with 62. split; [lia|]. split; [lia|]. split; [lia|].
  intros c v Bc Tc. unfold temp_of_code in Tc. replace (s_adj (x_cache (y_set y))) with 0 in Tc by lia. change (c_adj conf_m88p) with true in Tc. change (c_smd conf_m88p) with true in Tc. cbv iota in Tc. clear - Bc Tc. lia.
Qed.
