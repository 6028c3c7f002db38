(** * Concrete executions and corollaries for the properties of the main loop *)
From Coq Require Import ZArith List Bool Lia ZifyBool.
From Verif Require Import Base PBase MConf MTimer MPid MCurr SpecCurr MSettings SpecSettings MSseg MDisplay MState MTemp
  MMeas MMenu MMain SpecDisplay SpecSys SpecRun SpecUI SpecLive Trace TraceLive PSettingsEx PLive PLive2 PLive3 PLoop PLoop2 PLoop3 SpecLoop TraceLoop.
Import ListNotations.
Open Scope Z_scope.

Lemma swift_ok : speed_ok swift /\ quick swift /\ finite_speed swift.
Proof. unfold speed_ok, quick, finite_speed, limits_ok, store_ms, swift. cbn. lia. Qed.
Lemma slow_ok : guarded (mkSpeed 300 2 20 4 1) /\ finite_speed (mkSpeed 300 2 20 4 1).
Proof. unfold guarded, finite_speed, speed_ok, limits_ok, store_ms. cbn. lia. Qed.

(** ** The watchdog *)
Lemma guarded_hot S lo hi C t : build_conf C -> guarded S -> loop S lo hi C adj_99 t ->
  (forall c v, lo <= c <= hi -> temp_of_code C (s_adj (x_cache (y_set (st_y t)))) c v -> 480 * 64 < v <= 500 * 64) ->
  1011 < v_steady (st_w t) -> 659 < v_calm (st_w t) -> pwm_off (st_y t).
Proof.
  intros HC (HS & Hp & Hs) D Hot Hv Hc. eapply live_over_temp; [exact HC|exact (proj1 HS)|exact (loop_served S lo hi C HC HS t D)| | |exact Hot];
    unfold slow_cycle, slow_window; cbn [limits_of l_sample l_poll]; lia.
Qed.
Lemma guarded_dead S lo hi C t : build_conf C -> guarded S -> loop S lo hi C adj_99 t ->
  (forall adj c v, -99 * 64 <= adj <= 99 * 64 -> lo <= c <= hi -> temp_of_code C adj c v -> v < -20 * 64 \/ 500 * 64 < v) ->
  5330 < v_steady (st_w t) -> t_emerg (y_ct (st_y t)) = true /\ p_setpoint (cc_pid (y_cc (st_y t))) = 0 /\ duty_at_most (st_y t) 1 10.
Proof.
  intros HC (HS & Hp & Hs) D Hd Hv. eapply live_dead; [exact HC|exact (proj1 HS)|exact (loop_served S lo hi C HC HS t D)|exact Hd|].
  unfold slow_cycle, slow_window; cbn [limits_of l_sample l_poll]; lia.
Qed.
(** A main loop that takes 300 ms for every iteration. *)
Definition crawl (n : nat) (raw : Z) : list event :=
  concat (repeat ([EMeasure; EMenu; EDisplay; EButtons NO_KEYS; ESettings] ++ concat (repeat [EAdc raw; EDone; EReady; ETick] 300)) n).
Lemma case74 : exists t, loop (mkSpeed 300 2 20 4 1) 412 422 conf_m88p adj_99 t /\ 1272 < v_steady (st_w t) /\ 920 < v_calm (st_w t) /\ s_adj (x_cache (y_set (st_y t))) = 0.
Proof.
  destruct (lcheck_loop (mkSpeed 300 2 20 4 1) 412 422 conf_m88p adj_99 (crawl 3 150 ++ crawl 5 415)
    (fun t => (1272 <? v_steady (st_w t)) && (920 <? v_calm (st_w t)) && (s_adj (x_cache (y_set (st_y t))) =? 0))) as (t & D & H); [vm_compute; reflexivity|].
  exists t. split; [exact D|]. lia.
Qed.

(** ** Storing *)
(** PLUS pressed twice: preset 4 instead of 3. *)
Definition choose : list event := passes 20 NO_KEYS 150 ++ passes 100 PLUS_KEY 150 ++ passes 50 NO_KEYS 150 ++ passes 50 PLUS_KEY 150.
Lemma case73 : exists t, loop swift 0 1023 conf_m88p any_settings t /\ safe_ms swift <= st_hands t /\ s_active (u_cfg (st_u t)) = 4.
Proof.
  destruct (lcheck_loop swift 0 1023 conf_m88p any_settings (choose ++ passes 1360 NO_KEYS 150)
    (fun t => (1350 <=? st_hands t) && (s_active (u_cfg (st_u t)) =? 4))) as (t & D & H); [vm_compute; reflexivity|].
  exists t. split; [exact D|]. change (safe_ms swift) with 1350. lia.
Qed.
Lemma power_may S C t v pinb : is_u8 v -> is_u8 pinb -> busy (st_y t) = false -> may S C t (EPower v pinb).
Proof. intros. split; [exact Logic.I|]. auto. Qed.
(** Switched off after 900 ms, the choice is lost. *)
Lemma case73_early : exists t y', loop swift 0 1023 conf_m88p any_settings t /\ 900 <= st_hands t /\ s_active (u_cfg (st_u t)) = 4 /\
  may swift conf_m88p t (EPower 255 NO_KEYS) /\ step conf_m88p (st_y t) (EPower 255 NO_KEYS) = Some y' /\ s_active (x_cache (y_set y')) = 3.
Proof.
  destruct (lcheck_loop swift 0 1023 conf_m88p any_settings (choose ++ passes 900 NO_KEYS 150)
    (fun t => (900 <=? st_hands t) && (s_active (u_cfg (st_u t)) =? 4) && negb (busy (st_y t)) &&
       match step conf_m88p (st_y t) (EPower 255 NO_KEYS) with Some y' => s_active (x_cache (y_set y')) =? 3 | None => false end)) as (t & D & H); [vm_compute; reflexivity|].
  destruct (step conf_m88p (st_y t) (EPower 255 NO_KEYS)) as [y'|] eqn:E; [|rewrite andb_false_r in H; discriminate H]. exists t, y'. split; [exact D|].
  split; [lia|]. split; [lia|]. split; [|split; [exact E|lia]]. apply power_may; unfold is_u8, NO_KEYS; try lia. destruct (busy (st_y t)); [lia|reflexivity].
Qed.
(** PLUS held down: the preset is raised to the limit; four seconds later it is still not stored. *)
Lemma lrun_moves S lo hi C l : forall t t', lrun S lo hi C t l = Some t' -> moves S lo hi C t l t'.
Proof.
  induction l as [|e r IH]; intros t t' E; cbn [lrun] in E; [injection E as <-; apply moves_nil|].
  destruct (mayb S C t e) eqn:M; [|discriminate E]. destruct (step C (st_y t) e) as [y1|] eqn:St; [|discriminate E]. cbn [bind] in E.
  eapply moves_cons; [apply mayb_ok; exact M|exact St|apply IH; exact E].
Qed.
Definition preset_of (s : settings) : Z := nth 3 (s_preset s) 0.
Lemma case73_held : exists t l t' y', loop swift 0 1023 conf_m88p any_settings t /\ preset_of (u_cfg (st_u t)) = 480 * 64 /\
  moves swift 0 1023 conf_m88p t l t' /\ duration l = 4000 /\ preset_of (u_cfg (st_u t')) = 480 * 64 /\
  may swift conf_m88p t' (EPower 255 NO_KEYS) /\ step conf_m88p (st_y t') (EPower 255 NO_KEYS) = Some y' /\ preset_of (x_cache (y_set y')) = 350 * 64.
Proof.
  assert (K : exists t, loop swift 0 1023 conf_m88p any_settings t /\ (fun t => (preset_of (u_cfg (st_u t)) =? 480 * 64) &&
     match lrun swift 0 1023 conf_m88p t (passes 4000 PLUS_KEY 150) with
     | Some t' => (preset_of (u_cfg (st_u t')) =? 480 * 64) && negb (busy (st_y t')) &&
                  match step conf_m88p (st_y t') (EPower 255 NO_KEYS) with Some y' => preset_of (x_cache (y_set y')) =? 350 * 64 | None => false end
     | None => false end) t = true).
  { apply (lcheck_loop swift 0 1023 conf_m88p any_settings (passes 20 NO_KEYS 150 ++ passes (2000 + 2000 + 2000) PLUS_KEY 150)). vm_compute. reflexivity. }
  destruct K as (t & D & H). cbv beta in H. apply andb_true_iff in H. destruct H as (H1 & H2).
  destruct (lrun swift 0 1023 conf_m88p t (passes 4000 PLUS_KEY 150)) as [t'|] eqn:E; [|discriminate H2]. apply andb_true_iff in H2. destruct H2 as (H2 & H4). apply andb_true_iff in H2. destruct H2 as (H2 & H3).
  destruct (step conf_m88p (st_y t') (EPower 255 NO_KEYS)) as [y'|] eqn:Ey; [|discriminate H4].
  exists t, (passes 4000 PLUS_KEY 150), t', y'. split; [exact D|]. split; [apply Z.eqb_eq; exact H1|]. split; [apply lrun_moves; exact E|]. split; [vm_compute; reflexivity|].
  split; [apply Z.eqb_eq; exact H2|]. split; [|split; [exact Ey|apply Z.eqb_eq; exact H4]]. apply power_may; unfold is_u8, NO_KEYS; try lia. destruct (busy (st_y t')); [discriminate H3|reflexivity].
Qed.
(** C72: a busy station: a store of the settings is going on while keys are pressed. *)
Lemma case72 : exists t, loop swift 0 1023 conf_m88p adj_99 t /\ busy (st_y t) = true /\ x_request (y_set (st_y t)) = true /\ st_at t = AtSettings /\ u_menu (st_u t) = MENU_SELPRESET.
Proof.
  destruct (lcheck_loop swift 0 1023 conf_m88p adj_99 (choose ++ passes 990 NO_KEYS 150 ++ passes 20 PLUS_KEY 150 ++ [EAdc 150; EMeasure; EMenu; EDisplay; EButtons NO_KEYS])
    (fun t => busy (st_y t) && x_request (y_set (st_y t)) && place_eqb (st_at t) AtSettings && match u_menu (st_u t) with MENU_SELPRESET => true | _ => false end)) as (t & D & H); [vm_compute; reflexivity|].
  exists t. split; [exact D|]. apply andb_true_iff in H; destruct H as (H & H4). apply andb_true_iff in H; destruct H as (H & H3). apply andb_true_iff in H; destruct H as (H1 & H2).
  split; [exact H1|]. split; [exact H2|]. split; [apply place_eqb_ok; exact H3|]. destruct (u_menu (st_u t)); try discriminate H4; reflexivity.
Qed.
