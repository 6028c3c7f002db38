(** * Concrete executions: cases for the theorems and refutations *)
From Coq Require Import ZArith List Bool Lia ZifyBool.
From Verif Require Import Base PBase MConf MUtil MFixpt MScale MRing MFilter MTimer MPid MPwm MTempMap MCurr MSens
  SpecNum SpecPid SpecSmall PNum PSmall PScale PPid SpecCurr PCurr MSettings SpecSettings PSettings PSysSet
  MSseg MDisplay MText MState MTemp MMeas MMenu MMain SpecDisplay SpecSys SpecRun PSys PSysMeas PSysMenu PSysDisp PSysBtn
  PSysStep PSysRun PSysCC PSettingsEx PSysSafe PSysProp Trace.
Import ListNotations.
Open Scope Z_scope.
Ltac Zify.zify_post_hook ::= Z.div_mod_to_equations.

Definition result_b (y : sys) (chan : Z) : bool := m_avail (y_meas y) && (m_chan (y_meas y) =? chan).
Lemma result_b_ok y chan : result_b y chan = true -> result y EMeasure chan.
Proof. unfold result_b, result. intros H. apply andb_true_iff in H. destruct H as (H1 & H2). apply Z.eqb_eq in H2. auto. Qed.
Ltac andbs := repeat match goal with
  | H : _ && _ = true |- _ => apply andb_true_iff in H; destruct H
  | H : negb _ = true |- _ => apply negb_true_iff in H
  | H : result_b _ _ = true |- _ => apply result_b_ok in H
  | H : (_ =? _) = true |- _ => apply Z.eqb_eq in H
  | H : (_ <? _) = true |- _ => apply Z.ltb_lt in H
  end.
Definition then_b (C : conf) (l : list event) (e : event) (P : sys -> sys -> bool) : bool :=
  match exec C NO_KEYS l with
  | Some y => ev_okb C y e && match step C y e with Some y' => P y y' | None => false end
  | None => false
  end.
Lemma then_ok C l e P : then_b C l e P = true ->
  exists y y', reach C y /\ ev_ok C y e /\ step C y e = Some y' /\ P y y' = true.
Proof.
  unfold then_b. destruct (exec C NO_KEYS l) as [y|] eqn:E; [|discriminate]. destruct (ev_okb C y e) eqn:O; [|discriminate].
  destruct (step C y e) as [y'|] eqn:S; [|discriminate]. intros H. exists y, y'. split; [eapply exec_reach; [|exact E]; unfold NO_KEYS, is_u8; lia|].
  split; [apply ev_okb_ok; exact O|]. split; [exact S|exact H].
Qed.
(** C25: an implausible current for more than 3 s. *)
Lemma case25 : exists y, reach conf_m88p y /\ cc_emerg (y_cc y) = 1 /\ p_setpoint (cc_pid (y_cc y)) = 3200.
Proof.
  assert (K : then_b conf_m88p (cycles 2 250 0 ++ cycles 90 250 400 ++ temp_cycle 250 ++ ticks 6 ++ [EAdc 400]) EMeasure
    (fun y y' => (cc_emerg (y_cc y') =? 1) && (p_setpoint (cc_pid (y_cc y')) =? 3200)) = true) by (vm_compute; reflexivity).
  destruct (then_ok _ _ _ _ K) as (y & y' & R & O & E & P). exists y'. split; [econstructor; eassumption|lia].
Qed.
(** C28: heating at full power, then 486 degrees. *)
Lemma case28 : exists y y', reach conf_m88p y /\ step conf_m88p y EMeasure = Some y' /\ too_hot conf_m88p y' /\ cc_ocr (y_cc y) = 0.
Proof.
  assert (K : then_b conf_m88p (cycles 3 250 0 ++ ticks 51 ++ [EAdc 415]) EMeasure
    (fun y y' => result_b y 1 && (t_enabled (y_ct y) && negb (t_emerg (y_ct y')) && (30720 <? t_feedback (y_ct y')) && (cc_ocr (y_cc y) =? 0))) = true) by (vm_compute; reflexivity).
  destruct (then_ok _ _ _ _ K) as (y & y' & R & O & E & P). exists y, y'. split; [exact R|]. split; [exact E|].
  andbs. split; [|assumption].
  apply (hot_now conf_m88p y EMeasure y' (t_feedback (y_ct y')) R O E); [|assumption].
  match goal with H : result _ _ _ |- _ => destruct H as (_ & ? & ?) end. unfold temp_processed. repeat split; assumption.
Qed.
(** C29: the temperature sensor fails while the iron heats up. *)
Lemma refute29 : exists y, dead conf_m88p y /\ cc_ocr (y_cc y) = 7372.
Proof.
  assert (K : then_b conf_m88p (cycles 60 250 0 ++ cycles 55 1023 0 ++ temp_cycle 1023 ++ ticks 6 ++ [EAdc 0]) EMeasure
    (fun y y' => result_b y 0 && (t_emerg (y_ct y) && (cc_ocr (y_cc y') =? 7372))) = true) by (vm_compute; reflexivity).
  destruct (then_ok _ _ _ _ K) as (y & y' & R & O & E & P). exists y'. andbs.
  split; [|assumption]. econstructor; eassumption.
Qed.
(** C30: no temperature sensor. *)
Definition cold_b (y : sys) (e : event) : bool :=
  negb (is_power e) && (negb (match e with EMeasure => result_b y 1 | _ => false end) || ((500 <? mean_code y) && (s_adj (x_cache (y_set y)) =? 0))).
Fixpoint run_cold_b (C : conf) (y : sys) (l : list event) : option sys :=
  match l with
  | [] => Some y
  | e :: r => if ev_okb C y e && cold_b y e then y' <- step C y e ;; run_cold_b C y' r else None
  end.
Lemma cold_b_ok C y e : cold_b y e = true -> is_power e = false /\ ~ (result y e 1 /\ good_temp C y).
Proof.
  unfold cold_b. intros H. apply andb_true_iff in H. destruct H as (H1 & H2). split; [apply negb_true_iff; exact H1|]. intros ((X1 & X2 & X3) & v & T & B).
  subst e. unfold result_b in H2. rewrite X2, X3 in H2. cbn [andb Z.eqb negb orb] in H2. replace (1 =? 1) with true in H2 by reflexivity. cbn in H2.
  unfold temp_of_code in T. assert (A : s_adj (x_cache (y_set y)) = 0) by lia. rewrite A in T. set (m := mean_code y) in *. clearbody m.
  destruct (c_adj C), (c_smd C); lia.
Qed.
Lemma run_cold C l : forall y y', cold C y -> run_cold_b C y l = Some y' -> cold C y'.
Proof.
  induction l as [|e t IH]; intros y y' D E; cbn [run_cold_b] in E; [apply Some_inj in E; subst; exact D|].
  destruct (ev_okb C y e) eqn:O; [|discriminate E]. destruct (cold_b y e) eqn:Cb; [|discriminate E]. cbn [andb] in E.
  destruct (step C y e) as [y1|] eqn:S; [|discriminate E]. cbn [bind] in E. destruct (cold_b_ok C _ _ Cb) as (P & N).
  apply (IH y1 y'); [|exact E]. eapply cold_step; [exact D|apply ev_okb_ok; exact O|exact S|exact P|exact N].
Qed.
Lemma refute30 : exists y, cold conf_m88p y /\ cc_ocr (y_cc y) = 4915.
Proof.
  assert (K : match boot conf_m88p (factory_ee conf_m88p) NO_KEYS with
              | Some y => check (run_cold_b conf_m88p y (cycles 2 1023 0)) (fun y => cc_ocr (y_cc y) =? 4915)
              | None => false end = true) by (vm_compute; reflexivity).
  destruct (boot conf_m88p (factory_ee conf_m88p) NO_KEYS) as [y0|] eqn:B; [|discriminate K].
  apply check_some in K. destruct K as (y & E & P). exists y. split; [|lia].
  eapply run_cold; [|exact E]. eapply cold_boot; [|exact B]. unfold NO_KEYS, is_u8; lia.
Qed.
(** C31: a sensor that fails for 36 s and recovers. *)
Lemma refute31_temp : exists y y' r dt out, reach conf_m88p y /\ step conf_m88p y EMeasure = Some y' /\ temp_processed y EMeasure y' r /\
  pid_run (t_pid (y_ct y)) dt r = Some (t_pid (y_ct y'), out) /\ dt_seconds (y_now y) (t_dt (y_ct y)) = Some dt /\ dt < 0.
Proof.
  assert (K : then_b conf_m88p (cycles 2 250 0 ++ cycles 640 1023 0 ++ ticks 51 ++ [EAdc 250]) EMeasure
    (fun y y' => result_b y 1 && (t_enabled (y_ct y) && negb (t_emerg (y_ct y')) &&
       match dt_seconds (y_now y) (t_dt (y_ct y)) with Some dt => dt <? 0 | None => false end)) = true) by (vm_compute; reflexivity).
  destruct (then_ok _ _ _ _ K) as (y & y' & R & O & E & P). clear K. apply andb_true_iff in P. destruct P as (P1 & P2). apply result_b_ok in P1.
  destruct P1 as (_ & X2 & X3). apply andb_true_iff in P2. destruct P2 as (P2 & P3). assert (P4 : t_enabled (y_ct y) = true /\ t_emerg (y_ct y') = false) by (andbs; split; assumption).
  destruct P4 as (P4 & P5). assert (HC : build_conf conf_m88p) by (left; split; [reflexivity|split; [cbn; lia|reflexivity]]).
  pose proof (reach_s4 _ y HC R) as S4.
  destruct (step_pending relaxed _ y EMeasure y' HC bok_relaxed S4 X2 E) as (c0 & c1 & raw & _ & _ & _ & _ & _ & _ & _ & _ & Ht & _).
  destruct (Ht X3) as (c1' & v & v' & p & _ & _ & _ & T & _). destruct T as (_ & _ & _ & _ & _ & _ & _ & _ & _ & _ & Td).
  destruct (Td P4 P5) as (dt & out & a & E1 & E2 & _). rewrite E1 in P3.
  exists y, y', (t_feedback (y_ct y')), dt, out. split; [exact R|]. split; [exact E|]. split; [unfold temp_processed; repeat split; assumption|].
  split; [exact E2|]. split; [exact E1|lia].
Qed.
Lemma refute31_curr : exists y y' used dt out, reach conf_m88p y /\ result y EMeasure 0 /\ step conf_m88p y EMeasure = Some y' /\ cc_emerg (y_cc y') = 0 /\
  pid_run (cc_pid (y_cc y)) dt used = Some (cc_pid (y_cc y'), out) /\ dt_seconds (y_now y) (cc_timer (y_cc y)) = Some dt /\ dt < 0.
Proof.
  assert (K : then_b conf_m88p (cycles 2 250 0 ++ cycles 680 250 400 ++ cycles 4 250 0 ++ temp_cycle 250 ++ ticks 6 ++ [EAdc 0]) EMeasure
    (fun y y' => result_b y 0 && ((cc_emerg (y_cc y') =? 0) &&
       match dt_seconds (y_now y) (cc_timer (y_cc y)) with Some dt => dt <? 0 | None => false end)) = true) by (vm_compute; reflexivity).
  destruct (then_ok _ _ _ _ K) as (y & y' & R & O & E & P). clear K. apply andb_true_iff in P. destruct P as (P1 & P2). apply result_b_ok in P1.
  assert (HC : build_conf conf_m88p) by (left; split; [reflexivity|split; [cbn; lia|reflexivity]]).
  destruct (result_ran _ y EMeasure y' HC R P1 E) as (Kr & _). unfold cc_ran in Kr. apply andb_true_iff in P2. destruct P2 as (P2 & P3). rewrite P2 in Kr.
  destruct Kr as (_ & dt & used & out & E1 & E2 & _). rewrite E1 in P3. exists y, y', used, dt, out.
  split; [exact R|]. split; [exact P1|]. split; [exact E|]. split; [lia|]. split; [exact E2|]. split; [exact E1|lia].
Qed.
(** C26: 100 degrees have not been reached. *)
Lemma exec_last_good C l y0 y v : last_good C y0 None -> run_cold_b C y0 l = Some y -> result y EMeasure 1 -> 
  temp_of_code C (s_adj (x_cache (y_set y))) (mean_code y) v -> -1280 <= v <= 32000 ->
  forall y', step C y EMeasure = Some y' -> last_good C y' (Some v).
Proof.
  intros D E X T B y' S. eapply lg_good; [|exact X|exact S|exact T|lia]. revert y0 D E.
  induction l as [|e t IH]; intros y0 D E; cbn [run_cold_b] in E; [apply Some_inj in E; subst; exact D|].
  destruct (ev_okb C y0 e) eqn:O; [|discriminate E]. destruct (cold_b y0 e) eqn:Cb; [|discriminate E]. cbn [andb] in E.
  destruct (step C y0 e) as [y1|] eqn:S1; [|discriminate E]. cbn [bind] in E. destruct (cold_b_ok C _ _ Cb) as (P & N).
  apply (IH y1); [|exact E]. eapply lg_other; [exact D|apply ev_okb_ok; exact O|exact S1|exact P|exact N].
Qed.
Lemma case26 : exists y v, last_good conf_m88p y (Some v) /\ v < 100 * 64.
Proof.
  assert (K : match boot conf_m88p (factory_ee conf_m88p) NO_KEYS with
              | Some y => check (run_cold_b conf_m88p y (ticks 51 ++ [EAdc 140]))
                  (fun y => result_b y 1 && ((mean_code y =? 140) && (s_adj (x_cache (y_set y)) =? 0)))
              | None => false end = true) by (vm_compute; reflexivity).
  destruct (boot conf_m88p (factory_ee conf_m88p) NO_KEYS) as [y0|] eqn:B; [|discriminate K].
  apply check_some in K. destruct K as (y & E & P). andbs.
  assert (HC : build_conf conf_m88p) by (left; split; [reflexivity|split; [cbn; lia|reflexivity]]).
  assert (R : reach conf_m88p y).
  { revert E. assert (R0 : reach conf_m88p y0) by (eapply reach_boot; [|exact B]; unfold NO_KEYS, is_u8; lia). clear - R0. revert y0 R0.
    induction (ticks 51 ++ [EAdc 140]) as [|e t IH]; intros y0 R0 E; cbn [run_cold_b] in E; [apply Some_inj in E; subst; exact R0|].
    destruct (ev_okb conf_m88p y0 e) eqn:O; [|discriminate E]. destruct (cold_b y0 e); [|discriminate E]. cbn [andb] in E.
    destruct (step conf_m88p y0 e) as [y1|] eqn:S1; [|discriminate E]. cbn [bind] in E. apply (IH y1); [|exact E]. econstructor; [exact R0|apply ev_okb_ok; exact O|exact S1]. }
  destruct (step conf_m88p y EMeasure) as [y'|] eqn:S; [|destruct (proj2 (sys_total _ HC) y EMeasure R Logic.I S)].
  exists y', 2245. split; [|lia]. eapply exec_last_good; [|exact E|eassumption| |lia|exact S].
  - eapply lg_boot; [|exact B]. unfold NO_KEYS, is_u8; lia.
  - unfold temp_of_code. replace (mean_code y) with 140. replace (s_adj (x_cache (y_set y))) with 0. cbn. lia.
Qed.
(** The state after some events. *)
Lemma case_reach C l P : check (exec C NO_KEYS l) P = true -> exists y, reach C y /\ P y = true.
Proof.
  intros K. apply check_some in K. destruct K as (y & E & H). exists y. split; [|exact H].
  eapply exec_reach; [|exact E]. unfold NO_KEYS, is_u8; lia.
Qed.
(** C35: the iron is idle after its button has been held for a second. *)
Lemma case35 : exists y, reach conf_m88p y /\ t_idle (y_ct y) = true /\ pid_get_setpoint (t_pid (y_ct y)) = 150 * 64.
Proof.
  destruct (case_reach conf_m88p (hold 50 NO_KEYS ++ hold 1100 IRON_KEY)
    (fun y => t_idle (y_ct y) && (pid_get_setpoint (t_pid (y_ct y)) =? 9600))) as (y & R & H); [vm_compute; reflexivity|].
  exists y. andbs. auto.
Qed.
(** C36: the active preset has been lowered by a degree. *)
Lemma reach1_run C l : forall y y', reach1 C y -> forallb (fun e => negb (is_power e)) l = true -> run_ok C y l = Some y' -> reach1 C y'.
Proof.
  induction l as [|e t IH]; intros y y' R P E; cbn [run_ok] in E; [apply Some_inj in E; subst; exact R|].
  destruct (ev_okb C y e) eqn:O; [|discriminate E]. destruct (step C y e) as [y1|] eqn:S; [|discriminate E]. cbn [bind] in E.
  cbn [forallb] in P. andbs. apply (IH y1 y'); [|assumption|exact E]. econstructor; [exact R|apply ev_okb_ok; exact O|assumption|exact S].
Qed.
Lemma case_reach1 C l P : check (exec C NO_KEYS l) P = true -> forallb (fun e => negb (is_power e)) l = true -> exists y, reach1 C y /\ P y = true.
Proof.
  intros K F. apply check_some in K. destruct K as (y & E & H). exists y. split; [|exact H].
  unfold exec in E. destruct (boot C (factory_ee C) NO_KEYS) as [y0|] eqn:B; [|discriminate E].
  eapply reach1_run; [|exact F|exact E]. econstructor; [|exact B]. unfold NO_KEYS, is_u8; lia.
Qed.
Lemma case36 : exists y, reach1 conf_m88p y /\ nth 3 (s_preset (x_cache (y_set y))) 0 = 351 * 64 /\ t_boost (y_ct y) = 1.
Proof.
  destruct (case_reach1 conf_m88p (press IRON_KEY ++ hold 1100 PLUS_KEY ++ hold 20 NO_KEYS)
    (fun y => (nth 3 (s_preset (x_cache (y_set y))) 0 =? 351 * 64) && (t_boost (y_ct y) =? 1))) as (y & R & H); [vm_compute; reflexivity|vm_compute; reflexivity|].
  exists y. andbs. auto.
Qed.
(** C41: in the sensor adjustment menu after heating. *)
Lemma case41 : exists y, reach conf_m88p y /\ n_state (y_menu y) = MENU_ADJ /\ cc_ocr (y_cc y) = 0 /\ t_enabled (y_ct y) = false.
Proof.
  destruct (case_reach conf_m88p (cycles 3 250 0 ++ press SET_KEY ++ press SET_KEY ++ press SET_KEY)
    (fun y => match n_state (y_menu y) with MENU_ADJ => true | _ => false end && (cc_ocr (y_cc y) =? 0) && negb (t_enabled (y_ct y)))) as (y & R & H); [vm_compute; reflexivity|].
  exists y. andbs. split; [exact R|]. destruct (n_state (y_menu y)); try discriminate; auto.
Qed.
(** C46: a digit is driven. *)
Lemma case46 : exists y, reach conf_m88p y /\ active_muxes (y_hw y) = 1.
Proof.
  destruct (case_reach conf_m88p [EMenu; ETick; ETick; EDisplay; ETick; ETick; ETick; EDisplay]
    (fun y => active_muxes (y_hw y) =? 1)) as (y & R & H); [vm_compute; reflexivity|]. exists y. andbs. auto.
Qed.
(** C47: power-up with SET pressed starts in the debug menu. *)
Lemma case47 : exists y, reach conf_m328p y /\ h_tx (y_hw y) = true.
Proof.
  assert (K : check (exec conf_m328p SET_KEY []) (fun y => h_tx (y_hw y)) = true) by (vm_compute; reflexivity).
  apply check_some in K. destruct K as (y & E & H). exists y. split; [|exact H]. eapply exec_reach; [|exact E]. unfold SET_KEY, is_u8; lia.
Qed.
(** C55: an erased EEPROM. *)
Lemma refute55 : boot conf_m88p (fun _ => 255) NO_KEYS = None.
Proof. vm_compute. reflexivity. Qed.
(** C63: a current measurement changes the PWM. *)
Lemma case63 : exists y y', reach conf_m88p y /\ step conf_m88p y EMeasure = Some y' /\ result y EMeasure 0 /\ cc_ocr (y_cc y) = 8191 /\ cc_ocr (y_cc y') = 0.
Proof.
  destruct (then_ok conf_m88p (temp_cycle 250 ++ ticks 6 ++ [EAdc 0]) EMeasure
    (fun y y' => result_b y 0 && ((cc_ocr (y_cc y) =? 8191) && (cc_ocr (y_cc y') =? 0)))) as (y & y' & R & O & E & P); [vm_compute; reflexivity|].
  exists y, y'. andbs. auto.
Qed.
(** C31: the clocks after one second of regular operation. *)
Fixpoint clock_b (C : conf) (y : sys) (n m : Z) (l : list event) : option (sys * Z * Z) :=
  match l with
  | [] => Some (y, n, m)
  | e :: r =>
    if ev_okb C y e && negb (is_power e) then
      y' <- step C y e ;;
      let n' := match e with
                | ETick => n + 1
                | EMeasure => if result_b y 1 && t_enabled (y_ct y) && negb (t_emerg (y_ct y')) then 0 else n
                | _ => n end in
      let m' := match e with
                | ETick => m + 1
                | EMeasure => if result_b y 0 && (cc_emerg (y_cc y') =? 0) then 0 else m
                | _ => m end in
      if Bool.eqb (t_enabled (y_ct y')) (t_enabled (y_ct y)) then clock_b C y' n' m' r else None
    else None
  end.
Lemma clock_b_ok C l : forall y n m y' n' m', temp_clock C y n -> curr_clock C y m -> clock_b C y n m l = Some (y', n', m') ->
  temp_clock C y' n' /\ curr_clock C y' m'.
Proof.
  induction l as [|e t IH]; intros y n m y' n' m' T U E; cbn [clock_b] in E; [apply Some_inj in E; injection E as <- <- <-; auto|].
  destruct (ev_okb C y e) eqn:O; [|discriminate E]. destruct (is_power e) eqn:P; [discriminate E|]. cbn [andb negb] in E.
  destruct (step C y e) as [y1|] eqn:S; [|discriminate E]. cbn [bind] in E. destruct (Bool.eqb _ _) eqn:Q; [|discriminate E]. apply eqb_prop in Q.
  apply ev_okb_ok in O. eapply IH; [| |exact E]; clear IH E.
  - destruct e; try (eapply tc_other; [exact T|exact O|exact S|exact P|discriminate| |exact Q]; intros (r & X & _); discriminate X).
    + eapply tc_tick; eassumption.
    + destruct (result_b y 1 && t_enabled (y_ct y) && negb (t_emerg (y_ct y1))) eqn:F.
      * andbs. eapply tc_restart; try eassumption. left. exists (t_feedback (y_ct y1)).
        match goal with H : result _ _ _ |- _ => destruct H as (_ & ? & ?) end. unfold temp_processed. auto 10.
      * eapply tc_other; try eassumption; [discriminate|]. intros (r & _ & X2 & X3 & X4 & X5 & _).
        unfold result_b in F. rewrite X2, X3, X4, X5 in F. discriminate F.
  - destruct e; try (eapply uc_other; [exact U|exact O|exact S|exact P|discriminate|]; intros ((X & _) & _); discriminate X).
    + eapply uc_tick; eassumption.
    + destruct (result_b y 0 && (cc_emerg (y_cc y1) =? 0)) eqn:F.
      * andbs. eapply uc_restart; try eassumption. auto.
      * eapply uc_other; try eassumption; [discriminate|]. intros ((_ & X2 & X3) & X4).
        unfold result_b in F. rewrite X2, X3, X4 in F. discriminate F.
Qed.
Lemma case31 : exists y n m, temp_clock conf_m88p y n /\ curr_clock conf_m88p y m /\ n = 57 /\ m = 51 /\ result y EMeasure 1.
Proof.
  assert (K : match boot conf_m88p (factory_ee conf_m88p) NO_KEYS with
              | Some y => match clock_b conf_m88p y 0 0 (cycles 18 250 0 ++ ticks 51 ++ [EAdc 250]) with
                          | Some (y, n, m) => (n =? 57) && (m =? 51) && result_b y 1
                          | None => false end
              | None => false end = true) by (vm_compute; reflexivity).
  destruct (boot conf_m88p (factory_ee conf_m88p) NO_KEYS) as [y0|] eqn:B; [|discriminate K].
  destruct (clock_b conf_m88p y0 0 0 _) as [[[y n] m]|] eqn:E; [|discriminate K]. exists y, n, m. andbs.
  assert (N : is_u8 NO_KEYS) by (unfold NO_KEYS, is_u8; lia).
  destruct (clock_b_ok _ _ _ _ _ _ _ _ (tc_boot _ _ _ N B) (uc_boot _ _ _ N B) E) as (T & U). auto.
Qed.
(** C36: the value is changed from 479 to 480 degrees between the writes of its two bytes, then the power
    fails before the next store. *)
Definition bytes (n : nat) : list event := concat (repeat [EReady; EDone] n).
Definition mixed_run : list event :=
  hold 50 NO_KEYS ++ hold 4900 PLUS_KEY ++ hold 20 NO_KEYS ++ press MINUS_KEY ++ ticks 1100 ++ [ESettings] ++ bytes 49 ++
  press PLUS_KEY ++ bytes 15 ++ [EPower 0 NO_KEYS].
Lemma refute36 : exists y, reach conf_m88p y /\ ~ settings_in_range (x_cache (y_set y)).
Proof.
  destruct (case_reach conf_m88p mixed_run (fun y => nth 3 (s_preset (x_cache (y_set y))) 0 =? 30912)) as (y & R & H); [vm_compute; reflexivity|].
  exists y. split; [exact R|]. intros (_ & _ & F & _). apply Z.eqb_eq in H.
  destruct (s_preset (x_cache (y_set y))) as [|p0 [|p1 [|p2 [|p3 t]]]]; cbn [nth] in H; try discriminate H.
  inversion F as [|? ? _ F1]. inversion F1 as [|? ? _ F2]. inversion F2 as [|? ? _ F3]. inversion F3 as [|? ? F4 _]. subst p3. lia.
Qed.
(** C56: without the ring the power fails while the preset number is being programmed. *)
Lemma refute56 : exists y, reach conf_noring y /\ x_busy (y_set y) = Some (57, 4) /\ step conf_noring y (EPower 255 NO_KEYS) = None.
Proof.
  destruct (case_reach conf_noring (hold 50 NO_KEYS ++ press PLUS_KEY ++ press PLUS_KEY ++ ticks 1100 ++ [ESettings] ++ repeat EReady 58)
    (fun y => match x_busy (y_set y) with Some (a, d) => (a =? 57) && (d =? 4) | None => false end &&
              match step conf_noring y (EPower 255 NO_KEYS) with None => true | Some _ => false end)) as (y & R & H); [vm_compute; reflexivity|].
  exists y. split; [exact R|]. apply andb_true_iff in H. destruct H as (H1 & H2).
  destruct (x_busy (y_set y)) as [[a d]|]; [|discriminate H1]. apply andb_true_iff in H1. destruct H1 as (H1 & H3). apply Z.eqb_eq in H1, H3. subst a d.
  split; [reflexivity|]. destruct (step conf_noring y (EPower 255 NO_KEYS)); [discriminate H2|reflexivity].
Qed.
(** The same build between two stores. *)
Lemma case56 : exists y, reach conf_noring y /\ s_active (x_cache (y_set y)) = 4 /\ x_ee (y_set y) 57 = 4 /\ step conf_noring y (EPower 255 NO_KEYS) <> None.
Proof.
  destruct (case_reach conf_noring (hold 50 NO_KEYS ++ press PLUS_KEY ++ press PLUS_KEY ++ ticks 1100 ++ [ESettings] ++ bytes 58)
    (fun y => (s_active (x_cache (y_set y)) =? 4) && ((x_ee (y_set y) 57 =? 4) &&
              match step conf_noring y (EPower 255 NO_KEYS) with Some _ => true | None => false end))) as (y & R & H); [vm_compute; reflexivity|].
  exists y. andbs. split; [exact R|]. split; [assumption|]. split; [assumption|].
  intros E. match goal with H : match step _ _ _ with _ => _ end = true |- _ => rewrite E in H; discriminate H end.
Qed.
(** C65: the first temperature result. *)
Lemma case65 : exists y y' r, reach conf_m88p y /\ step conf_m88p y EMeasure = Some y' /\ temp_processed y EMeasure y' r /\
  p_setpoint (cc_pid (y_cc y)) = 0 /\ p_setpoint (cc_pid (y_cc y')) = 3200.
Proof.
  destruct (then_ok conf_m88p (ticks 51 ++ [EAdc 250]) EMeasure
    (fun y y' => result_b y 1 && (t_enabled (y_ct y) && (negb (t_emerg (y_ct y')) && ((p_setpoint (cc_pid (y_cc y)) =? 0) && (p_setpoint (cc_pid (y_cc y')) =? 3200)))))) as (y & y' & R & O & E & P); [vm_compute; reflexivity|].
  exists y, y', (t_feedback (y_ct y')). andbs. match goal with H : result _ _ _ |- _ => destruct H as (_ & ? & ?) end.
  unfold temp_processed. auto 15.
Qed.
