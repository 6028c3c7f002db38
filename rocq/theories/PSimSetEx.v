(** * Concrete accesses to the settings of the simulated firmware *)
From Coq Require Import ZArith List Bool Lia ZifyBool String.
From Verif Require Import Base PBase MConf MTimer MPid MCurr MSettings SpecSettings MState MTemp MMeas MMenu MMain SpecSys SpecRun Trace MSimSet SpecSimSet.
Import ListNotations.
Open Scope Z_scope.

Lemma run_sim C l : forall y y', forallb (fun e => negb (is_power e)) l = true -> sim_reach C y -> run_ok C y l = Some y' -> sim_reach C y'.
Proof.
  induction l as [|e t IH]; intros y y' P R E; cbn [run_ok forallb] in *; [apply Some_inj in E; subst; exact R|].
  apply andb_true_iff in P. destruct P as (P1 & P2).
  destruct (ev_okb C y e) eqn:O; [|discriminate E]. destruct (step C y e) as [y1|] eqn:S; [|discriminate E]. cbn [bind] in E.
  apply (IH y1 y' P2); [|exact E]. eapply sr_step; [exact R|apply ev_okb_ok; exact O| |exact S]. destruct (is_power e); [discriminate P1|reflexivity].
Qed.
Lemma exec_sim C pinb l y : is_u8 pinb -> forallb (fun e => negb (is_power e)) l = true -> exec C pinb l = Some y -> sim_reach C y.
Proof.
  intros H P E. unfold exec in E. destruct (boot C (factory_ee C) pinb) as [y0|] eqn:B; [|discriminate E].
  apply (run_sim C l y0 y P); [econstructor; eassumption|exact E].
Qed.
Definition check2 (l : list event) (name : string) (v : Z) (w : bool) (P : sys -> sys -> Z -> bool -> bool) : bool :=
  match exec conf_m328p NO_KEYS l with
  | Some y => match setting_access conf_m328p y name v w with Some (y', r, ok) => P y y' r ok | None => false end
  | None => false
  end.
Lemma check2_some l name v w P : forallb (fun e => negb (is_power e)) l = true -> check2 l name v w P = true ->
  exists y y' r ok, sim_reach conf_m328p y /\ setting_access conf_m328p y name v w = Some (y', r, ok) /\ P y y' r ok = true.
Proof.
  unfold check2. intros F K. destruct (exec conf_m328p NO_KEYS l) as [y|] eqn:E; [|discriminate K].
  destruct (setting_access conf_m328p y name v w) as [[[y' r] ok]|] eqn:S; [|discriminate K]. exists y, y', r, ok.
  split; [apply (exec_sim conf_m328p NO_KEYS l); [unfold is_u8, NO_KEYS; lia|exact F|exact E]|auto].
Qed.
Lemma sim_conf_m328p : sim_conf conf_m328p.
Proof. split; [left; unfold ring_conf; cbn; split; [reflexivity|]; split; [lia|]; intros m; reflexivity|auto]. Qed.

(** The gain of the active mode is changed. *)
Lemma case93_write : exists y y', sim_reach conf_m328p y /\ setting_access conf_m328p y "temp_k[0].kp" 100 true = Some (y', 100, true) /\
  kp (p_k (t_pid (y_ct y))) = 96 /\ kp (p_k (t_pid (y_ct y'))) = 100 /\ p_integr (t_pid (y_ct y)) = 707 /\ p_integr (t_pid (y_ct y')) = 0.
Proof.
  destruct (check2_some (cycles 3 200 0) "temp_k[0].kp" 100 true (fun y y' r ok => ok && (r =? 100) && (kp (p_k (t_pid (y_ct y))) =? 96) && (kp (p_k (t_pid (y_ct y'))) =? 100) &&
    (p_integr (t_pid (y_ct y)) =? 707) && (p_integr (t_pid (y_ct y')) =? 0))) as (y & y' & r & ok & R & E & K); [reflexivity|vm_compute; reflexivity|].
  exists y, y'. destruct ok; [|discriminate K]. replace r with 100 in E by lia. repeat split; try assumption; lia.
Qed.
(** Reading a gain of another mode clears the memory of the temperature controller. *)
Lemma read_clears : exists y y' v, sim_reach conf_m328p y /\ setting_access conf_m328p y "temp_k[2].kp" 0 false = Some (y', v, true) /\
  t_boost (y_ct y) = 0 /\ p_integr (t_pid (y_ct y)) = 707 /\ p_integr (t_pid (y_ct y')) = 0.
Proof.
  destruct (check2_some (cycles 3 200 0) "temp_k[2].kp" 0 false (fun y y' r ok => ok && (t_boost (y_ct y) =? 0) &&
    (p_integr (t_pid (y_ct y)) =? 707) && (p_integr (t_pid (y_ct y')) =? 0))) as (y & y' & r & ok & R & E & K); [reflexivity|vm_compute; reflexivity|].
  exists y, y', r. destruct ok; [|discriminate K]. repeat split; try assumption; lia.
Qed.
(** Reading the idle temperature orders the settings to be written to the EEPROM. *)
Lemma read_stores : exists y y', sim_reach conf_m328p y /\ setting_access conf_m328p y "temp_idle_setpoint" 0 false = Some (y', 150 * 64, true) /\
  x_request (y_set y) = false /\ x_request (y_set y') = true.
Proof.
  destruct (check2_some [] "temp_idle_setpoint" 0 false (fun y y' r ok => ok && (r =? 9600) && negb (x_request (y_set y)) && x_request (y_set y')))
    as (y & y' & r & ok & R & E & K); [reflexivity|vm_compute; reflexivity|].
  exists y, y'. destruct ok; [|discriminate K]. replace r with (150 * 64) in E by lia.
  destruct (x_request (y_set y)) eqn:X1; [lia|]. destruct (x_request (y_set y')) eqn:X2; [auto|lia].
Qed.
(** A new idle temperature is not shown although the menu shows the idle temperature. *)
Lemma idle_unseen : exists y y', sim_reach conf_m328p y /\ setting_access conf_m328p y "temp_idle_setpoint" 12800 true = Some (y', 12800, true) /\
  n_state (y_menu y') = MENU_IDLETEMP /\ s_idle (get_settings y) = 9600 /\ s_idle (get_settings y') = 12800 /\ y_disp y' = y_disp y /\ n_upd (y_menu y') = false.
Proof.
  destruct (check2_some (press SET_KEY) "temp_idle_setpoint" 12800 true (fun y y' r ok => ok && (r =? 12800) && mstate_eqb (n_state (y_menu y')) MENU_IDLETEMP &&
    (s_idle (get_settings y) =? 9600) && (s_idle (get_settings y') =? 12800) && negb (n_upd (y_menu y')))) as (y & y' & r & ok & R & E & K); [reflexivity|vm_compute; reflexivity|].
  exists y, y'. destruct ok; [|discriminate K]. replace r with 12800 in E by lia. split; [exact R|]. split; [exact E|].
  repeat (apply andb_true_iff in K; destruct K as (K & ?)).
  split; [destruct (n_state (y_menu y')); try discriminate; reflexivity|]. split; [lia|]. split; [lia|]. split; [|destruct (n_upd (y_menu y')); [discriminate|reflexivity]].
  clear - E. unfold setting_access, access_any, k_members, SETTINGS_ACCESS in E. cbn [String.eqb Ascii.eqb Bool.eqb bind] in E.
  apply bind_inv in E. destruct E as ([[y1 v1] b1] & E1 & E). cbn [m_put m_idle bind] in E1. apply bind_inv in E1. destruct E1 as ([[y2 v2] b2] & E1 & E2).
  apply bind_inv in E1. destruct E1 as (y3 & E1 & E3). unfold sys_store in E1. apply bind_inv in E1. destruct E1 as (x & _ & E1). inversion E1. inversion E3. subst. inversion E2. subst. clear E1 E2 E3.
  apply bind_inv in E. destruct E as (y4 & E & E4). inversion E4. subst. clear E4.
  unfold contrtemp_set_idle_setpoint in E. cbn [c_idle conf_m328p] in E. apply bind_inv in E. destruct E as (y5 & E5 & E). unfold sys_store in E. apply bind_inv in E. destruct E as (x' & _ & E). inversion E. subst.
  unfold contrtemp_update_setpoint in E5. apply bind_inv in E5. destruct E5 as (w & _ & E5). inversion E5. reflexivity.
Qed.
(** Writes are not checked. *)
Lemma unchecked : exists y y' v, sim_reach conf_m328p y /\ setting_access conf_m328p y "temp_setpoint_active" 6 true = None /\
  setting_access conf_m328p y "temp_setpoint" (1000 * 64) true = Some (y', v, true) /\ p_setpoint (t_pid (y_ct y')) = 1000 * 64.
Proof.
  destruct (exec conf_m328p NO_KEYS []) as [y|] eqn:B; [|vm_compute in B; discriminate B].
  pose proof (exec_sim conf_m328p NO_KEYS [] y ltac:(unfold is_u8, NO_KEYS; lia) eq_refl B) as R.
  assert (K : match exec conf_m328p NO_KEYS [] with
    | Some y => match setting_access conf_m328p y "temp_setpoint_active" 6 true with None => true | Some _ => false end &&
                match setting_access conf_m328p y "temp_setpoint" (1000 * 64) true with Some (y', _, true) => p_setpoint (t_pid (y_ct y')) =? 64000 | _ => false end
    | None => false end = true) by (vm_compute; reflexivity).
  rewrite B in K. destruct (setting_access conf_m328p y "temp_setpoint_active" 6 true) eqn:E0; [discriminate K|].
  destruct (setting_access conf_m328p y "temp_setpoint" (1000 * 64) true) as [[[y' v] [|]]|] eqn:E; try discriminate K. cbn [andb] in K. apply Z.eqb_eq in K. exists y, y', v.
  split; [exact R|]. split; [exact E0|]. split; [exact E|exact K].
Qed.
Lemma case93_gui : exists y y', sim_reach conf_m328p y /\ s_active (get_settings y) = 3 /\ gui_update_values conf_m328p y 661 2 = Some y' /\
  p_setpoint (t_pid (y_ct y)) = 350 * 64 /\ p_setpoint (t_pid (y_ct y')) = 21152.
Proof.
  destruct (exec conf_m328p NO_KEYS []) as [y|] eqn:B; [|vm_compute in B; discriminate B].
  pose proof (exec_sim conf_m328p NO_KEYS [] y ltac:(unfold is_u8, NO_KEYS; lia) eq_refl B) as R.
  assert (K : match exec conf_m328p NO_KEYS [] with
    | Some y => (s_active (get_settings y) =? 3) && (p_setpoint (t_pid (y_ct y)) =? 22400) &&
                match gui_update_values conf_m328p y 661 2 with Some y' => p_setpoint (t_pid (y_ct y')) =? 21152 | _ => false end
    | None => false end = true) by (vm_compute; reflexivity).
  rewrite B in K. destruct (gui_update_values conf_m328p y 661 2) as [y'|] eqn:E; [|lia]. exists y, y'. repeat split; try assumption; lia.
Qed.
