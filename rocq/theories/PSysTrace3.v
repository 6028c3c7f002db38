(** * Concrete executions of the user interface *)
From Coq Require Import ZArith List Bool Lia ZifyBool.
From Verif Require Import Base PBase MConf MTimer MPid MCurr SpecNum SpecCurr MSettings SpecSettings MSseg MDisplay MState MTemp MMeas
  MMenu MMain SpecDisplay SpecSys SpecRun SpecUI PSys PSysSafe PSysProp Trace PSysTrace PSettingsEx PSysMenu PSysBtn PSysUI PSysUI2 PSysUI3 PSysUI4 PSysUI5 PSysUI6 PSysUI7.
Import ListNotations.
Open Scope Z_scope.
Ltac Zify.zify_post_hook ::= Z.div_mod_to_equations.

Definition in_timeb (u : ui) (e : event) : bool :=
  match e with
  | EButtons _ => (u_time u - 10 * u_count u <? 30000) && match u_iron u with Some n => n <? 30000 | None => true end
  | EMenu => match menu_limit (u_menu u) with Some _ => u_age u <? 30000 | None => true end &&
             match u_ramp u with RNone => true | RWait _ n => n <? 30000 | RRun _ n k => n - step_time k <? 30000 end
  | _ => true
  end.
Lemma in_timeb_ok u e : in_timeb u e = true -> in_time u e.
Proof.
  destruct e; cbn [in_timeb in_time]; try (intros _; exact Logic.I); intros H; apply andb_prop in H; destruct H as (A & B).
  - split.
    + intros d Hd. rewrite Hd in A. lia.
    + destruct (u_ramp u); [exact Logic.I|lia|lia].
  - split; [lia|]. intros n Hn. rewrite Hn in B. lia.
Qed.
(** The events [l], with the automaton and the calls of the handlers. *)
Record ux := mkUx { q_y : sys; q_u : ui; q_T : Z; q_s : Z; q_l : list (button * bstate); q_m : Z; q_b : Z }.
Definition ux_step (C : conf) (q : ux) (e : event) : option ux :=
  if ev_okb C (q_y q) e && negb (is_power e) && in_timeb (q_u q) e && match e with ETick => (q_m q <? 25) && (q_b q <? 10) | _ => true end then
    y' <- step C (q_y q) e ;;
    let u' := ui_next C (q_u q) (sensor_error (q_y q)) e in
    match e with
    | ETick => Some (mkUx y' u' (q_T q + 1) (q_s q) (q_l q) (q_m q + 1) (q_b q + 1))
    | EMenu => Some (mkUx y' u' (q_T q) (q_s q) (q_l q) 0 (q_b q))
    | EButtons pins =>
      if timer_expired (y_now (q_y q)) (b_timer (y_btn (q_y q)))
      then Some (mkUx y' u' (q_T q) (q_s q + 1) (q_l q ++ sample_calls (b_prev (y_btn (q_y q))) pins) (q_m q) 0)
      else Some (mkUx y' u' (q_T q) (q_s q) (q_l q) (q_m q) 0)
    | _ => Some (mkUx y' u' (q_T q) (q_s q) (q_l q) (q_m q) (q_b q))
    end
  else None.
Fixpoint ux_run (C : conf) (q : ux) (l : list event) : option ux :=
  match l with [] => Some q | e :: r => q' <- ux_step C q e ;; ux_run C q' r end.
Definition ux_boot (C : conf) (pinb : Z) : option ux :=
  y <- boot C (factory_ee C) pinb ;; Some (mkUx y (ui_start C pinb (x_cache (y_set y))) 0 0 [] 0 0).
Definition ux_exec (C : conf) (pinb : Z) (l : list event) : option ux := q <- ux_boot C pinb ;; ux_run C q l.
Record ux_ok (C : conf) (q : ux) : Prop := {
  qo_run : ui_run C (q_y q) (q_u q);
  qo_calls : delivered C (q_y q) (q_u q) (q_T q) (q_s q) (q_l q);
  qo_prompt : prompt C (q_y q) (q_u q) (q_m q) (q_b q) }.
Lemma ux_step_ok C q e q' : build_conf C -> ux_ok C q -> ux_step C q e = Some q' -> ux_ok C q' /\ ev_ok C (q_y q) e /\ in_time (q_u q) e /\ is_power e = false /\
  step C (q_y q) e = Some (q_y q') /\ q_u q' = ui_next C (q_u q) (sensor_error (q_y q)) e.
Proof.
  intros HC [Q1 Q2 Q3] E. unfold ux_step in E. destruct (_ && _ && _ && _) eqn:G in E; [|discriminate E].
  apply andb_prop in G. destruct G as (G & G4). apply andb_prop in G. destruct G as (G & G3). apply andb_prop in G. destruct G as (G1 & G2).
  apply ev_okb_ok in G1. apply in_timeb_ok in G3. apply negb_true_iff in G2. apply bind_inv in E. destruct E as (y' & S & E). cbv zeta in E.
  pose proof (next_run C _ _ e y' Q1 G1 G3 G2 S) as R'.
  assert (X : ux_ok C q' /\ q_y q' = y' /\ q_u q' = ui_next C (q_u q) (sensor_error (q_y q)) e).
  { assert (D : (forall pins, e <> EButtons pins) -> delivered C y' (ui_next C (q_u q) (sensor_error (q_y q)) e) (q_T q + ticks_of e) (q_s q) (q_l q)).
    { intros N. eapply dl_other; eassumption. }
    assert (P : ticks_of e = 0 -> e <> EMenu -> (forall pins, e <> EButtons pins) -> prompt C y' (q_u q) (q_m q) (q_b q)).
    { intros N1 N2 N3. eapply pm_other; try eassumption. intros ->. discriminate N1. }
    destruct e; try discriminate G2.
    - apply Some_inj in E. subst q'. split; [|split; reflexivity]. constructor; cbn [q_y q_u q_T q_s q_l q_m q_b]; [exact R'|apply D; discriminate|].
      apply andb_prop in G4. eapply pm_tick; try eassumption; lia.
    - apply Some_inj in E. subst q'. split; [|split; reflexivity]. rewrite Z.add_0_r in D. constructor; cbn [q_y q_u q_T q_s q_l q_m q_b]; [exact R'|apply D; discriminate|apply P; [reflexivity|discriminate..]].
    - apply Some_inj in E. subst q'. split; [|split; reflexivity]. rewrite Z.add_0_r in D. constructor; cbn [q_y q_u q_T q_s q_l q_m q_b]; [exact R'|apply D; discriminate|apply P; [reflexivity|discriminate..]].
    - apply Some_inj in E. subst q'. split; [|split; reflexivity]. rewrite Z.add_0_r in D. constructor; cbn [q_y q_u q_T q_s q_l q_m q_b]; [exact R'|apply D; discriminate|apply P; [reflexivity|discriminate..]].
    - apply Some_inj in E. subst q'. split; [|split; reflexivity]. rewrite Z.add_0_r in D. constructor; cbn [q_y q_u q_T q_s q_l q_m q_b]; [exact R'|apply D; discriminate|apply P; [reflexivity|discriminate..]].
    - apply Some_inj in E. subst q'. split; [|split; reflexivity]. rewrite Z.add_0_r in D. constructor; cbn [q_y q_u q_T q_s q_l q_m q_b]; [exact R'|apply D; discriminate|]. eapply pm_menu; eassumption.
    - apply Some_inj in E. subst q'. split; [|split; reflexivity]. rewrite Z.add_0_r in D. constructor; cbn [q_y q_u q_T q_s q_l q_m q_b]; [exact R'|apply D; discriminate|apply P; [reflexivity|discriminate..]].
    - clear D P. destruct (timer_expired _ _) eqn:T; apply Some_inj in E; subst q'; (split; [constructor; cbn [q_y q_u q_T q_s q_l q_m q_b]; [exact R'| |]|split; reflexivity]).
      + eapply dl_sample; eassumption.
      + eapply pm_keys; eassumption.
      + destruct (run_rel C _ _ HC Q1) as (_ & _ & _ & Rl). pose proof (due_eq C _ _ pinb Rl G3) as D. rewrite T in D. pose proof (keys_calls C _ _ pinb HC Q1 G1 G3) as K. rewrite <- D in K.
        rewrite S in K. apply Some_inj in K. subst y'. cbn [ui_next]. unfold ui_sample. rewrite <- D. eapply dl_early; eassumption.
      + eapply pm_keys; eassumption.
    - apply Some_inj in E. subst q'. split; [|split; reflexivity]. rewrite Z.add_0_r in D. constructor; cbn [q_y q_u q_T q_s q_l q_m q_b]; [exact R'|apply D; discriminate|apply P; [reflexivity|discriminate..]]. }
  destruct X as (X1 & X2 & X3). subst y'. auto 10.
Qed.
Lemma ux_boot_ok C pinb q : is_u8 pinb -> ux_boot C pinb = Some q -> ux_ok C q.
Proof.
  intros Hp E. unfold ux_boot in E. apply bind_inv in E. destruct E as (y & E & F). apply Some_inj in F. subst q. constructor; cbn [q_y q_u q_T q_s q_l q_m q_b].
  - apply ui_boot; assumption.
  - apply dl_boot; assumption.
  - apply pm_boot; assumption.
Qed.
Lemma ux_run_ok C l : build_conf C -> forall q q', ux_ok C q -> ux_run C q l = Some q' -> ux_ok C q'.
Proof.
  intros HC. induction l as [|e r IH]; intros q q' Q E; cbn [ux_run] in E; [apply Some_inj in E; subst; exact Q|]. apply bind_inv in E. destruct E as (q1 & E1 & E2).
  apply (IH q1 q'); [|exact E2]. apply (ux_step_ok C q e q1 HC Q E1).
Qed.
Lemma ux_exec_ok C pinb l q : build_conf C -> is_u8 pinb -> ux_exec C pinb l = Some q -> ux_ok C q.
Proof. intros HC Hp E. unfold ux_exec in E. apply bind_inv in E. destruct E as (q0 & E0 & E1). apply (ux_run_ok C l HC q0 q (ux_boot_ok C pinb q0 Hp E0) E1). Qed.

(** A key or the iron key held down: [l] is run after the sample [EButtons pins] in state [q0]. *)
Definition iron_evb (e : event) : bool := match e with EButtons pins => down pins BUTTON_IRON && negb (down pins BUTTON_SET) | _ => true end.
Definition onlyb (k : button) (pins : Z) : bool :=
  forallb (fun b => if key_pin b =? key_pin k then true else negb (down pins b)) all_keys.
Lemma onlyb_ok k pins : onlyb k pins = true -> forall b, b <> k -> down pins b = false.
Proof.
  intros H b Hb. unfold onlyb in H. pose proof (proj1 (forallb_forall _ _) H b) as X. assert (I : In b all_keys) by (destruct b; cbn; auto). specialize (X I). cbv beta in X.
  destruct (key_pin b =? key_pin k) eqn:E; [exfalso; apply Hb; destruct b, k; cbn in E; congruence || discriminate E|]. destruct (down pins b); [discriminate X|reflexivity].
Qed.
Definition key_evb (k : button) (q : ux) (e : event) : bool :=
  match e with
  | EButtons pins => onlyb k pins && down pins k
  | EMenu => (sensor_error (q_y q) =? n_err (y_menu (q_y q))) && match menu_limit (n_state (y_menu (q_y q))) with Some d => u_age (q_u q) <? d | None => true end
  | _ => true
  end.
Fixpoint hold_run (C : conf) (ok : ux -> event -> bool) (q : ux) (l : list event) (n m : Z) : option (ux * Z * Z) :=
  match l with
  | [] => Some (q, n, m)
  | e :: r => if ok q e then q' <- ux_step C q e ;; hold_run C ok q' r (n + ticks_of e) match e with EMenu => 0 | _ => m + ticks_of e end else None
  end.
Lemma iron_hold_ok C y0 l : build_conf C -> forall q n m q' n' m', ux_ok C q -> iron_held C y0 n (q_y q) (q_u q) ->
  hold_run C (fun _ => iron_evb) q l n m = Some (q', n', m') -> ux_ok C q' /\ iron_held C y0 n' (q_y q') (q_u q').
Proof.
  intros HC. induction l as [|e r IH]; intros q n m q' n' m' Q H E; cbn [hold_run] in E; [apply Some_inj in E; injection E as <- <- <-; auto|].
  destruct (iron_evb e) eqn:K; [|discriminate E]. apply bind_inv in E. destruct E as (q1 & E1 & E2). destruct (ux_step_ok C q e q1 HC Q E1) as (Q1 & O & T & P & S & U).
  apply (IH q1 (n + ticks_of e) match e with EMenu => 0 | _ => m + ticks_of e end q' n' m' Q1); [|exact E2]. rewrite U. eapply iron_on; try eassumption.
  intros pins ->. cbn [iron_evb] in K. apply andb_prop in K. destruct K as (K1 & K2). split; [exact K1|]. destruct (down pins BUTTON_SET); [discriminate K2|reflexivity].
Qed.
Lemma key_hold_ok C k y0 l : build_conf C -> forall q n m q' n' m', ux_ok C q -> key_prompt C k y0 n m (q_y q) (q_u q) -> m = q_m q ->
  hold_run C (key_evb k) q l n m = Some (q', n', m') -> ux_ok C q' /\ key_prompt C k y0 n' m' (q_y q') (q_u q').
Proof.
  intros HC. induction l as [|e r IH]; intros q n m q' n' m' Q H Em E; cbn [hold_run] in E; [apply Some_inj in E; injection E as <- <- <-; auto|].
  destruct (key_evb k q e) eqn:K; [|discriminate E]. apply bind_inv in E. destruct E as (q1 & E1 & E2). destruct (ux_step_ok C q e q1 HC Q E1) as (Q1 & O & T & P & S & U).
  assert (G : (e = ETick -> m < 25) /\ match e with EMenu => 0 | _ => m + ticks_of e end = q_m q1).
  { unfold ux_step in E1. destruct (_ && _ && _ && _) eqn:G in E1; [|discriminate E1]. apply andb_prop in G. destruct G as (_ & G4). apply bind_inv in E1. destruct E1 as (y1 & _ & E1).
    split; [intros ->; rewrite Em; apply andb_prop in G4; lia|]. destruct e; cbn [ticks_of]; rewrite ?Z.add_0_r;
      try (apply Some_inj in E1; subst q1; cbn [q_m]; congruence). destruct (timer_expired _ _); apply Some_inj in E1; subst q1; cbn [q_m]; congruence. }
  destruct G as (G1 & G2). eapply (IH q1 (n + ticks_of e) _ q' n' m' Q1); [|exact G2|exact E2]. rewrite U. eapply kp_on; try eassumption.
  - intros pins ->. cbn [key_evb] in K. apply andb_prop in K. destruct K as (K1 & K2). split; [|exact K2]. intros b Hb. pose proof (onlyb_ok k pins K1 b Hb). auto.
  - intros ->. cbn [key_evb] in K. apply andb_prop in K. destruct K as (K1 & K2). split; [lia|]. intros d Hd. rewrite Hd in K2. lia.
Qed.
(** Scenario: the events [l0], then the press of a key, then [l] with the key held. *)
Definition press_run (C : conf) (k : button) (ok : ux -> event -> bool) (l0 : list event) (pins : Z) (l : list event) : option (ux * ux * Z * Z) :=
  q0 <- ux_exec C NO_KEYS l0 ;;
  if sample_due (q_u q0) && onlyb k (u_pins (q_u q0)) && negb (down (u_pins (q_u q0)) k) && onlyb k pins && down pins k then
    q1 <- ux_step C q0 (EButtons pins) ;;
    '(q, n, m) <- hold_run C ok q1 l 0 (q_m q1) ;;
    Some (q0, q, n, m)
  else None.
Lemma press_parts C k ok l0 pins l q0 q n m : build_conf C -> is_u8 pins -> press_run C k ok l0 pins l = Some (q0, q, n, m) ->
  ux_ok C q0 /\ exists q1, sampled C (q_y q0) (q_u q0) pins (q_y q1) /\ q_u q1 = ui_sample C (q_u q0) pins /\ only_key k (u_pins (q_u q0)) pins /\
    down (u_pins (q_u q0)) k = false /\ down pins k = true /\ ux_ok C q1 /\ hold_run C ok q1 l 0 (q_m q1) = Some (q, n, m).
Proof.
  intros HC Hp E. unfold press_run in E. apply bind_inv in E. destruct E as (z & E0 & E). destruct (_ && _ && _ && _ && _) eqn:G in E; [|discriminate E].
  apply andb_prop in G. destruct G as (G & G5). apply andb_prop in G. destruct G as (G & G4). apply andb_prop in G. destruct G as (G & G3). apply andb_prop in G. destruct G as (G1 & G2).
  apply bind_inv in E. destruct E as (q1 & E1 & E). apply bind_inv in E. destruct E as (((q', n'), m') & E2 & E). apply Some_inj in E. injection E as <- <- <- <-.
  pose proof (ux_exec_ok C NO_KEYS l0 z HC ltac:(unfold is_u8, NO_KEYS; lia) E0) as Q0. split; [exact Q0|]. exists q1. destruct (ux_step_ok C z _ q1 HC Q0 E1) as (Q1 & O & T & _ & S & U).
  split. { split; [apply (qo_run C z Q0)|]. split; [exact Hp|]. split; [exact T|]. split; [exact G1|exact S]. }
  split; [exact U|]. split. { intros b Hb. split; [apply (onlyb_ok k _ G2 b Hb)|apply (onlyb_ok k _ G4 b Hb)]. }
  split; [destruct (down (u_pins (q_u z)) k); [discriminate G3|reflexivity]|]. split; [exact G5|]. split; [exact Q1|exact E2].
Qed.
Lemma iron_run_ok C l0 pins l q0 q n m : build_conf C -> is_u8 pins -> press_run C BUTTON_IRON (fun _ => iron_evb) l0 pins l = Some (q0, q, n, m) ->
  ux_ok C q0 /\ ux_ok C q /\ iron_held C (q_y q0) n (q_y q) (q_u q).
Proof.
  intros HC Hp E. destruct (press_parts C BUTTON_IRON _ l0 pins l q0 q n m HC Hp E) as (Q0 & q1 & (R & _ & T & D & S) & U & Ho & D1 & D2 & Q1 & H). split; [exact Q0|].
  eapply (iron_hold_ok C (q_y q0) l HC q1 0 (q_m q1)); [exact Q1| |exact H]. rewrite U. destruct (Ho BUTTON_SET ltac:(discriminate)) as (X1 & X2). eapply iron_press; eassumption.
Qed.
Lemma key_run_ok C k l0 pins l q0 q n m : build_conf C -> is_u8 pins -> press_run C k (key_evb k) l0 pins l = Some (q0, q, n, m) ->
  ux_ok C q0 /\ ux_ok C q /\ key_prompt C k (q_y q0) n m (q_y q) (q_u q).
Proof.
  intros HC Hp E. destruct (press_parts C k _ l0 pins l q0 q n m HC Hp E) as (Q0 & q1 & Sm & U & Ho & D1 & D2 & Q1 & H). split; [exact Q0|].
  eapply (key_hold_ok C k (q_y q0) l HC q1 0 (q_m q1)); [exact Q1| |reflexivity|exact H]. rewrite U. eapply kp_press; try eassumption.
  destruct (prompt_ok C _ _ _ _ HC (qo_prompt C q1 Q1)) as (_ & L). apply (lg_m _ _ _ _ L).
Qed.

(** ** Cases *)
Definition upto (n : nat) : list event := hold (n - 1) NO_KEYS ++ [ETick].
Definition held_check (o : option (ux * ux * Z * Z)) (P : ux -> ux -> Z -> Z -> bool) : bool := match o with Some (q0, q, n, m) => P q0 q n m | None => false end.
Lemma held_some o P : held_check o P = true -> exists q0 q n m, o = Some (q0, q, n, m) /\ P q0 q n m = true.
Proof. destruct o as [(((q0, q), n), m)|]; [|discriminate]. intros H. exists q0, q, n, m. auto. Qed.
Definition ux_check (o : option ux) (P : ux -> bool) : bool := match o with Some q => P q | None => false end.
Lemma ux_some C l P : build_conf C -> ux_check (ux_exec C NO_KEYS l) P = true -> exists q, ux_ok C q /\ P q = true.
Proof.
  intros HC. destruct (ux_exec C NO_KEYS l) as [q|] eqn:E; [|discriminate]. intros H. exists q. split; [|exact H]. apply (ux_exec_ok C NO_KEYS l q HC); [unfold is_u8, NO_KEYS; lia|exact E].
Qed.
(** [l], then one event. *)
Definition ux_then (C : conf) (l : list event) (e : event) (P : ux -> ux -> bool) : bool :=
  match ux_exec C NO_KEYS l with Some q => match ux_step C q e with Some q' => P q q' | None => false end | None => false end.
Lemma ux_then_ok C l e P : build_conf C -> ux_then C l e P = true -> exists q q', ux_ok C q /\ ux_ok C q' /\ ev_ok C (q_y q) e /\ in_time (q_u q) e /\ is_power e = false /\
  step C (q_y q) e = Some (q_y q') /\ q_u q' = ui_next C (q_u q) (sensor_error (q_y q)) e /\ P q q' = true.
Proof.
  intros HC. unfold ux_then. destruct (ux_exec C NO_KEYS l) as [q|] eqn:E; [|discriminate]. destruct (ux_step C q e) as [q'|] eqn:E1; [|discriminate]. intros H.
  pose proof (ux_exec_ok C NO_KEYS l q HC ltac:(unfold is_u8, NO_KEYS; lia) E) as Q. destruct (ux_step_ok C q e q' HC Q E1) as (Q' & A1 & A2 & A3 & A4 & A5). exists q, q'. auto 10.
Qed.
(** One key is released. *)
Definition release_b (k : button) (q : ux) (pins : Z) : bool := sample_due (q_u q) && onlyb k (u_pins (q_u q)) && onlyb k pins && down (u_pins (q_u q)) k && negb (down pins k).
Lemma release_ok C k q q' pins : ux_ok C q -> ev_ok C (q_y q) (EButtons pins) -> in_time (q_u q) (EButtons pins) -> step C (q_y q) (EButtons pins) = Some (q_y q') ->
  release_b k q pins = true -> released_key C (q_y q) (q_u q) k (q_y q').
Proof.
  intros Q O T S G. unfold release_b in G. apply andb_prop in G. destruct G as (G & G5). apply andb_prop in G. destruct G as (G & G4). apply andb_prop in G. destruct G as (G & G3). apply andb_prop in G. destruct G as (G1 & G2).
  exists pins. split; [split; [apply (qo_run C q Q)|repeat (split; [assumption|]); exact S]|]. split; [intros b Hb; split; [apply (onlyb_ok k _ G2 b Hb)|apply (onlyb_ok k _ G3 b Hb)]|].
  split; [exact G4|]. destruct (down pins k); [discriminate G5|reflexivity].
Qed.
Lemma u8 z : (0 <=? z) && (z <? 256) = true -> is_u8 z.
Proof. unfold is_u8. lia. Qed.

(** C37: a tap of 50 ms; a hold of one second; the key pressed while idle. *)
Lemma case37_tap : exists y0 y1 y2, iron_up conf_m88p y0 50 y1 y2 /\ t_idle (y_ct y0) = false /\ t_boost (y_ct y0) = 0 /\ t_idle (y_ct y1) = false /\ t_boost (y_ct y2) = 1.
Proof.
  assert (K : held_check (press_run conf_m88p BUTTON_IRON (fun _ => iron_evb) (upto 30) IRON_KEY (hold 49 IRON_KEY ++ [ETick]))
    (fun q0 q n m => (n =? 50) && negb (t_idle (y_ct (q_y q0))) && (t_boost (y_ct (q_y q0)) =? 0) && negb (t_idle (y_ct (q_y q))) && in_timeb (q_u q) (EButtons NO_KEYS) && sample_due (q_u q) &&
       match step conf_m88p (q_y q) (EButtons NO_KEYS) with Some y => t_boost (y_ct y) =? 1 | None => false end) = true) by (vm_compute; reflexivity).
  apply held_some in K. destruct K as (q0 & q & n & m & E & K). destruct (iron_run_ok conf_m88p _ _ _ _ _ _ _ build_m88p (u8 IRON_KEY eq_refl) E) as (Q0 & Q & H).
  repeat (apply andb_prop in K; let L := fresh "L" in destruct K as (K & L)). destruct (step conf_m88p (q_y q) (EButtons NO_KEYS)) as [y2|] eqn:S; [|discriminate L].
  exists (q_y q0), (q_y q), y2. assert (n = 50) by lia. subst n. split; [|repeat split; lia || (apply negb_true_iff; assumption)].
  exists (q_u q), NO_KEYS. split; [exact H|]. split; [exact (u8 NO_KEYS eq_refl)|]. split; [apply in_timeb_ok; assumption|]. split; [assumption|]. split; [reflexivity|]. split; [reflexivity|exact S].
Qed.
Lemma case37_long : exists y0 y u y', iron_held conf_m88p y0 1000 y u /\ t_idle (y_ct y0) = false /\ t_boost (y_ct y0) = 1 /\ in_time u (EButtons IRON_KEY) /\ sample_due u = true /\
  step conf_m88p y (EButtons IRON_KEY) = Some y' /\ t_idle (y_ct y') = true.
Proof.
  assert (K : held_check (press_run conf_m88p BUTTON_IRON (fun _ => iron_evb) (hold 20 NO_KEYS ++ press IRON_KEY ++ upto 30) IRON_KEY (hold 999 IRON_KEY ++ [ETick]))
    (fun q0 q n m => (n =? 1000) && negb (t_idle (y_ct (q_y q0))) && (t_boost (y_ct (q_y q0)) =? 1) && in_timeb (q_u q) (EButtons IRON_KEY) && sample_due (q_u q) &&
       match step conf_m88p (q_y q) (EButtons IRON_KEY) with Some y => t_idle (y_ct y) | None => false end) = true) by (vm_compute; reflexivity).
  apply held_some in K. destruct K as (q0 & q & n & m & E & K). destruct (iron_run_ok conf_m88p _ _ _ _ _ _ _ build_m88p (u8 IRON_KEY eq_refl) E) as (Q0 & Q & H).
  repeat (apply andb_prop in K; let L := fresh "L" in destruct K as (K & L)). destruct (step conf_m88p (q_y q) (EButtons IRON_KEY)) as [y'|] eqn:S; [|discriminate L].
  exists (q_y q0), (q_y q), (q_u q), y'. assert (n = 1000) by lia. subst n. split; [exact H|]. repeat (split; [solve [lia | apply negb_true_iff; assumption | apply in_timeb_ok; assumption | assumption]|]). assumption.
Qed.
Lemma case37_leave : exists y0 y u, iron_held conf_m88p y0 20 y u /\ t_idle (y_ct y0) = true /\ t_idle (y_ct y) = false.
Proof.
  assert (K : held_check (press_run conf_m88p BUTTON_IRON (fun _ => iron_evb) (upto 30 ++ hold 1200 IRON_KEY ++ upto 30) IRON_KEY (hold 20 IRON_KEY))
    (fun q0 q n m => (n =? 20) && t_idle (y_ct (q_y q0)) && negb (t_idle (y_ct (q_y q)))) = true) by (vm_compute; reflexivity).
  apply held_some in K. destruct K as (q0 & q & n & m & E & K). destruct (iron_run_ok conf_m88p _ _ _ _ _ _ _ build_m88p (u8 IRON_KEY eq_refl) E) as (Q0 & Q & H).
  repeat (apply andb_prop in K; let L := fresh "L" in destruct K as (K & L)). exists (q_y q0), (q_y q), (q_u q). assert (n = 20) by lia. subst n. split; [exact H|]. split; [assumption|apply negb_true_iff; assumption].
Qed.
(** C38 *)
Lemma case38 : exists y u, delivered conf_m88p y u 60 7 [(BUTTON_SET, BSTATE_POSEDGE); (BUTTON_SET, BSTATE_PRESSED); (BUTTON_SET, BSTATE_PRESSED); (BUTTON_SET, BSTATE_NEGEDGE)].
Proof.
  assert (K : option_map (fun q => (q_T q, q_s q, q_l q)) (ux_exec conf_m88p NO_KEYS ([EButtons NO_KEYS] ++ hold 20 NO_KEYS ++ press SET_KEY)) =
    Some (60, 7, [(BUTTON_SET, BSTATE_POSEDGE); (BUTTON_SET, BSTATE_PRESSED); (BUTTON_SET, BSTATE_PRESSED); (BUTTON_SET, BSTATE_NEGEDGE)])) by (vm_compute; reflexivity).
  destruct (ux_exec conf_m88p NO_KEYS _) as [q|] eqn:E; [|discriminate K]. pose proof (ux_exec_ok _ _ _ _ build_m88p (u8 NO_KEYS eq_refl) E) as Q. cbn [option_map] in K. injection K as K1 K2 K3.
  exists (q_y q), (q_u q). rewrite <- K1, <- K2, <- K3. apply (qo_calls _ _ Q).
Qed.
(** C39, C61: single keys released *)
Lemma released_case k l pins P : is_u8 pins -> ux_then conf_m88p l (EButtons pins) (fun q q' => release_b k q pins && P q q') = true ->
  exists q q', released_key conf_m88p (q_y q) (q_u q) k (q_y q') /\ P q q' = true.
Proof.
  intros Hp K. destruct (ux_then_ok _ _ _ _ build_m88p K) as (q & q' & Q & Q' & O & T & _ & S & _ & G). apply andb_prop in G. destruct G as (G1 & G2).
  exists q, q'. split; [|exact G2]. apply (release_ok conf_m88p k q q' pins); assumption.
Qed.
Lemma case39_set : exists y u y', released_key conf_m88p y u BUTTON_SET y' /\ n_state (y_menu y) = MENU_CURTEMP /\ n_state (y_menu y') = MENU_IDLETEMP.
Proof.
  destruct (released_case BUTTON_SET (hold 20 NO_KEYS ++ hold 19 SET_KEY ++ [ETick]) NO_KEYS
    (fun q q' => mstate_eqb (n_state (y_menu (q_y q))) MENU_CURTEMP && mstate_eqb (n_state (y_menu (q_y q'))) MENU_IDLETEMP) (u8 NO_KEYS eq_refl)) as (q & q' & R & K); [vm_compute; reflexivity|].
  apply andb_prop in K. destruct K as (K1 & K2). apply mstate_eqb_ok in K1, K2. exists (q_y q), (q_u q), (q_y q'). auto.
Qed.
Lemma case39_adj : exists y u y', released_key conf_m88p y u BUTTON_MINUS y' /\ n_state (y_menu y) = MENU_CURTEMP /\ n_state (y_menu y') = MENU_SELPRESET.
Proof.
  destruct (released_case BUTTON_MINUS (hold 20 NO_KEYS ++ hold 19 MINUS_KEY ++ [ETick]) NO_KEYS
    (fun q q' => mstate_eqb (n_state (y_menu (q_y q))) MENU_CURTEMP && mstate_eqb (n_state (y_menu (q_y q'))) MENU_SELPRESET) (u8 NO_KEYS eq_refl)) as (q & q' & R & K); [vm_compute; reflexivity|].
  apply andb_prop in K. destruct K as (K1 & K2). apply mstate_eqb_ok in K1, K2. exists (q_y q), (q_u q), (q_y q'). auto.
Qed.
Lemma case61 : exists y u y', released_key conf_m88p y u BUTTON_PLUS y' /\ n_state (y_menu y) = MENU_SELPRESET /\ s_active (x_cache (y_set y)) = 3 /\
  s_active (x_cache (y_set y')) = 4 /\ t_idle (y_ct y') = false /\ pid_get_setpoint (t_pid (y_ct y')) = 365 * 64.
Proof.
  destruct (released_case BUTTON_PLUS (hold 20 NO_KEYS ++ press PLUS_KEY ++ hold 19 PLUS_KEY ++ [ETick]) NO_KEYS
    (fun q q' => mstate_eqb (n_state (y_menu (q_y q))) MENU_SELPRESET && (s_active (x_cache (y_set (q_y q))) =? 3) && (s_active (x_cache (y_set (q_y q'))) =? 4) &&
       negb (t_idle (y_ct (q_y q'))) && (pid_get_setpoint (t_pid (y_ct (q_y q'))) =? 365 * 64)) (u8 NO_KEYS eq_refl)) as (q & q' & R & K); [vm_compute; reflexivity|].
  repeat (apply andb_prop in K; let L := fresh "L" in destruct K as (K & L)). apply mstate_eqb_ok in K. exists (q_y q), (q_u q), (q_y q'). repeat (split; [solve [assumption | lia | apply negb_true_iff; assumption]|]). lia.
Qed.
Lemma case39_press : exists y u y', pressed_key conf_m88p y u BUTTON_PLUS y' /\ n_state (y_menu y) = MENU_SELPRESET.
Proof.
  assert (K : held_check (press_run conf_m88p BUTTON_PLUS (key_evb BUTTON_PLUS) (hold 20 NO_KEYS ++ press PLUS_KEY ++ upto 30) PLUS_KEY [])
    (fun q0 q n m => mstate_eqb (n_state (y_menu (q_y q0))) MENU_SELPRESET) = true) by (vm_compute; reflexivity).
  apply held_some in K. destruct K as (q0 & q & n & m & E & K). destruct (press_parts conf_m88p BUTTON_PLUS _ _ _ _ _ _ _ _ build_m88p (u8 PLUS_KEY eq_refl) E) as (_ & q1 & S & _ & Ho & D1 & D2 & _).
  exists (q_y q0), (q_u q0), (q_y q1). split; [exists PLUS_KEY; auto|]. apply mstate_eqb_ok. exact K.
Qed.
(** C39, C43: PLUS held in the temperature display for 1.8 s: seven steps of one degree *)
Lemma case43 : exists y0 y u, key_prompt conf_m88p BUTTON_PLUS y0 1800 0 y u /\ n_state (y_menu y0) = MENU_CURTEMP /\ n_state (y_menu y) = MENU_CHGPRESET /\
  nth 3 (s_preset (x_cache (y_set y0))) 0 = 350 * 64 /\ nth 3 (s_preset (x_cache (y_set y))) 0 = 357 * 64.
Proof.
  assert (K : held_check (press_run conf_m88p BUTTON_PLUS (key_evb BUTTON_PLUS) (upto 30) PLUS_KEY (hold 1800 PLUS_KEY))
    (fun q0 q n m => (n =? 1800) && (m =? 0) && mstate_eqb (n_state (y_menu (q_y q0))) MENU_CURTEMP && mstate_eqb (n_state (y_menu (q_y q))) MENU_CHGPRESET &&
       (nth 3 (s_preset (x_cache (y_set (q_y q0)))) 0 =? 350 * 64) && (nth 3 (s_preset (x_cache (y_set (q_y q)))) 0 =? 357 * 64)) = true) by (vm_compute; reflexivity).
  apply held_some in K. destruct K as (q0 & q & n & m & E & K). destruct (key_run_ok conf_m88p BUTTON_PLUS _ _ _ _ _ _ _ build_m88p (u8 PLUS_KEY eq_refl) E) as (Q0 & Q & H).
  repeat (apply andb_prop in K; let L := fresh "L" in destruct K as (K & L)). assert (n = 1800 /\ m = 0) as (-> & ->) by lia. exists (q_y q0), (q_y q), (q_u q). split; [exact H|].
  split; [apply mstate_eqb_ok; assumption|]. split; [apply mstate_eqb_ok; assumption|]. lia.
Qed.
Lemma case39_long : exists y0 y u y1 y2, key_held conf_m88p BUTTON_PLUS y0 1000 y u /\ n_state (y_menu y0) = MENU_CURTEMP /\ sensor_error y = n_err (y_menu y) /\
  sensor_error y1 = n_err (y_menu y1) /\ u_age u < 3000 /\ in_time u EMenu /\ step conf_m88p y EMenu = Some y1 /\ step conf_m88p y1 EMenu = Some y2.
Proof.
  assert (K : held_check (press_run conf_m88p BUTTON_PLUS (key_evb BUTTON_PLUS) (upto 30) PLUS_KEY (hold 999 PLUS_KEY ++ [ETick]))
    (fun q0 q n m => (n =? 1000) && mstate_eqb (n_state (y_menu (q_y q0))) MENU_CURTEMP && (sensor_error (q_y q) =? n_err (y_menu (q_y q))) && (u_age (q_u q) <? 3000) && in_timeb (q_u q) EMenu &&
       match step conf_m88p (q_y q) EMenu with Some y1 => (sensor_error y1 =? n_err (y_menu y1)) && match step conf_m88p y1 EMenu with Some _ => true | None => false end | None => false end) = true) by (vm_compute; reflexivity).
  apply held_some in K. destruct K as (q0 & q & n & m & E & K). destruct (key_run_ok conf_m88p BUTTON_PLUS _ _ _ _ _ _ _ build_m88p (u8 PLUS_KEY eq_refl) E) as (Q0 & Q & H).
  repeat (apply andb_prop in K; let L := fresh "L" in destruct K as (K & L)). destruct (step conf_m88p (q_y q) EMenu) as [y1|] eqn:S1; [|discriminate L]. apply andb_prop in L. destruct L as (La & Lb).
  destruct (step conf_m88p y1 EMenu) as [y2|] eqn:S2; [|discriminate Lb]. assert (n = 1000) by lia. subst n. exists (q_y q0), (q_y q), (q_u q), y1, y2. split; [eapply kp_kh; exact H|].
  split; [apply mstate_eqb_ok; assumption|]. repeat (split; [solve [lia | apply in_timeb_ok; assumption]|]). auto.
Qed.
(** C40: preset selection left after 3 s *)
Lemma case40 : exists y u y', ui_run conf_m88p y u /\ in_time u EMenu /\ step conf_m88p y EMenu = Some y' /\ n_state (y_menu y) = MENU_SELPRESET /\ u_age u = 3000 /\ n_state (y_menu y') = MENU_CURTEMP.
Proof.
  assert (K : ux_then conf_m88p (hold 20 NO_KEYS ++ press PLUS_KEY ++ hold 2989 NO_KEYS ++ [ETick]) EMenu
    (fun q q' => mstate_eqb (n_state (y_menu (q_y q))) MENU_SELPRESET && (u_age (q_u q) =? 3000) && mstate_eqb (n_state (y_menu (q_y q'))) MENU_CURTEMP) = true) by (vm_compute; reflexivity).
  destruct (ux_then_ok _ _ _ _ build_m88p K) as (q & q' & Q & Q' & O & T & _ & S & _ & G). clear K. apply andb_prop in G. destruct G as (G & G3). apply andb_prop in G. destruct G as (G1 & G2).
  apply mstate_eqb_ok in G1, G3. exists (q_y q), (q_u q), (q_y q'). repeat (split; [solve [assumption | lia | apply (qo_run _ _ Q)]|]). assumption.
Qed.
(** C42: a running ramp stopped by the release of the key *)
Lemma case42 : exists y u y', sampled conf_m88p y u NO_KEYS y' /\ down (u_pins u) BUTTON_PLUS = true /\ n_ramp (y_menu y) = RAMP_UP /\ n_ramp (y_menu y') = RAMP_NONE.
Proof.
  assert (K : ux_then conf_m88p (hold 20 NO_KEYS ++ hold 1499 PLUS_KEY ++ [ETick]) (EButtons NO_KEYS)
    (fun q q' => sample_due (q_u q) && down (u_pins (q_u q)) BUTTON_PLUS && match n_ramp (y_menu (q_y q)) with RAMP_UP => true | _ => false end && match n_ramp (y_menu (q_y q')) with RAMP_NONE => true | _ => false end) = true) by (vm_compute; reflexivity).
  destruct (ux_then_ok _ _ _ _ build_m88p K) as (q & q' & Q & Q' & O & T & _ & S & _ & G). clear K. repeat (apply andb_prop in G; let L := fresh "L" in destruct G as (G & L)).
  exists (q_y q), (q_u q), (q_y q'). split; [split; [apply (qo_run _ _ Q)|]; repeat (split; [assumption|]); exact S|]. split; [assumption|].
  clear S. destruct (n_ramp (y_menu (q_y q))); try discriminate L0. destruct (n_ramp (y_menu (q_y q'))); try discriminate L. auto.
Qed.
(** C42, C48: the temperature sensor fails while PLUS is held *)
Definition tcyc (n : nat) (key t c : Z) : list event := concat (repeat (hold 51 key ++ [EAdc t; EMeasure] ++ hold 6 key ++ [EAdc c; EMeasure]) n).
Lemma case42_error : exists y u y', ui_run conf_m88p y u /\ in_time u EMenu /\ step conf_m88p y EMenu = Some y' /\ n_ramp (y_menu y) = RAMP_PRE_UP /\ sensor_error y = 2 /\ n_err (y_menu y) = 0 /\ n_err (y_menu y') = 2.
Proof.
  assert (K : ux_then conf_m88p (tcyc 50 NO_KEYS 1023 0 ++ tcyc 3 PLUS_KEY 1023 0 ++ hold 51 PLUS_KEY ++ [EAdc 1023; EMeasure]) EMenu
    (fun q q' => match n_ramp (y_menu (q_y q)) with RAMP_PRE_UP => true | _ => false end && (sensor_error (q_y q) =? 2) && (n_err (y_menu (q_y q)) =? 0) && (n_err (y_menu (q_y q')) =? 2)) = true) by (vm_compute; reflexivity).
  destruct (ux_then_ok _ _ _ _ build_m88p K) as (q & q' & Q & Q' & O & T & _ & S & _ & G). clear K. repeat (apply andb_prop in G; let L := fresh "L" in destruct G as (G & L)).
  exists (q_y q), (q_u q), (q_y q'). split; [apply (qo_run _ _ Q)|]. split; [assumption|]. split; [assumption|]. split; [clear S; destruct (n_ramp (y_menu (q_y q))); try discriminate G; reflexivity|]. lia.
Qed.
(** C48: the dot lags behind when the same poll changes the set-point *)
Lemma heating_lag : exists y y', reach conf_m88p y /\ step conf_m88p y EMenu = Some y' /\
  n_heating (y_menu y') <> (t_feedback (y_ct y') <? pid_get_setpoint (t_pid (y_ct y'))).
Proof.
  assert (K : then_b conf_m88p (cycles 2 332 0 ++ hold 50 NO_KEYS ++ hold 1006 PLUS_KEY ++ [ETick; EButtons PLUS_KEY]) EMenu
    (fun y y' => negb (n_heating (y_menu y')) && (t_feedback (y_ct y') <? pid_get_setpoint (t_pid (y_ct y')))) = true) by (vm_compute; reflexivity).
  destruct (then_ok _ _ _ _ K) as (y & y' & R & O & E & G). exists y, y'. split; [exact R|]. split; [exact E|]. apply andb_prop in G. destruct G as (G1 & G2). rewrite G2. destruct (n_heating (y_menu y')); [discriminate G1|discriminate].
Qed.
Lemma case62 : exists y y', reach conf_m88p y /\ step conf_m88p y EMenu = Some y' /\ n_state (y_menu y) = MENU_CURTEMP /\ n_state (y_menu y') = MENU_CHGPRESET.
Proof.
  assert (K : then_b conf_m88p (cycles 2 332 0 ++ hold 50 NO_KEYS ++ hold 1006 PLUS_KEY ++ [ETick; EButtons PLUS_KEY]) EMenu
    (fun y y' => mstate_eqb (n_state (y_menu y)) MENU_CURTEMP && mstate_eqb (n_state (y_menu y')) MENU_CHGPRESET) = true) by (vm_compute; reflexivity).
  destruct (then_ok _ _ _ _ K) as (y & y' & R & O & E & G). exists y, y'. split; [exact R|]. split; [exact E|]. apply andb_prop in G. destruct G as (G1 & G2). split; apply mstate_eqb_ok; assumption.
Qed.
(** C67 *)
Lemma case67 : exists y u, prompt conf_m88p y u 0 0 /\ u_menu u = MENU_ADJ /\ u_boost u = 0 /\ u_time u = 201.
Proof.
  assert (K : ux_check (ux_exec conf_m88p NO_KEYS ([ETick] ++ hold 40 NO_KEYS ++ press IRON_KEY ++ press SET_KEY ++ press SET_KEY ++ press SET_KEY))
    (fun q => (q_m q =? 0) && (q_b q =? 0) && mstate_eqb (u_menu (q_u q)) MENU_ADJ && (u_boost (q_u q) =? 0) && (u_time (q_u q) =? 201)) = true) by (vm_compute; reflexivity).
  apply (ux_some _ _ _ build_m88p) in K. destruct K as (q & Q & K). repeat (apply andb_prop in K; let L := fresh "L" in destruct K as (K & L)). exists (q_y q), (q_u q).
  pose proof (qo_prompt _ _ Q) as P. replace (q_m q) with 0 in P by lia. replace (q_b q) with 0 in P by lia. split; [exact P|]. split; [apply mstate_eqb_ok; assumption|]. lia.
Qed.
