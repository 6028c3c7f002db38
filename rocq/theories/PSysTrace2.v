(** * Concrete executions for the measurement properties *)
From Coq Require Import ZArith List Bool Lia ZifyBool.
From Verif Require Import Base PBase MConf MTimer MPid MCurr SpecNum SpecCurr MSettings SpecSettings MSseg MDisplay MState MTemp MMeas
  MMenu MMain SpecDisplay SpecSys SpecRun PSysSafe PSysProp Trace PSysTrace PSysWin PSettingsEx.
Import ListNotations.
Open Scope Z_scope.
Ltac Zify.zify_post_hook ::= Z.div_mod_to_equations.

(** Runs a list of events and computes what the histories of SpecSys and SpecRun relate. *)
Record hist := mkHist { h_time : Z; h_temps : list (Z * Z); h_acc : option Z; h_currs : list (Z * Z); h_chans : list Z; h_win : list Z; h_age : Z }.
Definition temp_guess (C : conf) (adj code : Z) : Z :=
  ((code - (if c_smd C then 210 else 209)) * 21120 * 2 + 201) / 402 + 9600 - (if c_adj C then adj else 0).
Definition curr_guess (code : Z) : Z := (code * 704 * 2 + 65) / 130.
Lemma temp_guess_ok C adj code : temp_of_code C adj code (temp_guess C adj code).
Proof. unfold temp_of_code, temp_guess. destruct (c_smd C), (c_adj C); lia. Qed.
Lemma curr_guess_ok code : curr_of_code code (curr_guess code).
Proof. unfold curr_of_code, curr_guess. lia. Qed.
Definition hist_step (C : conf) (y : sys) (h : hist) (e : event) : hist :=
  match e with
  | ETick => mkHist (h_time h + 1) (h_temps h) (h_acc h) (h_currs h) (h_chans h) (h_win h) (h_age h + 1)
  | EAdc raw => if m_adc (y_meas y) then mkHist (h_time h) (h_temps h) (h_acc h) (h_currs h) (h_chans h) (h_win h ++ [raw]) (h_age h) else h
  | EMeasure =>
    if result_b y 1 then
      mkHist (h_time h) ((h_time h, temp_guess C (s_adj (x_cache (y_set y))) (mean_code y)) :: h_temps h) (h_acc h) (h_currs h) (1 :: h_chans h) [] 0
    else if result_b y 0 then
      mkHist (h_time h) (h_temps h) (Some (lp_acc (h_acc h) (mean_code y)))
             ((h_time h, curr_guess (lp_code (h_acc h) (mean_code y))) :: h_currs h) (0 :: h_chans h) [] 0
    else h
  | _ => h
  end.
Fixpoint hist_run (C : conf) (y : sys) (h : hist) (l : list event) : option (sys * hist) :=
  match l with
  | [] => Some (y, h)
  | e :: r => if ev_okb C y e && negb (is_power e) then y' <- step C y e ;; hist_run C y' (hist_step C y h e) r else None
  end.
Record hist_ok (C : conf) (y : sys) (h : hist) : Prop := {
  ho_reach : reach C y;
  ho_temps : temp_log C y (h_time h) (h_temps h);
  ho_currs : curr_log C y (h_time h) (h_acc h) (h_currs h);
  ho_chans : handled C y (h_chans h);
  ho_win : window C y (h_win h);
  ho_age : window_age C y (h_age h) }.
Lemma hist_step_ok C y h e y' : build_conf C -> hist_ok C y h -> ev_ok C y e -> is_power e = false -> step C y e = Some y' -> hist_ok C y' (hist_step C y h e).
Proof.
  intros HC [Q0 Q1 Q2 Q3 Q4 Q5] O P E.
  assert (R' : reach C y') by (econstructor; eassumption).
  assert (other : (forall c, ~ result y e c) -> e <> ETick -> starts_window y e = false -> (forall raw, e = EAdc raw -> m_adc (y_meas y) = false) -> hist_ok C y' h).
  { intros N1 N2 N3 N4. constructor; [exact R'| | | | |].
    - eapply tl_other; try eassumption. apply N1.
    - eapply ul_other; try eassumption. apply N1.
    - eapply hd_other; eassumption.
    - eapply win_other; eassumption.
    - eapply wa_other; eassumption. }
  destruct e; cbn [hist_step]; try (apply other; [intros c (X & _); discriminate X|discriminate|reflexivity|discriminate]); try discriminate P.
  - constructor; cbn [h_time h_temps h_acc h_currs h_chans h_win h_age]; [exact R'| | | | |].
    + eapply tl_tick; eassumption.
    + eapply ul_tick; eassumption.
    + eapply hd_other; try eassumption. intros c (X & _). discriminate X.
    + eapply win_other; [exact Q4|exact O|exact E|reflexivity|discriminate].
    + eapply wa_tick; eassumption.
  - destruct (m_adc (y_meas y)) eqn:A; [|apply other; [intros c (X & _); discriminate X|discriminate|reflexivity|intros; reflexivity]].
    constructor; cbn [h_time h_temps h_acc h_currs h_chans h_win h_age]; [exact R'| | | | |].
    + eapply tl_other; try eassumption; [discriminate|]. intros (X & _). discriminate X.
    + eapply ul_other; try eassumption; [discriminate|]. intros (X & _). discriminate X.
    + eapply hd_other; try eassumption. intros c (X & _). discriminate X.
    + eapply win_sample; eassumption.
    + eapply wa_other; try eassumption; [discriminate|]. intros c (X & _). discriminate X.
  - destruct (result_b y 1) eqn:B1; [|destruct (result_b y 0) eqn:B0].
    + pose proof (result_b_ok y 1 B1) as X. assert (NX : ~ result y EMeasure 0) by (destruct X as (_ & _ & X); intros (_ & _ & X'); lia).
      assert (SW : starts_window y EMeasure = true) by (destruct X as (_ & X & _); exact X).
      constructor; cbn [h_time h_temps h_acc h_currs h_chans h_win h_age]; [exact R'| | | | |].
      * eapply tl_result; try eassumption. apply temp_guess_ok.
      * eapply ul_other; try eassumption. discriminate.
      * eapply hd_result; eassumption.
      * eapply win_start; eassumption.
      * eapply wa_result; eassumption.
    + pose proof (result_b_ok y 0 B0) as X. assert (NX : ~ result y EMeasure 1) by (destruct X as (_ & _ & X); intros (_ & _ & X'); lia).
      assert (SW : starts_window y EMeasure = true) by (destruct X as (_ & X & _); exact X).
      constructor; cbn [h_time h_temps h_acc h_currs h_chans h_win h_age]; [exact R'| | | | |].
      * eapply tl_other; try eassumption. discriminate.
      * eapply ul_result; try eassumption. apply curr_guess_ok.
      * eapply hd_result; eassumption.
      * eapply win_start; eassumption.
      * eapply wa_result; eassumption.
    + assert (A : m_avail (y_meas y) = false).
      { destruct (m_avail (y_meas y)) eqn:A; [|reflexivity]. unfold result_b in B1, B0. rewrite A in B1, B0. cbn [andb] in B1, B0.
        destruct (sys_handover C y HC Q0) as (_ & _ & D). lia. }
      apply other; [intros c (_ & X & _); congruence|discriminate|exact A|discriminate].
Qed.
Lemma hist_run_ok C l : build_conf C -> forall y h y' h', hist_ok C y h -> hist_run C y h l = Some (y', h') -> hist_ok C y' h'.
Proof.
  intros HC. induction l as [|e t IH]; intros y h y' h' H E; cbn [hist_run] in E; [apply Some_inj in E; injection E as <- <-; exact H|].
  destruct (ev_okb C y e) eqn:O; [|discriminate E]. destruct (is_power e) eqn:P; [discriminate E|]. cbn [andb negb] in E.
  destruct (step C y e) as [y1|] eqn:S; [|discriminate E]. cbn [bind] in E. apply (IH y1 (hist_step C y h e) y' h'); [|exact E].
  eapply hist_step_ok; try eassumption. apply ev_okb_ok. exact O.
Qed.
Definition hist_exec (C : conf) (l : list event) (P : sys -> hist -> bool) : bool :=
  match boot C (factory_ee C) NO_KEYS with
  | Some y => match hist_run C y (mkHist 0 [] None [] [] [] 0) l with Some (y, h) => P y h | None => false end
  | None => false
  end.
Lemma hist_exec_ok C l P : build_conf C -> hist_exec C l P = true -> exists y h, hist_ok C y h /\ P y h = true.
Proof.
  unfold hist_exec. intros HC H. destruct (boot C (factory_ee C) NO_KEYS) as [y|] eqn:B; [|discriminate H].
  destruct (hist_run C y _ l) as [(y', h)|] eqn:E; [|discriminate H]. exists y', h. split; [|exact H].
  assert (N : is_u8 NO_KEYS) by (unfold NO_KEYS, is_u8; lia).
  eapply hist_run_ok; [exact HC| |exact E]. constructor; cbn [h_time h_temps h_acc h_currs h_chans h_win h_age]; econstructor; eassumption.
Qed.
(** C32: three samples in the first temperature window. *)
Lemma case32 : exists y l, window conf_m88p y l /\ result y EMeasure 1 /\ l = [250; 251; 253].
Proof.
  destruct (hist_exec_ok conf_m88p (ticks 5 ++ [EAdc 250; EAdc 251] ++ ticks 50 ++ [EAdc 253])
    (fun y h => result_b y 1 && match h_win h with [a; b; c] => (a =? 250) && (b =? 251) && (c =? 253) | _ => false end)) as (y & h & H & P);
    [exact build_m88p|vm_compute; reflexivity|].
  apply andb_true_iff in P. destruct P as (P1 & P2). exists y, (h_win h). split; [apply H|]. split; [apply result_b_ok; exact P1|].
  destruct (h_win h) as [|a [|b [|c [|]]]]; try discriminate P2. andbs. subst. reflexivity.
Qed.
(** C33: some results. *)
Lemma case33 : exists y, handled conf_m88p y [0; 1; 0; 1].
Proof.
  destruct (hist_exec_ok conf_m88p (cycles 2 250 10)
    (fun y h => match h_chans h with [a; b; c; d] => (a =? 0) && (b =? 1) && (c =? 0) && (d =? 1) | _ => false end)) as (y & h & H & P);
    [exact build_m88p|vm_compute; reflexivity|].
  exists y. pose proof (ho_chans _ _ _ H) as K. destruct (h_chans h) as [|a [|b [|c [|d [|]]]]]; try discriminate P. andbs. subst. exact K.
Qed.
(** C34: a broken temperature sensor for more than 3 s, and currents above 5 A likewise. *)
Fixpoint gaps_b (h : list (Z * Z)) : bool :=
  match h with
  | (t, _) :: (((t', _) :: _) as r) => (t - t' <? 29768) && gaps_b r
  | _ => true
  end.
Lemma gaps_b_ok h : gaps_b h = true -> gaps_ok h.
Proof.
  induction h as [|(t, v) r IH]; [reflexivity|]. destruct r as [|(t', v') r']; [reflexivity|].
  intros H. change ((t - t' <? 29768) && gaps_b ((t', v') :: r') = true) in H. apply andb_true_iff in H. destruct H as (H1 & H2).
  change (t - t' < 29768 /\ gaps_ok ((t', v') :: r')). split; [lia|apply IH; exact H2].
Qed.
Lemma case34_temp : exists y T h, temp_log conf_m88p y T h /\ gaps_ok h /\ t_emerg (y_ct y) = true.
Proof.
  destruct (hist_exec_ok conf_m88p (cycles 60 0 0) (fun y h => gaps_b (h_temps h) && t_emerg (y_ct y))) as (y & h & H & P);
    [exact build_m88p|vm_compute; reflexivity|].
  apply andb_true_iff in P. destruct P as (P1 & P2). exists y, (h_time h), (h_temps h). split; [apply H|]. split; [apply gaps_b_ok; exact P1|exact P2].
Qed.
Lemma case34_curr : exists y T f h, curr_log conf_m88p y T f h /\ gaps_ok h /\ Z.testbit (cc_emerg (y_cc y)) 0 = true.
Proof.
  destruct (hist_exec_ok conf_m88p (cycles 90 250 1023) (fun y h => gaps_b (h_currs h) && Z.testbit (cc_emerg (y_cc y)) 0)) as (y & h & H & P);
    [exact build_m88p|vm_compute; reflexivity|].
  apply andb_true_iff in P. destruct P as (P1 & P2). exists y, (h_time h), (h_acc h), (h_currs h). split; [apply H|]. split; [apply gaps_b_ok; exact P1|exact P2].
Qed.
(** C66: the temperature window after 50 ms. *)
Lemma case66 : exists y, window_age conf_m88p y 50 /\ m_chan (y_meas y) = 1 /\ m_adc (y_meas y) = true.
Proof.
  destruct (hist_exec_ok conf_m88p (cycles 1 250 0 ++ ticks 50) (fun y h => (h_age h =? 50) && (m_chan (y_meas y) =? 1) && m_adc (y_meas y))) as (y & h & H & P);
    [exact build_m88p|vm_compute; reflexivity|].
  andbs. exists y. pose proof (ho_age _ _ _ H) as K. replace (h_age h) with 50 in K by assumption. auto.
Qed.
