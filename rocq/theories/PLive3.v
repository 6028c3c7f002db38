(** * The statements about reaction times, in the order of arguments of PropLive *)
From Coq Require Import ZArith List Bool Lia.
From Verif Require Import Base MConf MTimer MPid MPwm MCurr SpecNum SpecCurr MSettings SpecSettings MSseg MDisplay MState MTemp MMeas
  MMenu MMain SpecDisplay SpecSys SpecRun SpecLive PSys PSysSet PSysRun PSysStep PSysCC PSysSafe PLive PLive2.
Import ListNotations.
Open Scope Z_scope.

Lemma live_cadence L lo hi C y w : build_conf C -> limits_ok L -> served L lo hi C y w ->
  reach C y /\ v_age w <= averaging_ms (m_chan (y_meas y)) + l_sample L + l_poll L /\
  v_temp w <= slow_cycle L /\ v_curr w <= slow_cycle L.
Proof.
  intros HC HL D. pose proof (served_prog L lo hi C HC HL y w D) as Pg. split; [apply (served_reach L lo hi C HC HL y w D)|].
  split; [exact (core_age _ _ _ _ (p_core _ _ _ _ _ _ Pg))|]. split; [apply (prog_temp L lo hi C HC HL y w Pg)|apply (prog_curr L lo hi C HC HL y w Pg)].
Qed.
Lemma live_progress L lo hi C y w e : build_conf C -> limits_ok L -> served L lo hi C y w ->
  on_time L C y w e -> exists y', step C y e = Some y' /\ served L lo hi C y' (watch_step lo hi y w e y').
Proof.
  intros HC HL D O. destruct (served_ev L lo hi C HC HL y w e D O) as (Oe & _).
  destruct (step_ok relaxed C y e HC bok_relaxed (reach_s4 C y HC (served_reach L lo hi C HC HL y w D)) Oe) as (y' & E & _).
  exists y'. split; [exact E|]. econstructor; eassumption.
Qed.
Lemma conv_sample L lo hi C y w : served L lo hi C y w -> 0 < v_conv w -> v_sample w = 0.
Proof.
  intros D. induction D as [pinb y Hp E|y v pinb y' R O E Ad|y w e y' D IH O E]; cbn [watch_zero v_conv v_sample]; try lia.
  unfold watch_step, watch_state. destruct e; cbn [v_conv v_sample watch_tick]; try exact IH; try lia; unfold watch_adc, watch_poll.
  - destruct (m_adc _); cbn [v_conv v_sample]; [reflexivity|exact IH].
  - destruct (m_avail _); [destruct (_ =? _)|]; cbn [v_conv v_sample]; [reflexivity|reflexivity|exact IH].
Qed.
Lemma live_no_deadlock L lo hi C y w raw : build_conf C -> limits_ok L -> served L lo hi C y w ->
  1 <= l_sample L -> 1 <= l_poll L -> 1 <= l_rate L -> 0 <= raw <= 1023 ->
  exists l y' w', incl l [EAdc raw; EMeasure] /\ path L lo hi C y w (l ++ [ETick]) y' w' /\ served L lo hi C y' w'.
Proof.
  intros HC HL D A1 B1 F1 Hr.
  assert (K2 : forall y w, served L lo hi C y w -> (m_adc (y_meas y) = true -> v_sample w < l_sample L) ->
    exists y' w', path L lo hi C y w [EMeasure; ETick] y' w' /\ served L lo hi C y' w').
  { clear y w D. intros y w D S.
    destruct (live_progress L lo hi C y w EMeasure HC HL D I) as (y1 & E1 & D1).
    assert (O : on_time L C y1 (watch_step lo hi y w EMeasure y1) ETick).
    { unfold watch_step, watch_state, watch_poll, on_time. destruct (m_avail (y_meas y)) eqn:Av.
      - destruct (m_chan (y_meas y) =? 1); cbn [v_sample v_poll]; lia.
      - cbn [v_sample v_poll]. split; [|lia]. intros Q. apply S.
        assert (Ko : on_time L C y w EMeasure) by exact I.
        destruct (kinds L lo hi C HC HL y w EMeasure y1 (p_core _ _ _ _ _ _ (served_prog L lo hi C HC HL y w D)) Ko E1) as [(X & _)|[(raw' & X & _)|(_ & X & _)]].
        + destruct X as (_ & X & _). congruence.
        + discriminate X.
        + destruct X as (_ & _ & _ & X & _). congruence. }
    destruct (live_progress L lo hi C y1 _ ETick HC HL D1 O) as (y2 & E2 & D2).
    exists y2, (watch_step lo hi y1 (watch_step lo hi y w EMeasure y1) ETick y2). split; [|exact D2].
    econstructor; [exact I|exact E1|]. econstructor; [exact O|exact E2|]. constructor. }
  destruct (Z_lt_ge_dec (v_sample w) (l_sample L)) as [Lt|Ge].
  - destruct (K2 y w D (fun _ => Lt)) as (y' & w' & P & D'). exists [EMeasure], y', w'. split; [|split; assumption].
    intros x [<-|[]]. right. left. reflexivity.
  - assert (Oa : on_time L C y w (EAdc raw)).
    { split; [exact Hr|]. intros _. pose proof (conv_sample L lo hi C y w D). lia. }
    destruct (live_progress L lo hi C y w (EAdc raw) HC HL D Oa) as (y1 & E1 & D1).
    destruct (K2 y1 _ D1) as (y' & w' & P & D').
    + intros Q. unfold watch_step, watch_state, watch_adc. destruct (m_adc (y_meas y)) eqn:Ea; cbn [v_sample]; [lia|]. exfalso.
      destruct (kinds L lo hi C HC HL y w (EAdc raw) y1 (p_core _ _ _ _ _ _ (served_prog L lo hi C HC HL y w D)) Oa E1) as [((X & _) & _)|[(raw' & _ & X & _)|(_ & X & _)]].
      * discriminate X.
      * congruence.
      * destruct X as (_ & _ & _ & X & _). congruence.
    + exists [EAdc raw; EMeasure], y', w'. split; [apply incl_refl|]. split; [|exact D']. econstructor; [exact Oa|exact E1|exact P].
Qed.
Lemma live_timeout L lo hi C y w : build_conf C -> limits_ok L -> served L lo hi C y w ->
  exists T h, temp_log C y T h /\ gaps_ok h /\ (t_emerg (y_ct y) = true <-> timed_out (-20 * 64) (500 * 64) h).
Proof. intros HC HL. exact (served_timeout L lo hi C HC HL y w). Qed.
Lemma live_last L lo hi C y w : build_conf C -> limits_ok L -> served L lo hi C y w ->
  slow_cycle L + slow_window L < v_steady w -> exists c, v_last w = Some c /\ lo <= c <= hi.
Proof. intros HC HL. exact (served_last L lo hi C HC HL y w). Qed.
Lemma live_over_temp L lo hi C y w : build_conf C -> limits_ok L -> served L lo hi C y w ->
  slow_cycle L + slow_window L < v_steady w -> slow_cycle L < v_calm w ->
  (forall c v, lo <= c <= hi -> temp_of_code C (s_adj (x_cache (y_set y))) c v -> 480 * 64 < v <= 500 * 64) -> pwm_off y.
Proof. intros HC HL. exact (served_over_temp L lo hi C HC HL y w). Qed.
Lemma live_overheat L lo hi C y w : build_conf C -> limits_ok L -> served L lo hi C y w ->
  (forall c v, lo <= c <= hi -> temp_of_code C (s_adj (x_cache (y_set y))) c v -> 480 * 64 < v) ->
  3001 + slow_window L + 3 * slow_cycle L < v_steady w -> 3001 + slow_window L + 3 * slow_cycle L < v_calm w ->
  pwm_off y \/ t_emerg (y_ct y) = true /\ p_setpoint (cc_pid (y_cc y)) = 0 /\ duty_at_most y 1 10.
Proof. intros HC HL. exact (served_overheat L lo hi C HC HL y w). Qed.
Lemma live_dead L lo hi C y w : build_conf C -> limits_ok L -> served L lo hi C y w ->
  (forall adj c v, -99 * 64 <= adj <= 99 * 64 -> lo <= c <= hi -> temp_of_code C adj c v -> v < -20 * 64 \/ 500 * 64 < v) ->
  3001 + slow_window L + 3 * slow_cycle L < v_steady w ->
  t_emerg (y_ct y) = true /\ p_setpoint (cc_pid (y_cc y)) = 0 /\ duty_at_most y 1 10.
Proof. intros HC HL. exact (served_dead L lo hi C HC HL y w). Qed.
Lemma live_fine L lo hi C y w : build_conf C -> limits_ok L -> served L lo hi C y w ->
  (forall adj c v, -99 * 64 <= adj <= 99 * 64 -> lo <= c <= hi -> temp_of_code C adj c v -> -20 * 64 <= v <= 500 * 64) ->
  slow_cycle L + slow_window L < v_steady w -> t_emerg (y_ct y) = false.
Proof. intros HC HL. exact (served_fine L lo hi C HC HL y w). Qed.
