(** * Executions with bounded delays: reaction times of the protections *)
From Coq Require Import ZArith List Bool Lia ZifyBool.
From Verif Require Import Base PBase MConf MUtil MFixpt MScale MRing MFilter MTimer MPid MPwm MTempMap MCurr MSens
  SpecNum SpecPid SpecSmall PNum PSmall PScale PPid SpecCurr PCurr MSettings SpecSettings PSettings PSysSet
  MSseg MDisplay MText MState MTemp MMeas MMenu MMain SpecDisplay SpecSys SpecRun SpecLive PSys PSysMeas PSysMenu PSysDisp PSysBtn
  PSysStep PSysRun PSysCC PSysSafe PSysLog PSysWin PLive.
Import ListNotations.
Open Scope Z_scope.
Ltac Zify.zify_post_hook ::= Z.div_mod_to_equations.

Lemma code_temp C adj c : exists v, temp_of_code C adj c v.
Proof.
  exists (150 * 64 - (if c_adj C then adj else 0) + (2 * ((c - (if c_smd C then 210 else 209)) * (330 * 64)) + 201) / 402).
  unfold temp_of_code. destruct (c_adj C), (c_smd C); lia.
Qed.

Section Live2.
Variables (L : limits) (lo hi : Z) (C : conf).
Hypothesis HC : build_conf C.
Hypothesis HL : limits_ok L.

Lemma served_ev y w e : served L lo hi C y w -> on_time L C y w e -> ev_ok C y e /\ is_power e = false.
Proof. intros D O. apply (core_ev L C HL y w e (p_core _ _ _ _ _ _ (served_prog L lo hi C HC HL y w D)) O). Qed.
Lemma served_reach y w : served L lo hi C y w -> reach C y.
Proof. intros D. apply (k_reach _ _ _ _ (p_core _ _ _ _ _ _ (served_prog L lo hi C HC HL y w D))). Qed.

(** The stopwatches of an event, as seen by the reactions. *)
Lemma moves y w e y' : served L lo hi C y w -> on_time L C y w e -> step C y e = Some y' ->
  let w' := watch_step lo hi y w e y' in
  (result y e 1 /\ v_last w' = Some (mean_code y) /\ v_temp w' = 0 /\ v_curr w' = v_curr w /\ v_steady w' = v_steady w) \/
  (result y e 0 /\ v_last w' = v_last w /\ v_temp w' = v_temp w /\ v_curr w' = 0 /\ v_steady w' = v_steady w) \/
  (e = ETick /\ v_last w' = v_last w /\ v_temp w' = v_temp w + 1 /\ v_curr w' = v_curr w + 1 /\ v_steady w' = v_steady w + 1) \/
  ((forall c, ~ result y e c) /\ e <> ETick /\ v_last w' = v_last w /\ v_temp w' = v_temp w /\ v_curr w' = v_curr w /\
   (v_steady w' = v_steady w \/ v_steady w' = 0)).
Proof.
  intros D O E. cbv zeta. pose proof (served_prog L lo hi C HC HL y w D) as Pg. pose proof (kinds L lo hi C HC HL y w e y' (p_core _ _ _ _ _ _ Pg) O E) as Kd.
  change (watch_step lo hi y w e y') with (watch_state y y' (watch_ev lo hi y w e)).
  cbn [watch_state v_last v_temp v_curr v_steady].
  destruct Kd as [(X & Ew)|[(raw & -> & Ea & _ & Ew)|(Pn & _ & [(-> & Ew)|(Ne & p & Ew)])]]; rewrite Ew.
  - destruct X as (-> & Av & _). unfold watch_poll. rewrite Av.
    destruct (sys_handover C y HC (served_reach y w D)) as (_ & _ & [Hc|Hc]); rewrite Hc; cbn [Z.eqb Pos.eqb v_last v_temp v_curr v_steady].
    + right; left. unfold result. auto 10.
    + left. unfold result. auto 10.
  - right; right; right. split; [intros c (Q & _); discriminate Q|]. split; [discriminate|]. unfold watch_adc. rewrite Ea.
    cbn [v_last v_temp v_curr v_steady]. destruct (_ && _); auto 10.
  - right; right; left. cbn. auto.
  - right; right; right. split; [intros c Q; apply result_pending in Q; congruence|]. cbn. auto 10.
Qed.
Lemma calm_move y w e y' : 0 < v_calm (watch_step lo hi y w e y') ->
  t_enabled (y_ct y) = true /\ s_adj (x_cache (y_set y')) = s_adj (x_cache (y_set y)) /\
  v_calm (watch_step lo hi y w e y') = v_calm w + (match e with ETick => 1 | _ => 0 end).
Proof.
  assert (W : watch_step lo hi y w e y' = watch_state y y' (watch_ev lo hi y w e)) by reflexivity. rewrite W. cbn [watch_state v_calm].
  destruct (t_enabled (y_ct y)); [|cbn; lia]. destruct (t_enabled (y_ct y')); [|cbn; lia]. cbn [andb].
  destruct (Z.eqb_spec (s_adj (x_cache (y_set y))) (s_adj (x_cache (y_set y')))); [|lia]. intros _. split; [reflexivity|]. split; [congruence|].
  destruct e; cbn [watch_ev]; try lia; [reflexivity| |]; unfold watch_adc, watch_poll.
  - destruct (m_adc _); cbn; lia.
  - destruct (m_avail _); [destruct (_ =? _)|]; cbn; lia.
Qed.
Lemma failed_move y w e y' : v_failed (watch_step lo hi y w e y') =
  if t_emerg (y_ct y) && t_emerg (y_ct y') then v_failed w + (match e with ETick => 1 | _ => 0 end) else 0.
Proof.
  assert (W : watch_step lo hi y w e y' = watch_state y y' (watch_ev lo hi y w e)) by reflexivity. rewrite W. cbn [watch_state v_failed].
  destruct (_ && _); [|reflexivity]. destruct e; cbn [watch_ev]; try lia; [reflexivity| |]; unfold watch_adc, watch_poll.
  - destruct (m_adc _); cbn; lia.
  - destruct (m_avail _); [destruct (_ =? _)|]; cbn; lia.
Qed.

(** ** The last result *)
Lemma served_last y w : served L lo hi C y w -> slow_cycle L + slow_window L < v_steady w -> exists c, v_last w = Some c /\ lo <= c <= hi.
Proof.
  intros D S. pose proof (served_prog L lo hi C HC HL y w D) as Pg. pose proof (prog_temp L lo hi C HC HL y w Pg) as T.
  pose proof (p_last _ _ _ _ _ _ Pg) as La. destruct (v_last w) as [c|].
  - exists c. split; [reflexivity|]. apply La. lia.
  - destruct HL as (L1 & L2 & _). unfold slow_window in S. lia.
Qed.

(** ** Over-temperature *)
Lemma served_hot y w : served L lo hi C y w -> forall c v, v_last w = Some c -> v_temp w < v_calm w ->
  temp_of_code C (s_adj (x_cache (y_set y))) c v -> 480 * 64 < v <= 500 * 64 -> hot y = true.
Proof.
  intros D. induction D as [pinb y Hp E|y v pinb y' R O E Ad|y w e y' D IH O E]; intros c x La T Tv Bv.
  - discriminate La.
  - discriminate La.
  - destruct (served_ev y w e D O) as (Oe & P). pose proof (served_reach y w D) as R.
    assert (T' : 0 <= v_temp (watch_step lo hi y w e y')).
    { assert (D' : served L lo hi C y' (watch_step lo hi y w e y')) by (econstructor; eassumption).
      pose proof (served_prog L lo hi C HC HL _ _ D') as Pg. pose proof (p_temp _ _ _ _ _ _ Pg). pose proof (k_pos _ _ _ _ (p_core _ _ _ _ _ _ Pg)). lia. }
    destruct (calm_move y w e y' ltac:(lia)) as (En & Ea & Ec). rewrite Ec in T. rewrite Ea in Tv.
    destruct (step_hot C y e y' HC R Oe P E) as [(r & Tp & Hh)|(Np & Hh)].
    + destruct (moves y w e y' D O E) as [(X & M1 & M2 & _)|[((_ & _ & X) & _)|[(-> & _)|(N & _)]]];
        [|destruct Tp as (_ & _ & Q & _); rewrite X in Q; discriminate Q|destruct Tp as (Q & _); discriminate Q|destruct Tp as (Q1 & Q2 & Q3 & _); destruct (N 1); repeat split; assumption].
      rewrite M1 in La. injection La as <-.
      pose proof (good_processed C y e y' x HC R X En E Tv ltac:(lia)) as G.
      assert (r = x) as -> by (destruct Tp as (_&_&_&_&_&<-), G as (_&_&_&_&_&<-); reflexivity). rewrite Hh. lia.
    + rewrite Hh. destruct (moves y w e y' D O E) as [(X & M1 & M2 & _)|[((-> & _) & M1 & M2 & _)|[(-> & M1 & M2 & _)|(N & Ne & M1 & M2 & _)]]].
      * exfalso. rewrite M1 in La. injection La as <-. apply (Np x). apply (good_processed C y e y' x HC R X En E Tv). lia.
      * assert (La2 : v_last w = Some c) by congruence; apply (IH c x); try assumption; lia.
      * assert (La2 : v_last w = Some c) by congruence; apply (IH c x); try assumption; lia.
      * assert (La2 : v_last w = Some c) by congruence; apply (IH c x); try assumption; destruct e; try lia; congruence.
Qed.
Lemma served_over_temp y w : served L lo hi C y w ->
  slow_cycle L + slow_window L < v_steady w -> slow_cycle L < v_calm w ->
  (forall c v, lo <= c <= hi -> temp_of_code C (s_adj (x_cache (y_set y))) c v -> 480 * 64 < v <= 500 * 64) -> pwm_off y.
Proof.
  intros D S Ca H. destruct (served_last y w D S) as (c & La & Bc). destruct (code_temp C (s_adj (x_cache (y_set y))) c) as (v & Tv).
  pose proof (prog_temp L lo hi C HC HL y w (served_prog L lo hi C HC HL y w D)) as T.
  assert (Hh : hot y = true) by (apply (served_hot y w D c v La); [lia|exact Tv|apply (H c v Bc Tv)]).
  apply (sys_emerg_off C y HC (served_reach y w D)). intros Z. unfold hot in Hh. rewrite Z in Hh. discriminate.
Qed.

(** ** The log of the temperature results *)
Fixpoint dense (G : Z) (h : list (Z * Z)) : Prop :=
  match h with
  | [] => True
  | (t, _) :: r => match r with [] => t <= G | (t', _) :: _ => t - t' <= G end /\ dense G r
  end.
Lemma dense_gaps G h : G < 29768 -> dense G h -> gaps_ok h.
Proof.
  intros HG. induction h as [|(t, v) r IH]; cbn; [auto|]. intros (D1 & D2). destruct r as [|(t', v') r']; [exact I|]. split; [lia|]. apply IH. exact D2.
Qed.
Lemma dense_split G T h a : desc T h -> dense G h -> (match h with [] => T <= G | (t, _) :: _ => T - t <= G end) -> 0 < a <= T - G -> 0 <= G ->
  exists h1 t0 v0 h2, h = h1 ++ (t0, v0) :: h2 /\ a <= T - t0 <= a + G /\ Forall (fun x => T - fst x <= a + G) (h1 ++ [(t0, v0)]).
Proof.
  intros De Dn Hd Ha HG. assert (K : forall h0, desc T h0 -> dense G h0 -> (match h0 with [] => False | (t, _) :: _ => T - t <= a + G end) ->
    exists h1 t0 v0 h2, h0 = h1 ++ (t0, v0) :: h2 /\ a <= T - t0 <= a + G /\ Forall (fun x => T - fst x <= a + G) (h1 ++ [(t0, v0)])).
  { clear De Dn Hd. induction h0 as [|(t, v) r IH]; [intros _ _ []|]. intros (E1 & E2) (N1 & N2) Ht. destruct (Z_le_gt_dec a (T - t)) as [Le|Gt].
    - exists [], t, v, r. split; [reflexivity|]. split; [lia|]. constructor; [cbn; lia|constructor].
    - destruct IH as (h1 & t0 & v0 & h2 & -> & B & Fa).
      + eapply desc_le; [exact E1|exact E2].
      + exact N2.
      + destruct r as [|(t', v') r']; lia.
      + exists ((t, v) :: h1), t0, v0, h2. split; [reflexivity|]. split; [exact B|]. constructor; [cbn; lia|exact Fa]. }
  apply K; [exact De|exact Dn|]. destruct h as [|(t, v) r]; lia.
Qed.

Lemma desc_all T h : desc T h -> Forall (fun x => fst x <= T) h.
Proof.
  revert T. induction h as [|(t, v) r IH]; intros T D; constructor; destruct D as (D1 & D2); [exact D1|].
  eapply Forall_impl; [|exact (IH t D2)]. cbn. intros x Hx. lia.
Qed.
Section Log.
Variable Q : Z -> Prop.
Hypothesis HQ : forall adj c v, -99 * 64 <= adj <= 99 * 64 -> lo <= c <= hi -> temp_of_code C adj c v -> Q v.
Definition logged (y : sys) (w : watch) (T : Z) (h : list (Z * Z)) : Prop :=
  temp_log C y T h /\ desc T h /\ dense (slow_cycle L) h /\ (match h with [] => T = v_temp w | (t, _) :: _ => T - t = v_temp w end) /\
  v_steady w <= T /\ Forall (fun x => T - fst x + slow_window L < v_steady w -> Q (snd x)) h.
Lemma served_log y w : served L lo hi C y w -> exists T h, logged y w T h.
Proof.
  intros D. induction D as [pinb y Hp E|y v pinb y' R O E Ad|y w e y' D IH O E].
  - exists 0, []. split; [econstructor; eassumption|]. cbn. repeat split; try lia. constructor.
  - exists 0, []. split; [exact (tl_power C y v pinb y' R O E)|]. cbn. repeat split; try lia. constructor.
  - destruct IH as (T & h & H1 & H2 & H3 & H4 & H5 & H6). destruct (served_ev y w e D O) as (Oe & P). pose proof (served_reach y w D) as R.
    pose proof (served_prog L lo hi C HC HL y w D) as Pg. pose proof (prog_temp L lo hi C HC HL y w Pg) as Tb. pose proof (p_steady _ _ _ _ _ _ Pg) as Sb.
    assert (Pg' : prog L lo hi C y' (watch_step lo hi y w e y')) by (apply (served_prog L lo hi C HC HL); econstructor; eassumption).
    destruct (moves y w e y' D O E) as [(X & M1 & M2 & M3 & M4)|[(X & M1 & M2 & M3 & M4)|[(-> & M1 & M2 & M3 & M4)|(N & Ne & M1 & M2 & M3 & M4)]]].
    + destruct (code_temp C (s_adj (x_cache (y_set y))) (mean_code y)) as (v & Tv). exists T, ((T, v) :: h).
      assert (Xe : e = EMeasure) by apply X. subst e.
      split; [eapply tl_result; eassumption|]. split; [cbn; split; [lia|exact H2]|].
      split; [cbn [dense]; split; [destruct h as [|(t', v') r]; lia|exact H3]|]. split; [lia|]. split; [lia|].
      rewrite M4. constructor; [|exact H6]. cbn [fst snd]. intros S. pose proof (p_last _ _ _ _ _ _ Pg') as La. rewrite M1, M2, M4 in La.
      eapply HQ; [|apply La; lia|exact Tv]. pose proof (s4_adj C y (served_s4 L lo hi C HC HL y w D)). lia.
    + exists T, h. split; [eapply tl_other; [exact H1|exact Oe|exact E|exact P| |]; destruct X as (-> & _ & X); [discriminate|intros (_ & _ & Z); rewrite X in Z; discriminate Z]|].
      split; [exact H2|]. split; [exact H3|]. rewrite M2, M4. auto.
    + exists (T + 1), h. split; [eapply tl_tick; eassumption|]. split; [eapply desc_le; [|exact H2]; lia|]. split; [exact H3|].
      rewrite M2, M4. split; [destruct h as [|(t', v') r]; lia|]. split; [lia|]. eapply Forall_impl; [|exact H6]. intros x Hx S. apply Hx. lia.
    + exists T, h. split; [eapply tl_other; [exact H1|exact Oe|exact E|exact P|exact Ne|apply N]|].
      split; [exact H2|]. split; [exact H3|]. rewrite M2. split; [exact H4|].
      assert (Tp : 0 <= T) by lia. split; [destruct M4; lia|]. destruct M4 as [->| ->]; [exact H6|].
      eapply Forall_impl; [|exact (desc_all T h H2)]. cbn. intros x Hx S. destruct HL as (L1 & L2 & _). unfold slow_window in S. lia.
Qed.
End Log.

(** ** Sensor failure *)
Definition fail_time : Z := 3000 + slow_window L + 2 * slow_cycle L.
Lemma slow_pos : 50 <= slow_window L /\ 55 <= slow_cycle L < 29768.
Proof. destruct HL as (L1 & L2 & _ & _ & L5). unfold slow_window, slow_cycle. lia. Qed.
Lemma served_fault y w : served L lo hi C y w ->
  (forall adj c v, -99 * 64 <= adj <= 99 * 64 -> lo <= c <= hi -> temp_of_code C adj c v -> v < -20 * 64 \/ 500 * 64 < v) ->
  fail_time < v_steady w -> t_emerg (y_ct y) = true.
Proof.
  intros D H S. destruct (served_log _ H y w D) as (T & h & H1 & H2 & H3 & H4 & H5 & H6). destruct slow_pos as (W & G).
  pose proof (prog_temp L lo hi C HC HL y w (served_prog L lo hi C HC HL y w D)) as Tb.
  apply (sys_temp_timeout C y T h HC H1 (dense_gaps (slow_cycle L) h ltac:(lia) H3)). unfold fail_time in S.
  destruct (dense_split (slow_cycle L) T h (3000 + slow_cycle L) H2 H3) as (h1 & t0 & v0 & h2 & Eh & B & Fa); [destruct h as [|(t, v) r]; lia|lia|lia|].
  destruct h as [|(t, v) r]; [destruct h1; discriminate Eh|].
  exists h1, t0, v0, h2, t, v, r. split; [exact Eh|]. split; [reflexivity|]. split; [lia|].
  assert (Fq : Forall (fun x : Z * Z => T - fst x + slow_window L < v_steady w -> snd x < -20 * 64 \/ 500 * 64 < snd x) (h1 ++ [(t0, v0)])).
  { rewrite Eh in H6. clear - H6. apply Forall_app in H6. destruct H6 as (F1 & F2). apply Forall_app. split; [exact F1|]. inversion F2; subst. constructor; [assumption|constructor]. }
  rewrite Forall_forall in *. intros x Hx. apply (Fq x Hx). specialize (Fa x Hx). lia.
Qed.
Lemma served_failed y w : served L lo hi C y w -> 0 <= v_failed w /\ (v_curr w < v_failed w -> dead C y).
Proof.
  intros D. induction D as [pinb y Hp E|y v pinb y' R O E Ad|y w e y' D (IH1 & IH3) O E].
  - cbn [v_failed v_curr watch_zero]. split; [lia|]. intros Q; lia.
  - cbn [v_failed v_curr watch_zero]. split; [lia|]. intros Q; lia.
  - destruct (served_ev y w e D O) as (Oe & P). pose proof (served_reach y w D) as R.
    pose proof (p_curr _ _ _ _ _ _ (served_prog L lo hi C HC HL y w D)) as ((Cb & _) & _).
    rewrite failed_move. pose proof (moves y w e y' D O E) as M. cbv zeta in M. set (w' := watch_step lo hi y w e y') in *. clearbody w'.
    destruct (t_emerg (y_ct y)) eqn:T0; [destruct (t_emerg (y_ct y')) eqn:T1|]; cbn [andb].
    + destruct M as [((-> & X2 & X3) & _ & _ & M3 & M4)|[(X & _ & _ & M3 & M4)|[(-> & _ & _ & M3 & M4)|(N & Ne & _ & _ & M3 & M4)]]].
      * rewrite M3. split; [lia|]. intros Q. eapply dead_step; [apply IH3; lia|exact Oe|exact E|exact P|exact T1].
      * assert (Xe : e = EMeasure) by apply X. rewrite Xe. split; [lia|]. intros _. eapply dead_start; [exact R|exact T0|exact Oe|exact E|exact X].
      * rewrite M3. split; [lia|]. intros Q. eapply dead_step; [apply IH3; lia|exact Oe|exact E|exact P|exact T1].
      * replace (match e with ETick => 1 | _ => 0 end) with 0 by (destruct e; congruence). rewrite M3. split; [lia|].
        intros Q. eapply dead_step; [apply IH3; lia|exact Oe|exact E|exact P|exact T1].
    + split; [lia|].
      intros Q. exfalso. destruct M as [(_ & _ & _ & M3 & _)|[(_ & _ & _ & M3 & _)|[(_ & _ & _ & M3 & _)|(_ & _ & _ & _ & M3 & _)]]]; lia.
    + split; [lia|].
      intros Q. exfalso. destruct M as [(_ & _ & _ & M3 & _)|[(_ & _ & _ & M3 & _)|[(_ & _ & _ & M3 & _)|(_ & _ & _ & _ & M3 & _)]]]; lia.
Qed.
(** A stopwatch that is bounded while the sensor is not considered failed. *)
Lemma failed_bound (m : sys -> watch -> Z) (X : sys -> watch -> Prop) (S0 : Z) :
  (forall y, m y watch_zero <= 0) -> 0 <= S0 ->
  (forall y w e y', served L lo hi C y w -> on_time L C y w e -> step C y e = Some y' ->
     m y' (watch_step lo hi y w e y') <= Z.max 0 (m y w + match e with ETick => 1 | _ => 0 end)) ->
  (forall y w, served L lo hi C y w -> S0 < m y w -> X y w \/ t_emerg (y_ct y) = true) ->
  (forall y w e y', served L lo hi C y w -> on_time L C y w e -> step C y e = Some y' -> t_emerg (y_ct y') = true -> X y w ->
     X y' (watch_step lo hi y w e y')) ->
  forall y w, served L lo hi C y w -> X y w \/ m y w <= S0 + 1 + v_failed w.
Proof.
  intros M0 HS M1 HX Hp y w D. induction D as [pinb y Hb E|y v pinb y' R O E Ad|y w e y' D IH O E].
  - right. specialize (M0 y). cbn [v_failed watch_zero]. lia.
  - right. specialize (M0 y'). cbn [v_failed watch_zero]. lia.
  - assert (D' : served L lo hi C y' (watch_step lo hi y w e y')) by (econstructor; eassumption).
    pose proof (HX y' _ D') as F1. pose proof (HX y w D) as F0. specialize (M1 y w e y' D O E). rewrite failed_move.
    destruct (served_failed y w D) as (Fp & _).
    destruct (t_emerg (y_ct y')) eqn:T1.
    + assert (K : X y w \/ m y w <= S0 + 1 + v_failed w) by exact IH. destruct K as [K|K]; [left; apply (Hp y w e y' D O E T1 K)|].
      destruct (t_emerg (y_ct y)) eqn:T0; cbn [andb].
      * right. destruct e; lia.
      * destruct (Z_le_gt_dec (m y w) S0) as [Le|Gt]; [right; destruct e; lia|]. destruct (F0 ltac:(lia)) as [Q|Q]; [|discriminate Q].
        left. apply (Hp y w e y' D O E T1 Q).
    + rewrite andb_false_r. destruct (Z_le_gt_dec (m y' (watch_step lo hi y w e y')) S0) as [Le|Gt]; [right; lia|].
      destruct (F1 ltac:(lia)) as [Q|Q]; [left; exact Q|discriminate Q].
Qed.
Lemma steady_move y w e y' : served L lo hi C y w -> on_time L C y w e -> step C y e = Some y' ->
  v_steady (watch_step lo hi y w e y') <= Z.max 0 (v_steady w + match e with ETick => 1 | _ => 0 end).
Proof.
  intros D O E. pose proof (p_steady _ _ _ _ _ _ (served_prog L lo hi C HC HL y w D)) as Sb.
  destruct (moves y w e y' D O E) as [((-> & _) & _ & _ & _ & M4)|[((-> & _) & _ & _ & _ & M4)|[(-> & _ & _ & _ & M4)|(_ & _ & _ & _ & _ & [M4|M4])]]]; try lia; destruct e; lia.
Qed.
Lemma served_dead y w : served L lo hi C y w ->
  (forall adj c v, -99 * 64 <= adj <= 99 * 64 -> lo <= c <= hi -> temp_of_code C adj c v -> v < -20 * 64 \/ 500 * 64 < v) ->
  3001 + slow_window L + 3 * slow_cycle L < v_steady w -> t_emerg (y_ct y) = true /\ p_setpoint (cc_pid (y_cc y)) = 0 /\ duty_at_most y 1 10.
Proof.
  intros D H S. split; [apply (served_fault y w D H); unfold fail_time; destruct slow_pos; lia|]. apply (sys_dead C y HC).
  destruct (served_failed y w D) as (_ & Dd). apply Dd.
  destruct (failed_bound (fun _ w => v_steady w) (fun _ _ => False) fail_time) with (y := y) (w := w) as [[]|F]; try assumption.
  - reflexivity.
  - unfold fail_time. destruct slow_pos. lia.
  - intros. apply steady_move; assumption.
  - intros y0 w0 D0 S0. right. apply (served_fault y0 w0 D0 H S0).
  - intros; assumption.
  - unfold fail_time in F. pose proof (prog_curr L lo hi C HC HL y w (served_prog L lo hi C HC HL y w D)). lia.
Qed.
Lemma served_fine y w : served L lo hi C y w ->
  (forall adj c v, -99 * 64 <= adj <= 99 * 64 -> lo <= c <= hi -> temp_of_code C adj c v -> -20 * 64 <= v <= 500 * 64) ->
  slow_cycle L + slow_window L < v_steady w -> t_emerg (y_ct y) = false.
Proof.
  intros D H S. destruct (served_log _ H y w D) as (T & h & H1 & H2 & H3 & H4 & H5 & H6). destruct slow_pos as (W & G).
  pose proof (prog_temp L lo hi C HC HL y w (served_prog L lo hi C HC HL y w D)) as Tb.
  destruct (t_emerg (y_ct y)) eqn:E; [exfalso|reflexivity].
  apply (sys_temp_timeout C y T h HC H1 (dense_gaps (slow_cycle L) h ltac:(lia) H3)) in E.
  destruct E as (h1 & t0 & v0 & h2 & t & v & r & E1 & E2 & _ & Fa). rewrite E2 in H4, H6. apply Forall_inv in H6. cbn [fst snd] in H6.
  specialize (H6 ltac:(lia)). rewrite E2 in E1. destruct h1 as [|(t1, v1) h1]; cbn [app] in *; injection E1; intros; subst; apply Forall_inv in Fa; cbn [snd] in Fa; lia.
Qed.
(** The time-out of C34 without an assumption on the gaps between the results. *)
Lemma served_timeout y w : served L lo hi C y w -> exists T h, temp_log C y T h /\ gaps_ok h /\ (t_emerg (y_ct y) = true <-> timed_out (-20 * 64) (500 * 64) h).
Proof.
  intros D. destruct (served_log (fun _ => True) (fun _ _ _ _ _ _ => I) y w D) as (T & h & H1 & H2 & H3 & _).
  assert (G : gaps_ok h) by (eapply dense_gaps; [|exact H3]; destruct slow_pos; lia).
  exists T, h. split; [exact H1|]. split; [exact G|]. apply (sys_temp_timeout C y T h HC H1 G).
Qed.

(** ** Overheating of any measure: hotter than the limit, plausible or not *)
Lemma result_heat y y' v : reach C y -> result y EMeasure 1 -> step C y EMeasure = Some y' ->
  temp_of_code C (s_adj (x_cache (y_set y))) (mean_code y) v ->
  (-20 * 64 <= v <= 500 * 64 -> y_mt y' = v /\ (t_enabled (y_ct y) = true -> hot y' = (30720 <? v))) /\
  (v < -20 * 64 \/ 500 * 64 < v -> y_mt y' = y_mt y /\ (hot y' = hot y \/ hot y' = (30720 <? y_mt y))).
Proof.
  intros R (_ & X2 & X3) E Tv. pose proof (reach_s4 C y HC R) as S4.
  destruct (step_pending relaxed C y EMeasure y' HC bok_relaxed S4 X2 E) as (c0 & c1 & raw & _ & Er & _ & _ & _ & _ & _ & _ & Ht & _).
  destruct (Ht X3) as (c1' & x & v' & p & _ & _ & Ck & (T1 & T2 & M1 & M0 & M2 & _) & Tw).
  rewrite (raw_mean _ _ _ _ S4 X2 Er) in Tw. pose proof (temp_code_unique _ _ _ _ _ Tv Tw) as <-.
  destruct Ck as (Cv & _ & Ec & Ep).
  change (mc_plaus_neg (meastemp_config (c_smd C))) with (-1280) in *. change (mc_plaus_pos (meastemp_config (c_smd C))) with 32000 in *. split; intros Bv.
  - replace ((-1280 <=? v) && (v <=? 32000)) with true in * by lia. subst c1'. cbn [ch_timeout] in Ep. subst p. replace v' with v in * by (clear - Cv Bv; lia).
    split; [exact M1|]. intros En. destruct (T1 En M0) as (Q & _). rewrite Q, M2. reflexivity.
  - replace ((-1280 <=? v) && (v <=? 32000)) with false in * by lia. destruct (ch_timeout c1'); subst p.
    + split; [exact M1|]. left. apply T2. right. exact M0.
    + split; [exact M1|]. destruct (t_enabled (y_ct y)) eqn:En; [|left; apply T2; left; reflexivity].
      destruct (t_emerg (y_ct y')) eqn:Em; [left; apply T2; right; reflexivity|]. right. destruct (T1 eq_refl eq_refl) as (Q & _). rewrite Q, M2. reflexivity.
Qed.
Lemma other_heat y e y' : reach C y -> ev_ok C y e -> is_power e = false -> step C y e = Some y' -> ~ result y e 1 -> y_mt y' = y_mt y /\ hot y' = hot y.
Proof.
  intros R O P E N. pose proof (reach_s4 C y HC R) as S4. destruct (pending y e) eqn:Pn.
  - destruct (step_pending relaxed C y e y' HC bok_relaxed S4 Pn E) as (c0 & c1 & raw & _ & Er & _ & F & _ & _ & _ & _ & Ht & Hc).
    destruct (pending_cases _ _ _ _ (s4_inv _ _ _ S4) Pn) as [(X1 & X2 & X3)|X]; [|destruct (N X)].
    destruct (Hc X3) as (c0' & v & v' & p & _ & _ & (_ & M1 & M2 & Hh & _) & _). auto.
  - destruct (step_calm relaxed C y e y' HC bok_relaxed S4 O P Pn E) as (_ & _ & A1 & _ & _ & _ & _ & [(A2 & _)|(A2 & _)]); unfold hot; rewrite A1, A2; auto.
Qed.
Definition heat_log (y : sys) (w : watch) (T : Z) (h : list (Z * Z)) : Prop :=
  Forall (fun x => 0 <= T - fst x) h /\
  Forall (fun x => T - fst x + slow_window L < v_steady w -> T - fst x < v_calm w ->
            exists c, lo <= c <= hi /\ temp_of_code C (s_adj (x_cache (y_set y))) c (snd x)) h /\
  forall h1 t v h2, h = h1 ++ (t, v) :: h2 -> T - t < v_calm w -> 480 * 64 < v <= 500 * 64 ->
    Forall (fun x => 480 * 64 < snd x) h1 -> hot y = true /\ 30720 < y_mt y.
Lemma served_heat_log y w : served L lo hi C y w -> exists T h, logged (fun _ => True) y w T h /\ heat_log y w T h.
Proof.
  intros D. induction D as [pinb y Hp E|y v pinb y' R O E Ad|y w e y' D IH O E].
  - exists 0, []. split; [split; [econstructor; eassumption|]; cbn; repeat split; try lia; constructor|].
    split; [constructor|]. split; [constructor|]. intros [|] ? ? ? Q; discriminate Q.
  - exists 0, []. split; [split; [exact (tl_power C y v pinb y' R O E)|]; cbn; repeat split; try lia; constructor|].
    split; [constructor|]. split; [constructor|]. intros [|] ? ? ? Q; discriminate Q.
  - destruct IH as (T & h & (H1 & H2 & H3 & H4 & H5 & H6) & G1 & G2 & G3). destruct (served_ev y w e D O) as (Oe & P). pose proof (served_reach y w D) as R.
    pose proof (served_prog L lo hi C HC HL y w D) as Pg. pose proof (prog_temp L lo hi C HC HL y w Pg) as Tb. pose proof (p_steady _ _ _ _ _ _ Pg) as Sb.
    assert (Pg' : prog L lo hi C y' (watch_step lo hi y w e y')) by (apply (served_prog L lo hi C HC HL); econstructor; eassumption).
    assert (Tt : forall (f : Z * Z -> Prop) l, Forall (fun x : Z * Z => f x -> True) l) by (intros f l; apply Forall_forall; trivial).
    destruct slow_pos as (Wp & _). pose proof (calm_move y w e y') as Cm. pose proof (other_heat y e y' R Oe P E) as Oh.
    assert (Rest : (exists d, 0 <= d /\ v_temp (watch_step lo hi y w e y') = v_temp w + d /\
        (v_steady (watch_step lo hi y w e y') = v_steady w + d \/ v_steady (watch_step lo hi y w e y') = 0) /\
        temp_log C y' (T + d) h /\ match e with ETick => d = 1 | _ => d = 0 end) -> ~ result y e 1 ->
      exists T h, logged (fun _ => True) y' (watch_step lo hi y w e y') T h /\ heat_log y' (watch_step lo hi y w e y') T h).
    { intros (d & Hd & M2 & M4 & Tl & De) N. destruct (Oh N) as (Hm & Hh). set (w' := watch_step lo hi y w e y') in *. clearbody w'. exists (T + d), h. split.
      - split; [exact Tl|]. split; [eapply desc_le; [|exact H2]; lia|]. split; [exact H3|]. rewrite M2. split; [destruct h as [|(t', v') r]; lia|]. split; [lia|apply Tt].
      - split; [eapply Forall_impl; [|exact G1]; cbn; intros; lia|]. split.
        + apply Forall_forall. intros x Hx S Ca. rewrite Forall_forall in G1, G2. specialize (G1 x Hx). destruct Cm as (_ & Ea & Ec); [lia|].
          rewrite Ea. apply (G2 x Hx); [lia|]. destruct e; lia.
        + intros h1 t v1 h2 Eh Ca Bv Fh. rewrite Hm, Hh. rewrite Forall_forall in G1.
          assert (Gt : 0 <= T - t) by (specialize (G1 (t, v1)); cbn in G1; apply G1; rewrite Eh; apply in_or_app; right; left; reflexivity).
          destruct Cm as (_ & Ea & Ec); [lia|]. eapply G3; [exact Eh| |exact Bv|exact Fh]. destruct e; lia. }
    destruct (moves y w e y' D O E) as [(X & M1 & M2 & M3 & M4)|[(X & M1 & M2 & M3 & M4)|[(-> & M1 & M2 & M3 & M4)|(N & Ne & M1 & M2 & M3 & M4)]]].
    + clear Rest. destruct (code_temp C (s_adj (x_cache (y_set y))) (mean_code y)) as (v & Tv). exists T, ((T, v) :: h).
      assert (Xe : e = EMeasure) by apply X. subst e. set (w' := watch_step lo hi y w EMeasure y') in *; clearbody w'.
      split.
      { split; [eapply tl_result; eassumption|]. split; [cbn; split; [lia|exact H2]|].
        split; [cbn [dense]; split; [destruct h as [|(t', v') r]; lia|exact H3]|]. split; [lia|]. split; [lia|]. apply Tt. }
      split; [constructor; [cbn; lia|exact G1]|]. split.
      * constructor.
        -- cbn [fst snd]. intros S Ca. pose proof (p_last _ _ _ _ _ _ Pg') as La. rewrite M1, M2, M4 in La. destruct Cm as (_ & Ea & _); [lia|].
           rewrite Ea. exists (mean_code y). split; [apply La; lia|exact Tv].
        -- apply Forall_forall. intros x Hx S Ca. rewrite Forall_forall in G1, G2. specialize (G1 x Hx). destruct Cm as (_ & Ea & Ec); [lia|].
           rewrite Ea. apply (G2 x Hx); lia.
      * intros h1 t v1 h2 Eh Ca Bv Fh. assert (Ca0 : 0 < v_calm w').
        { destruct h1 as [|x h1]; injection Eh; intros; subst; [lia|]. rewrite Forall_forall in G1.
          specialize (G1 (t, v1)). cbn in G1. specialize (G1 ltac:(apply in_or_app; right; left; reflexivity)). lia. }
        destruct (Cm Ca0) as (En & Ea & Ec). destruct (result_heat y y' v R X E Tv) as (Rg & Rb).
        destruct h1 as [|x h1]; injection Eh; intros; subst.
        -- destruct (Rg ltac:(lia)) as (Q1 & Q2). rewrite Q1, (Q2 En). lia.
        -- assert (Hy : hot y = true /\ 30720 < y_mt y) by (eapply G3; [reflexivity|lia|exact Bv|exact (Forall_inv_tail Fh)]). apply Forall_inv in Fh. cbn [snd] in Fh.
           destruct (Z_le_gt_dec v 32000) as [Le|Gt].
           ++ destruct (Rg ltac:(lia)) as (Q1 & Q2). rewrite Q1, (Q2 En). lia.
           ++ destruct (Rb ltac:(lia)) as (Q1 & [Q2|Q2]); destruct Hy as (Hy1 & Hy2); rewrite Q1, Q2; split; first [assumption | lia].
    + assert (Xe : e = EMeasure) by apply X. assert (N : ~ result y e 1) by (destruct X as (_ & _ & X); intros (_ & _ & Z); rewrite X in Z; discriminate Z).
      apply Rest; [|exact N]. exists 0. split; [lia|]. split; [lia|]. split; [left; lia|]. split; [|subst e; reflexivity].
      rewrite Z.add_0_r. eapply tl_other; [exact H1|exact Oe|exact E|exact P|subst e; discriminate|exact N].
    + apply Rest; [|intros (Q & _); discriminate Q]. exists 1. split; [lia|]. split; [lia|]. split; [left; lia|]. split; [eapply tl_tick; eassumption|reflexivity].
    + apply Rest; [|apply N]. exists 0. split; [lia|]. split; [lia|]. split; [destruct M4; [left; lia|right; assumption]|]. split; [|destruct e; congruence].
      rewrite Z.add_0_r. eapply tl_other; [exact H1|exact Oe|exact E|exact P|exact Ne|apply N].
Qed.
Lemma newest_split (P : Z * Z -> bool) h : forallb P h = true \/ exists h1 x h2, h = h1 ++ x :: h2 /\ P x = false /\ Forall (fun z => P z = true) h1.
Proof.
  induction h as [|x r IH]; [left; reflexivity|]. cbn [forallb]. destruct (P x) eqn:E.
  - destruct IH as [IH|(h1 & z & h2 & -> & Q1 & Q2)]; [left; exact IH|]. right. exists (x :: h1), z, h2. split; [reflexivity|]. split; [exact Q1|]. constructor; assumption.
  - right. exists [], x, r. split; [reflexivity|]. split; [exact E|constructor].
Qed.
Definition steady_calm (w : watch) : Z := Z.min (v_steady w) (v_calm w).
Lemma served_heat y w : served L lo hi C y w ->
  (forall c v, lo <= c <= hi -> temp_of_code C (s_adj (x_cache (y_set y))) c v -> 480 * 64 < v) ->
  fail_time < steady_calm w -> hot y = true \/ t_emerg (y_ct y) = true.
Proof.
  intros D H S. destruct (served_heat_log y w D) as (T & h & (H1 & H2 & H3 & H4 & H5 & _) & G1 & G2 & G3). destruct slow_pos as (W & G).
  pose proof (prog_temp L lo hi C HC HL y w (served_prog L lo hi C HC HL y w D)) as Tb. unfold fail_time, steady_calm in S.
  destruct (dense_split (slow_cycle L) T h (3000 + slow_cycle L) H2 H3) as (h1 & t0 & v0 & h2 & Eh & B & Fa); [destruct h as [|(t, v) r]; lia|lia|lia|].
  assert (Fq : Forall (fun x : Z * Z => 480 * 64 < snd x) (h1 ++ [(t0, v0)])).
  { apply Forall_forall. intros x Hx. rewrite Forall_forall in Fa, G2. specialize (Fa x Hx). destruct (G2 x) as (c & Bc & Tc); [|lia|lia|apply (H c _ Bc Tc)].
    rewrite Eh. apply in_app_or in Hx. apply in_or_app. destruct Hx as [Hx|[<-|[]]]; [left; exact Hx|right; left; reflexivity]. }
  destruct (newest_split (fun x => 500 * 64 <? snd x) (h1 ++ [(t0, v0)])) as [Al|(k1 & (t1, v1) & k2 & Ek & Pk & Fk)].
  - right. apply (sys_temp_timeout C y T h HC H1 (dense_gaps (slow_cycle L) h ltac:(lia) H3)).
    destruct h as [|(t, v) r]; [destruct h1; discriminate Eh|].
    exists h1, t0, v0, h2, t, v, r. split; [exact Eh|]. split; [reflexivity|]. split; [lia|].
    rewrite forallb_forall in Al. apply Forall_forall. intros x Hx. specialize (Al x Hx). lia.
  - left. cbn [snd] in Pk. assert (Eh' : h = k1 ++ (t1, v1) :: k2 ++ h2).
    { rewrite Eh. transitivity ((h1 ++ [(t0, v0)]) ++ h2); [rewrite <- app_assoc; reflexivity|]. rewrite Ek, <- app_assoc. reflexivity. }
    rewrite Ek in Fq, Fa. apply Forall_app in Fq, Fa. destruct Fq as (Fq1 & Fq2), Fa as (_ & Fa2). apply Forall_inv in Fq2, Fa2. cbn [fst snd] in *.
    apply (G3 k1 t1 v1 (k2 ++ h2) Eh'); [lia|lia|exact Fq1].
Qed.
Lemma served_overheat y w : served L lo hi C y w ->
  (forall c v, lo <= c <= hi -> temp_of_code C (s_adj (x_cache (y_set y))) c v -> 480 * 64 < v) ->
  3001 + slow_window L + 3 * slow_cycle L < v_steady w -> 3001 + slow_window L + 3 * slow_cycle L < v_calm w ->
  pwm_off y \/ t_emerg (y_ct y) = true /\ p_setpoint (cc_pid (y_cc y)) = 0 /\ duty_at_most y 1 10.
Proof.
  intros D H S Ca. set (adj := s_adj (x_cache (y_set y))) in *. pose proof slow_pos as (Wp & Gp).
  pose (m := fun (y : sys) (w : watch) => if s_adj (x_cache (y_set y)) =? adj then steady_calm w else 0).
  assert (K : hot y = true \/ m y w <= fail_time + 1 + v_failed w).
  { apply (failed_bound m (fun y _ => hot y = true) fail_time); try assumption.
    - intros z. unfold m, steady_calm. cbn [v_steady v_calm watch_zero]. destruct (_ =? _); lia.
    - unfold fail_time. lia.
    - intros z u e z' Dz O Ez. pose proof (steady_move z u e z' Dz O Ez) as M1. pose proof (calm_move z u e z') as M2.
      unfold m, steady_calm. clear m. clearbody adj. clear D H S Ca.
      destruct (Z.eqb_spec (s_adj (x_cache (y_set z'))) adj); [|lia]. destruct (Z_le_gt_dec (v_calm (watch_step lo hi z u e z')) 0) as [|Gt]; [lia|].
      destruct (M2 ltac:(lia)) as (_ & Ea & Ec). destruct (Z.eqb_spec (s_adj (x_cache (y_set z))) adj); [|congruence]. lia.
    - intros z u Dz Sz. unfold m in Sz. destruct (Z.eqb_spec (s_adj (x_cache (y_set z))) adj) as [Ea|]; [|unfold fail_time in Sz; lia].
      apply (served_heat z u Dz); [rewrite Ea; exact H|exact Sz].
    - intros z u e z' Dz Oz Ez Em Hz. destruct (served_ev z u e Dz Oz) as (Oe & P).
      destruct (step_hot C z e z' HC (served_reach z u Dz) Oe P Ez) as [(r & Tp & _)|(_ & Q)]; [|congruence]. destruct Tp as (_ & _ & _ & _ & Q & _). congruence. }
  destruct K as [K|K].
  - left. apply (sys_emerg_off C y HC (served_reach y w D)). intros Z. unfold hot in K. rewrite Z in K. discriminate.
  - destruct (hot y) eqn:Hh; [left; apply (sys_emerg_off C y HC (served_reach y w D)); intros Z; unfold hot in Hh; rewrite Z in Hh; discriminate|].
    right. destruct (served_heat y w D H ltac:(unfold steady_calm, fail_time; lia)) as [Q|Q]; [congruence|]. split; [exact Q|].
    apply (sys_dead C y HC). destruct (served_failed y w D) as (_ & Dd). apply Dd. unfold m in K. fold adj in K. rewrite Z.eqb_refl in K.
    unfold fail_time, steady_calm in K. pose proof (prog_curr L lo hi C HC HL y w (served_prog L lo hi C HC HL y w D)). lia.
Qed.
End Live2.
