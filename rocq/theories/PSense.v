(** * Reaction times of the plausibility check of the current sensor *)
From Coq Require Import ZArith List Bool Lia ZifyBool.
From Verif Require Import Base PBase MConf MUtil MFixpt MScale MRing MFilter MTimer MPid MPwm MTempMap MCurr MSens
  SpecNum SpecPid SpecSmall PNum PSmall PScale PPid SpecCurr PCurr MSettings SpecSettings PSettings PSysSet
  MSseg MDisplay MText MState MTemp MMeas MMenu MMain SpecDisplay SpecSys SpecRun SpecLive PSys PSysMeas PSysMenu PSysDisp PSysBtn
  PSysStep PSysRun PSysCC PSysSafe PSysLog PSysWin PLive PLive2 SpecSense.
Import ListNotations.
Open Scope Z_scope.
Ltac Zify.zify_post_hook ::= Z.div_mod_to_equations.

Lemma filt_mono a b c d : a <= b -> c <= d -> a - a / 16 + c <= b - b / 16 + d.
Proof. intros. lia. Qed.
Lemma settled_low c n : 0 <= c -> 0 <= settled c 0 n <= 16 * c.
Proof.
  intros H. induction n as [|n IH]; cbn [settled]; [lia|]. set (b := settled c 0 n) in *. clearbody b. lia.
Qed.
Lemma settled_high c n : 0 <= c <= 1023 -> 16 * c <= settled c 16368 n.
Proof.
  intros H. induction n as [|n IH]; cbn [settled]; [lia|]. set (b := settled c 16368 n) in *. clearbody b. lia.
Qed.
Lemma curr_code_any c : exists v, curr_of_code c v.
Proof. exists ((c * 1408 + 65) / 130). unfold curr_of_code. lia. Qed.

Section Sense.
Variables (L : limits) (lo hi : Z) (C : conf).
Hypothesis HC : build_conf C.
Hypothesis HL : limits_ok L.
Hypothesis Hr : 0 <= lo /\ lo <= hi <= 1023.

Lemma sensed_served y w s : sensed L lo hi C y w s -> served L 0 1023 C y w.
Proof. intros D. induction D; econstructor; eassumption. Qed.

Definition held (f : option Z) (n : nat) : Prop :=
  match f with None => False | Some b => settled lo 0 n <= b <= settled hi 16368 n end.
Lemma held_next f n mean : match f with None => n = O | Some b => settled lo 0 n <= b <= settled hi 16368 n end ->
  lo <= mean <= hi -> held (Some (lp_acc f mean)) (S n) /\ shown_min lo (S n) <= lp_code f mean <= shown_max hi (S n).
Proof.
  intros F B. pose proof (settled_low lo n ltac:(lia)) as Sl. pose proof (settled_high hi n ltac:(lia)) as Sh.
  unfold shown_min, shown_max, held, lp_acc, lp_code. cbn [settled].
  destruct f as [b|].
  - set (a := settled lo 0 n) in *. set (z := settled hi 16368 n) in *. clearbody a z. pose proof (filt_mono a b lo mean ltac:(lia) ltac:(lia)). pose proof (filt_mono b z mean hi ltac:(lia) ltac:(lia)). split; [lia|]. unfold lp_acc. split; apply Z.div_le_mono; lia.
  - subst n. cbn [settled]. split; lia.
Qed.

Definition sense (y : sys) (w : watch) (s T : Z) (f : option Z) (h : list (Z * Z)) : Prop :=
  curr_log C y T f h /\ desc T h /\ dense (slow_cycle L) h /\ (match h with [] => T = v_curr w | (t, _) :: _ => T - t = v_curr w end) /\
  0 <= s <= T /\
  (m_chan (y_meas y) = 0 -> v_age w < s -> lo * m_count (y_meas y) <= m_sum (y_meas y) <= hi * m_count (y_meas y)) /\
  (forall n, v_curr w + settle_ms L n < s -> held f (S n)) /\
  forall n, Forall (fun x => T - fst x + settle_ms L n < s -> exists c, curr_of_code c (snd x) /\ shown_min lo (S n) <= c <= shown_max hi (S n)) h.

Lemma settle_pos n : 50 <= settle_ms L n.
Proof.
  unfold settle_ms. destruct (slow_pos L HL) as (W & G). assert (0 <= Z.of_nat n * slow_cycle L) by (apply Z.mul_nonneg_nonneg; lia). lia.
Qed.
Lemma settle_next n : settle_ms L (S n) = settle_ms L n + slow_cycle L.
Proof. unfold settle_ms. rewrite Nat2Z.inj_succ. lia. Qed.
Lemma sensed_log y w s : sensed L lo hi C y w s -> exists T f h, sense y w s T f h.
Proof.
  intros D. induction D as [pinb y Hp E|y v pinb y' R O E Ad|y w s e y' D IH O E].
  - exists 0, None, []. split; [econstructor; eassumption|]. cbn [v_curr v_age watch_zero desc dense].
    repeat split; try lia; [intros n Q; pose proof (settle_pos n); lia|intros n; constructor].
  - exists 0, None, []. split; [exact (ul_power C y v pinb y' R O E)|]. cbn [v_curr v_age watch_zero desc dense].
    repeat split; try lia; [intros n Q; pose proof (settle_pos n); lia|intros n; constructor].
  - destruct IH as (T & f & h & H1 & H2 & H3 & H4 & H5 & Hw & Hf & Hh). pose proof (sensed_served _ _ _ D) as Dv.
    destruct (served_ev L 0 1023 C HC HL y w e Dv O) as (Oe & P). pose proof (served_reach L 0 1023 C HC HL y w Dv) as R.
    pose proof (served_prog L 0 1023 C HC HL y w Dv) as Pg. pose proof (prog_curr L 0 1023 C HC HL y w Pg) as Cb.
    pose proof (core_slow L C y w (p_core _ _ _ _ _ _ Pg)) as Ks. destruct (p_curr _ _ _ _ _ _ Pg) as ((C0 & _) & _).
    destruct (k_pos _ _ _ _ (p_core _ _ _ _ _ _ Pg)) as (A0 & _).
    assert (Old : forall n, Forall (fun x => T - fst x + settle_ms L n < 0 -> exists c, curr_of_code c (snd x) /\ shown_min lo (S n) <= c <= shown_max hi (S n)) h).
    { intros n. eapply Forall_impl; [|exact (desc_all T h H2)]. cbn. intros x Hx Q. pose proof (settle_pos n). lia. }
    pose proof (kinds L 0 1023 C HC HL y w e y' (p_core _ _ _ _ _ _ Pg) O E) as Kd.
    change (watch_step 0 1023 y w e y') with (watch_state y y' (watch_ev 0 1023 y w e)). unfold sense. cbn [watch_state v_age v_curr].
    destruct (sys_handover C y HC R) as (_ & Hn & Hc).
    destruct Kd as [(X & Ew)|[(raw & -> & Ea & (D1 & D2 & D3 & D4 & _) & Ew)|(Pn & (D1 & D2 & D3 & D4 & D5 & _) & [(-> & Ew)|(Ne & p & Ew)])]]; rewrite Ew; clear Ew.
    + (* a result *)
      assert (Xe : e = EMeasure) by apply X. subst e. cbn [sense_step]. destruct (sys_once C y EMeasure y' _ HC R X E) as (A1 & A2 & A3 & A4).
      assert (X' := X). destruct X' as (_ & Av & _). specialize (Hn Av). unfold watch_poll. rewrite Av. destruct Hc as [Hc|Hc]; rewrite Hc in *; cbn [Z.eqb Pos.eqb v_age v_curr].
      * destruct (curr_code_any (lp_code f (mean_code y))) as (v & Tv).
        exists T, (Some (lp_acc f (mean_code y))), ((T, v) :: h). split; [eapply ul_result; eassumption|]. split; [cbn; split; [lia|exact H2]|].
        split; [cbn [dense]; split; [destruct h as [|(t', v') r]; lia|exact H3]|]. split; [lia|]. split; [exact H5|]. split; [rewrite A4; discriminate|].
        assert (K : forall n, settle_ms L n < s -> held (Some (lp_acc f (mean_code y))) (S n) /\ shown_min lo (S n) <= lp_code f (mean_code y) <= shown_max hi (S n)).
        { intros n Q. assert (Bm : lo <= mean_code y <= hi).
          { unfold mean_code. apply (mean_between L lo hi); [exact Hn|]. apply Hw; [reflexivity|]. unfold settle_ms in Q.
            destruct (slow_pos L HL) as (_ & G). assert (0 <= Z.of_nat n * slow_cycle L) by (apply Z.mul_nonneg_nonneg; lia). lia. }
          apply held_next; [|exact Bm]. destruct n as [|n].
          - destruct (curr_log_inv C y T f h HC H1) as (_ & _ & _ & Fi & _). destruct f as [b|]; [|reflexivity]. cbn [settled]. lia.
          - rewrite settle_next in Q. specialize (Hf n ltac:(lia)). destruct f; [exact Hf|destruct Hf]. }
        split; [intros n Q; apply K; lia|]. intros n. constructor; [|apply Hh]. cbn [fst snd]. intros Q. exists (lp_code f (mean_code y)). split; [exact Tv|]. apply K. lia.
      * exists T, f, h. split; [eapply ul_other; [exact H1|exact Oe|exact E|reflexivity|discriminate|]; intros (_ & _ & Z); rewrite Hc in Z; discriminate Z|].
        split; [exact H2|]. split; [exact H3|]. split; [exact H4|]. split; [exact H5|].
        split; [intros _ _; rewrite A2, A3; lia|]. split; [exact Hf|exact Hh].
    + (* a conversion *)
      unfold watch_adc. rewrite Ea. cbn [sense_step v_age v_curr]. rewrite Ea. cbn [andb].
      exists T, f, h. split; [eapply ul_other; [exact H1|exact Oe|exact E|reflexivity|discriminate|]; intros (Z & _); discriminate Z|].
      split; [exact H2|]. split; [exact H3|]. split; [exact H4|].
      destruct ((m_chan (y_meas y) =? 0) && negb ((lo <=? raw) && (raw <=? hi))) eqn:Out.
      * split; [lia|]. split; [lia|]. split; [intros n Q; pose proof (settle_pos n); lia|exact Old].
      * split; [exact H5|]. rewrite D4. split; [|split; [exact Hf|exact Hh]]. intros Z Sa. specialize (Hw Z Sa). rewrite D1, D2.
        rewrite Z in Out. cbn [Z.eqb andb] in Out. destruct ((lo <=? raw) && (raw <=? hi)) eqn:Rg; [|discriminate Out]. clear - Rg Hw. lia.
    + (* a tick *)
      cbn [sense_step watch_tick v_age v_curr]. exists (T + 1), f, h. split; [eapply ul_tick; eassumption|]. split; [eapply desc_le; [|exact H2]; lia|].
      split; [exact H3|]. split; [destruct h as [|(t', v') r]; lia|]. split; [lia|]. rewrite D5, D1, D2. split; [intros Z Sa; apply Hw; [exact Z|lia]|].
      split; [intros n Q; apply Hf; lia|]. intros n. eapply Forall_impl; [|apply Hh]. intros x Hx Q. apply Hx. lia.
    + cbn [with_poll v_age v_curr]. exists T, f, h. split; [eapply ul_other; [exact H1|exact Oe|exact E|exact P|exact Ne|]; intros Q; apply result_pending in Q; congruence|].
      split; [exact H2|]. split; [exact H3|]. split; [exact H4|]. rewrite D5, D1, D2.
      destruct e; cbn [sense_step]; try (split; [exact H5|]; split; [exact Hw|]; split; [exact Hf|exact Hh]); [destruct (Ne eq_refl)|].
      destruct (m_adc (y_meas y) && _ && _).
      * split; [lia|]. split; [lia|]. split; [intros n Q; pose proof (settle_pos n); lia|exact Old].
      * split; [exact H5|]. split; [exact Hw|]. split; [exact Hf|exact Hh].
Qed.

Lemma sensed_fault y w s n : sensed L lo hi C y w s ->
  (forall c v, shown_min lo (S n) <= c <= shown_max hi (S n) -> curr_of_code c v -> v < 0 \/ 5 * 640 < v) ->
  3000 + settle_ms L n + 2 * slow_cycle L < s -> Z.testbit (cc_emerg (y_cc y)) 0 = true /\ pwm_off y.
Proof.
  intros D H S. pose proof (sensed_served _ _ _ D) as Dv. destruct (sensed_log y w s D) as (T & f & h & H1 & H2 & H3 & H4 & H5 & _ & _ & Hh). destruct (slow_pos L HL) as (W & G).
  pose proof (prog_curr L 0 1023 C HC HL y w (served_prog L 0 1023 C HC HL y w Dv)) as Tb. pose proof (settle_pos n) as Sp.
  assert (K : Z.testbit (cc_emerg (y_cc y)) 0 = true).
  { apply (sys_curr_timeout C y T f h HC H1 (dense_gaps (slow_cycle L) h ltac:(lia) H3)).
    destruct (dense_split (slow_cycle L) T h (3000 + slow_cycle L) H2 H3) as (h1 & t0 & v0 & h2 & Eh & B & Fa); [destruct h as [|(t, v) r]; lia|lia|lia|].
    destruct h as [|(t, v) r]; [destruct h1; discriminate Eh|].
    exists h1, t0, v0, h2, t, v, r. split; [exact Eh|]. split; [reflexivity|]. split; [lia|].
    specialize (Hh n). rewrite Eh in Hh.
    assert (Fq : Forall (fun x : Z * Z => T - fst x + settle_ms L n < s -> exists c, curr_of_code c (snd x) /\ shown_min lo (Datatypes.S n) <= c <= shown_max hi (Datatypes.S n)) (h1 ++ [(t0, v0)])).
    { clear - Hh. apply Forall_app in Hh. destruct Hh as (F1 & F2). apply Forall_app. split; [exact F1|]. inversion F2; subst. constructor; [assumption|constructor]. }
    rewrite Forall_forall in *. intros x Hx. specialize (Fa x Hx). destruct (Fq x Hx) as (c & Tc & Bc); [lia|]. apply (H c _ Bc Tc). }
  split; [exact K|]. apply (sys_emerg_off C y HC (served_reach L 0 1023 C HC HL y w Dv)). intros Z. rewrite Z in K. discriminate K.
Qed.
Lemma sensed_fine y w s n : sensed L lo hi C y w s ->
  (forall c v, shown_min lo (S n) <= c <= shown_max hi (S n) -> curr_of_code c v -> 0 <= v <= 5 * 640) ->
  settle_ms L n + slow_cycle L < s -> Z.testbit (cc_emerg (y_cc y)) 0 = false.
Proof.
  intros D H S. pose proof (sensed_served _ _ _ D) as Dv. destruct (sensed_log y w s D) as (T & f & h & H1 & H2 & H3 & H4 & H5 & _ & _ & Hh). destruct (slow_pos L HL) as (W & G).
  pose proof (prog_curr L 0 1023 C HC HL y w (served_prog L 0 1023 C HC HL y w Dv)) as Tb.
  destruct (Z.testbit (cc_emerg (y_cc y)) 0) eqn:E; [exfalso|reflexivity].
  apply (sys_curr_timeout C y T f h HC H1 (dense_gaps (slow_cycle L) h ltac:(lia) H3)) in E.
  destruct E as (h1 & t0 & v0 & h2 & t & v & r & E1 & E2 & _ & Fa). rewrite E2 in H4. specialize (Hh n). rewrite E2 in Hh. apply Forall_inv in Hh. cbn [fst snd] in Hh.
  destruct (Hh ltac:(lia)) as (c & Tc & Bc). specialize (H c v Bc Tc).
  rewrite E2 in E1. destruct h1 as [|(t1, v1) h1]; cbn [app] in *; injection E1; intros; subst; apply Forall_inv in Fa; cbn [snd] in Fa; lia.
Qed.
End Sense.
