(** * Interrupts inside the work functions, part 5: measure_work *)
From Coq Require Import ZArith List Bool Lia ZifyBool.
From Verif Require Import Base PBase MConf MUtil MFixpt MScale MRing MFilter MTimer MPid MPwm MTempMap MCurr MSens
  SpecNum SpecPid SpecSmall PNum PSmall PScale PPid SpecCurr PCurr MSettings SpecSettings PSettings PSysSet
  MSseg MDisplay MText MState MTemp MMeas MMenu MMain SpecDisplay PDisplay SpecSys PSys PSysMeas PSysMenu PSysDisp PSysBtn PSysStep PSysRun MFine PFine PFine2.
Import ListNotations.
Open Scope Z_scope.
Ltac Zify.zify_post_hook ::= Z.div_mod_to_equations.


Lemma dt_shift n1 n2 t : dt_seconds n2 (t + n2 - n1) = dt_seconds n1 t.
Proof. unfold dt_seconds, timer_ms_since, timer_count_since. replace (n2 - (t + n2 - n1)) with (n1 - t) by lia. reflexivity. Qed.

(** With interrupts in between a controller runs as it would run at once with another start of its time step. *)
Definition redt (y : sys) (t : Z) : sys := set_y_ct y (set_t_dt (y_ct y) t).
Definition retimer (y : sys) (t : Z) : sys := set_y_cc y (cc_set_timer (y_cc y) t).
Lemma redt_inv B C y t : inv B C y -> inv B C (redt y t).
Proof. intros []. unfold redt. constructor; sy; assumption. Qed.
Lemma retimer_inv B C y t : inv B C y -> inv B C (retimer y t).
Proof. intros []. unfold retimer. constructor; sy; assumption. Qed.
Lemma redt_id y : redt y (t_dt (y_ct y)) = y.
Proof. destruct y as [? ? ? [] ? ? ? ? ? ? ? ?]; reflexivity. Qed.
Lemma retimer_id y : retimer y (cc_timer (y_cc y)) = y.
Proof. destruct y as [? ? [] ? ? ? ? ? ? ? ? ?]; reflexivity. Qed.

Section Meas.
Variables (B : bnds) (C : conf).
Hypothesis HC : build_conf C.
Hypothesis HB : bok B.
Local Notation mok := (mok B C).
Local Notation inv := (inv B C).

Lemma run_temp_fine y r : inv y -> -1280 <= r <= 32000 ->
  fok (contrtemp_run_f C y r) (fun z => exists n m x t, mok y n m x /\ contrtemp_run (redt (mv y n m x) t) r = Some z).
Proof.
  intros I Hr. pose proof (inv_core _ _ _ I) as K. unfold contrtemp_run_f.
  destruct (t_enabled (y_ct y)) eqn:En; cbn [negb].
  2:{ apply fok_ret. exists (y_now y), (y_meas y), (y_set y), (t_dt (y_ct y)). split; [apply mok_id; exact K|]. rewrite mv_id, redt_id. unfold contrtemp_run. rewrite En. reflexivity. }
  destruct (t_emerg (y_ct y)) eqn:Em.
  { apply fok_ret. exists (y_now y), (y_meas y), (y_set y), (t_dt (y_ct y)). split; [apply mok_id; exact K|]. rewrite mv_id, redt_id. unfold contrtemp_run. rewrite En, Em. reflexivity. }
  apply (fok_point B C HC HB); [exact K|]. intros n m x O. destruct (dt_bound n (t_dt (y_ct y))) as (dt & Edt & _).
  eapply fok_step; [exact Edt|]. apply (fok_point B C HC HB); [eapply mok_core; exact O|]. intros n2 m2 x2 O2.
  pose proof (mok_trans _ _ _ _ _ _ _ _ _ O O2) as O3. set (t := t_dt (y_ct y) + n2 - n).
  pose proof (redt_inv B C _ t (mv_inv _ _ _ _ _ _ I O3)) as I3.
  destruct (contrtemp_run_ok B C _ r I3 HB Hr) as (z & Ez & _). assert (Ez' := Ez).
  unfold contrtemp_run in Ez. unfold redt, mv in Ez. cbv zeta in Ez. sy in Ez. rewrite En, Em in Ez. cbn [negb] in Ez. unfold t in Ez. rewrite dt_shift, Edt in Ez. cbn [bind] in Ez.
  unfold mv. sy. cbv zeta. sy.
  destruct (pid_run (t_pid (y_ct y)) dt r) as [[p out]|] eqn:Ep; [|discriminate Ez]. cbn [bind] in Ez. eapply fok_step; [reflexivity|].
  destruct (temp_to_amps out) as [a|] eqn:Ea; [|discriminate Ez]. cbn [bind] in Ez. eapply fok_step; [exact Ea|]. cbn iota beta.
  destruct (if CONTRTEMP_POSLIM <? r then _ else _) as [fl cur] eqn:Ef.
  destruct (contrcurr_set_emerg (y_cc y) fl) as [c|] eqn:Ec; [|discriminate Ez]. cbn [bind] in Ez. eapply fok_step; [reflexivity|]. apply fok_ret.
  exists n2, m2, x2, t. split; [exact O3|]. etransitivity; [exact Ez'|]. rewrite <- Ez. reflexivity.
Qed.
Lemma feed_temp_fine y r : inv y -> -1280 <= r <= 32000 ->
  fok (contrtemp_set_feedback_f C y r) (fun z => exists n m x t, mok y n m x /\ contrtemp_set_feedback (redt (mv y n m x) t) r = Some z).
Proof.
  intros I Hr. unfold contrtemp_set_feedback_f, contrtemp_set_feedback. cbv zeta. destruct (r =? t_feedback (y_ct y)) eqn:E; cbn [negb].
  - eapply fok_mono; [apply run_temp_fine; assumption|]. intros z (n & m & x & t & O & Ez). exists n, m, x, t. split; [exact O|].
    unfold redt, mv in *. sy. rewrite E. cbn [negb]. exact Ez.
  - eapply fok_mono; [apply run_temp_fine; [|exact Hr]|].
    + destruct I as [? ? ? (G1&G2&G3&G4&G5&G6&G7) L ? ? ? ? ? ? ? ? ?]. unfold menu_request_display_update. constructor; sy; try assumption.
      unfold ct_inv, bm in *. sy. repeat (split; [assumption|]). exact Hr.
    + intros z (n & m & x & t & O & Ez). exists n, m, x, t. split; [eapply mok_ext; [| |exact O]; reflexivity|].
      unfold redt, mv, menu_request_display_update in *. sy. sy in Ez. rewrite E. cbn [negb]. exact Ez.
Qed.
Lemma result_temp_fine y v p : inv y -> -1280 <= v <= 32000 ->
  fok (meastemp_result_handler_f C y v p) (fun z => exists n m x t, mok y n m x /\ meastemp_result_handler (redt (mv y n m x) t) v p = Some z).
Proof.
  intros I Hv. unfold meastemp_result_handler_f, meastemp_result_handler. destruct p.
  - cbv zeta. destruct (set_emerg_inv B C y false I) as (I1 & _ & E1 & _).
    eapply fok_mono; [apply feed_temp_fine; [|exact Hv]|].
    + destruct I1. constructor; sy; assumption.
    + intros z (n & m & x & t & O & Ez). exists n, m, x, t.
      assert (Es : y_set (contrtemp_set_emerg y false) = y_set y) by (unfold contrtemp_set_emerg; destruct (negb _); reflexivity).
      split; [eapply mok_ext; [| |exact O]; sy; congruence|]. rewrite <- Ez. f_equal.
      unfold contrtemp_set_emerg, do_set_emerg, redt, mv. sy. destruct (Bool.eqb false (t_emerg (y_ct y))); reflexivity.
  - eapply fok_mono; [apply feed_temp_fine; [exact I|apply I]|]. intros z (n & m & x & t & O & Ez). exists n, m, x, t. split; [exact O|exact Ez].
  - apply fok_ret. exists (y_now y), (y_meas y), (y_set y), (t_dt (y_ct y)). split; [apply mok_id; apply inv_core; exact I|]. rewrite mv_id, redt_id. reflexivity.
Qed.

Lemma run_curr_fine y r : core B C y -> cc_sys (y_cc y) -> 0 <= r <= 3200 -> cc_feedback (y_cc y) = r ->
  fok (contrcurr_run_f C y r) (fun z => exists n m x t c, mok y n m x /\ contrcurr_run n (cc_set_timer (y_cc y) t) r = Some c /\ z = set_y_cc (mv y n m x) c).
Proof.
  intros K Sc Hr Hf. unfold contrcurr_run_f. destruct (cc_enabled (y_cc y)) eqn:En; cbn [negb]; [|destruct Sc as (_ & X & _); congruence].
  destruct (cc_emerg (y_cc y) =? 0) eqn:Em; cbn [negb].
  2:{ apply fok_ret. exists (y_now y), (y_meas y), (y_set y), (cc_timer (y_cc y)), (y_cc y). split; [apply mok_id; exact K|].
      replace (cc_set_timer (y_cc y) (cc_timer (y_cc y))) with (y_cc y) by (destruct (y_cc y); reflexivity). rewrite mv_id. split; [|destruct y; reflexivity].
      unfold contrcurr_run. rewrite En, Em. reflexivity. }
  apply (fok_point B C HC HB); [exact K|]. intros n m x O. destruct (dt_bound n (cc_timer (y_cc y))) as (dt & Edt & _).
  eapply fok_step; [exact Edt|]. apply (fok_point B C HC HB); [eapply mok_core; exact O|]. intros n2 m2 x2 O2.
  pose proof (mok_trans _ _ _ _ _ _ _ _ _ O O2) as O3. set (t := cc_timer (y_cc y) + n2 - n).
  assert (Sc' : cc_sys (cc_set_timer (y_cc y) t)) by exact Sc.
  destruct (cc_set_feedback_sys n2 _ r Sc' Hr) as (z & Ez & _).
  unfold contrcurr_set_feedback in Ez. cbv zeta in Ez. change (cc_feedback (cc_set_timer (y_cc y) t)) with (cc_feedback (y_cc y)) in Ez. rewrite Hf, Z.eqb_refl in Ez. cbn [negb] in Ez.
  assert (Ez' := Ez). unfold contrcurr_run in Ez. change (cc_enabled (cc_set_timer (y_cc y) t)) with (cc_enabled (y_cc y)) in Ez. change (cc_emerg (cc_set_timer (y_cc y) t)) with (cc_emerg (y_cc y)) in Ez.
  rewrite En, Em in Ez. cbn [negb] in Ez. change (cc_timer (cc_set_timer (y_cc y) t)) with t in Ez. unfold t in Ez at 1. rewrite dt_shift, Edt in Ez. cbn [bind] in Ez.
  cbv zeta in *. change (cc_set_timer (cc_set_timer (y_cc y) t) (timer_set_now n2)) with (cc_set_timer (y_cc y) (timer_set_now n2)) in Ez.
  change (y_cc (mv (mv y n m x) n2 m2 x2)) with (y_cc y). change (y_now (mv (mv y n m x) n2 m2 x2)) with n2.
  destruct (cc_select_r (cc_set_timer (y_cc y) (timer_set_now n2)) r) as [[c1 r1]|]; [|discriminate Ez]. cbn [bind] in Ez. eapply fok_step; [reflexivity|].
  destruct (pid_run (cc_pid c1) dt r1) as [[p out]|] eqn:Ep; [|discriminate Ez]. cbn [bind] in Ez. eapply fok_step; [exact Ep|].
  eapply fok_step; [exact Ez|]. apply fok_ret. exists n2, m2, x2, t, z. split; [exact O3|]. split; [exact Ez'|reflexivity].
Qed.
Lemma set_emerg_timer c f t : contrcurr_set_emerg (cc_set_timer c t) f = match contrcurr_set_emerg c f with Some c => Some (cc_set_timer c t) | None => None end.
Proof.
  unfold contrcurr_set_emerg. change (cc_emerg (cc_set_timer c t)) with (cc_emerg c). destruct (negb (f =? cc_emerg c)); [|reflexivity]. cbv zeta.
  destruct (negb (f =? 0)); [|reflexivity]. unfold cc_pwm. destruct (pwmcurr_set CONTRCURR_NEGLIM); reflexivity.
Qed.
Lemma feed_curr_fine y r : core B C y -> cc_sys (y_cc y) -> 0 <= r <= 3200 ->
  fok (contrcurr_set_feedback_f C y r) (fun z => exists n m x t c, mok y n m x /\ contrcurr_set_feedback n (cc_set_timer (y_cc y) t) r = Some c /\ z = set_y_cc (mv y n m x) c).
Proof.
  intros K Sc Hr. unfold contrcurr_set_feedback_f, contrcurr_set_feedback. cbv zeta.
  set (c0 := if negb (r =? cc_feedback (y_cc y)) then _ else _).
  assert (Ef : cc_feedback c0 = r) by (unfold c0; destruct (r =? cc_feedback (y_cc y)) eqn:E; cbn [negb]; [lia|reflexivity]).
  assert (S0 : cc_sys c0) by (unfold c0; destruct (negb _); exact Sc).
  eapply fok_mono; [apply run_curr_fine; [destruct K; constructor; assumption|exact S0|exact Hr|exact Ef]|].
  intros z (n & m & x & t & c & O & E & ->). exists n, m, x, t, c. split; [eapply mok_ext; [| |exact O]; reflexivity|]. split; [|reflexivity].
  rewrite <- E. f_equal. change (cc_feedback (cc_set_timer (y_cc y) t)) with (cc_feedback (y_cc y)). sy. unfold c0. destruct (negb _); reflexivity.
Qed.
Lemma result_curr_fine y v p : inv y -> 0 <= v <= 3200 ->
  fok (meascurr_result_handler_f C y v p) (fun z => exists n m x t, mok y n m x /\ meascurr_result_handler (retimer (mv y n m x) t) v p = Some z).
Proof.
  intros I Hv. pose proof (inv_core _ _ _ I) as K. unfold meascurr_result_handler_f. cbv zeta. unfold contrcurr_get_emerg.
  pose proof (i_cc _ _ _ I) as Sc. pose proof Sc as (_ & _ & If & _). destruct (flag_ops _ If) as (_ & _ & (F3 & _) & (F4 & _)).
  destruct (i_mc _ _ _ I) as (U1 & _). set (fl := match p with MEAS_PLAUSIBLE => _ | MEAS_NOT_PLAUSIBLE => _ | MEAS_PLAUS_TIMEOUT => _ end).
  assert (Hf : 0 <= fl <= 3) by (unfold fl; destruct p; assumption).
  destruct (cc_set_emerg_sys (y_cc y) fl Sc Hf) as (c1 & E1 & S1 & _).
  eapply fok_step; [exact E1|].
  assert (M : forall t, (let c := cc_set_timer (y_cc y) t in let flags := contrcurr_get_emerg c in
    let flags := match p with MEAS_PLAUSIBLE => Z.land flags (u8 (Z.lnot EMERG_UNPLAUS_FEEDBACK)) | MEAS_PLAUS_TIMEOUT => Z.lor flags EMERG_UNPLAUS_FEEDBACK | MEAS_NOT_PLAUSIBLE => flags end in
    contrcurr_set_emerg c flags) = Some (cc_set_timer c1 t)).
  { intros t. cbv zeta. unfold contrcurr_get_emerg. change (cc_emerg (cc_set_timer (y_cc y) t)) with (cc_emerg (y_cc y)). fold fl. rewrite set_emerg_timer, E1. reflexivity. }
  assert (H : forall n m x t z, meascurr_result_handler (retimer (mv y n m x) t) v p = z <->
    ('(c, u) <- match p with
             | MEAS_PLAUSIBLE => c <- contrcurr_set_feedback n (cc_set_timer c1 t) v ;; Some (c, set_u_prev (y_mc y) v)
             | MEAS_NOT_PLAUSIBLE => c <- contrcurr_set_feedback n (cc_set_timer c1 t) (u_prev (y_mc y)) ;; Some (c, y_mc y)
             | MEAS_PLAUS_TIMEOUT => Some (cc_set_timer c1 t, y_mc y)
             end ;;
     Some (set_y_mc (set_y_cc (retimer (mv y n m x) t) c) (set_u_init u true))) = z).
  { intros n m x t z. unfold meascurr_result_handler. specialize (M t). cbv zeta in *. change (y_cc (retimer (mv y n m x) t)) with (cc_set_timer (y_cc y) t).
    rewrite M. cbn [bind]. reflexivity. }
  destruct p.
  - apply fok_bind. apply fok_bind. eapply fok_mono; [apply feed_curr_fine; [destruct K; constructor; assumption|exact S1|exact Hv]|].
    intros z (n & m & x & t & c & O & E & ->). apply fok_ret. apply fok_ret. exists n, m, x, t. split; [eapply mok_ext; [| |exact O]; reflexivity|].
    apply H. sy in E. rewrite E. reflexivity.
  - apply fok_bind. eapply fok_mono; [apply feed_curr_fine; [destruct K; constructor; assumption|exact S1|exact U1]|].
    intros z (n & m & x & t & c & O & E & ->). apply fok_ret. exists n, m, x, t. split; [eapply mok_ext; [| |exact O]; reflexivity|].
    apply H. sy in E. rewrite E. reflexivity.
  - apply fok_done. apply fok_ret. exists (y_now y), (y_meas y), (y_set y), (cc_timer c1). split; [apply mok_id; exact K|]. apply H. cbn [bind].
    rewrite mv_id. unfold retimer. sy. replace (cc_set_timer c1 (cc_timer c1)) with c1 by (destruct c1; reflexivity). reflexivity.
Qed.

(** ** The plausibility check *)
(** The time limit is started at [n1], the check is made at [n2]. *)
Definition checked2 (cfg : mconfig) (n1 n2 : Z) (ch ch' : chan) (v v' : Z) (p : plaus) : Prop :=
  v' = Z.max (mc_plaus_neg cfg) (Z.min (mc_plaus_pos cfg) v) /\ ch_adj ch' = ch_adj ch /\
  ch' = (if (mc_plaus_neg cfg <=? v) && (v <=? mc_plaus_pos cfg) then mkChan (ch_adj ch) false false (ch_timer ch)
           else let t := if ch_running ch then ch_timer ch else u16 (n1 + 3000) in
                mkChan (ch_adj ch) (ch_timeout ch || timer_expired n2 t) true t) /\
  p = if ch_timeout ch' then MEAS_PLAUS_TIMEOUT
      else if (mc_plaus_neg cfg <=? v) && (v <=? mc_plaus_pos cfg) then MEAS_PLAUSIBLE else MEAS_NOT_PLAUSIBLE.
Lemma plaus_fine cfg y ch v : core B C y -> mc_plaus_neg cfg <= mc_plaus_pos cfg -> mc_plaus_ms cfg = 3000 ->
  fok (plaus_check_f C cfg y ch v) (fun z => exists n m x n1 ch' v' p, z = (mv y n m x, (ch', v', p)) /\ mok y n m x /\ checked2 cfg n1 n ch ch' v v' p).
Proof.
  intros K Hb Hm. unfold plaus_check_f. rewrite Hm.
  assert (W : forall y1 ch1 w pl n1, core B C y1 -> (exists n0 m0 x0, y1 = mv y n0 m0 x0 /\ mok y n0 m0 x0) ->
    (forall n, let ch2 := if ch_running ch1 && timer_expired n (ch_timer ch1) then set_ch_timeout ch1 true else ch1 in
       checked2 cfg n1 n ch ch2 v w (if ch_timeout ch2 then MEAS_PLAUS_TIMEOUT else pl)) ->
    fok (fbind (pt C y1) (fun y2 => let ch2 := if ch_running ch1 && timer_expired (y_now y2) (ch_timer ch1) then set_ch_timeout ch1 true else ch1 in
      let plaus := if ch_timeout ch2 then MEAS_PLAUS_TIMEOUT else pl in ret (y2, (ch2, w, plaus))))
      (fun z => exists n m x n1 ch' v' p, z = (mv y n m x, (ch', v', p)) /\ mok y n m x /\ checked2 cfg n1 n ch ch' v v' p)).
  { intros y1 ch1 w pl n1 K1 (n0 & m0 & x0 & -> & O0) H. apply (fok_point B C HC HB); [exact K1|]. intros n m x O. cbv zeta. apply fok_ret.
    exists n, m, x, n1. eexists _, _, _. split; [reflexivity|]. split; [eapply mok_trans; eassumption|]. exact (H n). }
  assert (Idn : exists n0 m0 x0, y = mv y n0 m0 x0 /\ mok y n0 m0 x0).
  { eexists _, _, _. split; [rewrite mv_id; reflexivity|apply mok_id; exact K]. }
  destruct ch as [ad to ru ti].
  assert (Out : forall w, (mc_plaus_neg cfg <=? v) && (v <=? mc_plaus_pos cfg) = false -> w = Z.max (mc_plaus_neg cfg) (Z.min (mc_plaus_pos cfg) v) ->
    fok ('(y, ch) <~ (if negb (ch_running (mkChan ad to ru ti)) then
                        y <~ pt C y ;;
                        t <~ lift (timer_arm (y_now y) 3000) ;;
                        ret (y, set_ch_running (set_ch_timer (mkChan ad to ru ti) t) true)
                      else ret (y, mkChan ad to ru ti)) ;;
  y <~ pt C y ;;
  let ch := if ch_running ch && timer_expired (y_now y) (ch_timer ch) then set_ch_timeout ch true else ch in
  let plaus := if ch_timeout ch then MEAS_PLAUS_TIMEOUT else MEAS_NOT_PLAUSIBLE in
  ret (y, (ch, w, plaus)))
   (fun z => exists n m x n1 ch' v' p, z = (mv y n m x, (ch', v', p)) /\ mok y n m x /\ checked2 cfg n1 n (mkChan ad to ru ti) ch' v v' p)).
  { intros w Hin Hw. cbn [ch_running]. destruct ru; cbn [negb].
    - apply fok_done. cbn iota beta. apply W with (n1 := 0); [exact K|exact Idn|]. intros n ch2. unfold checked2. subst ch2. cbn [ch_running ch_timer andb]. rewrite Hin.
      split; [exact Hw|]. cbv zeta. cbn [ch_running ch_timer ch_timeout ch_adj].
      destruct (timer_expired n ti); cbn [set_ch_timeout ch_adj ch_timeout ch_running ch_timer]; rewrite ?orb_true_r, ?orb_false_r; repeat split.
    - apply fok_bind. apply (fok_point B C HC HB); [exact K|]. intros n1 m1 x1 O1. eapply fok_step; [apply arm_ok; lia|]. apply fok_ret. cbn iota beta.
      apply W with (n1 := n1); [eapply mok_core; exact O1|eauto 6|]. intros n ch2. unfold checked2. subst ch2. cbn [set_ch_running set_ch_timer ch_running ch_timer andb]. rewrite Hin.
      split; [exact Hw|]. cbv zeta. cbn [ch_running ch_timer ch_timeout ch_adj]. change (y_now (mv y n1 m1 x1)) with n1.
      destruct (timer_expired n (u16 (n1 + 3000))); cbn [set_ch_timeout ch_adj ch_timeout ch_running ch_timer]; rewrite ?orb_true_r, ?orb_false_r; repeat split. }
  assert (D : v < mc_plaus_neg cfg \/ mc_plaus_pos cfg < v \/ mc_plaus_neg cfg <= v <= mc_plaus_pos cfg) by lia. destruct D as [D|[D|D]].
  - replace (v <? mc_plaus_neg cfg) with true by lia. cbv iota beta zeta. apply Out; lia.
  - replace (v <? mc_plaus_neg cfg) with false by lia. replace (mc_plaus_pos cfg <? v) with true by lia. cbv iota beta zeta. apply Out; lia.
  - replace (v <? mc_plaus_neg cfg) with false by lia. replace (mc_plaus_pos cfg <? v) with false by lia. cbv iota beta zeta. apply fok_done. cbn iota beta.
    apply W with (n1 := 0); [exact K|exact Idn|]. intros n ch2. unfold checked2. subst ch2. cbn [set_ch_running set_ch_timeout ch_running ch_timer andb ch_timeout ch_adj].
    replace ((mc_plaus_neg cfg <=? v) && (v <=? mc_plaus_pos cfg)) with true by lia. split; [lia|]. repeat split.
Qed.
End Meas.
