(** * Invariant of the running firmware, part 2: measurements *)
From Coq Require Import ZArith List Bool Lia ZifyBool.
From Verif Require Import Base PBase MConf MUtil MFixpt MScale MRing MFilter MTimer MPid MPwm MTempMap MCurr MSens
  SpecNum SpecPid SpecSmall PNum PSmall PScale PPid SpecCurr PCurr MSettings SpecSettings PSettings PSysSet
  MSseg MDisplay MText MState MTemp MMeas MMenu MMain SpecDisplay SpecSys PSys.
Import ListNotations.
Open Scope Z_scope.
Ltac Zify.zify_post_hook ::= Z.div_mod_to_equations.

(** ** Current controller flags *)
Definition hot (y : sys) : bool := Z.testbit (cc_emerg (y_cc y)) 1.

Lemma cc_set_emerg_sys c f : cc_sys c -> 0 <= f <= 3 ->
  exists c', contrcurr_set_emerg c f = Some c' /\ cc_sys c' /\ cc_emerg c' = f /\ cc_pid c' = cc_pid c /\
    cc_restricted c' = cc_restricted c /\ cc_feedback c' = cc_feedback c.
Proof.
  intros (I & En & F & O) Hf. destruct (set_emerg_ok c f I) as (c' & E & I' & Ef & Een & Er & Efb & Ep & Eo).
  exists c'. split; [exact E|]. split; [|split; [exact Ef|split; [exact Ep|split; [exact Er|exact Efb]]]]. split; [exact I'|]. split; [congruence|].
  split; [lia|]. intros N. rewrite Eo. rewrite Ef in N. destruct (f =? cc_emerg c) eqn:F1; cbn [orb].
  - apply O. lia.
  - destruct (f =? 0) eqn:F2; [lia|reflexivity].
Qed.

Lemma cc_set_setpoint_sys c w : cc_sys c -> 0 <= w <= 3200 -> cc_sys (contrcurr_set_setpoint c w).
Proof. intros (I & En & F & O) Hw. split; [apply set_setpoint_ok; assumption|]. split; [exact En|]. split; [exact F|exact O]. Qed.
Lemma cc_set_restricted_sys c b : cc_sys c -> cc_sys (contrcurr_set_restricted c b).
Proof. intros (I & En & F & O). split; [exact I|]. split; [exact En|]. split; [exact F|exact O]. Qed.
Lemma cc_set_feedback_sys now c r : cc_sys c -> 0 <= r <= 3200 ->
  exists c', contrcurr_set_feedback now c r = Some c' /\ cc_sys c' /\ cc_emerg c' = cc_emerg c /\
    p_setpoint (cc_pid c') = p_setpoint (cc_pid c) /\ cc_restricted c' = cc_restricted c /\ cc_feedback c' = r.
Proof.
  intros (I & En & F & O) Hr. destruct (set_feedback_ok now c r I Hr) as (c' & E & I' & Een & Er & Eem & Ef & Es & Eq & _).
  exists c'. split; [exact E|]. split; [|split; [exact Eem|split; [exact Es|split; [exact Er|exact Ef]]]]. split; [exact I'|]. split; [congruence|]. split; [lia|].
  rewrite Eem. intros N. rewrite (Eq (or_intror N)). exact (O N).
Qed.

(** Setting and clearing the two flags. *)
Lemma flag_ops f : 0 <= f <= 3 ->
  (0 <= Z.lor f 2 <= 3 /\ Z.testbit (Z.lor f 2) 1 = true) /\
  (0 <= Z.land f (u8 (Z.lnot 2)) <= 3 /\ Z.testbit (Z.land f (u8 (Z.lnot 2))) 1 = false) /\
  (0 <= Z.lor f 1 <= 3 /\ Z.testbit (Z.lor f 1) 1 = Z.testbit f 1) /\
  (0 <= Z.land f (u8 (Z.lnot 1)) <= 3 /\ Z.testbit (Z.land f (u8 (Z.lnot 1))) 1 = Z.testbit f 1).
Proof.
  intros H. assert (f = 0 \/ f = 1 \/ f = 2 \/ f = 3) as D by lia.
  repeat destruct D as [->|D]; try subst f; cbv; repeat split; intros; discriminate.
Qed.

Lemma flag_bit0 f : 0 <= f <= 3 -> Z.testbit (Z.lor f 2) 0 = Z.testbit f 0 /\ Z.testbit (Z.land f (u8 (Z.lnot 2))) 0 = Z.testbit f 0.
Proof.
  intros H. assert (f = 0 \/ f = 1 \/ f = 2 \/ f = 3) as D by lia. repeat destruct D as [->|D]; try subst f; cbv; split; reflexivity.
Qed.

(** ** Temperature controller run *)
Lemma tpid_region B C y : inv B C y -> bok B -> pid_region (t_pid (y_ct y)) /\ 0 <= p_setpoint (t_pid (y_ct y)) <= 30975.
Proof.
  intros I (_ & BR). pose proof (bm_valid B C y I) as Hm. destruct (i_ct _ _ _ I) as (G1&G2&(L1&L2&L3&L4)&G4&G5&(a & Ea & Es)&G7).
  destruct (i_set _ _ _ I) as (_ & R & _). pose proof (rng_le _ _ C _ BR R) as R'.
  destruct (rng_gain_get relaxed C _ _ R' Hm) as (k & E & G). rewrite E in G1. apply Some_inj in G1. subst k.
  destruct (rng_preset_get relaxed C _ R') as (a' & E' & Ha). rewrite E' in Ea. apply Some_inj in Ea. subst a'.
  destruct R' as (_ & Hid & _). cbn in Ha, Hid, G. split.
  - unfold pid_region, pid_lims_ok. rewrite L1, L2, L3, L4. destruct G as (K1 & K2 & K3 & K4). cbn in K1, K2, K3.
    repeat (split; [lia|]). lia.
  - rewrite Es. destruct ((c_idle C && t_idle (y_ct y)) && (s_idle (x_cache (y_set y)) <? a)); lia.
Qed.

Definition ct_frame (t t' : ct) : Prop :=
  t_enabled t' = t_enabled t /\ t_idle t' = t_idle t /\ t_boost t' = t_boost t /\ t_bitimer t' = t_bitimer t /\
  t_bilet t' = t_bilet t /\ p_k (t_pid t') = p_k (t_pid t) /\ p_setpoint (t_pid t') = p_setpoint (t_pid t).
Lemma ct_frame_refl t : ct_frame t t.
Proof. unfold ct_frame. repeat split. Qed.
Lemma ct_frame_trans a b c : ct_frame a b -> ct_frame b c -> ct_frame a c.
Proof. unfold ct_frame. intros (?&?&?&?&?&?&?) (?&?&?&?&?&?&?). repeat split; congruence. Qed.

(** The calls of the current controller that do not run it. *)
Definition quiet_op (o : cc_op) : Prop :=
  match o with OSetpoint _ | ORestricted _ | OEmerg _ => True | _ => False end.
Definition cc_quiet (now : Z) (c c' : cc) : Prop :=
  exists ops, Forall quiet_op ops /\ Forall op_ok ops /\ cc_exec now c ops = Some (now, c') /\ Z.testbit (cc_emerg c') 0 = Z.testbit (cc_emerg c) 0.
Lemma cc_exec_app a : forall now c b, cc_exec now c (a ++ b) = ('(n, c') <- cc_exec now c a ;; cc_exec n c' b).
Proof.
  induction a as [|o a IH]; intros; cbn [cc_exec app bind]; [reflexivity|].
  destruct (cc_step now c o) as [[n c']|]; cbn [bind]; [apply IH|reflexivity].
Qed.
Lemma cc_quiet_refl now c : cc_quiet now c c.
Proof. exists []. repeat constructor. Qed.
Lemma cc_quiet_trans now a b c : cc_quiet now a b -> cc_quiet now b c -> cc_quiet now a c.
Proof.
  intros (o1 & A1 & A2 & A3 & A4) (o2 & B1 & B2 & B3 & B4). exists (o1 ++ o2). split; [apply Forall_app; auto|]. split; [apply Forall_app; auto|].
  split; [|congruence]. rewrite cc_exec_app, A3. exact B3.
Qed.
Lemma cc_quiet_setpoint now c w : 0 <= w <= 3200 -> cc_quiet now c (contrcurr_set_setpoint c w).
Proof. intros H. exists [OSetpoint w]. repeat constructor; apply H. Qed.
Lemma cc_quiet_restricted now c b : cc_quiet now c (contrcurr_set_restricted c b).
Proof. exists [ORestricted b]. repeat constructor. Qed.
Lemma cc_quiet_emerg now c f c' : 0 <= f <= 3 -> Z.testbit f 0 = Z.testbit (cc_emerg c) 0 -> cc_emerg c' = f -> contrcurr_set_emerg c f = Some c' -> cc_quiet now c c'.
Proof.
  intros H H0 H1 E. exists [OEmerg f]. split; [repeat constructor|]. split; [constructor; [|constructor]; unfold op_ok, is_u8; lia|].
  split; [|congruence]. cbn [cc_exec cc_step]. rewrite E. reflexivity.
Qed.
Definition ran (y : sys) : bool := t_enabled (y_ct y) && negb (t_emerg (y_ct y)).

(** What a measurement may change. *)
Definition meas_frame (y y' : sys) : Prop :=
  y_now y' = y_now y /\ y_btn y' = y_btn y /\ y_set y' = y_set y /\ y_disp y' = y_disp y /\ y_hw y' = y_hw y /\
  y_dbg y' = y_dbg y /\ (exists b, y_menu y' = set_n_upd (y_menu y) b) /\ ct_frame (y_ct y) (y_ct y').
Lemma upd_id n : set_n_upd n (n_upd n) = n.
Proof. destruct n; reflexivity. Qed.
Lemma meas_frame_refl y : meas_frame y y.
Proof. unfold meas_frame. repeat (split; [reflexivity|]). split; [exists (n_upd (y_menu y)); symmetry; apply upd_id|apply ct_frame_refl]. Qed.
Lemma meas_frame_trans a b c : meas_frame a b -> meas_frame b c -> meas_frame a c.
Proof.
  intros (A1&A2&A3&A4&A5&A6&(x&A7)&A8) (B1&B2&B3&B4&B5&B6&(z&B7)&B8). unfold meas_frame.
  repeat (split; [congruence|]). split; [exists z; rewrite B7, A7; reflexivity|eapply ct_frame_trans; eassumption].
Qed.

(** One run of the temperature controller for the temperature [r]. *)
Definition ctl_run (y : sys) (r : Z) (y' : sys) : Prop :=
  exists dt out a, dt_seconds (y_now y) (t_dt (y_ct y)) = Some dt /\ pid_run (t_pid (y_ct y)) dt r = Some (t_pid (y_ct y'), out) /\
    temp_to_amps out = Some a /\ p_setpoint (cc_pid (y_cc y')) = (if 30720 <? r then 0 else a) /\ 0 <= out <= 30720.
Lemma contrtemp_run_ok B C y r : inv B C y -> bok B -> -1280 <= r <= 32000 ->
  exists y', contrtemp_run y r = Some y' /\ inv B C y' /\ meas_frame y y' /\
    y_meas y' = y_meas y /\ y_mc y' = y_mc y /\ y_mt y' = y_mt y /\ y_menu y' = y_menu y /\
    t_emerg (y_ct y') = t_emerg (y_ct y) /\ t_feedback (y_ct y') = t_feedback (y_ct y) /\
    cc_restricted (y_cc y') = cc_restricted (y_cc y) /\
    (t_enabled (y_ct y) = false \/ t_emerg (y_ct y) = true -> y' = y) /\
    (t_enabled (y_ct y) = true -> t_emerg (y_ct y) = false -> hot y' = (30720 <? r) /\
       (30720 < r -> p_setpoint (cc_pid (y_cc y')) = 0)) /\
    cc_quiet (y_now y) (y_cc y) (y_cc y') /\ t_dt (y_ct y') = (if ran y then y_now y else t_dt (y_ct y)) /\
    (t_enabled (y_ct y) = true -> t_emerg (y_ct y) = false -> ctl_run y r y').
Proof.
  intros I HB Hr. unfold contrtemp_run. destruct (t_enabled (y_ct y)) eqn:En; cbn [negb].
  2:{ exists y. split; [reflexivity|]. split; [exact I|]. split; [apply meas_frame_refl|].
      do 8 (split; [reflexivity|]). split; [discriminate|]. split; [apply cc_quiet_refl|split; [unfold ran; rewrite En; reflexivity|discriminate]]. }
  destruct (t_emerg (y_ct y)) eqn:Em.
  { exists y. split; [reflexivity|]. split; [exact I|]. split; [apply meas_frame_refl|].
    split; [reflexivity|]. split; [reflexivity|]. split; [reflexivity|]. split; [reflexivity|].
    split; [exact Em|]. split; [reflexivity|]. split; [reflexivity|]. split; [reflexivity|]. split; [discriminate|].
    split; [apply cc_quiet_refl|split; [unfold ran; rewrite En, Em; reflexivity|discriminate]]. }
  destruct (dt_bound (y_now y) (t_dt (y_ct y))) as (dt & Edt & Bdt). rewrite Edt. cbn [bind].
  destruct (tpid_region B C y I HB) as (Rg & Rs).
  change (t_pid (set_t_dt (y_ct y) (timer_set_now (y_now y)))) with (t_pid (y_ct y)).
  destruct (pid_run_ok _ dt r Rg Bdt ltac:(lia) ltac:(unfold is_s24; lia) ltac:(unfold is_s24; lia))
    as (p' & out & Ep & Rg' & Bo & Bi & Kp & Ks & L1 & L2 & L3 & L4).
  rewrite Ep. cbn [bind]. destruct (i_ct _ _ _ I) as (G1&G2&(J1&J2&J3&J4)&G4&G5&(a & Ea & Es)&G7).
  rewrite J3, J4 in Bo. destruct (temp_to_amps_spec out Bo) as (am & Eam & Bam & _). rewrite Eam. cbn [bind].
  destruct (i_cc _ _ _ I) as (Ic & Ien & If & Io). destruct (flag_ops _ If) as ((F1 & F1') & (F2 & F2') & _).
  unfold contrcurr_get_emerg. change CONTRTEMP_POSLIM with 30720. change EMERG_HIGH_TEMP with 2. change CONTRCURR_NEGLIM with 0.
  assert (exists fl cur, (if 30720 <? r then (Z.lor (cc_emerg (y_cc y)) 2, 0) else (Z.land (cc_emerg (y_cc y)) (u8 (Z.lnot 2)), am)) = (fl, cur)
    /\ 0 <= fl <= 3 /\ 0 <= cur <= 3200 /\ Z.testbit fl 1 = (30720 <? r) /\ Z.testbit fl 0 = Z.testbit (cc_emerg (y_cc y)) 0 /\ (30720 < r -> cur = 0) /\ cur = if 30720 <? r then 0 else am) as (fl & cur & Efl & Bfl & Bcur & Tfl & Tf0 & Zc & Vc).
  { destruct (30720 <? r) eqn:F; eexists _, _; (split; [reflexivity|]); repeat split; try lia; try assumption; apply (flag_bit0 _ If). }
  rewrite Efl. destruct (cc_set_emerg_sys (y_cc y) fl (conj Ic (conj Ien (conj If Io))) Bfl) as (c' & Ec & Sc & Fc & Pc & Rc & Fb).
  rewrite Ec. cbn [bind]. eexists. split; [reflexivity|]. destruct Rg' as (_ & _ & _ & _ & _ & Q & _).
  rewrite J1, J2 in Bi. split; [|split; [|do 8 (split; [solve [reflexivity|sy; assumption|intros [X|X]; congruence]|])]].
  - destruct I. constructor; sy; try assumption.
    + apply cc_set_setpoint_sys; assumption.
    + unfold ct_inv, bm in *. sy. rewrite Kp, Ks, L1, L2, L3, L4. repeat (split; [assumption || lia|]). split; [|exact G7].
      exists a. split; assumption.
    + unfold link. sy. intros [X|X]; congruence.
  - unfold meas_frame, ct_frame. sy. repeat (split; [reflexivity|]). split; [exists (n_upd (y_menu y)); symmetry; apply upd_id|].
    repeat (split; [reflexivity|]). split; assumption.
  - split; [intros _ _; unfold hot; sy; rewrite Fc; split; [exact Tfl|intros X; apply Zc; exact X]|].
    split; [sy; eapply cc_quiet_trans; [eapply cc_quiet_emerg; [exact Bfl|exact Tf0|exact Fc|exact Ec]|apply cc_quiet_setpoint; assumption]|].
    split; [sy; unfold ran; rewrite En, Em; reflexivity|].
    intros _ _. exists dt, out, am. split; [exact Edt|]. split; [exact Ep|]. split; [exact Eam|]. sy. split; [exact Vc|exact Bo].
Qed.

Lemma contrtemp_set_feedback_ok B C y r : inv B C y -> bok B -> -1280 <= r <= 32000 ->
  exists y', contrtemp_set_feedback y r = Some y' /\ inv B C y' /\ meas_frame y y' /\
    y_meas y' = y_meas y /\ y_mc y' = y_mc y /\ y_mt y' = y_mt y /\
    t_emerg (y_ct y') = t_emerg (y_ct y) /\ t_feedback (y_ct y') = r /\
    cc_restricted (y_cc y') = cc_restricted (y_cc y) /\
    (t_enabled (y_ct y) = false \/ t_emerg (y_ct y) = true -> y_cc y' = y_cc y) /\
    (t_enabled (y_ct y) = true -> t_emerg (y_ct y) = false -> hot y' = (30720 <? r) /\
       (30720 < r -> p_setpoint (cc_pid (y_cc y')) = 0)) /\
    (r <> t_feedback (y_ct y) -> n_upd (y_menu y') = true) /\ (n_upd (y_menu y) = true -> n_upd (y_menu y') = true) /\
    cc_quiet (y_now y) (y_cc y) (y_cc y') /\ t_dt (y_ct y') = (if ran y then y_now y else t_dt (y_ct y)) /\
    (t_enabled (y_ct y) = true -> t_emerg (y_ct y) = false -> ctl_run y r y').
Proof.
  intros I HB Hr. unfold contrtemp_set_feedback.
  destruct (r =? t_feedback (y_ct y)) eqn:E; cbn [negb].
  - destruct (contrtemp_run_ok B C y r I HB Hr) as (y' & X & I' & F & A1 & A2 & A3 & A3' & A4 & A5 & A5' & A6 & A7 & A8 & A9 & A9').
    exists y'. repeat (split; [assumption|]). split; [lia|]. split; [exact A5'|]. split; [intros D; rewrite (A6 D); reflexivity|]. split; [exact A7|].
    rewrite A3'. split; [lia|]. split; [auto|]. split; [exact A8|]. split; assumption.
  - assert (I1 : inv B C (menu_request_display_update (set_y_ct y (set_t_feedback (y_ct y) r)))).
    { destruct I as [? ? ? (G1&G2&G3&G4&G5&G6&G7) L ? ? ? ? ? ? ? ? ?]. unfold menu_request_display_update. constructor; sy; try assumption.
      unfold ct_inv, bm in *. sy. repeat (split; [assumption|]). exact Hr. }
    destruct (contrtemp_run_ok B C _ r I1 HB Hr) as (y' & X & I' & F & A1 & A2 & A3 & A3' & A4 & A5 & A5' & A6 & A7 & A8 & A9 & A9').
    exists y'. split; [exact X|]. split; [exact I'|]. split.
    { eapply meas_frame_trans; [|exact F]. unfold meas_frame, menu_request_display_update, ct_frame. sy.
      repeat (split; [reflexivity|]). split; [eexists; reflexivity|]. repeat split. }
    unfold menu_request_display_update in *. sy in A1. sy in A2. sy in A3. sy in A4. sy in A5. sy in A6. sy in A7. sy in A5'. sy in A3'. sy in A8. sy in A9. unfold ran in A9. sy in A9. unfold ctl_run in A9'. sy in A9'.
    repeat (split; [assumption|]). split; [|split; [exact A7|rewrite A3'; sy; split; [reflexivity|split; [reflexivity|split; [exact A8|split; [exact A9|exact A9']]]]]]. intros D. rewrite (A6 D). reflexivity.
Qed.

(** ** Result handlers *)
Lemma set_emerg_inv B C y b : inv B C y -> inv B C (contrtemp_set_emerg y b) /\ meas_frame y (contrtemp_set_emerg y b) /\
  y_meas (contrtemp_set_emerg y b) = y_meas y /\ y_mc (contrtemp_set_emerg y b) = y_mc y /\ y_mt (contrtemp_set_emerg y b) = y_mt y /\
  y_menu (contrtemp_set_emerg y b) = y_menu y /\
  t_emerg (y_ct (contrtemp_set_emerg y b)) = b /\ t_feedback (y_ct (contrtemp_set_emerg y b)) = t_feedback (y_ct y) /\
  cc_emerg (y_cc (contrtemp_set_emerg y b)) = cc_emerg (y_cc y) /\ cc_restricted (y_cc (contrtemp_set_emerg y b)) = cc_restricted (y_cc y) /\
  t_dt (y_ct (contrtemp_set_emerg y b)) = t_dt (y_ct y) /\ t_pid (y_ct (contrtemp_set_emerg y b)) = t_pid (y_ct y) /\ cc_quiet (y_now y) (y_cc y) (y_cc (contrtemp_set_emerg y b)).
Proof.
  intros I. unfold contrtemp_set_emerg. destruct (Bool.eqb b (t_emerg (y_ct y))) eqn:E; cbn [negb].
  - apply eqb_prop in E. split; [exact I|]. split; [apply meas_frame_refl|]. repeat (split; [reflexivity|]). split; [auto|]. repeat (split; [reflexivity|]). apply cc_quiet_refl.
  - unfold do_set_emerg. destruct I as [? ? Cc G L ? ? ? ? ? ? ? ? ?].
    split; [|split; [|destruct b; repeat (split; [reflexivity|]); (apply cc_quiet_refl || (apply cc_quiet_setpoint; change CONTRCURR_NEGLIM with 0; lia))]].
    + change CONTRCURR_NEGLIM with 0. destruct b; constructor; sy; try assumption.
      * apply cc_set_setpoint_sys; [assumption|lia].
      * unfold link. sy. reflexivity.
      * unfold link in *. sy. intros [X|X]; [auto|discriminate].
    + unfold meas_frame, ct_frame. destruct b; sy; repeat (split; [reflexivity|]); (split; [exists (n_upd (y_menu y)); symmetry; apply upd_id|]); repeat split.
Qed.

Lemma meastemp_result_ok B C y v p : inv B C y -> bok B -> -1280 <= v <= 32000 ->
  exists y', meastemp_result_handler y v p = Some y' /\ inv B C y' /\ meas_frame y y' /\
    y_meas y' = y_meas y /\ y_mc y' = y_mc y /\
    (t_enabled (y_ct y) = true -> t_emerg (y_ct y') = false -> hot y' = (30720 <? t_feedback (y_ct y')) /\
       (30720 < t_feedback (y_ct y') -> p_setpoint (cc_pid (y_cc y')) = 0)) /\
    (t_enabled (y_ct y) = false \/ t_emerg (y_ct y') = true -> hot y' = hot y) /\
    y_mt y' = match p with MEAS_PLAUSIBLE => v | _ => y_mt y end /\
    t_emerg (y_ct y') = match p with MEAS_PLAUSIBLE => false | MEAS_PLAUS_TIMEOUT => true | MEAS_NOT_PLAUSIBLE => t_emerg (y_ct y) end /\
    t_feedback (y_ct y') = match p with MEAS_PLAUSIBLE => v | MEAS_PLAUS_TIMEOUT => t_feedback (y_ct y) | MEAS_NOT_PLAUSIBLE => y_mt y end /\
    (t_feedback (y_ct y') <> t_feedback (y_ct y) -> n_upd (y_menu y') = true) /\ (n_upd (y_menu y) = true -> n_upd (y_menu y') = true) /\
    cc_quiet (y_now y) (y_cc y) (y_cc y') /\
    cc_restricted (y_cc y') = match p with MEAS_PLAUSIBLE => v <? 6400 | _ => cc_restricted (y_cc y) end /\
    t_dt (y_ct y') = (if t_enabled (y_ct y) && negb (t_emerg (y_ct y')) then y_now y else t_dt (y_ct y)) /\
    (t_enabled (y_ct y) = true -> t_emerg (y_ct y') = false -> ctl_run y (t_feedback (y_ct y')) y').
Proof.
  intros I HB Hv. unfold meastemp_result_handler. destruct p.
  - destruct (set_emerg_inv B C y false I) as (I1 & F1 & B1 & B2 & B3 & B3' & B4 & B5 & B6 & B7 & B8 & B8' & B9).
    set (y1 := contrtemp_set_emerg y false) in *. clearbody y1. cbv zeta.
    set (y2 := set_y_cc _ _).
    assert (I2 : inv B C y2).
    { unfold y2. destruct I1. constructor; sy; try assumption. }
    assert (F2 : meas_frame y1 y2).
    { unfold meas_frame, ct_frame, y2. sy. repeat (split; [reflexivity|]). split; [exists (n_upd (y_menu y1)); symmetry; apply upd_id|]. repeat split. }
    destruct (contrtemp_set_feedback_ok B C y2 v I2 HB Hv) as (y' & X & I' & F & A1 & A2 & A3 & A4 & A5 & A5' & A6 & A7 & A8 & A9 & A10 & A11 & A12).
    exists y'. split; [exact X|]. split; [exact I'|]. split; [eapply meas_frame_trans; [exact F1|exact (meas_frame_trans _ _ _ F2 F)]|].
    unfold y2 in A1, A2, A3, A4, A6, A7, A8, A9. sy in A1. sy in A2. sy in A3. sy in A4. sy in A6. sy in A7. sy in A8. sy in A9. unfold y2 in A5', A10, A11. sy in A5'. sy in A10. unfold ran in A11. sy in A11.
    destruct F1 as (Fn&_&_&_&_&_&_&(Fe&_)).
    repeat (split; [congruence|]). split; [intros E1 _; rewrite A5; apply A7; congruence|].
    split. { intros [D|D]; [|congruence]. unfold hot. rewrite A6 by (left; congruence). sy. rewrite B6. reflexivity. }
    split; [congruence|]. split; [congruence|]. split; [exact A5|]. rewrite B5 in A8. rewrite A5, <- B3'. split; [assumption|]. split; [assumption|].
    split; [rewrite Fn in A10; eapply cc_quiet_trans; [exact B9|eapply cc_quiet_trans; [|exact A10]; exact (cc_quiet_restricted (y_now y) (y_cc y1) (v <? 6400))]|].
    split; [exact A5'|]. split; [rewrite A11, A4, B4, Fe, B8, Fn; reflexivity|]. intros G1 _.
    destruct A12 as (dt & out & a & K1 & K2 & K3); [unfold y2; sy; congruence|unfold y2; sy; exact B4|].
    unfold y2 in K1, K2. sy in K1. sy in K2. rewrite Fn, B8 in K1. rewrite B8' in K2. exists dt, out, a. split; [exact K1|split; [exact K2|exact K3]].
  - destruct (contrtemp_set_feedback_ok B C y (y_mt y) I HB (i_mt _ _ _ I)) as (y' & X & I' & F & A1 & A2 & A3 & A4 & A5 & A5' & A6 & A7 & A8 & A9 & A10 & A11 & A12).
    exists y'. split; [exact X|]. split; [exact I'|]. split; [exact F|]. split; [exact A1|]. split; [exact A2|].
    split; [intros E1 E2; rewrite A5; apply A7; congruence|].
    split. { intros D. unfold hot. rewrite A6; [reflexivity|]. destruct D; [left|right]; congruence. }
    split; [exact A3|]. split; [exact A4|]. split; [exact A5|]. rewrite A5. split; [exact A8|]. split; [exact A9|]. split; [exact A10|]. split; [exact A5'|]. split; [rewrite A11, A4; reflexivity|]. rewrite A4. exact A12.
  - destruct (set_emerg_inv B C y true I) as (I1 & F1 & B1 & B2 & B3 & B3' & B4 & B5 & B6 & B7 & B8 & B8' & B9).
    eexists. split; [reflexivity|]. split; [exact I1|]. split; [exact F1|]. split; [exact B1|]. split; [exact B2|].
    split; [congruence|]. split; [intros _; unfold hot; rewrite B6; reflexivity|]. split; [exact B3|]. split; [exact B4|]. split; [exact B5|].
    rewrite B3'. split; [congruence|]. split; [auto|]. split; [exact B9|]. split; [exact B7|]. split; [rewrite B4, andb_false_r; exact B8|]. congruence.
Qed.

Lemma meascurr_result_ok B C y v p : inv B C y -> 0 <= v <= 3200 ->
  exists y', meascurr_result_handler y v p = Some y' /\ inv B C y' /\
    y' = set_y_mc (set_y_cc y (y_cc y')) (y_mc y') /\ hot y' = hot y /\ (u_filter (y_mc y') = u_filter (y_mc y) /\ u_init (y_mc y') = true) /\
    p_setpoint (cc_pid (y_cc y')) = p_setpoint (cc_pid (y_cc y)) /\
    cc_emerg (y_cc y') = match p with
                         | MEAS_PLAUSIBLE => Z.land (cc_emerg (y_cc y)) (u8 (Z.lnot EMERG_UNPLAUS_FEEDBACK))
                         | MEAS_PLAUS_TIMEOUT => Z.lor (cc_emerg (y_cc y)) EMERG_UNPLAUS_FEEDBACK
                         | MEAS_NOT_PLAUSIBLE => cc_emerg (y_cc y) end /\
    exists c, contrcurr_set_emerg (y_cc y) (cc_emerg (y_cc y')) = Some c /\
      match p with
      | MEAS_PLAUSIBLE => contrcurr_set_feedback (y_now y) c v = Some (y_cc y') /\ u_prev (y_mc y') = v
      | MEAS_NOT_PLAUSIBLE => contrcurr_set_feedback (y_now y) c (u_prev (y_mc y)) = Some (y_cc y') /\ u_prev (y_mc y') = u_prev (y_mc y)
      | MEAS_PLAUS_TIMEOUT => y_cc y' = c /\ u_prev (y_mc y') = u_prev (y_mc y)
      end.
Proof.
  intros I Hv. unfold meascurr_result_handler. cbv zeta. unfold contrcurr_get_emerg.
  pose proof (i_cc _ _ _ I) as Sc. pose proof Sc as (_ & _ & If & _). destruct (flag_ops _ If) as (_ & _ & (F3 & F3') & (F4 & F4')).
  change EMERG_UNPLAUS_FEEDBACK with 1. destruct (i_mc _ _ _ I) as (U1 & U2).
  set (fl := match p with MEAS_PLAUSIBLE => _ | MEAS_NOT_PLAUSIBLE => _ | MEAS_PLAUS_TIMEOUT => _ end).
  assert (Hfl : 0 <= fl <= 3 /\ Z.testbit fl 1 = Z.testbit (cc_emerg (y_cc y)) 1).
  { unfold fl. destruct p; split; try assumption; reflexivity. }
  destruct Hfl as (Hf1 & Hf2). change (match p with MEAS_PLAUSIBLE => _ | MEAS_NOT_PLAUSIBLE => _ | MEAS_PLAUS_TIMEOUT => Z.lor _ _ end) with fl. clearbody fl.
  destruct (cc_set_emerg_sys (y_cc y) fl Sc Hf1) as (c1 & E1 & S1 & Ef1 & Ep1 & _ & _). rewrite E1. cbn [bind].
  assert (K : exists c2 u2, match p with
             | MEAS_PLAUSIBLE => c <- contrcurr_set_feedback (y_now y) c1 v;; Some (c, set_u_prev (y_mc y) v)
             | MEAS_NOT_PLAUSIBLE => c <- contrcurr_set_feedback (y_now y) c1 (u_prev (y_mc y));; Some (c, y_mc y)
             | MEAS_PLAUS_TIMEOUT => Some (c1, y_mc y) end = Some (c2, u2) /\ cc_sys c2 /\ cc_emerg c2 = cc_emerg c1 /\
             p_setpoint (cc_pid c2) = p_setpoint (cc_pid c1) /\ mc_inv u2 /\ u_filter u2 = u_filter (y_mc y) /\
             match p with
             | MEAS_PLAUSIBLE => contrcurr_set_feedback (y_now y) c1 v = Some c2 /\ u_prev u2 = v
             | MEAS_NOT_PLAUSIBLE => contrcurr_set_feedback (y_now y) c1 (u_prev (y_mc y)) = Some c2 /\ u_prev u2 = u_prev (y_mc y)
             | MEAS_PLAUS_TIMEOUT => c2 = c1 /\ u_prev u2 = u_prev (y_mc y)
             end).
  { destruct p.
    - destruct (cc_set_feedback_sys (y_now y) c1 v S1 Hv) as (c2 & E2 & S2 & Em2 & Es2 & _). rewrite E2. cbn [bind].
      eexists _, _. split; [reflexivity|]. split; [exact S2|]. split; [exact Em2|]. split; [exact Es2|]. unfold mc_inv. sy. split; [split; assumption|]. split; [reflexivity|]. split; reflexivity.
    - destruct (cc_set_feedback_sys (y_now y) c1 (u_prev (y_mc y)) S1 U1) as (c2 & E2 & S2 & Em2 & Es2 & _). rewrite E2. cbn [bind].
      eexists _, _. split; [reflexivity|]. split; [exact S2|]. split; [exact Em2|]. split; [exact Es2|]. split; [split; assumption|]. split; [reflexivity|]. split; reflexivity.
    - eexists _, _. split; [reflexivity|]. split; [exact S1|]. split; [reflexivity|]. split; [reflexivity|]. split; [split; assumption|]. repeat split. }
  destruct K as (c2 & u2 & E2 & S2 & Em2 & Es2 & M2 & Fu & Q). rewrite E2. cbn [bind]. eexists. split; [reflexivity|]. split; [|split; [reflexivity|]].
  - destruct I. constructor; sy; try assumption. unfold link in *. rewrite Es2, Ep1. assumption.
  - unfold hot. sy. rewrite Em2, Ef1. split; [exact Hf2|]. split; [split; [exact Fu|reflexivity]|]. split; [rewrite Es2, Ep1; reflexivity|].
    split; [reflexivity|]. exists c1. split; [exact E1|exact Q].
Qed.

(** ** The plausibility check *)
Lemma arm_ok now d : 0 <= d <= 32767 -> timer_arm now d = Some (u16 (now + d)).
Proof.
  intros H. unfold timer_arm. rewrite ms_to_count_eq by lia. cbn [bind]. rewrite (u16_id d) by lia. reflexivity.
Qed.
Lemma add_ok t d : 0 <= d <= 32767 -> timer_add t d = Some (u16 (t + d)).
Proof.
  intros H. unfold timer_add. rewrite ms_to_count_eq by lia. cbn [bind]. rewrite (u16_id d) by lia. reflexivity.
Qed.

Lemma plaus_check_ok cfg now ch v : mc_plaus_neg cfg <= mc_plaus_pos cfg -> mc_plaus_ms cfg = 3000 ->
  exists ch' v' p, plaus_check cfg now ch v = Some (ch', v', p) /\ ch_adj ch' = ch_adj ch /\
    v' = Z.max (mc_plaus_neg cfg) (Z.min (mc_plaus_pos cfg) v) /\
    ch' = (if (mc_plaus_neg cfg <=? v) && (v <=? mc_plaus_pos cfg) then mkChan (ch_adj ch) false false (ch_timer ch)
           else let t := if ch_running ch then ch_timer ch else u16 (now + 3000) in
                mkChan (ch_adj ch) (ch_timeout ch || timer_expired now t) true t) /\
    p = if ch_timeout ch' then MEAS_PLAUS_TIMEOUT
        else if (mc_plaus_neg cfg <=? v) && (v <=? mc_plaus_pos cfg) then MEAS_PLAUSIBLE else MEAS_NOT_PLAUSIBLE.
Proof.
  intros Hb Hm. unfold plaus_check. rewrite Hm.
  assert (D : v < mc_plaus_neg cfg \/ mc_plaus_pos cfg < v \/ mc_plaus_neg cfg <= v <= mc_plaus_pos cfg) by lia.
  destruct ch as [ad to ru ti]. rewrite arm_ok by lia. cbn [bind].
  destruct D as [D|[D|D]].
  - replace (v <? mc_plaus_neg cfg) with true by lia. replace (mc_plaus_neg cfg <=? v) with false by lia.
    cbn [andb bind negb ch_running ch_timer ch_timeout ch_adj set_ch_timer set_ch_running set_ch_timeout].
    destruct ru; cbn [andb bind negb ch_running ch_timer ch_timeout ch_adj set_ch_timer set_ch_running set_ch_timeout].
    + destruct (timer_expired now ti); eexists _, _, _; (split; [reflexivity|]); cbn [ch_adj ch_timeout]; (split; [reflexivity|]); (split; [lia|]); rewrite ?orb_true_r, ?orb_false_r; split; reflexivity.
    + destruct (timer_expired now _); eexists _, _, _; (split; [reflexivity|]); cbn [ch_adj ch_timeout]; (split; [reflexivity|]); (split; [lia|]); rewrite ?orb_true_r, ?orb_false_r; split; reflexivity.
  - replace (v <? mc_plaus_neg cfg) with false by lia. replace (mc_plaus_pos cfg <? v) with true by lia.
    replace (mc_plaus_neg cfg <=? v) with true by lia. replace (v <=? mc_plaus_pos cfg) with false by lia.
    cbn [andb bind negb ch_running ch_timer ch_timeout ch_adj set_ch_timer set_ch_running set_ch_timeout].
    destruct ru; cbn [andb bind negb ch_running ch_timer ch_timeout ch_adj set_ch_timer set_ch_running set_ch_timeout].
    + destruct (timer_expired now ti); eexists _, _, _; (split; [reflexivity|]); cbn [ch_adj ch_timeout]; (split; [reflexivity|]); (split; [lia|]); rewrite ?orb_true_r, ?orb_false_r; split; reflexivity.
    + destruct (timer_expired now _); eexists _, _, _; (split; [reflexivity|]); cbn [ch_adj ch_timeout]; (split; [reflexivity|]); (split; [lia|]); rewrite ?orb_true_r, ?orb_false_r; split; reflexivity.
  - replace (v <? mc_plaus_neg cfg) with false by lia. replace (mc_plaus_pos cfg <? v) with false by lia.
    replace (mc_plaus_neg cfg <=? v) with true by lia. replace (v <=? mc_plaus_pos cfg) with true by lia.
    cbn [andb bind negb ch_running ch_timer ch_timeout ch_adj set_ch_timer set_ch_running set_ch_timeout].
    eexists _, _, _. split; [reflexivity|]. cbn [ch_adj ch_timeout]. split; [reflexivity|]. split; [lia|]. split; reflexivity.
Qed.

(** ** One measurement *)
Lemma average_ok C m s : meas_inv C m s -> 0 < m_count m ->
  exists r, raw_average m = Some r /\ r = m_sum m / m_count m /\ 0 <= r <= 1023.
Proof.
  intros (_ & _ & Hc & Hs) H. unfold raw_average. replace (m_count m =? 0) with false by lia.
  assert (0 <= m_sum m / m_count m <= 1023).
  { split; [apply Z.div_pos; lia|]. apply Z.div_le_upper_bound; lia. }
  eexists. split; [reflexivity|]. rewrite u16_id by lia. split; [reflexivity|assumption].
Qed.

Lemma curr_phys r : 0 <= r <= 1023 -> exists v,
  scale (s16 r) (s16 (mc_raw_lo meascurr_config)) (s16 (mc_raw_hi meascurr_config))
    (mc_phys_lo meascurr_config) (mc_phys_hi meascurr_config) = Some v /\ -100000 <= v <= 100000 /\ curr_of_code r v.
Proof.
  intros H. rewrite (s16_id r) by lia.
  destruct (proj1 (chan_spec_configs meascurr_config (or_introl eq_refl)) r H) as (v & E & B).
  change (s16 (mc_raw_lo meascurr_config)) with (mc_raw_lo meascurr_config). change (s16 (mc_raw_hi meascurr_config)) with (mc_raw_hi meascurr_config).
  exists v. split; [exact E|]. revert B. change (mc_raw_hi meascurr_config) with 65. change (mc_raw_lo meascurr_config) with 0.
  change (mc_phys_hi meascurr_config) with 704. change (mc_phys_lo meascurr_config) with 0. unfold curr_of_code. clear - H. lia.
Qed.
Lemma temp_phys smd r : 0 <= r <= 1023 -> exists v,
  scale (s16 r) (s16 (mc_raw_lo (meastemp_config smd))) (s16 (mc_raw_hi (meastemp_config smd)))
    (mc_phys_lo (meastemp_config smd)) (mc_phys_hi (meastemp_config smd)) = Some v /\ -200000 <= v <= 200000 /\
    2 * Z.abs (201 * (v - 150 * 64) - (r - (if smd then 210 else 209)) * (330 * 64)) <= 201.
Proof.
  intros H. rewrite (s16_id r) by lia.
  destruct (proj1 (chan_spec_configs (meastemp_config smd) (or_intror (ex_intro _ smd eq_refl))) r H) as (v & E & B).
  destruct smd.
  - change (s16 (mc_raw_lo (meastemp_config true))) with (mc_raw_lo (meastemp_config true)). change (s16 (mc_raw_hi (meastemp_config true))) with (mc_raw_hi (meastemp_config true)).
    exists v. split; [exact E|]. revert B. change (mc_raw_hi (meastemp_config true)) with 411. change (mc_raw_lo (meastemp_config true)) with 210.
    change (mc_phys_hi (meastemp_config true)) with 30720. change (mc_phys_lo (meastemp_config true)) with 9600. clear - H. lia.
  - change (s16 (mc_raw_lo (meastemp_config false))) with (mc_raw_lo (meastemp_config false)). change (s16 (mc_raw_hi (meastemp_config false))) with (mc_raw_hi (meastemp_config false)).
    exists v. split; [exact E|]. revert B. change (mc_raw_hi (meastemp_config false)) with 410. change (mc_raw_lo (meastemp_config false)) with 209.
    change (mc_phys_hi (meastemp_config false)) with 30720. change (mc_phys_lo (meastemp_config false)) with 9600. clear - H. lia.
Qed.

(** Result of the temperature channel. *)
Definition temp_effect (y y' : sys) (v : Z) (p : plaus) : Prop :=
  (t_enabled (y_ct y) = true -> t_emerg (y_ct y') = false -> hot y' = (30720 <? t_feedback (y_ct y')) /\
       (30720 < t_feedback (y_ct y') -> p_setpoint (cc_pid (y_cc y')) = 0)) /\
  (t_enabled (y_ct y) = false \/ t_emerg (y_ct y') = true -> hot y' = hot y) /\
  y_mt y' = match p with MEAS_PLAUSIBLE => v | _ => y_mt y end /\
  t_emerg (y_ct y') = match p with MEAS_PLAUSIBLE => false | MEAS_PLAUS_TIMEOUT => true | MEAS_NOT_PLAUSIBLE => t_emerg (y_ct y) end /\
  t_feedback (y_ct y') = match p with MEAS_PLAUSIBLE => v | MEAS_PLAUS_TIMEOUT => t_feedback (y_ct y) | MEAS_NOT_PLAUSIBLE => y_mt y end /\
  (t_feedback (y_ct y') <> t_feedback (y_ct y) -> n_upd (y_menu y') = true) /\ (n_upd (y_menu y) = true -> n_upd (y_menu y') = true) /\
  cc_quiet (y_now y) (y_cc y) (y_cc y') /\
  cc_restricted (y_cc y') = match p with MEAS_PLAUSIBLE => v <? 6400 | _ => cc_restricted (y_cc y) end /\
  t_dt (y_ct y') = (if t_enabled (y_ct y) && negb (t_emerg (y_ct y')) then y_now y else t_dt (y_ct y)) /\
  (t_enabled (y_ct y) = true -> t_emerg (y_ct y') = false -> ctl_run y (t_feedback (y_ct y')) y').

(** What the plausibility check makes of a channel. *)
Definition checked (cfg : mconfig) (now : Z) (ch ch' : chan) (v v' : Z) (p : plaus) : Prop :=
  v' = Z.max (mc_plaus_neg cfg) (Z.min (mc_plaus_pos cfg) v) /\ ch_adj ch' = ch_adj ch /\
  ch' = (if (mc_plaus_neg cfg <=? v) && (v <=? mc_plaus_pos cfg) then mkChan (ch_adj ch) false false (ch_timer ch)
           else let t := if ch_running ch then ch_timer ch else u16 (now + 3000) in
                mkChan (ch_adj ch) (ch_timeout ch || timer_expired now t) true t) /\
  p = if ch_timeout ch' then MEAS_PLAUS_TIMEOUT
      else if (mc_plaus_neg cfg <=? v) && (v <=? mc_plaus_pos cfg) then MEAS_PLAUSIBLE else MEAS_NOT_PLAUSIBLE.

Lemma handle_temp_ok B C y c0 c1 r : inv B C y -> bok B -> m_chan (y_meas y) = 1 -> m_chans (y_meas y) = [c0; c1] ->
  raw_average (y_meas y) = Some r -> 0 <= r <= 1023 ->
  exists y' c1' v v' p, measure_handle_result C y = Some y' /\ inv B C y' /\ meas_frame y y' /\
    y_meas y' = set_m_chans (y_meas y) [c0; c1'] /\ y_mc y' = y_mc y /\
    checked (meastemp_config (c_smd C)) (y_now y) c1 c1' v v' p /\ temp_effect y y' v' p /\
    temp_of_code C (s_adj (x_cache (y_set y))) r v.
Proof.
  intros I HB Hc Hch Er Hr. unfold measure_handle_result. cbv zeta. rewrite Hc, Hch.
  change (zget [c0; c1] 1) with (Some c1). change (chan_config C 1) with (Some (meastemp_config (c_smd C))). cbn [bind].
  rewrite Er. cbn [bind]. unfold measure_user_filter_handler. change (1 =? MEAS_CHAN_CURRENT) with false. cbv iota.
  destruct (temp_phys (c_smd C) r Hr) as (v & Ev & Bv & Lv). rewrite Ev. cbn [bind].
  destruct (i_meas _ _ _ I) as ((d0 & d1 & Ech & A0 & A1) & M2 & M3 & M4). rewrite Hch in Ech. injection Ech as <- <-.
  destruct (i_set _ _ _ I) as (_ & R & _). destruct HB as (HB1 & HB2). pose proof (rng_le _ _ C _ HB2 R) as R'.
  destruct R' as (_ & _ & _ & _ & Had & _). cbn in Had.
  assert (exists w, (if c_adj C then fixpt_sub v (ch_adj c1) else Some v) = Some w /\ temp_of_code C (s_adj (x_cache (y_set y))) r w) as (w & Ew & Lw).
  { unfold temp_of_code. destruct (c_adj C); [|exists v; rewrite Z.add_0_r; auto]. rewrite A1 in *. rewrite fixpt_sub_eq; [|unfold is_s24; lia|unfold is_s24; lia].
    rewrite sat24_id by lia. eexists. split; [reflexivity|]. rewrite Z.sub_add. exact Lv. }
  rewrite Ew. cbn [bind].
  destruct (plaus_check_ok (meastemp_config (c_smd C)) (y_now y) c1 w) as (c1' & w' & p & E & Ea & Eb & Ec & Ed);
    [destruct (c_smd C); discriminate|destruct (c_smd C); reflexivity|].
  rewrite E. cbn [bind]. change (zupd [c0; c1] 1 c1') with (Some [c0; c1']). cbn [bind].
  change (mc_plaus_neg (meastemp_config (c_smd C))) with (-1280) in *. change (mc_plaus_pos (meastemp_config (c_smd C))) with 32000 in *.
  assert (Hw' : -1280 <= w' <= 32000) by lia.
  unfold measure_user_result_handler. change (1 =? MEAS_CHAN_TEMP) with true. cbv iota.
  set (y1 := set_y_meas y _).
  assert (I1 : inv B C y1).
  { unfold y1. destruct I. constructor; sy; try assumption. unfold meas_inv. sy. split; [|split; [exact M2|split; [exact M3|exact M4]]].
    exists c0, c1'. split; [reflexivity|]. split; [exact A0|]. rewrite Ea. exact A1. }
  destruct (meastemp_result_ok B C y1 w' p I1 (conj HB1 HB2) Hw') as (y' & X & I' & F & B1 & B2 & B3 & B4 & B5).
  exists y', c1', w, w', p. split; [exact X|]. split; [exact I'|]. split.
  { eapply meas_frame_trans; [|exact F]. unfold meas_frame, ct_frame, y1. sy. repeat (split; [reflexivity|]).
    split; [exists (n_upd (y_menu y)); symmetry; apply upd_id|]. repeat split. }
  split; [exact B1|]. split; [exact B2|]. split; [unfold checked; repeat (split; [assumption|]); exact Ed|]. split; [|exact Lw].
  unfold temp_effect. split; [exact B3|]. split; [exact B4|exact B5].
Qed.

Lemma handle_curr_ok B C y c0 c1 r : inv B C y -> m_chan (y_meas y) = 0 -> m_chans (y_meas y) = [c0; c1] ->
  raw_average (y_meas y) = Some r -> 0 <= r <= 1023 ->
  exists y' c0' v v' p, measure_handle_result C y = Some y' /\ inv B C y' /\
    y' = set_y_meas (set_y_mc (set_y_cc y (y_cc y')) (y_mc y')) (set_m_chans (y_meas y) [c0'; c1]) /\
    hot y' = hot y /\ p_setpoint (cc_pid (y_cc y')) = p_setpoint (cc_pid (y_cc y)) /\
    cc_emerg (y_cc y') = match p with
                         | MEAS_PLAUSIBLE => Z.land (cc_emerg (y_cc y)) (u8 (Z.lnot EMERG_UNPLAUS_FEEDBACK))
                         | MEAS_PLAUS_TIMEOUT => Z.lor (cc_emerg (y_cc y)) EMERG_UNPLAUS_FEEDBACK
                         | MEAS_NOT_PLAUSIBLE => cc_emerg (y_cc y) end /\
    (exists c, contrcurr_set_emerg (y_cc y) (cc_emerg (y_cc y')) = Some c /\
      match p with
      | MEAS_PLAUSIBLE => contrcurr_set_feedback (y_now y) c v' = Some (y_cc y') /\ u_prev (y_mc y') = v'
      | MEAS_NOT_PLAUSIBLE => contrcurr_set_feedback (y_now y) c (u_prev (y_mc y)) = Some (y_cc y') /\ u_prev (y_mc y') = u_prev (y_mc y)
      | MEAS_PLAUS_TIMEOUT => y_cc y' = c /\ u_prev (y_mc y') = u_prev (y_mc y)
      end) /\
    checked meascurr_config (y_now y) c0 c0' v v' p /\ curr_of_code (snd (meascurr_filter_handler y r)) v /\
    u_filter (y_mc y') = u_filter (y_mc (fst (meascurr_filter_handler y r))) /\ u_init (y_mc y') = true.
Proof.
  intros I Hc Hch Er Hr. unfold measure_handle_result. cbv zeta. rewrite Hc, Hch.
  change (zget [c0; c1] 0) with (Some c0). change (chan_config C 0) with (Some meascurr_config). cbn [bind].
  rewrite Er. cbn [bind]. unfold measure_user_filter_handler. change (0 =? MEAS_CHAN_CURRENT) with true. cbv iota.
  destruct (i_mc _ _ _ I) as (U1 & U2).
  assert (exists u' r', meascurr_filter_handler y r = (set_y_mc y u', r') /\ mc_inv u' /\ 0 <= r' <= 1023 /\ u_prev u' = u_prev (y_mc y)) as (u' & r' & Ef & Iu & Hr' & Hu').
  { unfold meascurr_filter_handler. destruct (u_init (y_mc y)).
    - destruct (lp_step 1023 4 r ltac:(lia) (u_filter (y_mc y)) ltac:(change (2 ^ 4) with 16; lia) Hr ltac:(lia)) as (b & Eb & _ & Bb).
      unfold MEASCURR_FILTER_SHIFT. rewrite Eb. change (2 ^ 4) with 16 in *. unfold MEASURE_MAX_RESULT. eexists _, _. split; [reflexivity|].
      unfold mc_inv. sy. split; [split; lia|]. split; [destruct (b / 16 <? 1023) eqn:F; lia|reflexivity].
    - eexists _, _. split; [reflexivity|]. unfold mc_inv, lp_filter_u16_set, u24, MEASURE_MAX_RESULT. sy. split; [split; lia|].
      split; [destruct (r <? 1023) eqn:F; lia|reflexivity]. }
  rewrite Ef. destruct (curr_phys r' Hr') as (v & Ev & Bv & Lv). rewrite Ev. cbn [bind].
  destruct (i_meas _ _ _ I) as ((d0 & d1 & Ech & A0 & A1) & M2 & M3 & M4). rewrite Hch in Ech. injection Ech as <- <-.
  assert (exists w, (if c_adj C then fixpt_sub v (ch_adj c0) else Some v) = Some w /\ w = v) as (w & Ew & Lw).
  { destruct (c_adj C); [|eauto]. rewrite A0, fixpt_sub_eq; [|unfold is_s24; lia|unfold is_s24; lia]. rewrite sat24_id by lia. eexists. split; [reflexivity|lia]. }
  rewrite Ew. cbn [bind].
  destruct (plaus_check_ok meascurr_config (y_now y) c0 w) as (c0' & w' & p & E & Ea & Eb & Ec & Ed);
    [discriminate|reflexivity|].
  change (y_now (set_y_mc y u')) with (y_now y). rewrite E. cbn [bind]. change (zupd [c0; c1] 0 c0') with (Some [c0'; c1]). cbn [bind].
  change (mc_plaus_neg meascurr_config) with 0 in *. change (mc_plaus_pos meascurr_config) with 3200 in *.
  assert (Hw' : 0 <= w' <= 3200) by lia.
  unfold measure_user_result_handler. change (0 =? MEAS_CHAN_TEMP) with false. cbv iota.
  set (y1 := set_y_meas _ _).
  assert (I1 : inv B C y1).
  { unfold y1. destruct I. constructor; sy; try assumption. unfold meas_inv. sy. split; [|split; [exact M2|split; [exact M3|exact M4]]].
    exists c0', c1. split; [reflexivity|]. split; [rewrite Ea; exact A0|exact A1]. }
  destruct (meascurr_result_ok B C y1 w' p I1 Hw') as (y' & X & I' & F & B1 & B2 & B3 & B4 & B5).
  exists y', c0', w, w', p. split; [exact X|]. split; [exact I'|]. split; [rewrite F at 1; reflexivity|].
  split; [exact B1|]. split; [exact B3|]. split; [exact B4|].
  split; [unfold y1 in B5; sy in B5; rewrite Hu' in B5; exact B5|].
  split; [unfold checked; repeat (split; [assumption|]); exact Ed|]. rewrite Lw. split; [exact Lv|]. destruct B2 as (B2 & B2'). split; [rewrite B2; reflexivity|exact B2'].
Qed.

(** Starting the next channel. *)
Definition triggered (C : conf) (y : sys) : sys :=
  set_y_meas y (mkMeas (m_chans (y_meas y)) (1 - m_chan (y_meas y)) 0 0
    (u16 (y_now y + if m_chan (y_meas y) =? 0 then 50 else 5)) (m_avail (y_meas y)) true).
Lemma trigger_ok B C y : inv B C y -> adc_trigger_next_chan C y = Some (triggered C y) /\ inv B C (triggered C y).
Proof.
  intros I. destruct (i_meas _ _ _ I) as (M1 & M2 & M3 & M4). unfold adc_trigger_next_chan, triggered.
  assert (I' : forall t a, inv B C (set_y_meas y (mkMeas (m_chans (y_meas y)) (1 - m_chan (y_meas y)) 0 0 t a true))).
  { intros t a. destruct I. constructor; sy; try assumption. unfold meas_inv. sy. split; [exact M1|]. lia. }
  split; [|apply I'].
  destruct M2 as [M2|M2]; rewrite M2.
  - change (ring_next 0 (NR_MEAS_CHANS - 1)) with 1. change (chan_config C 1) with (Some (meastemp_config (c_smd C))). cbn [bind].
    change (mc_avg_ms (meastemp_config (c_smd C))) with 50. rewrite arm_ok by lia. reflexivity.
  - change (ring_next 1 (NR_MEAS_CHANS - 1)) with 0. change (chan_config C 0) with (Some meascurr_config). cbn [bind].
    change (mc_avg_ms meascurr_config) with 5. rewrite arm_ok by lia. reflexivity.
Qed.

(** measure_work, with everything the properties need. *)
Definition curr_effect (y y' : sys) (v : Z) (p : plaus) : Prop :=
  y_ct y' = y_ct y /\ y_mt y' = y_mt y /\ y_menu y' = y_menu y /\ hot y' = hot y /\
  p_setpoint (cc_pid (y_cc y')) = p_setpoint (cc_pid (y_cc y)) /\
  cc_emerg (y_cc y') = match p with
                         | MEAS_PLAUSIBLE => Z.land (cc_emerg (y_cc y)) (u8 (Z.lnot EMERG_UNPLAUS_FEEDBACK))
                         | MEAS_PLAUS_TIMEOUT => Z.lor (cc_emerg (y_cc y)) EMERG_UNPLAUS_FEEDBACK
                         | MEAS_NOT_PLAUSIBLE => cc_emerg (y_cc y) end /\
  exists c, contrcurr_set_emerg (y_cc y) (cc_emerg (y_cc y')) = Some c /\
      match p with
      | MEAS_PLAUSIBLE => contrcurr_set_feedback (y_now y) c v = Some (y_cc y') /\ u_prev (y_mc y') = v
      | MEAS_NOT_PLAUSIBLE => contrcurr_set_feedback (y_now y) c (u_prev (y_mc y)) = Some (y_cc y') /\ u_prev (y_mc y') = u_prev (y_mc y)
      | MEAS_PLAUS_TIMEOUT => y_cc y' = c /\ u_prev (y_mc y') = u_prev (y_mc y)
      end.
Lemma measure_idle B C y : inv B C y -> m_avail (y_meas y) = false -> measure_work C y = Some y.
Proof.
  intros I E. unfold measure_work. rewrite E. f_equal. destruct y as [a b c d [e1 e2 e3 e4 e5 e6 e7] f g h i j k l].
  sy in E. subst. reflexivity.
Qed.
Lemma measure_work_ok B C y c0 c1 : inv B C y -> bok B -> handover (y_meas y) -> m_avail (y_meas y) = true -> m_chans (y_meas y) = [c0; c1] ->
  exists y' raw, measure_work C y = Some y' /\ inv B C y' /\ meas_frame y y' /\ handover (y_meas y') /\
    raw_average (y_meas y) = Some raw /\ 0 <= raw <= 1023 /\
    m_chan (y_meas y') = 1 - m_chan (y_meas y) /\ m_avail (y_meas y') = false /\ m_count (y_meas y') = 0 /\ m_sum (y_meas y') = 0 /\
    m_timer (y_meas y') = u16 (y_now y + if m_chan (y_meas y) =? 0 then 50 else 5) /\
    (m_chan (y_meas y) = 1 -> exists c1' v v' p, m_chans (y_meas y') = [c0; c1'] /\ y_mc y' = y_mc y /\
       checked (meastemp_config (c_smd C)) (y_now y) c1 c1' v v' p /\ temp_effect y y' v' p /\
       temp_of_code C (s_adj (x_cache (y_set y))) raw v) /\
    (m_chan (y_meas y) = 0 -> exists c0' v v' p, m_chans (y_meas y') = [c0'; c1] /\
       checked meascurr_config (y_now y) c0 c0' v v' p /\ curr_effect y y' v' p /\
       curr_of_code (snd (meascurr_filter_handler y raw)) v /\
       u_filter (y_mc y') = u_filter (y_mc (fst (meascurr_filter_handler y raw))) /\ u_init (y_mc y') = true).
Proof.
  intros I HB (H1 & H2) Ea Ech. specialize (H2 Ea). unfold measure_work. rewrite Ea.
  destruct (average_ok C (y_meas y) _ (i_meas _ _ _ I) H2) as (raw & Er & _ & Hr).
  set (y1 := set_y_meas y (set_m_avail (y_meas y) false)). cbv zeta.
  assert (I1 : inv B C y1) by (unfold y1; destruct I; constructor; sy; assumption).
  assert (Er1 : raw_average (y_meas y1) = Some raw) by exact Er.
  assert (F1 : meas_frame y y1).
  { unfold meas_frame, ct_frame, y1. sy. repeat (split; [reflexivity|]). split; [exists (n_upd (y_menu y)); symmetry; apply upd_id|]. repeat split. }
  destruct (i_meas _ _ _ I) as (_ & [Hc|Hc] & _).
  - destruct (handle_curr_ok B C y1 c0 c1 raw I1 Hc Ech Er1 Hr) as (y' & c0' & v & v' & p & X & I' & F & A1 & A2 & A3 & A3' & A4 & A5 & A6 & A7).
    rewrite X. cbn [bind]. destruct (trigger_ok B C y' I') as (T & It). exists (triggered C y'), raw. split; [exact T|]. split; [exact It|].
    assert (Em : y_meas y' = set_m_chans (y_meas y1) [c0'; c1]) by (rewrite F; reflexivity).
    split.
    { eapply meas_frame_trans; [exact F1|]. rewrite F. unfold triggered, meas_frame, ct_frame. sy.
      repeat (split; [reflexivity|]). split; [exists (n_upd (y_menu y1)); symmetry; apply upd_id|]. repeat split. }
    unfold triggered. sy. rewrite Em. sy. change (m_avail (y_meas y1)) with false. change (m_chan (y_meas y1)) with (m_chan (y_meas y)). rewrite Hc.
    split; [split; [reflexivity|discriminate]|]. split; [exact Er|]. split; [exact Hr|]. split; [reflexivity|].
    split; [reflexivity|]. split; [reflexivity|]. split; [reflexivity|]. split; [rewrite F; reflexivity|]. split; [discriminate|].
    intros _. exists c0', v, v', p. split; [reflexivity|]. split; [exact A4|].
    assert (Fs : snd (meascurr_filter_handler y1 raw) = snd (meascurr_filter_handler y raw) /\
      y_mc (fst (meascurr_filter_handler y1 raw)) = y_mc (fst (meascurr_filter_handler y raw))).
    { unfold meascurr_filter_handler. change (y_mc y1) with (y_mc y). destruct (u_init (y_mc y)); [|split; reflexivity]. destruct (lp_filter_u16_run _ _ _); split; reflexivity. }
    destruct Fs as (Fs & Fs'). rewrite Fs in A5. rewrite Fs' in A6. split; [|split; [exact A5|split; [exact A6|exact A7]]]. unfold curr_effect. sy.
    split; [rewrite F; reflexivity|]. split; [rewrite F; reflexivity|]. split; [rewrite F; reflexivity|].
    split; [exact A1|]. split; [exact A2|]. split; [exact A3|exact A3'].
  - destruct (handle_temp_ok B C y1 c0 c1 raw I1 HB Hc Ech Er1 Hr) as (y' & c1' & v & v' & p & X & I' & F & A1 & A2 & A3 & A4 & A5).
    rewrite X. cbn [bind]. destruct (trigger_ok B C y' I') as (T & It). exists (triggered C y'), raw. split; [exact T|]. split; [exact It|].
    split.
    { eapply meas_frame_trans; [exact F1|]. eapply meas_frame_trans; [exact F|]. unfold triggered, meas_frame, ct_frame. sy.
      repeat (split; [reflexivity|]). split; [exists (n_upd (y_menu y')); symmetry; apply upd_id|]. repeat split. }
    unfold triggered. sy. rewrite A1. sy. change (m_avail (y_meas y1)) with false. change (m_chan (y_meas y1)) with (m_chan (y_meas y)). rewrite Hc.
    split; [split; [reflexivity|discriminate]|]. split; [exact Er|]. split; [exact Hr|]. split; [reflexivity|].
    split; [reflexivity|]. split; [reflexivity|]. split; [reflexivity|].
    split; [destruct F as (Fn & _); rewrite Fn; reflexivity|]. split; [|discriminate].
    intros _. exists c1', v, v', p. split; [reflexivity|]. split; [exact A2|]. split; [exact A3|]. split; [exact A4|exact A5].
Qed.

(** The converter interrupt. *)
Lemma adc_isr_ok B C y raw : inv B C y -> handover (y_meas y) -> m_adc (y_meas y) = true -> 0 <= raw <= 1023 -> m_count (y_meas y) < 65535 ->
  inv B C (adc_isr y raw) /\ handover (y_meas (adc_isr y raw)) /\
  m_sum (y_meas (adc_isr y raw)) = m_sum (y_meas y) + raw /\ m_count (y_meas (adc_isr y raw)) = m_count (y_meas y) + 1 /\
  m_avail (y_meas (adc_isr y raw)) = timer_expired (y_now y) (m_timer (y_meas y)) /\
  adc_isr y raw = set_y_meas y (y_meas (adc_isr y raw)) /\
  m_chans (y_meas (adc_isr y raw)) = m_chans (y_meas y) /\ m_chan (y_meas (adc_isr y raw)) = m_chan (y_meas y) /\
  m_timer (y_meas (adc_isr y raw)) = m_timer (y_meas y).
Proof.
  intros I (H1 & H2) Ea Hr Hc. destruct (i_meas _ _ _ I) as (M1 & M2 & M3 & M4). unfold adc_isr. cbv zeta.
  rewrite Ea in H1. symmetry in H1. apply negb_true_iff in H1. sy.
  rewrite u32_id, u16_id by lia.
  assert (K : forall a b, inv B C (set_y_meas y (mkMeas (m_chans (y_meas y)) (m_chan (y_meas y)) (m_count (y_meas y) + 1) (m_sum (y_meas y) + raw) (m_timer (y_meas y)) a b))).
  { intros a b. destruct I. constructor; sy; try assumption. unfold meas_inv. sy. split; [exact M1|]. lia. }
  destruct (timer_expired _ _); unfold handover; sy; rewrite ?Ea, ?H1; (split; [apply K|]); (split; [split; [reflexivity|lia || discriminate]|]); repeat split.
Qed.
