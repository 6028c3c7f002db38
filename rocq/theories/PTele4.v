(** * The values that are reported *)
From Coq Require Import ZArith List Bool Lia.
From Verif Require Import Base PBase MUtil MConf MFixpt MScale MRing MFilter MTimer MPid MTempMap MPwm MCurr MSens MSettings
  SpecSettings MSseg MDisplay MText MState MTemp MMeas MMenu MMain MDebug SpecSys PDebug MTele SpecTele PNum PScale PCurr PTele PTele2 PTele3 PStore PSys PSysMeas PControl.
Import ListNotations.
Open Scope Z_scope.

(** ** Ranges and cells *)
Lemma deflate_s24 x : is_s24 (fixpt_deflate x). Proof. rewrite deflate_sat. apply sat24_s24. Qed.
Lemma add_s24 a b r : fixpt_add a b = Some r -> is_s24 r. Proof. unfold fixpt_add. intros H. inv1 H. inv1 H. apply deflate_s24. Qed.
Lemma sub_s24 a b r : fixpt_sub a b = Some r -> is_s24 r. Proof. unfold fixpt_sub. intros H. inv1 H. inv1 H. apply deflate_s24. Qed.
Lemma fmul_s24 a b r : fixpt_mul a b = Some r -> is_s24 r. Proof. unfold fixpt_mul. intros H. inv1 H. inv1 H. apply deflate_s24. Qed.
Lemma fdiv_s24 a b r : fixpt_div a b = Some r -> is_s24 r. Proof. unfold fixpt_div. intros H. inv1 H. inv1 H. apply deflate_s24. Qed.
Lemma fmuldiv_s24 a b c r : fixpt_mul_div a b c = Some r -> is_s24 r. Proof. unfold fixpt_mul_div. intros H. inv1 H. inv1 H. apply deflate_s24. Qed.
Lemma sc_same f c v : set_cell f c v c = v. Proof. unfold set_cell. destruct (cell_dec c c); congruence. Qed.
Lemma sc_other f c v d : d <> c -> set_cell f c v d = f d. Proof. unfold set_cell. destruct (cell_dec d c); congruence. Qed.
Lemma after_app l l' f : after (l ++ l') f = after l' (after l f). Proof. apply fold_left_app. Qed.
Definition avoids (d : cell) (a : act) : Prop := match a with AReport c _ => c <> d | _ => True end.
Lemma after_other d l f : Forall (avoids d) l -> after l f d = f d.
Proof. intros H. revert f. induction H as [|a l H _ IH]; intros f; [reflexivity|]. cbn. rewrite IH. destruct a as [c v| |]; try reflexivity. apply sc_other. intros ->. apply H. reflexivity. Qed.
Ltac cv1 := first
  [ match goal with |- calls _ (ret _) => apply calls_ret | |- calls _ (lift _) => apply calls_lift | |- calls _ (tell _) => apply calls_tell; first [exact I | cbn; congruence] end
  | match goal with |- calls _ (wbind _ _) => apply calls_bind; [|intros; try match goal with p : (_ * _)%type |- _ => destruct p end] end
  | match goal with |- calls _ (if ?b then _ else _) => destruct b end
  | match goal with |- calls _ (match ?x with _ => _ end) => destruct x end ].
Ltac cv := repeat (cbv zeta; cv1).
Ltac wp := repeat first [apply post_bind | apply post_tell | apply post_ret | apply post_lift; intros ? ?].
Lemma cclamp_in v lo hi : lo <= hi -> lo <= cclamp v lo hi <= hi.
Proof. intros H. unfold cclamp, cmax, cmin. repeat match goal with |- context [if ?b then _ else _] => destruct b eqn:? end; lia. Qed.

Definition lims_ok (p : pid) : Prop :=
  is_s24 (p_i_neglim p) /\ is_s24 (p_i_poslim p) /\ p_i_neglim p <= p_i_poslim p /\
  is_s24 (p_y_neglim p) /\ is_s24 (p_y_poslim p) /\ p_y_neglim p <= p_y_poslim p.
Lemma p_pid k p dt r : lims_ok p ->
  post (pid_run_t k p dt r) (fun q l => Forall rngv l /\ p_y_neglim p <= snd q <= p_y_poslim p /\
    forall f, after l f (CPid k TI) = p_integr (fst q) /\ after l f (CPid k TPe) = p_prev_e (fst q)).
Proof.
  intros (L1 & L2 & L3 & L4 & L5 & L6). unfold pid_run_t. cbv zeta. wp. cbn [app fst snd p_integr p_prev_e].
  repeat match goal with
  | H : fixpt_add _ _ = Some _ |- _ => apply add_s24 in H
  | H : fixpt_sub _ _ = Some _ |- _ => apply sub_s24 in H
  | H : fixpt_mul _ _ = Some _ |- _ => apply fmul_s24 in H
  | H : fixpt_div _ _ = Some _ |- _ => apply fdiv_s24 in H
  | H : fixpt_mul_div _ _ _ = Some _ |- _ => apply fmuldiv_s24 in H end.
  split; [|split].
  - constructor; [assumption|]. constructor; [assumption|]. constructor; [|constructor; [assumption|constructor; [assumption|constructor]]].
    cbn [rngv]. match goal with |- is_s24 (cclamp ?v _ _) => pose proof (cclamp_in v _ _ L3) as X end. unfold is_s24 in *. lia.
  - apply cclamp_in. exact L6.
  - intros f. unfold after. cbn [fold_left upd]. split; repeat (rewrite sc_other by congruence); apply sc_same.
Qed.

(** ** The current controller *)
Definition ccmem (f : cells) (c : cc) : Prop :=
  f (CItem Cy) = cc_prev_y c /\ f (CPid false TI) = p_integr (cc_pid c) /\ f (CPid false TPe) = p_prev_e (cc_pid c) /\
  (f (CItem Rs) = rstate_num (cc_rstate c) \/ f (CItem Rs) = 0 /\ cc_rstate c = REnabled).
Lemma mirrored_eq f y : mirrored f y <-> f (CItem Cr1) = cc_feedback (y_cc y) /\ f (CItem Tr) = t_feedback (y_ct y) /\ ccmem f (y_cc y).
Proof. unfold mirrored, ccmem. tauto. Qed.
Lemma cc_lims c : cc_inv c -> lims_ok (cc_pid c).
Proof. intros ((_ & A & B & C & D & _) & _). unfold lims_ok, is_s24. rewrite A, B, C, D. lia. Qed.
Lemma p_cc_run now c r : cc_inv c -> 0 <= r <= 3200 ->
  post (contrcurr_run_t now c r) (fun c' l => Forall rngv l /\ cc_feedback c' = cc_feedback c /\ forall f, ccmem f c -> ccmem (after l f) c').
Proof.
  intros I R. unfold contrcurr_run_t. destruct (negb (cc_enabled c)); [apply post_ret; split; [constructor|split; [reflexivity|trivial]]|].
  destruct (negb (cc_emerg c =? 0)); [apply post_ret; split; [constructor|split; [reflexivity|trivial]]|].
  apply post_bind, post_lift. intros dt _. cbv zeta. set (c0 := cc_set_timer c (timer_set_now now)).
  apply post_bind, post_lift. intros (c1, used) E1. destruct I as (Ip & Im & Iy & Io).
  destruct (cc_select_ok c0 r Im Iy R) as (c1' & used' & E1' & S & _ & Hu & _). rewrite E1 in E1'. apply Some_inj in E1'. injection E1' as <- <-.
  destruct S as (S1 & S2 & S3 & S4 & S5 & S6 & _).
  apply post_bind, post_tell. apply post_bind, post_tell. apply post_bind.
  assert (L : lims_ok (cc_pid c1)) by (rewrite S4; exact (cc_lims c (conj Ip (conj Im (conj Iy Io))))).
  pose proof (p_pid false (cc_pid c1) dt used L) as P. pose proof (post_calls _ _ (c_pid false (cc_pid c1) dt used)) as _.
  assert (Q : post (pid_run_t false (cc_pid c1) dt used) (fun _ l => Forall (avoids (CItem Rs)) l)).
  { apply post_calls. unfold pid_run_t. cv. }
  eapply post_imp; [apply post_and; [exact P|exact Q]|]. intros (p', o) l ((F1 & F2 & F3) & F4). cbn [fst snd] in *.
  assert (Y : p_y_neglim (cc_pid c1) = 0 /\ p_y_poslim (cc_pid c1) = 3200) by (rewrite S4; destruct Ip as (_ & _ & _ & A & B & _); split; assumption).
  destruct Y as (Y1 & Y2). rewrite Y1, Y2 in F2.
  set (o' := if cc_restricted (cc_set_pid c1 p') then _ else o).
  assert (Ho : 0 <= o' <= 3200) by (unfold o', CONTRCURR_RESTRICT_MAXCURR; destruct (cc_restricted _); [|exact F2]; match goal with |- context [if ?b then _ else _] => destruct b eqn:Eb end; [vm_compute; split; discriminate|exact F2]).
  clearbody o'. apply post_bind, post_tell, post_lift. intros c' E'. unfold cc_pwm in E'. inv1 E'. inv1 E'.
  split; [|split; [cbn; rewrite S5; reflexivity|]].
  - cbn [app]. constructor; [cbn [rngv]; destruct (cc_rstate c1); vm_compute; split; discriminate|]. constructor; [cbn [rngv]; unfold is_s24; lia|].
    apply Forall_app. split; [exact F1|]. constructor; [cbn [rngv]; unfold is_s24; lia|constructor].
  - intros f _. cbn [app]. change (after (?a :: ?b :: ?l) f) with (after l (upd (upd f a) b)).
    set (f2 := upd _ _). rewrite after_app. destruct (F3 f2) as (G1 & G2). cbn [after fold_left upd]. unfold ccmem. cbn [cc_prev_y cc_pid cc_rstate cc_set_ocr cc_set_prev_y cc_set_pid].
    rewrite sc_same. rewrite !sc_other by congruence. split; [reflexivity|]. split; [exact G1|]. split; [exact G2|]. left. rewrite (after_other _ _ _ F4).
    unfold f2. cbn [upd]. rewrite sc_other by congruence. rewrite sc_same. destruct (cc_rstate c1); reflexivity.
Qed.
Definition ccfull (f : cells) (c : cc) : Prop := f (CItem Cr1) = cc_feedback c /\ ccmem f c.
Lemma p_cc_fb now c r : cc_inv c -> 0 <= r <= 3200 ->
  post (contrcurr_set_feedback_t now c r) (fun c' l => Forall rngv l /\ forall f, ccfull f c -> ccfull (after l f) c').
Proof.
  intros I R. unfold contrcurr_set_feedback_t. apply post_bind. destruct (Z.eqb_spec r (cc_feedback c)) as [->|N]; cbn [negb].
  - apply post_ret. eapply post_imp; [apply post_and; [exact (p_cc_run now c (cc_feedback c) I R)|apply (post_calls _ (avoids (CItem Cr1)))]|].
    { unfold contrcurr_run_t, pid_run_t. cv. }
    intros c' l ((A & B & D) & E). cbn [app]. split; [exact A|]. intros f (H1 & H2). split; [rewrite (after_other _ _ _ E), B; exact H1|exact (D f H2)].
  - apply post_bind, post_tell, post_ret. cbn [app].
    assert (I' : cc_inv (cc_set_feedback c r)) by exact I.
    eapply post_imp; [apply post_and; [exact (p_cc_run now (cc_set_feedback c r) r I' R)|apply (post_calls _ (avoids (CItem Cr1)))]|].
    { unfold contrcurr_run_t, pid_run_t. cv. }
    intros c' l ((A & B & D) & E). split; [constructor; [cbn [rngv]; unfold is_s24; lia|exact A]|]. intros f (H1 & H2).
    change (after (AReport (CItem Cr1) r :: l) f) with (after l (set_cell f (CItem Cr1) r)). split; [rewrite (after_other _ _ _ E), B; apply sc_same|].
    apply D. unfold ccmem in *. rewrite !sc_other by congruence. exact H2.
Qed.
Lemma emerg_full f c fl c' : contrcurr_set_emerg c fl = Some c' -> ccfull f c -> ccfull f c'.
Proof.
  intros E (H1 & H2). pose proof (emerg_keeps c fl c' E) as (K1 & K2 & K3 & K4 & _). split; [|unfold ccmem in *; rewrite K1, K2, K4; exact H2].
  unfold contrcurr_set_emerg, cc_pwm in E. destruct (negb (fl =? cc_emerg c)); [|apply Some_inj in E; subst; exact H1].
  destruct (negb (fl =? 0)); [|apply Some_inj in E; subst; exact H1].
  destruct (pwmcurr_set _); [|discriminate E]. apply Some_inj in E; subst; exact H1.
Qed.

(** ** The temperature controller *)
Definition keepcc (a : act) : Prop :=
  match a with AReport c _ => match c with CItem Cr1 | CItem Cy | CItem Rs | CPid false _ => False | _ => True end | _ => True end.
Lemma keep_full l f c : Forall keepcc l -> ccfull f c -> ccfull (after l f) c.
Proof.
  intros F. assert (K : forall d, match d with CItem Cr1 | CItem Cy | CItem Rs | CPid false _ => True | _ => False end -> after l f d = f d).
  { intros d Hd. apply after_other. revert F. apply Forall_impl. intros a Ha. destruct a as [c0 v| |]; try exact I. cbn in *. intros ->. destruct d as [[]|[] t]; contradiction. }
  unfold ccfull, ccmem. rewrite !K by exact I. trivial.
Qed.
Definition ctl (y : sys) : Prop :=
  p_i_neglim (t_pid (y_ct y)) = -1920 /\ p_i_poslim (t_pid (y_ct y)) = 5120 /\ p_y_neglim (t_pid (y_ct y)) = 0 /\ p_y_poslim (t_pid (y_ct y)) = 30720.
Lemma ctl_lims y : ctl y -> lims_ok (t_pid (y_ct y)).
Proof. intros (A & B & C & D). unfold lims_ok, is_s24. rewrite A, B, C, D. lia. Qed.
Lemma setpoint_full f c v : ccfull f c -> ccfull f (contrcurr_set_setpoint c v).
Proof. intros (H1 & H2). unfold contrcurr_set_setpoint, pid_set_setpoint. split; [exact H1|exact H2]. Qed.
Lemma p_run y r : ctl y ->
  post (contrtemp_run_t y r) (fun y' l => Forall rngv l /\ (t_feedback (y_ct y') = t_feedback (y_ct y) /\ t_emerg (y_ct y') = t_emerg (y_ct y)) /\
    (forall f, ccfull f (y_cc y) -> ccfull (after l f) (y_cc y')) /\
    (t_enabled (y_ct y) = true -> t_emerg (y_ct y) = false -> forall f,
       after l f (CItem Ty2) = p_setpoint (cc_pid (y_cc y')) /\ 0 <= after l f (CItem Ty1) <= 30720 /\
       after l f (CPid true TI) = p_integr (t_pid (y_ct y')) /\ after l f (CPid true TPe) = p_prev_e (t_pid (y_ct y')))).
Proof.
  intros L. unfold contrtemp_run_t. cbv zeta.
  destruct (t_enabled (y_ct y)) eqn:En; cbn [negb].
  2: { apply post_ret. split; [constructor|]. split; [split; reflexivity|]. split; [trivial|]. intros X. discriminate X. }
  destruct (t_emerg (y_ct y)) eqn:Em.
  { apply post_ret. split; [constructor|]. split; [split; [reflexivity|exact Em]|]. split; [trivial|]. intros _ X. discriminate X. }
  apply post_bind, post_lift. intros dt _. apply post_bind.
  assert (Q : post (pid_run_t true (t_pid (y_ct y)) dt r) (fun _ l => Forall keepcc l)).
  { apply post_calls. unfold pid_run_t. cv. }
  eapply post_imp; [apply post_and; [exact (p_pid true (t_pid (y_ct y)) dt r (ctl_lims y L))|exact Q]|].
  intros (p', o) l ((F1 & F2 & F3) & F4). cbn [fst snd] in *. destruct L as (_ & _ & L3 & L4). rewrite L3, L4 in F2.
  apply post_bind, post_tell. apply post_bind, post_lift. intros a Ea.
  destruct (temp_to_amps_spec o F2) as (a' & Ea' & Ba & _). rewrite Ea in Ea'. apply Some_inj in Ea'. subst a'.
  destruct (if CONTRTEMP_POSLIM <? r then _ else _) as (fl, v) eqn:Ev.
  assert (Bv : 0 <= v <= 3200).
  { destruct (CONTRTEMP_POSLIM <? r); injection Ev as _ <-; [vm_compute; split; discriminate|exact Ba]. }
  apply post_bind, post_lift. intros c Ec. apply post_bind, post_tell, post_ret. cbn [app].
  split; [|split; [split; [reflexivity|exact Em]|split]].
  - apply Forall_app. split; [exact F1|]. constructor; [cbn; unfold is_s24; lia|]. constructor; [cbn; unfold is_s24; lia|constructor].
  - intros f H. apply setpoint_full. eapply emerg_full; [exact Ec|]. apply keep_full; [|exact H].
    apply Forall_app. split; [exact F4|]. repeat constructor.
  - intros _ _ f. rewrite after_app. destruct (F3 f) as (G1 & G2). cbn [after fold_left upd]. fold (after l f).
    rewrite sc_same. rewrite !sc_other by congruence. rewrite sc_same. split; [reflexivity|]. split; [exact F2|]. split; assumption.
Qed.
Lemma ctl_upd y b : ctl y -> ctl (set_y_menu y b). Proof. trivial. Qed.
Lemma p_fb y r : ctl y -> is_s24 r ->
  post (contrtemp_set_feedback_t y r) (fun y' l => Forall rngv l /\ (t_feedback (y_ct y') = r /\ t_emerg (y_ct y') = t_emerg (y_ct y)) /\
    (forall f, ccfull f (y_cc y) -> ccfull (after l f) (y_cc y')) /\ (forall f, f (CItem Tr) = t_feedback (y_ct y) -> after l f (CItem Tr) = r) /\
    (t_enabled (y_ct y) = true -> t_emerg (y_ct y) = false -> forall f,
       after l f (CItem Ty2) = p_setpoint (cc_pid (y_cc y')) /\ 0 <= after l f (CItem Ty1) <= 30720 /\
       after l f (CPid true TI) = p_integr (t_pid (y_ct y')) /\ after l f (CPid true TPe) = p_prev_e (t_pid (y_ct y')))).
Proof.
  intros L R. unfold contrtemp_set_feedback_t. apply post_bind. destruct (Z.eqb_spec r (t_feedback (y_ct y))) as [E|N]; cbn [negb].
  - apply post_ret. eapply post_imp; [apply post_and; [exact (p_run y r L)|apply (post_calls _ (avoids (CItem Tr)))]|].
    { unfold contrtemp_run_t, pid_run_t. cv. }
    intros y' l ((A & (B & B') & D & G) & H). cbn [app]. split; [exact A|]. split; [split; [congruence|exact B']|]. split; [exact D|]. split; [intros f Hf; rewrite (after_other _ _ _ H); congruence|exact G].
  - apply post_bind, post_tell, post_ret. cbn [app]. set (z := menu_request_display_update _).
    assert (Lz : ctl z) by exact L.
    eapply post_imp; [apply post_and; [exact (p_run z r Lz)|apply (post_calls _ (avoids (CItem Tr)))]|].
    { unfold contrtemp_run_t, pid_run_t. cv. }
    intros y' l ((A & B & D & G) & H). split; [constructor; [exact R|exact A]|]. split; [exact B|]. split; [|split].
    + intros f Hf. change (after (AReport (CItem Tr) r :: l) f) with (after l (set_cell f (CItem Tr) r)). apply D.
      change (set_cell f (CItem Tr) r) with (after [AReport (CItem Tr) r] f). apply keep_full; [repeat constructor|exact Hf].
    + intros f _. change (after (AReport (CItem Tr) r :: l) f) with (after l (set_cell f (CItem Tr) r)). rewrite (after_other _ _ _ H). apply sc_same.
    + intros T1 T2 f. exact (G T1 T2 (set_cell f (CItem Tr) r)).
Qed.

(** ** Measurements *)
Definition tproc (y y' : sys) (l : list act) : Prop :=
  t_enabled (y_ct y) = true -> t_emerg (y_ct y') = false -> forall f,
    after l f (CItem Ty2) = p_setpoint (cc_pid (y_cc y')) /\ 0 <= after l f (CItem Ty1) <= 30720 /\
    after l f (CPid true TI) = p_integr (t_pid (y_ct y')) /\ after l f (CPid true TPe) = p_prev_e (t_pid (y_ct y')).
Lemma p_mt y v p : ctl y -> is_s24 v -> is_s24 (y_mt y) ->
  post (meastemp_result_handler_t y v p) (fun y' l => Forall rngv l /\ (forall f, mirrored f y -> mirrored (after l f) y') /\ tproc y y' l).
Proof.
  intros L Rv Rm. unfold meastemp_result_handler_t.
  assert (E : forall b, ctl (contrtemp_set_emerg y b) /\ t_enabled (y_ct (contrtemp_set_emerg y b)) = t_enabled (y_ct y) /\
    t_emerg (y_ct (contrtemp_set_emerg y b)) = b /\ t_feedback (y_ct (contrtemp_set_emerg y b)) = t_feedback (y_ct y) /\ forall f, ccfull f (y_cc y) -> ccfull f (y_cc (contrtemp_set_emerg y b))).
  { intros b. unfold contrtemp_set_emerg, do_set_emerg. destruct (Bool.eqb b (t_emerg (y_ct y))) eqn:Eb; cbn [negb].
    - apply eqb_prop in Eb. split; [exact L|]. split; [reflexivity|]. split; [congruence|]. split; [reflexivity|trivial].
    - destruct b; (split; [exact L|]); (split; [reflexivity|]); (split; [reflexivity|]); (split; [reflexivity|]); intros f Hf; exact Hf. }
  destruct p.
  - destruct (E false) as (E1 & E2 & E3 & E4 & E5). cbv zeta. set (z := set_y_cc _ _).
    assert (Lz : ctl z) by exact E1. eapply post_imp; [exact (p_fb z v Lz Rv)|].
    intros y' l (A & (B & B') & D & G & H). split; [exact A|]. split.
    + intros f M. apply mirrored_eq in M. destruct M as (M1 & M2 & M3). apply mirrored_eq.
      assert (X : ccfull (after l f) (y_cc y')). { apply D. change (y_cc z) with (contrcurr_set_restricted (y_cc (contrtemp_set_emerg y false)) (v <? CONTRCURR_RESTRICT_TOTEMP)).
        destruct (E5 f (conj M1 M3)) as (X1 & X2). split; [exact X1|exact X2]. }
      destruct X as (X1 & X2). split; [exact X1|]. split; [|exact X2]. rewrite B. apply G. change (t_feedback (y_ct z)) with (t_feedback (y_ct (contrtemp_set_emerg y false))). congruence.
    + intros T1 T2. apply H; [change (t_enabled (y_ct z)) with (t_enabled (y_ct (contrtemp_set_emerg y false))); congruence|exact E3].
  - eapply post_imp; [exact (p_fb y (y_mt y) L Rm)|]. intros y' l (A & (B & B') & D & G & H). split; [exact A|]. split.
    + intros f M. apply mirrored_eq in M. destruct M as (M1 & M2 & M3). apply mirrored_eq. destruct (D f (conj M1 M3)) as (X1 & X2). split; [exact X1|]. split; [|exact X2]. rewrite B. apply G. exact M2.
    + intros T1 T2. apply H; [exact T1|congruence].
  - apply post_ret. destruct (E true) as (E1 & E2 & E3 & E4 & E5). split; [constructor|]. split.
    + intros f M. apply mirrored_eq in M. destruct M as (M1 & M2 & M3). apply mirrored_eq. destruct (E5 f (conj M1 M3)) as (X1 & X2). split; [exact X1|]. split; [rewrite E4; exact M2|exact X2].
    + intros T1 T2. congruence.
Qed.
Lemma p_mc y v p : cc_inv (y_cc y) -> 0 <= v <= 3200 -> 0 <= u_prev (y_mc y) <= 3200 ->
  post (meascurr_result_handler_t y v p) (fun y' l => Forall rngv l /\ forall f, mirrored f y -> mirrored (after l f) y').
Proof.
  intros I Rv Ru. unfold meascurr_result_handler_t. cbv zeta. apply post_bind, post_lift. intros c Ec.
  destruct (set_emerg_ok _ (match p with
               | MEAS_PLAUSIBLE => Z.land (contrcurr_get_emerg (y_cc y)) (u8 (Z.lnot EMERG_UNPLAUS_FEEDBACK))
               | MEAS_PLAUS_TIMEOUT => Z.lor (contrcurr_get_emerg (y_cc y)) EMERG_UNPLAUS_FEEDBACK
               | MEAS_NOT_PLAUSIBLE => contrcurr_get_emerg (y_cc y)
               end) I) as (c' & Ec' & Ic & _). 
  assert (c' = c) by (destruct p; congruence). subst c'. clear Ec'.
  assert (Hc : forall f, ccfull f (y_cc y) -> ccfull f c) by (intros f; eapply emerg_full; exact Ec).
  apply post_bind.
  assert (K : forall r u, 0 <= r <= 3200 -> post (c1 <~ contrcurr_set_feedback_t (y_now y) c r ;; ret (c1, u)) (fun a l =>
    post (let '(c, u) := a in ret (set_y_mc (set_y_cc y c) (set_u_init u true))) (fun y' l' => Forall rngv (l ++ l') /\ forall f, mirrored f y -> mirrored (after (l ++ l') f) y'))).
  { intros r u Rr. apply post_bind. eapply post_imp; [apply post_and; [exact (p_cc_fb (y_now y) c r Ic Rr)|apply (post_calls _ (avoids (CItem Tr)))]|].
    { unfold contrcurr_set_feedback_t, contrcurr_run_t, pid_run_t. cv. }
    intros c1 l ((A & B) & D). apply post_ret, post_ret. rewrite !app_nil_r. split; [exact A|]. intros f M. apply mirrored_eq in M. destruct M as (M1 & M2 & M3). apply mirrored_eq.
    destruct (B f (Hc f (conj M1 M3))) as (X1 & X2). split; [exact X1|]. split; [rewrite (after_other _ _ _ D); exact M2|exact X2]. }
  destruct p; [apply K; exact Rv|apply K; exact Ru|].
  apply post_ret, post_ret. split; [constructor|]. intros f M. apply mirrored_eq in M. destruct M as (M1 & M2 & M3). apply mirrored_eq.
  destruct (Hc f (conj M1 M3)) as (X1 & X2). split; [exact X1|]. split; [exact M2|exact X2].
Qed.
