(** * Proofs about pid.c *)
From Coq Require Import ZArith List Bool Lia ZifyBool.
From Verif Require Import Base PBase SpecNum SpecPid MUtil MFixpt PNum PSmall MPid SpecSmall.
Import ListNotations.
Open Scope Z_scope.
Ltac Zify.zify_post_hook ::= Z.div_mod_to_equations.

Lemma pid_run_limits p dt r p' y : pid_lims_ok p -> pid_run p dt r = Some (p', y) ->
  p_y_neglim p <= y <= p_y_poslim p /\ p_i_neglim p <= p_integr p' <= p_i_poslim p /\
  p_k p' = p_k p /\ p_setpoint p' = p_setpoint p /\
  p_i_neglim p' = p_i_neglim p /\ p_i_poslim p' = p_i_poslim p /\
  p_y_neglim p' = p_y_neglim p /\ p_y_poslim p' = p_y_poslim p.
Proof.
  unfold pid_lims_ok, pid_run. intros [L1 L2] H. binv.
  injection H as <- <-. cbn. rewrite !cclamp_eq by easy. repeat split; lia.
Qed.

Lemma pid_exec_limits ops : forall p p' l, pid_lims_ok p -> pid_exec p ops = Some (p', l) ->
  Forall (fun yi => p_y_neglim p <= fst yi <= p_y_poslim p /\
                    p_i_neglim p <= snd yi <= p_i_poslim p) l.
Proof.
  induction ops as [|o t IH]; intros p p' l L H.
  - cbn in H. injection H as <- <-. constructor.
  - destruct o; cbn [pid_exec] in H.
    + apply bind_inv in H. destruct H as ([p1 y] & R & H).
      apply bind_inv in H. destruct H as ([p2 l2] & R2 & H). injection H as <- <-.
      destruct (pid_run_limits _ _ _ _ _ L R) as (A & B & C & D & E1 & E2 & E3 & E4).
      constructor; [cbn; auto|]. rewrite <- E1, <- E2, <- E3, <- E4.
      eapply IH; [|exact R2]. unfold pid_lims_ok in *. now rewrite E1, E2, E3, E4.
    + apply (IH (pid_set_factors p k) _ _ L H).
    + apply (IH (pid_reset p) _ _ L H).
    + apply (IH (pid_set_setpoint p w) _ _ L H).
Qed.

Lemma mul_inv a b r : fixpt_mul a b = Some r -> qmul a b r.
Proof.
  unfold fixpt_mul, fixpt_big_mul, fixpt_inflate. intros H. binv.
  exists ((a * b + 32) / 64). rewrite shiftr6, deflate_sat. split; [apply nearest_up_64|reflexivity].
Qed.

Lemma pid_run_law p dt r p' y :
  is_s24 (p_setpoint p) -> is_s24 r -> is_s24 dt -> is_s24 (p_prev_e p) -> is_s24 (p_integr p) ->
  is_s24 (kd (p_k p)) -> is_s24 (d_decay_div (p_k p)) ->
  is_s24 (p_i_neglim p) -> is_s24 (p_i_poslim p) ->
  dt <> 0 -> d_decay_div (p_k p) <> 0 -> pid_lims_ok p ->
  pid_run p dt r = Some (p', y) ->
  pid_law (kp (p_k p)) (ki (p_k p)) (kd (p_k p)) (d_decay_div (p_k p))
          (p_i_neglim p) (p_i_poslim p) (p_y_neglim p) (p_y_poslim p)
          (p_setpoint p) (p_integr p) (p_prev_e p) dt r
          y (p_integr p') (p_prev_e p').
Proof.
  intros Sw Sr Sd Se Si Sk Sdd Sl1 Sl2 Nd Ndd [L1 L2] H. unfold pid_run in H.
  rewrite fixpt_sub_eq in H by easy. cbn [bind] in H.
  apply bind_inv in H. destruct H as (pt & HP & H).
  apply bind_inv in H. destruct H as (ie & HI & H).
  apply bind_inv in H. destruct H as (ied & HA & H).
  set (e := sat24 (p_setpoint p - r)) in *.
  assert (SA : is_s24 ied).
  { apply mul_inv in HA. destruct HA as (q & _ & ->). apply sat24_s24. }
  assert (SP : is_s24 pt).
  { apply mul_inv in HP. destruct HP as (q & _ & ->). apply sat24_s24. }
  rewrite fixpt_add_eq in H by easy. cbn [bind] in H.
  rewrite cclamp_eq in H by easy. fold (limit (p_i_neglim p) (p_i_poslim p) (sat24 (p_integr p + ied))) in H.
  set (i := limit _ _ _) in *.
  assert (SI : is_s24 i).
  { unfold i, limit, is_s24 in *. lia. }
  rewrite fixpt_add_eq in H by easy. cbn [bind] in H.
  rewrite fixpt_sub_eq in H by (try assumption; apply sat24_s24). cbn [bind] in H.
  apply bind_inv in H. destruct H as (d & HD & H).
  rewrite fixpt_div_eq in H by (try assumption; apply sat24_s24). cbn [bind] in H.
  assert (D : qmuldiv (sat24 (e - p_prev_e p)) (kd (p_k p)) dt d).
  { unfold fixpt_mul_div, fixpt_big_mul_div, fixpt_inflate in HD.
    apply bind_inv in HD. destruct HD as (x & HX & HD). apply Some_inj in HD. subst d.
    apply bind_inv in HX. destruct HX as (m & HM & HX).
    unfold fixpt_big_mul in HM. apply bind_inv in HM. destruct HM as (m1 & HM1 & HM).
    apply chk32_inv in HM1. destruct HM1 as [-> _].
    apply bind_inv in HM. destruct HM as (m2 & HM2 & HM).
    apply chk32_inv in HM2. destruct HM2 as [-> _]. apply Some_inj in HM. rewrite shiftr6 in HM. subst m.
    unfold fixpt_big_div in HX.
    destruct (dt =? 0) eqn:Z0; [lia|]. apply bind_inv in HX. destruct HX as (t & T & HX).
    apply chk32_inv in T. destruct T as [-> T].
    unfold qmuldiv. eexists; eexists. split; [apply nearest_up_64|].
    split; [apply divaway_spec; exact Nd|]. rewrite deflate_sat. f_equal.
    apply bind_inv in HX. destruct HX as (h & Hh & HX).
    unfold div32 in Hh. change (2 =? 0) with false in Hh. apply chk32_inv in Hh. destruct Hh as [-> _].
    apply bind_inv in HX. destruct HX as (n2 & Hn2 & HX).
    unfold div32 in HX. rewrite Z0 in HX. apply chk32_inv in HX. destruct HX as [-> _].
    unfold divaway. rewrite (Z.mul_comm 64).
    destruct (_ || _) in Hn2 |- *; apply chk32_inv in Hn2; destruct Hn2 as [-> _]; reflexivity. }
  assert (SD : is_s24 d) by (destruct D as (? & ? & _ & _ & ->); apply sat24_s24).
  rewrite fixpt_add_eq in H by (try assumption; apply sat24_s24). cbn [bind] in H.
  apply Some_inj in H. injection H as <- <-. cbn [p_integr p_prev_e].
  exists pt, ie, ied, d. cbn zeta. fold e.
  repeat split.
  - now apply mul_inv.
  - now apply mul_inv.
  - now apply mul_inv.
  - exact D.
  - rewrite cclamp_eq by easy. reflexivity.
  - exists (divaway (e * 64) (d_decay_div (p_k p))). split; [|reflexivity].
    rewrite (Z.mul_comm 64). now apply divaway_spec.
Qed.

(** Definedness and state bounds in the operating region of the firmware. *)
Definition pid_region (p : pid) : Prop :=
  pid_lims_ok p /\
  0 <= kp (p_k p) <= 6400 /\ 0 <= ki (p_k p) <= 768 /\ 0 <= kd (p_k p) <= 6400 /\
  d_decay_div (p_k p) = 128 /\
  Z.abs (p_prev_e p) <= 32768 /\
  -100000 <= p_i_neglim p /\ p_i_poslim p <= 100000 /\
  -100000 <= p_y_neglim p /\ p_y_poslim p <= 100000 /\
  -100000 <= p_integr p <= 100000.

Lemma abs_mul_le a b A B : Z.abs a <= A -> Z.abs b <= B -> Z.abs (a * b) <= A * B.
Proof. intros. rewrite Z.abs_mul. apply Z.mul_le_mono_nonneg; lia. Qed.

Lemma divaway_abs_le n d : d <> 0 -> Z.abs (divaway n d) <= Z.abs n.
Proof.
  intros N. destruct (divaway_spec n d N) as [A _]. set (q := divaway n d) in *. clearbody q.
  assert (Z.abs q <= Z.abs n \/ Z.abs n + 1 <= Z.abs q) as [|G] by lia; [easy|exfalso].
  assert (Z.abs (q * d) <= Z.abs n + Z.abs (n - q * d)) by lia.
  rewrite Z.abs_mul in H. assert (1 <= Z.abs d) by lia.
  set (Q := Z.abs q) in *. set (C := Z.abs d) in *. set (X := Z.abs n) in *.
  assert (0 <= X) by lia. clearbody Q C X.
  assert (2 * (Q * C) <= 2 * X + C) by lia.
  assert ((X + 1) * C <= Q * C) by (apply Z.mul_le_mono_nonneg_r; lia).
  assert (X <= X * C) by (rewrite <- (Z.mul_1_r X) at 1; apply Z.mul_le_mono_nonneg_l; lia).
  lia.
Qed.

Lemma pid_run_ok p dt r :
  pid_region p -> Z.abs dt <= 2100 -> Z.abs (p_setpoint p - r) <= 32768 ->
  is_s24 (p_setpoint p) -> is_s24 r ->
  exists p' y, pid_run p dt r = Some (p', y) /\ pid_region p' /\
    p_y_neglim p <= y <= p_y_poslim p /\ p_i_neglim p <= p_integr p' <= p_i_poslim p /\
    p_k p' = p_k p /\ p_setpoint p' = p_setpoint p /\
    p_i_neglim p' = p_i_neglim p /\ p_i_poslim p' = p_i_poslim p /\
    p_y_neglim p' = p_y_neglim p /\ p_y_poslim p' = p_y_poslim p.
Proof.
  intros (L & Kp & Ki & Kd & Dd & Pe & I1 & I2 & Y1 & Y2 & Ig) Hdt He Sw Sr.
  assert (Run : exists pe i y, pid_run p dt r = Some
    (mkPid (p_k p) (p_setpoint p) (p_i_neglim p) (p_i_poslim p) (p_y_neglim p) (p_y_poslim p) pe i, y)
    /\ Z.abs pe <= 32768).
  { unfold pid_run. rewrite fixpt_sub_eq by easy. cbn [bind].
    rewrite (sat24_id (p_setpoint p - r)) by (clear - He; lia).
    set (e := p_setpoint p - r) in *. clearbody e. clear Sw Sr.
    assert (M1 : Z.abs (kp (p_k p) * e) <= 6400 * 32768) by (apply abs_mul_le; [clear - Kp; lia|exact He]).
    rewrite fixpt_mul_eq by (clear - M1; lia). cbn [bind].
    assert (M2 : Z.abs (ki (p_k p) * e) <= 768 * 32768) by (apply abs_mul_le; [clear - Ki; lia|exact He]).
    rewrite fixpt_mul_eq by (clear - M2; lia). cbn [bind].
    set (ie := (ki (p_k p) * e + 32) / 64).
    assert (M3 : Z.abs ie <= 400000) by (subst ie; clear - M2; lia).
    rewrite (sat24_id ie) by (clear - M3; lia).
    assert (M4 : Z.abs (ie * dt) <= 400000 * 2100) by (apply abs_mul_le; [exact M3|exact Hdt]).
    rewrite fixpt_mul_eq by (clear - M4; lia). cbn [bind].
    rewrite fixpt_add_eq by (try apply sat24_s24; unfold is_s24; clear - Ig; lia). cbn [bind].
    destruct L as [L1 L2]. rewrite cclamp_eq by easy.
    set (i := Z.max _ _).
    assert (Hi : -100000 <= i <= 100000) by (subst i; clear - L1 I1 I2; lia).
    rewrite fixpt_add_eq by (try apply sat24_s24; unfold is_s24; clear - Hi; lia). cbn [bind].
    rewrite fixpt_sub_eq by (unfold is_s24; clear - He Pe; lia). cbn [bind].
    rewrite (sat24_id (e - p_prev_e p)) by (clear - He Pe; lia).
    set (de := e - p_prev_e p).
    assert (Hde : Z.abs de <= 65536) by (subst de; clear - He Pe; lia).
    assert (M5 : Z.abs (de * kd (p_k p)) <= 65536 * 6400) by (apply abs_mul_le; [exact Hde|clear - Kd; lia]).
    assert (Dv : exists d, fixpt_mul_div de (kd (p_k p)) dt = Some d /\ is_s24 d).
    { unfold fixpt_mul_div, fixpt_big_mul_div, fixpt_inflate.
      rewrite fixpt_big_mul_eq by (clear - M5; lia). cbn [bind].
      set (m := (de * kd (p_k p) + 32) / 64).
      assert (M6 : Z.abs m <= 7000000) by (subst m; clear - M5; lia).
      destruct (Z.eq_dec dt 0) as [->|N].
      - unfold fixpt_big_div. cbn [Z.eqb bind]. eexists. split; [reflexivity|].
        rewrite deflate_sat. apply sat24_s24.
      - rewrite fixpt_big_div_eq; [|exact N|unfold is_s32; clear - Hdt; lia|clear - M6; lia|clear - M6 Hdt; lia].
        cbn [bind]. eexists. split; [reflexivity|]. rewrite deflate_sat. apply sat24_s24. }
    destruct Dv as (d & -> & Sd). cbn [bind].
    rewrite fixpt_div_eq by (rewrite ?Dd; unfold is_s24; clear - He; lia). cbn [bind].
    rewrite fixpt_add_eq by (try apply sat24_s24; exact Sd). cbn [bind].
    eexists; eexists; eexists. split; [reflexivity|]. rewrite Dd.
    change 128 with (2 * 64). rewrite divaway_scale by (clear; lia).
    pose proof (divaway_abs_le e 2 ltac:(clear; lia)) as Q.
    rewrite sat24_id by (clear - Q He; lia). clear - Q He. lia. }
  destruct Run as (pe & i & y & R & B).
  eexists; exists y. split; [exact R|].
  destruct (pid_run_limits _ _ _ _ _ L R) as (A1 & A2 & A3).
  split; [|auto]. unfold pid_region. unfold pid_lims_ok in *.
  cbn [p_k p_i_neglim p_i_poslim p_y_neglim p_y_poslim p_prev_e p_integr] in *.
  repeat (split; [assumption || lia|]). lia.
Qed.

Lemma pid_zero_output p dt :
  p_prev_e p = 0 -> p_integr p = 0 -> is_s24 (p_setpoint p) ->
  dt <> 0 -> is_s24 dt -> d_decay_div (p_k p) <> 0 -> is_s24 (d_decay_div (p_k p)) ->
  p_i_neglim p <= 0 <= p_i_poslim p -> p_y_neglim p <= 0 <= p_y_poslim p ->
  pid_run p dt (p_setpoint p) = Some (p, 0).
Proof.
  intros Pe Pi Sw Nd Sd Ndd Sdd Li Ly. unfold pid_run.
  rewrite fixpt_sub_eq by easy. rewrite Z.sub_diag. change (sat24 0) with 0. cbn [bind].
  rewrite !fixpt_mul_eq by lia. rewrite !Z.mul_0_r. change (sat24 ((0 + 32) / 64)) with 0. cbn [bind].
  rewrite fixpt_mul_eq by lia. rewrite !Z.mul_0_l. change (sat24 ((0 + 32) / 64)) with 0. cbn [bind].
  rewrite Pi, fixpt_add_eq by (unfold is_s24; lia). change (sat24 (0 + 0)) with 0. cbn [bind].
  rewrite cclamp_eq by lia. replace (Z.max _ _) with 0 by lia.
  rewrite fixpt_add_eq by (unfold is_s24; lia). change (sat24 (0 + 0)) with 0. cbn [bind].
  rewrite Pe, fixpt_sub_eq by (unfold is_s24; lia). change (sat24 (0 - 0)) with 0. cbn [bind].
  assert (fixpt_mul_div 0 (kd (p_k p)) dt = Some 0) as ->.
  { unfold fixpt_mul_div, fixpt_big_mul_div, fixpt_inflate.
    rewrite fixpt_big_mul_eq by lia. rewrite Z.mul_0_l. change ((0 + 32) / 64) with 0. cbn [bind].
    rewrite fixpt_big_div_eq; unfold is_s32, is_s24 in *; try lia. cbn [bind].
    rewrite Z.mul_0_l, divaway_0 by easy. rewrite deflate_sat. reflexivity. }
  cbn [bind]. rewrite fixpt_div_eq by (try assumption; unfold is_s24; lia). cbn [bind].
  rewrite Z.mul_0_l, divaway_0 by easy. change (sat24 0) with 0.
  rewrite fixpt_add_eq by (unfold is_s24; lia). change (sat24 (0 + 0)) with 0. cbn [bind].
  rewrite cclamp_eq by lia. do 2 f_equal; [|lia]. destruct p; cbn in *. now subst.
Qed.

Lemma pid_run_defined p dt r :
  pid_region p -> Z.abs dt <= 2100 -> Z.abs (p_setpoint p - r) <= 32768 ->
  is_s24 (p_setpoint p) -> is_s24 r -> exists p' y, pid_run p dt r = Some (p', y).
Proof.
  intros A B C D E. destruct (pid_run_ok p dt r A B C D E) as (p' & y & H & _). eauto.
Qed.
