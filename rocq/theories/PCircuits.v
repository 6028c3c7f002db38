(** * The circuits of the simulator (C103) *)
From Coq Require Import QArith Qminmax List Bool Lqa Psatz.
From Verif Require Import MCircuits SpecCircuits.
Import ListNotations.
Open Scope Q_scope.

Lemma qlt_iff a b : qlt a b = true <-> a < b.
Proof. unfold qlt. rewrite negb_true_iff. split; intros H. - apply Qnot_le_lt. intros K. apply Qle_bool_iff in K. congruence. - destruct (Qle_bool b a) eqn:E; [|reflexivity]. apply Qle_bool_iff in E. lra. Qed.
Lemma qge_iff a b : qge a b = true <-> b <= a.
Proof. unfold qge. apply Qle_bool_iff. Qed.
Lemma qge_false a b : qge a b = false -> a < b.
Proof. intros H. apply Qnot_le_lt. intros K. apply (proj2 (qge_iff a b)) in K. congruence. Qed.
Lemma qlt_false a b : qlt a b = false -> b <= a.
Proof. intros H. apply Qnot_lt_le. intros K. apply (proj2 (qlt_iff a b)) in K. congruence. Qed.

Definition pinv (f duty : Q) (t : Q) (g : pwmgen) : Prop :=
  g_f g = f /\ g_duty g = duty /\ 0 <= g_t g /\ g_t g < 1 / f /\ (exists n : Z, t == inject_Z n * (1 / f) + g_t g) /\
  (g_out g = true <-> 1 / f * (1 - duty) <= g_t g) /\ g_lost g = 0%Z.
Lemma pinv_step f duty t g dt : 0 < f -> 0 < duty -> duty < 1 -> 0 <= dt -> dt <= 1 / f * duty -> dt <= 1 / f * (1 - duty) ->
  pinv f duty t g -> pinv f duty (t + dt) (pwm_calc dt g).
Proof.
  intros Hf Hd Hd1 H0 H1 H2 (A & B & D & E & (n & N) & O & L).
  unfold pwm_calc, cycle_dur. rewrite A, B.
  destruct (Qeq_bool f 0) eqn:Z. { apply Qeq_bool_iff in Z. lra. }
  assert (S : 1 / f * duty + 1 / f * (1 - duty) == 1 / f) by ring.
  remember (1 / f) as dur eqn:Ed. remember (dur * (1 - duty)) as a eqn:Ea. remember (dur * duty) as b eqn:Eb.
  assert (P1 : qlt duty 1 = true) by (apply qlt_iff; lra). assert (P2 : qlt 0 duty = true) by (apply qlt_iff; lra). rewrite P1, P2.
  assert (Hdur : 0 < dur) by lra.
  destruct (g_out g) eqn:G.
  - assert (K : a <= g_t g) by (apply O; reflexivity). destruct (qge (g_t g + dt) dur) eqn:Q1.
    + apply qge_iff in Q1. destruct (qge (g_t g + dt - dur) dur) eqn:Q2. { apply qge_iff in Q2. lra. }
      unfold pinv. cbn [g_f g_duty g_t g_out g_lost]. rewrite <- Ed, <- Ea. split; [first [reflexivity|exact A]|]. split; [first [reflexivity|exact B]|]. split; [lra|]. split; [lra|].
      split. { exists (n + 1)%Z. rewrite inject_Z_plus. rewrite N. ring. }
      split; [|exact L]. split; [discriminate|]. intros X. lra.
    + apply qge_false in Q1. unfold pinv. cbn [g_f g_duty g_t g_out g_lost]. rewrite <- Ed, <- Ea. split; [first [reflexivity|exact A]|]. split; [first [reflexivity|exact B]|]. split; [lra|]. split; [lra|].
      split. { exists n. rewrite N. ring. }
      split; [|exact L]. split; [intros _; lra|reflexivity].
  - assert (K : g_t g < a). { apply Qnot_le_lt. intros X. apply O in X. discriminate X. }
    destruct (qge (g_t g + dt) a) eqn:Q1.
    + apply qge_iff in Q1. unfold pinv. cbn [g_f g_duty g_t g_out g_lost]. rewrite <- Ed, <- Ea. split; [first [reflexivity|exact A]|]. split; [first [reflexivity|exact B]|]. split; [lra|]. split; [lra|].
      split. { exists n. rewrite N. ring. }
      split; [|exact L]. split; [intros _; lra|reflexivity].
    + apply qge_false in Q1. unfold pinv. cbn [g_f g_duty g_t g_out g_lost]. rewrite <- Ed, <- Ea. split; [first [reflexivity|exact A]|]. split; [first [reflexivity|exact B]|]. split; [lra|]. split; [lra|].
      split. { exists n. rewrite N. ring. }
      split; [|exact L]. split; [discriminate|]. intros X. lra.
Qed.
Lemma pinv_steps f duty dts : 0 < f -> 0 < duty -> duty < 1 -> Forall (fun dt => 0 <= dt /\ dt <= 1 / f * duty /\ dt <= 1 / f * (1 - duty)) dts ->
  forall t g, pinv f duty t g -> pinv f duty (t + total dts) (pwm_calcs dts g).
Proof.
  intros Hf Hd Hd1. induction dts as [|dt r IH]; intros F t g I.
  - cbn [total pwm_calcs]. destruct I as (A & B & D & E & (n & N) & O & L). unfold pinv. repeat (split; [assumption|]). split; [exists n; lra|]. auto.
  - inversion F as [|? ? (F1 & F2 & F3) F4]; subst. cbn [total pwm_calcs].
    pose proof (IH F4 _ _ (pinv_step f duty t g dt Hf Hd Hd1 F1 F2 F3 I)) as J.
    destruct J as (A & B & D & E & (n & N) & O & L). unfold pinv. repeat (split; [assumption|]). split; [exists n; lra|]. auto.
Qed.
Lemma clamp_id f duty : 0 <= f -> 0 <= duty -> duty <= 1 -> pwm_new f duty = pwm_new f duty /\ Qmax f 0 == f /\ Qmax (Qmin duty 1) 0 == duty.
Proof.
  intros A B D. split; [reflexivity|]. split; [apply Q.max_l; exact A|]. rewrite (Q.min_l duty 1 D). apply Q.max_l. exact B.
Qed.
Lemma dur_comp f f' duty duty' : f == f' -> duty == duty' -> 1 / f == 1 / f' /\ 1 / f * (1 - duty) == 1 / f' * (1 - duty') /\ 1 / f * duty == 1 / f' * duty'.
Proof. intros A B. rewrite A, B. repeat split; reflexivity. Qed.

Lemma pwm_follows f duty dts : 0 < f -> 0 < duty -> duty < 1 ->
  Forall (fun dt => 0 <= dt /\ dt <= 1 / f * duty /\ dt <= 1 / f * (1 - duty)) dts ->
  pwm_wave (1 / f) duty (total dts) (g_out (pwm_calcs dts (pwm_new f duty))) /\ g_lost (pwm_calcs dts (pwm_new f duty)) = 0%Z.
Proof.
  intros Hf Hd Hd1 F. destruct (clamp_id f duty) as (_ & C1 & C2); try lra.
  unfold pwm_new. remember (Qmax f 0) as f' eqn:Ef. remember (Qmax (Qmin duty 1) 0) as d' eqn:Ed. clear Ef Ed.
  destruct (dur_comp f f' duty d') as (D1 & D2 & D3); [symmetry; exact C1|symmetry; exact C2|].
  assert (F' : Forall (fun dt => 0 <= dt /\ dt <= 1 / f' * d' /\ dt <= 1 / f' * (1 - d')) dts).
  { eapply Forall_impl; [|exact F]. intros dt (X1 & X2 & X3). rewrite <- D2, <- D3. auto. }
  assert (Hdur : 0 < 1 / f'). { unfold Qdiv. rewrite Qmult_1_l. apply Qinv_lt_0_compat. lra. }
  assert (I0 : pinv f' d' 0 (mkGen f' d' 0 false 0)).
  { unfold pinv. cbn [g_f g_duty g_t g_out g_lost]. repeat (split; [first [reflexivity|lra]|]). split; [exists 0%Z; ring|]. split; [|reflexivity].
    split; [discriminate|]. intros X. assert (0 < 1 / f' * (1 - d')) by (apply Qmult_lt_0_compat; lra). lra. }
  assert (J : pinv f' d' (0 + total dts) (pwm_calcs dts (mkGen f' d' 0 false 0))) by (apply pinv_steps; try lra; assumption).
  destruct J as (A & B & D & E & (n & N) & O & L). split; [|exact L].
  remember (pwm_calcs dts (mkGen f' d' 0 false 0)) as g eqn:Eg. clear Eg.
  exists (g_t g). unfold phase. rewrite D1. split; [split; [exact D|split; [exact E|exists n; rewrite D1, <- N; ring]]|]. rewrite O, C2. reflexivity.
Qed.

Lemma pwm_off f duty dts : duty <= 0 -> Forall (fun dt => 0 <= dt) dts -> g_out (pwm_calcs dts (pwm_new f duty)) = false.
Proof.
  intros Hd _. assert (K : forall g, g_out g = false -> g_duty g <= 0 -> g_out (pwm_calcs dts g) = false).
  { induction dts as [|dt r IH]; intros g A B; [exact A|]. cbn [pwm_calcs].
    assert (S : g_out (pwm_calc dt g) = false /\ g_duty (pwm_calc dt g) <= 0).
    { unfold pwm_calc. destruct (Qeq_bool _ _); [auto|]. rewrite A. assert (Q0 : qlt 0 (g_duty g) = false).
      { destruct (qlt 0 (g_duty g)) eqn:E; [|reflexivity]. apply qlt_iff in E. lra. }
      rewrite Q0. cbv zeta. destruct (qge (g_t g + dt) _); [destruct (qge _ (cycle_dur g))|]; cbn [g_out g_duty]; auto. }
    destruct S. apply IH; assumption. }
  apply K; [reflexivity|]. unfold pwm_new. cbn [g_duty].
  assert (Qmin duty 1 <= 0) by (rewrite Q.min_l; lra). rewrite Q.max_r; lra.
Qed.
Lemma pwm_on f duty dt dts : 0 < f -> 1 <= duty -> 0 <= dt -> Forall (fun dt => 0 <= dt) dts -> g_out (pwm_calcs (dt :: dts) (pwm_new f duty)) = true.
Proof.
  intros Hf Hd H0 _. cbn [pwm_calcs].
  assert (K : forall g, g_out g = true -> 1 <= g_duty g -> g_out (pwm_calcs dts g) = true).
  { induction dts as [|d r IH]; intros g A B; [exact A|]. cbn [pwm_calcs].
    assert (S : g_out (pwm_calc d g) = true /\ 1 <= g_duty (pwm_calc d g)).
    { unfold pwm_calc. destruct (Qeq_bool _ _); [auto|]. rewrite A. assert (Q0 : qlt (g_duty g) 1 = false).
      { destruct (qlt (g_duty g) 1) eqn:E; [|reflexivity]. apply qlt_iff in E. lra. }
      rewrite Q0. cbv zeta. destruct (qge (g_t g + d) _); [destruct (qge _ (cycle_dur g))|]; cbn [g_out g_duty]; auto. }
    destruct S. apply IH; assumption. }
  assert (M1 : Qmax (Qmin duty 1) 0 == 1). { rewrite (Q.min_r duty 1 Hd). apply Q.max_l. lra. }
  assert (M2 : Qmax f 0 == f) by (apply Q.max_l; lra).
  apply K; unfold pwm_new, pwm_calc; cbn [g_f g_duty g_t g_out g_lost]; remember (Qmax (Qmin duty 1) 0) as d'; remember (Qmax f 0) as f';
    (destruct (Qeq_bool f' 0) eqn:Z; [apply Qeq_bool_iff in Z; lra|]).
  - assert (Q1 : qlt 0 d' = true) by (apply qlt_iff; lra). rewrite Q1.
    assert (Q2 : qge (0 + dt) (cycle_dur (mkGen f' d' 0 false 0) * (1 - d')) = true).
    { apply qge_iff. assert (X : cycle_dur (mkGen f' d' 0 false 0) * (1 - d') == 0) by (setoid_replace (1 - d') with 0 by lra; ring). rewrite X. lra. }
    rewrite Q2. reflexivity.
  - cbv zeta. destruct (qge (0 + dt) _); [destruct (qlt 0 d')|]; cbn [g_duty]; try (destruct (qge _ _)); cbn [g_duty]; lra.
Qed.

Lemma rc_between r fact vin s : 0 <= fact -> fact <= 1 -> between (rc_v s) vin (rc_v (rc_calc r fact vin s)).
Proof.
  intros A B. unfold rc_calc, between. cbn [rc_v]. destruct (Qlt_le_dec vin (rc_v s)) as [H|H].
  - right. split; nra.
  - left. split; nra.
Qed.
Lemma rc_compose r f1 f2 vin s : rc_v (rc_calc r f2 vin (rc_calc r f1 vin s)) == rc_v (rc_calc r (f1 * f2) vin s) /\
  rc_i (rc_calc r f2 vin (rc_calc r f1 vin s)) == rc_i (rc_calc r (f1 * f2) vin s).
Proof. unfold rc_calc. cbn [rc_v rc_i]. unfold Qdiv. split; ring. Qed.
Lemma rc_ohm r fact vin s : ~ r == 0 -> rc_i (rc_calc r fact vin s) * r == vin - rc_v (rc_calc r fact vin s).
Proof. intros H. unfold rc_calc. cbn [rc_v rc_i]. field. exact H. Qed.
Lemma vd_ok r1 r2 uin : 0 < r1 -> 0 < r2 -> let '(i, u2) := vd_calc r1 r2 uin in
  i * r1 + u2 == uin /\ u2 * r1 == (i * r1) * r2 /\ between 0 uin u2.
Proof.
  intros A B. unfold vd_calc. split; [field; lra|]. split; [ring|].
  assert (P : 0 < / (r1 + r2)) by (apply Qinv_lt_0_compat; lra).
  assert (E : / (r1 + r2) * (r1 + r2) == 1) by (field; lra).
  unfold Qdiv, between. remember (/ (r1 + r2)) as k. clear Heqk.
  destruct (Qlt_le_dec uin 0) as [H|H]; [right|left].
  - assert (0 < k * r2) by nra. assert (k * r2 <= 1) by nra. split; nra.
  - assert (0 < k * r2) by nra. assert (k * r2 <= 1) by nra. split; nra.
Qed.
Lemma case103 : let dts := [1 # 10; 1 # 5; 1 # 4; 3 # 10; 2 # 5; 1 # 2; 1 # 2] in
  Forall (fun dt => 0 <= dt /\ dt <= 1 / (1 # 2) * (3 # 10) /\ dt <= 1 / (1 # 2) * (1 - (3 # 10))) dts /\
  map (fun n => g_out (pwm_calcs (firstn n dts) (pwm_new (1 # 2) (3 # 10)))) [0; 1; 2; 3; 4; 5; 6; 7]%nat = [false; false; false; false; false; false; true; false].
Proof. cbv zeta. split; [repeat constructor; discriminate|]. vm_compute. reflexivity. Qed.
Lemma pwm_coarse : exists f duty dt, 0 < f /\ 0 < duty /\ duty < 1 /\ 0 <= dt /\ dt <= 1 / f /\
  ~ pwm_wave (1 / f) duty (total [dt; dt]) (g_out (pwm_calcs [dt; dt] (pwm_new f duty))).
Proof.
  exists 1, (1 # 2), (9 # 10). repeat (split; [unfold Qlt, Qle; simpl; lia|]).
  assert (E : g_out (pwm_calcs [9 # 10; 9 # 10] (pwm_new 1 (1 # 2))) = false) by (vm_compute; reflexivity). rewrite E.
  intros (c & (A & B & (n & N)) & O). assert (U : 1 / 1 == 1) by reflexivity. rewrite U in N, B, O.
  assert (K : c < 1 # 2). { apply Qnot_le_lt. intros X. assert (true = false) by (symmetry; apply O; lra). discriminate. }
  cbn [total] in N. assert (N' : inject_Z n == (18 # 10) - c) by lra.
  assert (L1 : 13 # 10 < inject_Z n) by lra. assert (L2 : inject_Z n <= 18 # 10) by lra.
  unfold Qlt, Qle in L1, L2. cbn [Qnum Qden inject_Z] in L1, L2. lia.
Qed.
Lemma phase_unique dur t c c' : phase dur t c -> phase dur t c' -> c == c'.
Proof.
  intros (A & B & (n & N)) (A' & B' & (m & M)).
  assert (H : inject_Z (n - m) * dur == c' - c). { unfold Zminus. rewrite inject_Z_plus, inject_Z_opp. lra. }
  assert (Z : (n - m = 0)%Z).
  { destruct (Z_lt_le_dec (n - m) 0) as [L|L]; [|destruct (Z_lt_le_dec 0 (n - m)) as [R|R]; [|lia]].
    - exfalso. assert (X : inject_Z (n - m) <= inject_Z (-1)) by (rewrite <- Zle_Qle; lia). change (inject_Z (-1)) with (-1 # 1) in X. nra.
    - exfalso. assert (X : inject_Z 1 <= inject_Z (n - m)) by (rewrite <- Zle_Qle; lia). change (inject_Z 1) with 1 in X. nra. }
  rewrite Z in H. change (inject_Z 0) with 0 in H. lra.
Qed.
