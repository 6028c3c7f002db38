(** * A persistent deviation is integrated until the demand corrects it *)
From Coq Require Import ZArith List Bool Lia ZifyBool.
From Verif Require Import Base PBase MConf MUtil MFixpt MScale MRing MFilter MTimer MPid MPwm MTempMap MCurr MSens
  SpecNum SpecPid SpecSmall PNum PSmall PScale PPid SpecCurr PCurr MSettings SpecSettings PSettings PSysSet
  MSseg MDisplay MText MState MTemp MMeas MMenu MMain SpecDisplay SpecSys SpecRun SpecLive PSys PSysMeas PSysMenu PSysDisp PSysBtn
  PSysStep PSysRun PSysCC PSysSafe PSysProp PSysLog PSysWin PLive PLive2 SpecControl PControl PMem PControlEx PDemand PWarm PCool SpecDrift PDrift.
Import ListNotations.
Open Scope Z_scope.
Ltac Zify.zify_post_hook ::= Z.div_mod_to_equations.

(** ** The integrator *)
Lemma integ_up k_i e dt KE A j : 19 <= k_i -> 1 <= e <= 32768 -> 4 <= dt -> 0 <= j -> 1024 * j - 544 <= 19 * e ->
  qmul k_i e KE -> qmul KE dt A -> j <= A.
Proof.
  intros Hk He Hd Hj H (q & N & ->) (q2 & N2 & ->). unfold nearest_up in *.
  assert (19 * e <= k_i * e) by (apply Z.mul_le_mono_nonneg; lia). assert (Hj2 : j <= 609) by lia.
  assert (Bq : 0 <= q /\ 16 * j - 8 <= q) by lia. set (s := sat24 q) in *. assert (Bs : 0 <= s /\ 16 * j - 8 <= s) by (unfold s, sat24; lia). clearbody s.
  assert (s * 4 <= s * dt) by (apply Z.mul_le_mono_nonneg_l; lia). unfold sat24. lia.
Qed.
Lemma integ_down k_i e dt KE A j : 19 <= k_i -> 1 <= e <= 32768 -> 4 <= dt -> 0 <= j -> 1024 * j - 480 < 19 * e ->
  qmul k_i (- e) KE -> qmul KE dt A -> A <= - j.
Proof.
  intros Hk He Hd Hj H (q & N & ->) (q2 & N2 & ->). unfold nearest_up in *. rewrite Z.mul_opp_r in N.
  assert (19 * e <= k_i * e) by (apply Z.mul_le_mono_nonneg; lia). assert (Hj2 : j <= 609) by lia.
  assert (Bq : q <= 0 /\ q <= 7 - 16 * j) by lia. set (s := sat24 q) in *. assert (Bs : s <= 0 /\ s <= 7 - 16 * j) by (unfold s, sat24; lia). clearbody s.
  assert (s * dt <= s * 4) by (apply Z.mul_le_mono_nonpos_l; lia). unfold sat24. lia.
Qed.
(** ** The derivative term *)
Lemma deriv_up d k_d dt D : 0 <= d -> 0 <= k_d -> 0 < dt -> qmuldiv d k_d dt D -> 0 <= D.
Proof.
  intros Hd Hk Ht (m & q & N1 & (N2 & _) & ->). assert (0 <= d * k_d) by (apply Z.mul_nonneg_nonneg; lia). unfold nearest_up in N1. assert (0 <= m) by lia.
  assert (Hq : 0 <= q). { destruct (Z_lt_le_dec q 0) as [Lt|]; [exfalso|assumption]. assert (q * dt <= -1 * dt) by (apply Z.mul_le_mono_nonneg_r; lia). lia. }
  unfold sat24. lia.
Qed.
Lemma deriv_down d k_d dt D : d <= 0 -> 0 <= k_d -> 0 < dt -> qmuldiv d k_d dt D -> D <= 0.
Proof.
  intros Hd Hk Ht (m & q & N1 & (N2 & _) & ->). assert (0 <= - d * k_d) by (apply Z.mul_nonneg_nonneg; lia). rewrite Z.mul_opp_l in H. unfold nearest_up in N1. assert (m <= 0) by lia.
  assert (Hq : q <= 0). { destruct (Z_lt_le_dec 0 q) as [Lt|]; [exfalso|assumption]. assert (1 * dt <= q * dt) by (apply Z.mul_le_mono_nonneg_r; lia). lia. }
  unfold sat24. lia.
Qed.

Section Sides.
Variables (W vlo vhi j : Z).
Hypothesis Hj : 0 <= j.
Hypothesis HV : -20 * 64 <= vlo <= vhi /\ vhi <= 500 * 64.

(** ** Below the set-point *)
Definition lv_up (k i : Z) : Prop := Z.min 5120 (k * j - 1920) <= i.
Definition pe_up (E : Z) : Prop := 2 * E <= W - vlo + 1.
Definition out_up (k a : Z) : Prop := Z.min 3200 ((Z.min 5120 (k * j - 1920) + 3 * (W - vhi) / 2) / 5) <= a.
Lemma side_up : vhi <= 480 * 64 -> 1 <= W - vhi -> W - vlo < 2 * (W - vhi) -> 1024 * j - 544 <= 19 * (W - vhi) ->
  forall k_p k_i k_d I0 E0 dt r out I1 E1, 96 <= k_p -> 19 <= k_i -> 0 <= k_d -> 0 <= W <= 30975 -> vlo <= r <= vhi ->
  Z.abs E0 <= 32768 -> -1920 <= I0 <= 5120 ->
  pid_step k_p k_i k_d 128 (-30 * 64) (80 * 64) 0 (480 * 64) W I0 E0 dt r out I1 E1 ->
  pe_up E1 /\ forall k a, 0 <= k -> lv_up k I0 -> pe_up E0 -> 4 <= dt -> (out <= 250 * 64 -> nearest_away out 5 a) -> (250 * 64 <= out -> a = 5 * 640) ->
    lv_up (k + 1) I1 /\ out_up (k + 1) (if 480 * 64 <? r then 0 else a).
Proof.
  intros V1 V2 V3 V4 k_p k_i k_d I0 E0 dt r out I1 E1 Kp Ki Kd Bw Br Be Bi (P & KE & A & D & QP & QK & QA & QI & QD & Qy & QE). cbv zeta in *.
  assert (Se : sat24 (W - r) = W - r) by (unfold sat24; lia). rewrite Se in *. unfold pe_up. split.
  { destruct QE as (q & (N1 & _) & ->). clear - N1 Bw Br HV. unfold sat24. lia. }
  intros k a Hk Lv Pe Dt A1 A2. unfold lv_up, out_up in *.
  pose proof (integ_up k_i (W - r) dt KE A j Ki ltac:(lia) Dt Hj ltac:(lia) QK QA) as BA.
  destruct QD as [(_ & QD)|(Q & _)]; [|lia]. assert (BD : 0 <= D) by (apply (deriv_up _ _ _ _) with (4 := QD); [unfold sat24; lia|exact Kd|lia]).
  assert (BP : 3 * (W - vhi) / 2 <= P).
  { destruct QP as (q & N & ->). unfold nearest_up in N. assert (96 * (W - vhi) <= k_p * (W - r)) by (apply Z.mul_le_mono_nonneg; lia). clear - N H V2 Bw HV. unfold sat24. lia. }
  replace ((k + 1) * j) with (k * j + j) by ring. set (kj := k * j) in *. clearbody kj. clear QP QK QA QD QE.
  assert (B1 : Z.min 5120 (kj + j - 1920) <= I1 <= 5120).
  { subst I1. clear - Lv BA Bi Hj. unfold limit, sat24. lia. }
  split; [lia|]. replace (480 * 64 <? r) with false by lia.
  assert (Bo : Z.min 30720 (P + I1) <= out).
  { rewrite Qy. assert (0 <= P) by lia. clear - BD B1 H. unfold limit, sat24. lia. }
  clear - Bo B1 BP A1 A2. destruct (Z_le_gt_dec (250 * 64) out) as [H|H]; [rewrite (A2 H); lia|]. destruct (A1 ltac:(lia)) as (N1 & N2). lia.
Qed.

(** ** Above the set-point *)
Definition lv_dn (k i : Z) : Prop := i <= Z.max (-1920) (5120 - k * j).
Definition pe_dn (E : Z) : Prop := W - vhi - 1 <= 2 * E.
Definition out_dn (k a : Z) : Prop := a <= Z.max 0 ((Z.max (-1920) (5120 - k * j) - 3 * (vlo - W) / 2 + 2) / 5).
Lemma side_dn : 1 <= vlo - W -> vhi - W < 2 * (vlo - W) -> 1024 * j - 480 < 19 * (vlo - W) ->
  forall k_p k_i k_d I0 E0 dt r out I1 E1, 96 <= k_p -> 19 <= k_i -> 0 <= k_d -> 0 <= W <= 30975 -> vlo <= r <= vhi ->
  Z.abs E0 <= 32768 -> -1920 <= I0 <= 5120 ->
  pid_step k_p k_i k_d 128 (-30 * 64) (80 * 64) 0 (480 * 64) W I0 E0 dt r out I1 E1 ->
  pe_dn E1 /\ forall k a, 0 <= k -> lv_dn k I0 -> pe_dn E0 -> 4 <= dt -> (out <= 250 * 64 -> nearest_away out 5 a) -> (250 * 64 <= out -> a = 5 * 640) ->
    lv_dn (k + 1) I1 /\ out_dn (k + 1) (if 480 * 64 <? r then 0 else a).
Proof.
  intros V2 V3 V4 k_p k_i k_d I0 E0 dt r out I1 E1 Kp Ki Kd Bw Br Be Bi (P & KE & A & D & QP & QK & QA & QI & QD & Qy & QE). cbv zeta in *.
  assert (Se : sat24 (W - r) = W - r) by (unfold sat24; lia). rewrite Se in *. unfold pe_dn. split.
  { destruct QE as (q & (N1 & _) & ->). clear - N1 Bw Br HV. unfold sat24. lia. }
  intros k a Hk Lv Pe Dt A1 A2. unfold lv_dn, out_dn in *.
  replace (W - r) with (- (r - W)) in * by lia.
  pose proof (integ_down k_i (r - W) dt KE A j Ki ltac:(lia) Dt Hj ltac:(lia) QK QA) as BA.
  destruct QD as [(_ & QD)|(Q & _)]; [|lia]. assert (BD : D <= 0) by (apply (deriv_down _ _ _ _) with (4 := QD); [unfold sat24; lia|exact Kd|lia]).
  assert (BP : P <= - (3 * (vlo - W) / 2)).
  { destruct QP as (q & N & ->). unfold nearest_up in N. assert (96 * (vlo - W) <= k_p * (r - W)) by (apply Z.mul_le_mono_nonneg; lia). rewrite Z.mul_opp_r in N. clear - N H V2 Bw HV. unfold sat24. lia. }
  replace ((k + 1) * j) with (k * j + j) by ring. set (kj := k * j) in *. clearbody kj. clear QP QK QA QD QE.
  assert (B1 : -1920 <= I1 <= Z.max (-1920) (5120 - (kj + j)) /\ I1 <= 5120).
  { subst I1. clear - Lv BA Bi Hj. unfold limit, sat24. lia. }
  split; [lia|]. destruct (480 * 64 <? r); [lia|].
  assert (Bo : 0 <= out <= Z.max 0 (P + I1)).
  { rewrite Qy. assert (P <= 0) by lia. clear - BD B1 H. unfold limit, sat24. lia. }
  clear - Bo B1 BP A1 A2 V2. destruct (Z_le_gt_dec (250 * 64) out) as [H|H]; [rewrite (A2 H); lia|]. destruct (A1 ltac:(lia)) as (N1 & N2). lia.
Qed.
End Sides.

Lemma drift_up L lo hi C W b vlo vhi j k y w n : build_conf C -> limits_ok L ->
  -20 * 64 <= vlo <= vhi -> vhi <= 480 * 64 -> 1 <= W - vhi -> W - vlo < 2 * (W - vhi) -> 0 <= j -> 1024 * j - 544 <= 19 * (W - vhi) -> 1 <= k ->
  tracking L lo hi C W b y w n ->
  (forall c x, lo <= c <= hi -> temp_of_code C (s_adj (x_cache (y_set y))) c x -> vlo <= x <= vhi) ->
  (k + 1) * slow_cycle L < n -> (k + 1) * slow_cycle L < v_calm w -> (k + 1) * slow_cycle L + slow_window L < v_steady w ->
  Z.min (5 * 640) ((Z.min (80 * 64) (k * j - 30 * 64) + 3 * (W - vhi) / 2) / 5) <= p_setpoint (cc_pid (y_cc y)).
Proof.
  intros HC HL V1 V2 V3 V4 Hj V5 Hk D Rg H1 H2 H3.
  refine (track_demand L lo hi C W b vlo vhi HC HL _ (lv_up j) (pe_up W vlo) (out_up W vhi j) _ _ y w n k D Rg Hk H1 H2 H3).
  - lia.
  - unfold lv_up. lia.
  - apply side_up; try assumption; lia.
Qed.
Lemma drift_down L lo hi C W b vlo vhi j k y w n : build_conf C -> limits_ok L ->
  -20 * 64 <= vlo <= vhi -> vhi <= 500 * 64 -> 1 <= vlo - W -> vhi - W < 2 * (vlo - W) -> 0 <= j -> 1024 * j - 480 < 19 * (vlo - W) -> 1 <= k ->
  tracking L lo hi C W b y w n ->
  (forall c x, lo <= c <= hi -> temp_of_code C (s_adj (x_cache (y_set y))) c x -> vlo <= x <= vhi) ->
  (k + 1) * slow_cycle L < n -> (k + 1) * slow_cycle L < v_calm w -> (k + 1) * slow_cycle L + slow_window L < v_steady w ->
  p_setpoint (cc_pid (y_cc y)) <= Z.max 0 ((Z.max (-30 * 64) (80 * 64 - k * j) - 3 * (vlo - W) / 2 + 2) / 5).
Proof.
  intros HC HL V1 V2 V3 V4 Hj V5 Hk D Rg H1 H2 H3.
  refine (track_demand L lo hi C W b vlo vhi HC HL _ (lv_dn j) (pe_dn W vhi) (out_dn W vlo j) _ _ y w n k D Rg Hk H1 H2 H3).
  - lia.
  - unfold lv_dn. lia.
  - apply side_dn; try assumption; lia.
Qed.
