(** * Proofs about scale.c and pwm_current.c *)
From Coq Require Import ZArith List Bool Lia ZifyBool.
From Verif Require Import Base PBase SpecNum MUtil MFixpt PNum PSmall MScale MPwm MTempMap MSens.
Import ListNotations.
Open Scope Z_scope.
Ltac Zify.zify_post_hook ::= Z.div_mod_to_equations.

Lemma mul64_exact x : (x * 64 + 32) / 64 = x.
Proof. lia. Qed.

Lemma big_add_eq a b : -2147483648 <= a + b <= 2147483647 -> fixpt_big_add a b = Some (a + b).
Proof. apply chk32_some. Qed.
Lemma big_sub_eq a b : -2147483648 <= a - b <= 2147483647 -> fixpt_big_sub a b = Some (a - b).
Proof. apply chk32_some. Qed.

(** Closed form of [scale] in its no-overflow region. *)
Lemma scale_eq raw rl rh pl ph :
  is_s16 (raw - rl) -> is_s16 (rh - rl) -> rh <> rl -> is_s24 pl -> is_s24 ph ->
  Z.abs ((ph - pl) * (raw - rl)) * 64 + 32 * Z.abs (rh - rl) <= 2147483647 ->
  scale raw rl rh pl ph = Some (sat24 (pl + divaway ((ph - pl) * (raw - rl)) (rh - rl))).
Proof.
  unfold is_s16, is_s24. intros H1 H2 N Hl Hh B. unfold scale, fixpt_inflate.
  rewrite big_sub_eq by lia. cbn [bind]. rewrite chk16_some by lia. cbn [bind].
  unfold int_to_fixpt_big. rewrite chk32_some by lia. cbn [bind].
  rewrite chk16_some by lia. cbn [bind]. rewrite chk32_some by lia. cbn [bind].
  set (a := ph - pl) in *. set (b := raw - rl) in *. set (c := rh - rl) in *.
  replace (fixpt_big_mul_div a (b * 64) (c * 64)) with (Some (divaway (a * b) c)).
  2:{ assert (Nc : c <> 0) by (subst c; lia). clearbody a b c.
      assert (E : (a * (b * 64) + 32) / 64 = a * b) by (rewrite Z.mul_assoc; apply mul64_exact).
      rewrite mul_div_big_eq.
      - rewrite E. symmetry. f_equal. apply divaway_scale; lia.
      - lia.
      - lia.
      - unfold is_s32. lia.
      - rewrite E. lia. }
  cbn [bind].
  assert (Z.abs (divaway (a * b) c) <= Z.abs (a * b)).
  { assert (Nc : c <> 0) by (subst c; lia).
    destruct (divaway_spec (a * b) c Nc) as [A _]. clearbody a b c. set (x := a * b) in *.
    set (q := divaway x c) in *. clearbody x q. clear - A Nc.
    assert (Z.abs q <= Z.abs x \/ Z.abs x + 1 <= Z.abs q) as [|G] by lia; [easy|exfalso].
    assert (Z.abs (q * c) <= Z.abs x + Z.abs (x - q * c)) by lia.
    rewrite Z.abs_mul in H. assert (1 <= Z.abs c) by lia.
    set (Q := Z.abs q) in *. set (C := Z.abs c) in *. set (X := Z.abs x) in *.
    assert (0 <= X) by lia. clearbody Q C X.
    assert (2 * (Q * C) <= 2 * X + C) by lia.
    assert ((X + 1) * C <= Q * C) by (apply Z.mul_le_mono_nonneg_r; lia).
    nia. }
  rewrite big_add_eq by lia. cbn [bind]. rewrite deflate_sat. do 2 f_equal. lia.
Qed.

Lemma divaway_err n d : d <> 0 -> 2 * Z.abs (divaway n d * d - n) <= Z.abs d.
Proof. intros. destruct (divaway_spec n d H) as [A _]. lia. Qed.

(** C15 general form. *)
Lemma scale_general raw rl rh pl ph :
  is_s16 (raw - rl) -> is_s16 (rh - rl) -> rl < rh -> is_s24 pl -> is_s24 ph ->
  Z.abs ((ph - pl) * (raw - rl)) * 64 + 32 * Z.abs (rh - rl) <= 2147483647 ->
  exists q, scale raw rl rh pl ph = Some (sat24 q) /\
    2 * Z.abs ((rh - rl) * (q - pl) - (raw - rl) * (ph - pl)) <= rh - rl.
Proof.
  intros. eexists. split; [apply scale_eq; auto; lia|].
  pose proof (divaway_err ((ph - pl) * (raw - rl)) (rh - rl) ltac:(lia)) as E.
  set (d := divaway _ _) in *. clearbody d. lia.
Qed.

Lemma scale_channel rl rh pl ph code :
  0 <= rl < rh -> rh <= 1023 -> -8388607 <= pl <= ph -> ph <= 8388607 ->
  (ph - pl) * 1023 <= 33000000 -> 0 <= code <= 1023 ->
  scale code rl rh pl ph = Some (sat24 (pl + divaway ((ph - pl) * (code - rl)) (rh - rl))).
Proof.
  intros. apply scale_eq; unfold is_s16, is_s24; try lia.
  assert (Z.abs ((ph - pl) * (code - rl)) <= (ph - pl) * 1023).
  { rewrite Z.abs_mul. replace (Z.abs (ph - pl)) with (ph - pl) by lia.
    apply Z.mul_le_mono_nonneg_l; lia. }
  lia.
Qed.

(** C16 *)
Lemma pwmcurr_eq p : 0 <= p <= 3200 ->
  pwmcurr_set p = Some ((divaway ((3200 - p) * 8191) 50 + 32) / 64).
Proof.
  intros. unfold pwmcurr_set, unscale, fixpt_inflate.
  change CONTRCURR_NEGLIM with 0. change CONTRCURR_POSLIM with 3200. change (s16 PWMCURR_MAX_DUTY) with 8191.
  rewrite big_sub_eq by lia. cbn [bind].
  unfold int_to_fixpt_big. rewrite chk32_some by lia. cbn [bind].
  rewrite fixpt_big_mul_eq by lia. cbn [bind].
  rewrite big_sub_eq by lia. cbn [bind]. rewrite chk32_some by lia. cbn [bind].
  rewrite fixpt_big_mul_eq by lia. cbn [bind].
  replace (((3200 - p) * (8191 * 64) + 32) / 64) with ((3200 - p) * 8191) by lia.
  replace (((p - 0) * (0 * 64) + 32) / 64) with 0 by lia.
  rewrite big_add_eq by lia. cbn [bind]. rewrite big_sub_eq by lia. cbn [bind].
  rewrite fixpt_big_div_eq; unfold is_s32; try lia. cbn [bind].
  replace (((3200 - p) * 8191 + 0) * 64) with ((3200 - p) * 8191 * 64) by lia.
  change (3200 - 0) with (50 * 64). rewrite divaway_scale by lia.
  pose proof (divaway_err ((3200 - p) * 8191) 50 ltac:(lia)) as E.
  assert (0 <= divaway ((3200 - p) * 8191) 50).
  { rewrite <- (divaway_0 50) by lia. apply divaway_mono; lia. }
  set (c := divaway _ _) in *. assert (c <= 600000) by lia.
  rewrite fixpt_big_to_int_eq by lia. destruct (c <? 0) eqn:F; [lia|]. cbn [bind].
  rewrite s16_id by lia. rewrite u16_id by lia. reflexivity.
Qed.

Lemma pwmcurr_spec p : 0 <= p <= 3200 ->
  exists v, pwmcurr_set p = Some v /\ 0 <= v <= 8191 /\
    Z.abs (3200 * v - 8191 * (3200 - p)) < 3200.
Proof.
  intros. eexists. split; [now apply pwmcurr_eq|].
  pose proof (divaway_err ((3200 - p) * 8191) 50 ltac:(lia)) as E.
  assert (0 <= divaway ((3200 - p) * 8191) 50).
  { rewrite <- (divaway_0 50) by lia. apply divaway_mono; lia. }
  assert (divaway ((3200 - p) * 8191) 50 <= divaway ((8191 * 64) * 50) 50).
  { apply divaway_mono; lia. }
  rewrite divaway_mul in H1 by lia.
  set (c := divaway _ _) in *. lia.
Qed.
Lemma pwmcurr_antitone p q v w : 0 <= p -> p <= q -> q <= 3200 ->
  pwmcurr_set p = Some v -> pwmcurr_set q = Some w -> w <= v.
Proof.
  intros Hp Hpq Hq. rewrite !pwmcurr_eq by lia. intros A B.
  apply Some_inj in A, B. subst.
  apply Z.div_le_mono; [reflexivity|]. apply Zplus_le_compat_r. apply divaway_mono; [reflexivity|].
  clear - Hpq. lia.
Qed.

(** C17 *)
Lemma temp_to_amps_eq x : -600000 <= x <= 600000 ->
  temp_to_amps x = Some (Z.max 0 (Z.min 3200 (divaway x 5))).
Proof.
  intros. unfold temp_to_amps, rescale, fixpt_inflate.
  change CONTRTEMP_MAP_TEMPLO with 0. change CONTRTEMP_MAP_TEMPHI with 16000.
  change CONTRTEMP_MAP_CURRLO with 0. change CONTRTEMP_MAP_CURRHI with 3200.
  change CONTRCURR_NEGLIM with 0. change CONTRCURR_POSLIM with 3200.
  rewrite big_sub_eq by lia. cbn [bind]. rewrite fixpt_big_mul_eq by lia. cbn [bind].
  rewrite big_sub_eq by lia. cbn [bind]. rewrite fixpt_big_mul_eq by lia. cbn [bind].
  replace ((0 * (16000 - x) + 32) / 64) with 0 by lia.
  replace ((3200 * (x - 0) + 32) / 64) with (50 * x) by lia.
  rewrite big_add_eq by lia. cbn [bind]. rewrite big_sub_eq by lia. cbn [bind].
  rewrite fixpt_big_div_eq; unfold is_s32; try lia. cbn [bind].
  replace ((0 + 50 * x) * 64) with (x * 3200) by lia.
  change (16000 - 0) with (5 * 3200). rewrite divaway_scale by lia.
  rewrite deflate_sat, clamp_eq by lia. f_equal.
  rewrite sat24_eq. clear. lia.
Qed.

Lemma temp_to_amps_spec x : 0 <= x <= 30720 ->
  exists a, temp_to_amps x = Some a /\ 0 <= a <= 3200 /\
    (x <= 16000 -> nearest_away x 5 a) /\ (16000 <= x -> a = 3200).
Proof.
  intros. eexists. split; [apply temp_to_amps_eq; lia|].
  assert (0 <= divaway x 5) by (rewrite <- (divaway_0 5) by lia; apply divaway_mono; lia).
  split; [lia|]. split; intros.
  - assert (divaway x 5 <= divaway (3200 * 5) 5) by (apply divaway_mono; lia).
    rewrite divaway_mul in H2 by lia.
    replace (Z.max _ _) with (divaway x 5) by lia. now apply divaway_spec.
  - assert (divaway (3200 * 5) 5 <= divaway x 5) by (apply divaway_mono; lia).
    rewrite divaway_mul in H2 by lia. lia.
Qed.
Lemma temp_to_amps_mono x y a b : -600000 <= x -> x <= y -> y <= 600000 ->
  temp_to_amps x = Some a -> temp_to_amps y = Some b -> a <= b.
Proof.
  intros ? L ?. rewrite !temp_to_amps_eq by lia. intros A B. apply Some_inj in A, B. subst.
  pose proof (divaway_mono x y 5 ltac:(lia) L). lia.
Qed.

(** C15 for a channel: defined everywhere, exact at the calibration points, monotone,
    error at most half an LSB. *)
Definition chan_ok (c : mconfig) : Prop :=
  0 <= mc_raw_lo c < mc_raw_hi c /\ mc_raw_hi c <= 1023 /\
  0 <= mc_phys_lo c <= mc_phys_hi c /\ mc_phys_hi c <= 32000 /\ 32 <= mc_raw_hi c - mc_raw_lo c.

Lemma chan_eq c code : chan_ok c -> 0 <= code <= 1023 ->
  scale code (mc_raw_lo c) (mc_raw_hi c) (mc_phys_lo c) (mc_phys_hi c) =
  Some (mc_phys_lo c + divaway ((mc_phys_hi c - mc_phys_lo c) * (code - mc_raw_lo c))
                               (mc_raw_hi c - mc_raw_lo c)).
Proof.
  unfold chan_ok. intros (A & B & C & D & W) H. rewrite scale_channel by lia. f_equal. apply sat24_id.
  pose proof (divaway_err ((mc_phys_hi c - mc_phys_lo c) * (code - mc_raw_lo c))
     (mc_raw_hi c - mc_raw_lo c) ltac:(lia)) as E.
  set (q := divaway _ _) in *.
  assert (M : Z.abs ((mc_phys_hi c - mc_phys_lo c) * (code - mc_raw_lo c)) <= 32000 * 1023).
  { rewrite Z.abs_mul. apply Z.mul_le_mono_nonneg; lia. }
  set (m := (mc_phys_hi c - mc_phys_lo c) * (code - mc_raw_lo c)) in *. clearbody q m.
  set (d := mc_raw_hi c - mc_raw_lo c) in *.
  assert (D0 : 0 < d <= 1023) by (subst d; lia). clearbody d.
  assert (Q : Z.abs (q * d) <= 32737000) by (clear - E M D0; lia).
  rewrite Z.abs_mul in Q. assert (32 <= Z.abs d) by (clear - W; lia).
  assert (Z.abs q * 32 <= Z.abs q * Z.abs d) by (apply Z.mul_le_mono_nonneg_l; lia).
  clear - Q H0 H1 C D. lia.
Qed.

Lemma chan_configs_ok : chan_ok meascurr_config /\ forall smd, chan_ok (meastemp_config smd).
Proof. split; [|intros []]; unfold chan_ok; cbv; repeat split; intros; discriminate. Qed.

Lemma chan_spec c : chan_ok c ->
  (forall code, 0 <= code <= 1023 ->
    exists v, scale code (mc_raw_lo c) (mc_raw_hi c) (mc_phys_lo c) (mc_phys_hi c) = Some v /\
      2 * Z.abs ((mc_raw_hi c - mc_raw_lo c) * (v - mc_phys_lo c)
                 - (code - mc_raw_lo c) * (mc_phys_hi c - mc_phys_lo c))
        <= mc_raw_hi c - mc_raw_lo c) /\
  scale (mc_raw_lo c) (mc_raw_lo c) (mc_raw_hi c) (mc_phys_lo c) (mc_phys_hi c) = Some (mc_phys_lo c) /\
  scale (mc_raw_hi c) (mc_raw_lo c) (mc_raw_hi c) (mc_phys_lo c) (mc_phys_hi c) = Some (mc_phys_hi c) /\
  (forall a b v w, 0 <= a -> a <= b -> b <= 1023 ->
     scale a (mc_raw_lo c) (mc_raw_hi c) (mc_phys_lo c) (mc_phys_hi c) = Some v ->
     scale b (mc_raw_lo c) (mc_raw_hi c) (mc_phys_lo c) (mc_phys_hi c) = Some w -> v <= w).
Proof.
  intros K. pose proof K as (A & B & C & D & W). split; [|split; [|split]].
  - intros code H. eexists. split; [now apply chan_eq|].
    pose proof (divaway_err ((mc_phys_hi c - mc_phys_lo c) * (code - mc_raw_lo c))
     (mc_raw_hi c - mc_raw_lo c) ltac:(lia)) as E. set (q := divaway _ _) in *. clearbody q. lia.
  - rewrite chan_eq by (auto; lia). rewrite Z.sub_diag, Z.mul_0_r, divaway_0 by lia. f_equal. lia.
  - rewrite chan_eq by (auto; lia). rewrite divaway_mul by lia. f_equal. lia.
  - intros a b v w Ha Hab Hb. rewrite !chan_eq by (auto; lia). intros E1 E2.
    apply Some_inj in E1, E2. subst. apply Zplus_le_compat_l. apply divaway_mono; [lia|].
    apply Z.mul_le_mono_nonneg_l; lia.
Qed.

Lemma chan_spec_configs c : c = meascurr_config \/ (exists smd, c = meastemp_config smd) ->
  (forall code, 0 <= code <= 1023 ->
    exists v, scale code (mc_raw_lo c) (mc_raw_hi c) (mc_phys_lo c) (mc_phys_hi c) = Some v /\
      2 * Z.abs ((mc_raw_hi c - mc_raw_lo c) * (v - mc_phys_lo c)
                 - (code - mc_raw_lo c) * (mc_phys_hi c - mc_phys_lo c))
        <= mc_raw_hi c - mc_raw_lo c) /\
  scale (mc_raw_lo c) (mc_raw_lo c) (mc_raw_hi c) (mc_phys_lo c) (mc_phys_hi c) = Some (mc_phys_lo c) /\
  scale (mc_raw_hi c) (mc_raw_lo c) (mc_raw_hi c) (mc_phys_lo c) (mc_phys_hi c) = Some (mc_phys_hi c) /\
  (forall a b v w, 0 <= a -> a <= b -> b <= 1023 ->
     scale a (mc_raw_lo c) (mc_raw_hi c) (mc_phys_lo c) (mc_phys_hi c) = Some v ->
     scale b (mc_raw_lo c) (mc_raw_hi c) (mc_phys_lo c) (mc_phys_hi c) = Some w -> v <= w).
Proof.
  intros H. apply chan_spec. destruct H as [->|[smd ->]]; apply chan_configs_ok.
Qed.
