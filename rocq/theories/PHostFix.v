(** * The arithmetic on the host is that of the target *)
From Coq Require Import ZArith List Bool Lia ZifyBool.
From Verif Require Import Base PBase MUtil MInt24 MFixpt MScale MFilter MTimer MPid PHost MHostFix.
Import ListNotations.
Open Scope Z_scope.

Lemma h_max : H_MAX = FIXPT_MAX. Proof. vm_compute; reflexivity. Qed.
Lemma h_min_eq : H_MIN = FIXPT_MIN. Proof. vm_compute; reflexivity. Qed.
Lemma h_bigmax : H_BIGMAX = FIXPTBIG_MAX. Proof. vm_compute; reflexivity. Qed.
Lemma h_bigmin : H_BIGMIN = FIXPTBIG_MIN. Proof. vm_compute; reflexivity. Qed.
Lemma h_zero : I_make 0 = 0. Proof. vm_compute; reflexivity. Qed.
Lemma h_deflate_eq a : h_deflate a = fixpt_deflate a.
Proof. unfold h_deflate, fixpt_deflate, I_to_int, I_make. rewrite h_max, h_min_eq, extend_s24. reflexivity. Qed.
Lemma h_big_div_eq a b : h_big_div a b = fixpt_big_div a b.
Proof. unfold h_big_div, fixpt_big_div, I_to_int. rewrite h_bigmax, h_bigmin. reflexivity. Qed.
Lemma bind_ext {A B} (m : option A) (f g : A -> option B) : (forall x, f x = g x) -> bind m f = bind m g.
Proof. intros H. destruct m; [apply H|reflexivity]. Qed.
Ltac ext := apply bind_ext; intros.
Lemma h_add_eq a b : h_add a b = fixpt_add a b.
Proof. apply bind_ext. intros x. rewrite h_deflate_eq. reflexivity. Qed.
Lemma h_sub_eq a b : h_sub a b = fixpt_sub a b.
Proof. apply bind_ext. intros x. rewrite h_deflate_eq. reflexivity. Qed.
Lemma h_mul_eq a b : h_mul a b = fixpt_mul a b.
Proof. apply bind_ext. intros x. rewrite h_deflate_eq. reflexivity. Qed.
Lemma h_div_eq a b : h_div a b = fixpt_div a b.
Proof. unfold h_div, fixpt_div. rewrite h_big_div_eq. apply bind_ext. intros x. rewrite h_deflate_eq. reflexivity. Qed.
Lemma h_big_mul_div_eq a b c : h_big_mul_div a b c = fixpt_big_mul_div a b c.
Proof. apply bind_ext. intros x. apply h_big_div_eq. Qed.
Lemma h_mul_div_eq a b c : h_mul_div a b c = fixpt_mul_div a b c.
Proof. unfold h_mul_div, fixpt_mul_div. rewrite h_big_mul_div_eq. apply bind_ext. intros x. rewrite h_deflate_eq. reflexivity. Qed.
Lemma h_neg_eq a : is_s24 a -> h_neg a = Some (fixpt_neg a).
Proof.
  intros Ha. unfold h_neg, fixpt_neg, I_to_int, I_make. rewrite h_max, h_min_eq. destruct (a <=? FIXPT_MIN); [reflexivity|].
  unfold chk32. unfold is_s24 in Ha. destruct (_ && _) eqn:E; [|exfalso; lia]. cbn [bind]. rewrite extend_s24. reflexivity.
Qed.
Lemma h_abs_eq a : is_s24 a -> h_abs a = Some (fixpt_abs a).
Proof. intros Ha. unfold h_abs, fixpt_abs, I_lt. rewrite h_zero. destruct (a <? 0); [apply h_neg_eq; exact Ha|reflexivity]. Qed.
Lemma h_clamp_eq a lo hi : h_clamp a lo hi = fixpt_clamp a lo hi.
Proof. reflexivity. Qed.
Lemma h_cclamp_eq a lo hi : h_cclamp a lo hi = cclamp a lo hi.
Proof. reflexivity. Qed.
Lemma h_add_limited_eq a b lo hi : h_add_limited a b lo hi = fixpt_add_limited a b lo hi.
Proof. unfold h_add_limited, fixpt_add_limited. rewrite h_add_eq. reflexivity. Qed.
Lemma h_dec_eq p n : is_s24 p -> h_get_dec_fract p n = fixpt_get_dec_fract p n.
Proof.
  intros Hp. unfold h_get_dec_fract, fixpt_get_dec_fract. rewrite (h_abs_eq p Hp). cbn [bind]. unfold I_and_auto, I_and, I_make, I_to_int.
  rewrite !extend_s24. change (s24 (Z.shiftl 1 6 - 1)) with 63. reflexivity.
Qed.
Lemma h_int_eq i : h_int_to_fixpt i = int_to_fixpt i.
Proof. apply bind_ext. intros x. rewrite h_deflate_eq. reflexivity. Qed.
Lemma h_part_eq p : h_get_int_part p = fixpt_get_int_part p.
Proof. unfold h_get_int_part, fixpt_get_int_part, I_to_int. rewrite h_zero. reflexivity. Qed.

Lemma h_fixpt a b c d : is_s24 a ->
  h_add a b = fixpt_add a b /\ h_sub a b = fixpt_sub a b /\ h_mul a b = fixpt_mul a b /\ h_div a b = fixpt_div a b /\
  h_mul_div a b c = fixpt_mul_div a b c /\ h_neg a = Some (fixpt_neg a) /\ h_abs a = Some (fixpt_abs a) /\
  h_clamp a b c = fixpt_clamp a b c /\ h_add_limited a b c d = fixpt_add_limited a b c d /\
  h_int_to_fixpt a = int_to_fixpt a /\ h_to_int a = fixpt_to_int a /\ h_get_int_part a = fixpt_get_int_part a /\
  h_get_dec_fract a b = fixpt_get_dec_fract a b.
Proof.
  intros Ha. exact (conj (h_add_eq a b) (conj (h_sub_eq a b) (conj (h_mul_eq a b) (conj (h_div_eq a b) (conj (h_mul_div_eq a b c) (conj (h_neg_eq a Ha)
    (conj (h_abs_eq a Ha) (conj (h_clamp_eq a b c) (conj (h_add_limited_eq a b c d) (conj (h_int_eq a) (conj eq_refl (conj (h_part_eq a) (h_dec_eq a b Ha))))))))))))).
Qed.
Lemma h_pid p dt r : h_pid_run p dt r = pid_run p dt r.
Proof.
  unfold h_pid_run, pid_run. rewrite h_sub_eq. ext. rewrite h_mul_eq. ext. rewrite h_mul_eq. ext. rewrite h_mul_eq. ext. rewrite h_add_eq. ext.
  cbv zeta. rewrite h_cclamp_eq, h_add_eq. ext. rewrite h_sub_eq. ext. rewrite h_mul_div_eq. ext. rewrite h_div_eq. ext. rewrite h_add_eq. ext. reflexivity.
Qed.
Lemma h_scaling raw raw_lo raw_hi phys phys_lo phys_hi :
  (forall v, scale raw raw_lo raw_hi phys_lo phys_hi = Some v -> h_scale raw raw_lo raw_hi phys_lo phys_hi = Some v) /\
  h_unscale phys phys_lo phys_hi raw_lo raw_hi = unscale phys phys_lo phys_hi raw_lo raw_hi.
Proof.
  split.
  - intros v E. unfold scale in E. unfold h_scale.
    assert (K : forall x y, chk16 x = Some y -> chk32 x = Some y).
    { intros x y. unfold chk16. destruct ((-32768 <=? x) && (x <=? 32767)) eqn:E1; [|discriminate]. intros H. rewrite <- H. unfold chk32.
      replace ((-2147483648 <=? x) && (x <=? 2147483647)) with true by (clear - E1; lia). reflexivity. }
    apply bind_inv in E. destruct E as (a & Ea & E). change (h_big_sub (h_inflate phys_hi) (h_inflate phys_lo)) with (fixpt_big_sub (fixpt_inflate phys_hi) (fixpt_inflate phys_lo)).
    rewrite Ea. cbn [bind]. apply bind_inv in E. destruct E as (d1 & E1 & E). rewrite (K _ _ E1). cbn [bind].
    apply bind_inv in E. destruct E as (b & Eb & E). change (h_int_to_big d1) with (int_to_fixpt_big d1). rewrite Eb. cbn [bind].
    apply bind_inv in E. destruct E as (d2 & E2 & E). rewrite (K _ _ E2). cbn [bind].
    apply bind_inv in E. destruct E as (c & Ec & E). change (h_int_to_big d2) with (int_to_fixpt_big d2). rewrite Ec. cbn [bind].
    rewrite h_big_mul_div_eq. rewrite <- E. ext. ext. rewrite h_deflate_eq. reflexivity.
  - unfold h_unscale, unscale. do 8 ext. rewrite h_big_div_eq. ext. reflexivity.
Qed.
Lemma h_rescaling a b c d e : h_rescale a b c d e = rescale a b c d e.
Proof. unfold h_rescale, rescale. do 6 ext. rewrite h_big_div_eq. ext. rewrite h_deflate_eq. reflexivity. Qed.
Lemma h_scale_wider : scale 32767 (-1) 0 0 64 = None /\ h_scale 32767 (-1) 0 0 64 = Some (32768 * 64).
Proof. vm_compute. split; reflexivity. Qed.

Lemma h_filter buf inp sh : is_u24 buf -> is_u16 inp -> 0 <= sh < 24 ->
  h_filter_u16_run buf inp sh = Some (lp_filter_u16_run buf inp sh) /\ h_filter_u16_set inp = lp_filter_u16_set inp.
Proof.
  intros Hb Hi Hs. split; [|apply mask_mod]. unfold h_filter_u16_run. destruct ((sh <? 0) || (32 <=? sh)) eqn:E; [exfalso; lia|].
  unfold lp_filter_u16_run, U_isub_auto, U_iadd_auto, U_make, U_to_uint, U_lt, cmin. cbv zeta. rewrite !mask_mod.
  assert (K : forall x, 0 <= x < 16777216 -> 0 <= Z.shiftr x sh < 16777216).
  { intros x Hx. rewrite Z.shiftr_div_pow2 by lia. assert (0 < 2 ^ sh) by (apply Z.pow_pos_nonneg; lia). split; [apply Z.div_pos; lia|].
    apply Z.le_lt_trans with x; [|lia]. apply Z.div_le_upper_bound; [lia|]. apply Z.le_trans with (1 * x); [lia|apply Z.mul_le_mono_nonneg_r; lia]. }
  unfold is_u24, is_u16 in Hb, Hi. assert (M : forall x, 0 <= x < 16777216 -> x mod 16777216 = x) by (intros; apply Z.mod_small; assumption).
  assert (M2 : forall x, u32 x mod 16777216 = u24 x) by (intros x; unfold u32, u24; clear; lia).
  rewrite !M2, (M (Z.shiftr buf sh)) by (apply K; lia). rewrite (M inp) by lia.
  set (b := u24 (u24 (buf - Z.shiftr buf sh) + inp)). assert (0 <= b < 16777216) as Rb by (subst b; unfold u24; clear; lia).
  rewrite (M (Z.shiftr b sh)) by (apply K; exact Rb). reflexivity.
Qed.
Lemma h_filter_fixpt buf inp d : h_filter_fixpt_run buf inp d = lp_filter_fixpt_run buf inp d.
Proof. unfold h_filter_fixpt_run, lp_filter_fixpt_run. cbv zeta. rewrite h_div_eq. ext. rewrite h_sub_eq. ext. rewrite h_add_eq. ext. rewrite h_div_eq. reflexivity. Qed.

Lemma h_since now t : is_u16 now -> is_u16 t -> h_timer_count_since now t = Some (timer_count_since now t).
Proof.
  intros Hn Ht. unfold is_u16 in *. unfold h_timer_count_since, timer_count_since, chk32. destruct (_ && _) eqn:E; [|exfalso; lia]. cbn [bind].
  f_equal. unfold s16, u16. clear; lia.
Qed.
Lemma h_ms m : h_timer_ms_to_count m = timer_ms_to_count m.
Proof. reflexivity. Qed.
Lemma h_tadd t m : is_u16 t -> h_timer_add t m = timer_add t m.
Proof.
  intros Ht. unfold is_u16 in Ht. unfold h_timer_add, timer_add. rewrite h_ms. ext. unfold chk32. destruct (_ && _) eqn:E; [reflexivity|exfalso]. unfold u16 in E. lia.
Qed.
Lemma h_timer now t m : is_u16 now -> is_u16 t ->
  h_timer_isr now = Some (timer_isr now) /\ h_timer_expired now t = Some (timer_expired now t) /\ h_timer_ms_since now t = timer_ms_since now t /\
  h_timer_arm now m = timer_arm now m /\ h_timer_add t m = timer_add t m.
Proof.
  intros Hn Ht. split; [|split; [|split; [|split; [exact (h_tadd now m Hn)|exact (h_tadd t m Ht)]]]].
  - unfold is_u16 in Hn. unfold h_timer_isr, chk32. destruct (_ && _) eqn:E; [reflexivity|exfalso; lia].
  - unfold h_timer_expired. rewrite (h_since now t Hn Ht). reflexivity.
  - unfold h_timer_ms_since. rewrite (h_since now t Hn Ht). reflexivity.
Qed.
Lemma h_scale_overflow : exists raw raw_lo raw_hi phys_lo phys_hi v, is_s16 raw /\ is_s16 raw_lo /\ is_s16 raw_hi /\ is_s24 phys_lo /\ is_s24 phys_hi /\
  h_scale raw raw_lo raw_hi phys_lo phys_hi = Some v /\ scale raw raw_lo raw_hi phys_lo phys_hi = None.
Proof. exists 32767, (-1), 0, 0, 64, (32768 * 64). destruct h_scale_wider as (A & B). unfold is_s16, is_s24. repeat split; (lia || assumption). Qed.
