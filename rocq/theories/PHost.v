(** * Proofs about the 24-bit classes of the unit tests *)
From Coq Require Import ZArith List Bool Lia.
From Verif Require Import Base PBase MInt24 SpecHost.
Open Scope Z_scope.

Lemma mask_mod x : U_mask x = x mod 16777216.
Proof.
  unfold U_mask, u32. change 16777215 with (Z.ones 24). rewrite Z.land_ones by lia.
  change (2 ^ 24) with 16777216. clear; lia.
Qed.
Lemma mask_stored x : ustored24 x (U_mask x).
Proof. rewrite mask_mod. split; [lia|]. exists (x / 16777216). lia. Qed.
Lemma stored_mod x y v : stored24 x v -> (exists k, y = x + k * 16777216) -> stored24 y v.
Proof. intros [A [k B]] [j D]. split; [exact A|]. exists (k + j). lia. Qed.
Lemma ustored_mod x y v : ustored24 x v -> (exists k, y = x + k * 16777216) -> ustored24 y v.
Proof. intros [A [k B]] [j D]. split; [exact A|]. exists (k + j). lia. Qed.
Lemma bit23 v : 0 <= v < 16777216 -> (Z.land v (Z.shiftl 1 23) =? 0) = (v <? 8388608).
Proof.
  intros H. change (Z.shiftl 1 23) with (2 ^ 23).
  assert (E : Z.land v (2 ^ 23) = if Z.testbit v 23 then 2 ^ 23 else 0).
  { apply Z.bits_inj'. intros n Hn. rewrite Z.land_spec, Z.pow2_bits_eqb by lia.
    destruct (Z.eqb_spec 23 n) as [<-|D].
    - destruct (Z.testbit v 23); [rewrite Z.pow2_bits_true by lia|rewrite Z.bits_0]; reflexivity.
    - rewrite andb_false_r. destruct (Z.testbit v 23); [rewrite Z.pow2_bits_false by lia|rewrite Z.bits_0]; reflexivity. }
  rewrite E. destruct (Z.testbit v 23) eqn:T.
  - apply Z.testbit_true in T; [|lia]. change (2 ^ 23) with 8388608 in *. lia.
  - apply Z.testbit_false in T; [|lia]. change (2 ^ 23) with 8388608 in *. lia.
Qed.
Lemma or_high v : 0 <= v < 16777216 -> Z.lor v 4278190080 = v + 4278190080.
Proof.
  intros H. assert (Z.land v 4278190080 = 0) as K; [|rewrite <- Z.lxor_lor, <- Z.add_nocarry_lxor by exact K; reflexivity].
  apply Z.bits_inj'. intros n Hn. rewrite Z.land_spec, Z.bits_0.
  destruct (Z.ltb_spec n 24) as [L|L].
  - change 4278190080 with (255 * 2 ^ 24). rewrite Z.mul_pow2_bits_low by lia. apply andb_false_r.
  - assert (Z.testbit v n = false) as ->; [|reflexivity].
    destruct (Z.eq_dec v 0) as [->|]; [apply Z.bits_0|]. apply Z.bits_above_log2; [lia|].
    assert (Z.log2 v < 24); [apply Z.log2_lt_pow2; [lia|change (2^24) with 16777216; lia]|lia].
Qed.
Lemma extend_s24 x : I_extend x = s24 x.
Proof.
  unfold I_extend. fold (U_mask x). rewrite mask_mod. assert (0 <= x mod 16777216 < 16777216) as R by lia.
  set (v := x mod 16777216) in *. rewrite (bit23 v R). unfold s24, s32.
  destruct (Z.ltb_spec v 8388608); [|rewrite (or_high v R)]; subst v; lia.
Qed.
Lemma extend_stored x : stored24 x (I_extend x).
Proof. rewrite extend_s24. unfold s24. split; [lia|]. exists ((x + 8388608) / 16777216). lia. Qed.
Lemma quot_truncated a b : b <> 0 -> truncated a b (Z.quot a b).
Proof.
  intros H. exists (Z.rem a b). split; [apply Z.quot_rem'|]. split; [apply Z.rem_bound_abs; exact H|].
  destruct (Z.eq_dec (Z.rem a b) 0) as [|N]; [left; assumption|right; apply Z.rem_sign_nz; assumption].
Qed.

Lemma signed_ops a b : is_s24 a -> is_s24 b ->
  (exists v, I_add a b = Some v /\ stored24 (a + b) v) /\
  (exists v, I_sub a b = Some v /\ stored24 (a - b) v) /\
  (exists v, I_iadd a b = Some v /\ stored24 (a + b) v) /\
  (exists v, I_isub a b = Some v /\ stored24 (a - b) v) /\
  (exists v, I_inc a = Some v /\ stored24 (a + 1) v) /\
  (exists v, I_dec a = Some v /\ stored24 (a - 1) v) /\
  (is_s32 (a * b) -> exists v, I_mul a b = Some v /\ stored24 (a * b) v) /\
  (b <> 0 -> exists q v, truncated a b q /\ I_div a b = Some v /\ stored24 q v) /\
  stored24 (Z.land a b) (I_and a b) /\ stored24 (Z.lor a b) (I_or a b) /\ stored24 (Z.lxor a b) (I_xor a b).
Proof.
  unfold is_s24, is_s32. intros A B. unfold I_add, I_sub, I_iadd, I_isub, I_inc, I_dec, I_mul, I_div, I_make, div32.
  repeat match goal with |- _ /\ _ => split end; try (rewrite chk32_some by lia; cbn [bind]; eexists; split; [reflexivity|apply extend_stored]).
  - intros H. rewrite chk32_some by lia. cbn [bind]. eexists. split; [reflexivity|apply extend_stored].
  - intros H. destruct (Z.eqb_spec b 0) as [|_]; [contradiction|]. exists (Z.quot a b).
    assert (Z.abs (Z.quot a b) <= Z.abs a) as L.
    { rewrite <- Z.quot_abs by exact H. rewrite Z.quot_div_nonneg by lia.
      apply Z.div_le_upper_bound; [lia|]. assert (1 <= Z.abs b) by lia.
      transitivity (1 * Z.abs a); [lia|]. apply Z.mul_le_mono_nonneg_r; lia. }
    rewrite chk32_some by (clear - L A; lia). cbn [bind]. eexists. split; [apply quot_truncated; exact H|]. split; [reflexivity|apply extend_stored].
  - apply extend_stored.
  - apply extend_stored.
  - apply extend_stored.
Qed.
Lemma signed_mul_host a b : is_s24 a -> is_s24 b -> ~ is_s32 (a * b) -> I_mul a b = None.
Proof.
  intros A B H. unfold I_mul, chk32. unfold is_s32 in H.
  destruct ((-2147483648 <=? a * b) && (a * b <=? 2147483647)) eqn:E; [|reflexivity]. exfalso. apply H. lia.
Qed.
Lemma unsigned_ops a b : is_u24 a -> is_u24 b ->
  ustored24 (a + b) (U_add a b) /\ ustored24 (a - b) (U_sub a b) /\ ustored24 (a * b) (U_mul a b) /\
  ustored24 (a + b) (U_iadd a b) /\ ustored24 (a - b) (U_isub a b) /\ ustored24 (a + 1) (U_inc a) /\ ustored24 (a - 1) (U_dec a) /\
  (b <> 0 -> exists q, truncated a b q /\ U_div a b = Some q) /\
  ustored24 (Z.land a b) (U_and a b) /\ ustored24 (Z.lor a b) (U_or a b) /\ ustored24 (Z.lxor a b) (U_xor a b).
Proof.
  unfold is_u24. intros A B. unfold U_add, U_sub, U_mul, U_iadd, U_isub, U_inc, U_dec, U_div, U_make, U_and, U_or, U_xor.
  assert (forall x, ustored24 x (U_mask (u32 x))) as K.
  { intros x. apply (ustored_mod (u32 x)); [apply mask_stored|]. unfold u32. exists (x / 4294967296 * 256). lia. }
  repeat match goal with |- _ /\ _ => split end; try apply K; try apply mask_stored.
  intros H. destruct (Z.eqb_spec b 0) as [|_]; [contradiction|]. exists (Z.quot a b).
  split; [apply quot_truncated; exact H|]. f_equal. rewrite mask_mod, Z.quot_div_nonneg by lia.
  apply Z.mod_small. split; [apply Z.div_pos; lia|]. apply Z.le_lt_trans with a; [|lia].
  apply Z.div_le_upper_bound; [lia|]. transitivity (1 * a); [lia|]. apply Z.mul_le_mono_nonneg_r; lia.
Qed.
Lemma convert_ops x :
  stored24 x (I_make x) /\ ustored24 x (U_make x) /\ (is_s24 x -> I_make x = x) /\ (is_u24 x -> U_make x = x).
Proof.
  split; [apply extend_stored|]. split; [apply mask_stored|]. unfold I_make, U_make. rewrite extend_s24, mask_mod. unfold s24, is_s24, is_u24.
  split; intros; lia.
Qed.
Lemma mixed_ops a x b : stored24 x b ->
  I_add_auto a x = I_add a b /\ I_sub_auto a x = I_sub a b /\ I_mul_auto a x = I_mul a b /\ I_div_auto a x = I_div a b /\
  I_iadd_auto a x = I_iadd a b /\ I_isub_auto a x = I_isub a b /\ I_and_auto a x = I_and a b /\ I_or_auto a x = I_or a b /\ I_xor_auto a x = I_xor a b /\
  I_lt_auto a x = (a <? b) /\ I_eq_auto a x = (a =? b) /\ I_ne_auto a x = negb (a =? b) /\ I_gt_auto a x = (b <? a).
Proof.
  intros [R [k E]].
  assert (I_extend x = b) as H by (rewrite extend_s24; unfold s24; lia).
  unfold I_add_auto, I_sub_auto, I_mul_auto, I_div_auto, I_iadd_auto, I_isub_auto, I_and_auto, I_or_auto, I_xor_auto, I_lt_auto, I_eq_auto, I_ne_auto, I_gt_auto.
  rewrite H. repeat split.
Qed.
Lemma umixed_ops a x b : ustored24 x b ->
  U_add_auto a x = U_add a b /\ U_sub_auto a x = U_sub a b /\ U_mul_auto a x = U_mul a b /\ U_div_auto a x = U_div a b /\
  U_iadd_auto a x = U_iadd a b /\ U_isub_auto a x = U_isub a b /\ U_and_auto a x = U_and a b /\ U_or_auto a x = U_or a b /\ U_xor_auto a x = U_xor a b /\
  U_lt_auto a x = (a <? b) /\ U_eq_auto a x = (a =? b) /\ U_ne_auto a x = negb (a =? b) /\ U_gt_auto a x = (b <? a).
Proof.
  intros [R [k E]].
  assert (U_mask x = b) as H by (rewrite mask_mod; lia).
  unfold U_add_auto, U_sub_auto, U_mul_auto, U_div_auto, U_iadd_auto, U_isub_auto, U_and_auto, U_or_auto, U_xor_auto, U_lt_auto, U_eq_auto, U_ne_auto, U_gt_auto.
  rewrite H. repeat split.
Qed.
Lemma compare_ops a b :
  (I_lt a b = true <-> a < b) /\ (I_eq a b = true <-> a = b) /\ (I_ne a b = true <-> a <> b) /\ (I_gt a b = true <-> a > b) /\ I_to_int a = a /\
  (U_lt a b = true <-> a < b) /\ (U_eq a b = true <-> a = b) /\ (U_ne a b = true <-> a <> b) /\ (U_gt a b = true <-> a > b) /\ U_to_uint a = a.
Proof.
  unfold I_lt, I_eq, I_ne, I_gt, I_to_int, U_lt, U_eq, U_ne, U_gt, U_to_uint.
  destruct (Z.ltb_spec a b), (Z.eqb_spec a b), (Z.ltb_spec b a); cbn [negb]; repeat match goal with |- _ /\ _ => split end; try reflexivity;
    split; intros; try discriminate; try reflexivity; lia.
Qed.
Lemma mixed_compare : exists a b, is_s24 a /\ is_s32 b /\ I_lt_auto a b <> (a <? b).
Proof. exists 5, 16777216. unfold is_s24, is_s32. split; [lia|]. split; [lia|]. vm_compute. discriminate. Qed.
