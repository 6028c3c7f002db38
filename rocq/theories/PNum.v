(** * Proofs about util.h/util.c and fixpt.c *)
From Coq Require Import ZArith List Bool Lia ZifyBool.
From Verif Require Import Base PBase SpecNum MUtil MFixpt.
Import ListNotations.
Open Scope Z_scope.
Ltac Zify.zify_post_hook ::= Z.div_mod_to_equations.

Lemma FIXPT_MAX_val : FIXPT_MAX = 8388607. Proof. reflexivity. Qed.
Lemma FIXPT_MIN_val : FIXPT_MIN = -8388607. Proof. reflexivity. Qed.
Lemma FIXPTBIG_MAX_val : FIXPTBIG_MAX = -1. Proof. reflexivity. Qed.
Lemma FIXPTBIG_MIN_val : FIXPTBIG_MIN = 1. Proof. reflexivity. Qed.
Lemma sat24_eq x : sat24 x = Z.max (-8388607) (Z.min 8388607 x). Proof. reflexivity. Qed.
Global Opaque FIXPT_MAX FIXPT_MIN FIXPTBIG_MAX FIXPTBIG_MIN.

Lemma deflate_sat x : fixpt_deflate x = sat24 x.
Proof.
  unfold fixpt_deflate. rewrite FIXPT_MAX_val, FIXPT_MIN_val, sat24_eq.
  destruct (8388607 <=? x) eqn:A; [lia|]. destruct (x <=? -8388607) eqn:B; [lia|].
  rewrite s24_id; lia.
Qed.

Lemma sat24_range x : -8388607 <= sat24 x <= 8388607.
Proof. rewrite sat24_eq. lia. Qed.
Lemma sat24_s24 x : is_s24 (sat24 x).
Proof. pose proof (sat24_range x). unfold is_s24. lia. Qed.
Lemma sat24_id x : -8388607 <= x <= 8388607 -> sat24 x = x.
Proof. rewrite sat24_eq. lia. Qed.

(** ** Functional forms used by all later proofs *)
Lemma fixpt_add_eq a b : is_s24 a -> is_s24 b -> fixpt_add a b = Some (sat24 (a + b)).
Proof.
  unfold is_s24, fixpt_add, fixpt_big_add, fixpt_inflate. intros.
  rewrite chk32_some by lia. cbn [bind]. now rewrite deflate_sat.
Qed.
Lemma fixpt_sub_eq a b : is_s24 a -> is_s24 b -> fixpt_sub a b = Some (sat24 (a - b)).
Proof.
  unfold is_s24, fixpt_sub, fixpt_big_sub, fixpt_inflate. intros.
  rewrite chk32_some by lia. cbn [bind]. now rewrite deflate_sat.
Qed.
Lemma fixpt_big_mul_eq a b : -2147483648 <= a * b <= 2147483647 - 32 ->
  fixpt_big_mul a b = Some ((a * b + 32) / 64).
Proof.
  intros. unfold fixpt_big_mul. rewrite chk32_some by lia. cbn [bind].
  rewrite chk32_some by lia. cbn [bind]. now rewrite shiftr6.
Qed.
Lemma fixpt_mul_eq a b : -2147483648 <= a * b <= 2147483647 - 32 ->
  fixpt_mul a b = Some (sat24 ((a * b + 32) / 64)).
Proof.
  intros. unfold fixpt_mul, fixpt_inflate. rewrite fixpt_big_mul_eq by lia. cbn [bind].
  now rewrite deflate_sat.
Qed.

(** Rounding division, ties away from zero, in closed form. *)
Definition divaway (n d : Z) : Z :=
  if ((0 <=? n) && (0 <=? d)) || ((n <? 0) && (d <? 0))
  then Z.quot (n + Z.quot d 2) d else Z.quot (n - Z.quot d 2) d.

Lemma quot2_abs d : 2 * Z.abs (Z.quot d 2) <= Z.abs d.
Proof.
  destruct (Z_le_gt_dec 0 d).
  - rewrite Z.quot_div_nonneg by lia. lia.
  - replace d with (- (- d)) by lia. rewrite Z.quot_opp_l by lia.
    rewrite Z.quot_div_nonneg by lia. lia.
Qed.

Lemma quot_bound n d : d <> 0 -> Z.abs (Z.quot n d) <= Z.abs n.
Proof.
  intros. pose proof (Z.quot_rem' n d). pose proof (Z.rem_bound_abs n d H).
  pose proof (Z.rem_sign_mul n d H). nia.
Qed.

Lemma fixpt_big_div_eq a b :
  b <> 0 -> is_s32 b -> -2147483648 <= a * 64 <= 2147483647 ->
  Z.abs (a * 64) + Z.abs b / 2 <= 2147483647 ->
  fixpt_big_div a b = Some (divaway (a * 64) b).
Proof.
  unfold is_s32. intros Hb Rb Ra Hs. unfold fixpt_big_div.
  destruct (b =? 0) eqn:E; [lia|]. rewrite chk32_some by lia. cbn [bind].
  assert (Q : Z.abs (Z.quot b 2) <= Z.abs b / 2).
  { pose proof (quot2_abs b). lia. }
  unfold div32 at 1. replace (2 =? 0) with false by reflexivity.
  rewrite chk32_some by lia. cbn [bind]. unfold divaway.
  destruct (_ || _) eqn:S.
  - rewrite chk32_some by lia. cbn [bind]. unfold div32. rewrite E.
    rewrite chk32_some; [reflexivity|].
    pose proof (quot_bound (a * 64 + Z.quot b 2) b Hb). lia.
  - rewrite chk32_some by lia. cbn [bind]. unfold div32. rewrite E.
    rewrite chk32_some; [reflexivity|].
    pose proof (quot_bound (a * 64 - Z.quot b 2) b Hb). lia.
Qed.

Lemma fixpt_div_eq a b : is_s24 a -> is_s24 b -> b <> 0 ->
  fixpt_div a b = Some (sat24 (divaway (a * 64) b)).
Proof.
  unfold is_s24. intros. unfold fixpt_div, fixpt_inflate.
  rewrite fixpt_big_div_eq; unfold is_s32; try lia. cbn [bind]. now rewrite deflate_sat.
Qed.

(** [divaway] meets the specification. *)
Lemma divaway_pos n d : 0 < d -> 0 <= n -> divaway n d = (n + d / 2) / d.
Proof.
  intros. unfold divaway. replace ((0 <=? n) && (0 <=? d)) with true by lia. cbn [orb].
  rewrite (Z.quot_div_nonneg d 2) by lia. rewrite Z.quot_div_nonneg by lia. reflexivity.
Qed.
Lemma divaway_opp_l n d : d <> 0 -> n <> 0 -> divaway (- n) d = - divaway n d.
Proof.
  intros. unfold divaway.
  destruct (((0 <=? n) && (0 <=? d)) || ((n <? 0) && (d <? 0))) eqn:A;
  destruct (((0 <=? - n) && (0 <=? d)) || ((- n <? 0) && (d <? 0))) eqn:B; try lia.
  - replace (- n - Z.quot d 2) with (- (n + Z.quot d 2)) by lia. now rewrite Z.quot_opp_l.
  - replace (- n + Z.quot d 2) with (- (n - Z.quot d 2)) by lia. now rewrite Z.quot_opp_l.
Qed.
Lemma divaway_opp_r n d : d <> 0 -> n <> 0 -> divaway n (- d) = - divaway n d.
Proof.
  intros. unfold divaway. rewrite Z.quot_opp_l by lia.
  destruct (((0 <=? n) && (0 <=? d)) || ((n <? 0) && (d <? 0))) eqn:A;
  destruct (((0 <=? n) && (0 <=? - d)) || ((n <? 0) && (- d <? 0))) eqn:B; try lia.
  - rewrite Z.quot_opp_r by lia. do 2 f_equal. lia.
  - rewrite Z.quot_opp_r by lia. do 2 f_equal. 
Qed.
Lemma divaway_0 d : d <> 0 -> divaway 0 d = 0.
Proof.
  intros. unfold divaway.
  assert (forall x, 2 * Z.abs x <= Z.abs d -> Z.quot x d = 0).
  { intros x Hx. destruct (Z.eq_dec x 0) as [->|N]; [now apply Z.quot_0_l|].
    apply Z.quot_small_iff; [easy|]. lia. }
  pose proof (quot2_abs d).
  destruct (_ || _); apply H0; lia.
Qed.

Lemma nearest_away_pos n d : 0 < d -> 0 <= n -> nearest_away n d ((n + d / 2) / d).
Proof.
  intros Hd Hn. unfold nearest_away.
  pose proof (Z.div_mod (n + d / 2) d ltac:(lia)) as E.
  pose proof (Z.mod_pos_bound (n + d / 2) d Hd) as B.
  pose proof (Z.div_mod d 2 ltac:(lia)). pose proof (Z.mod_pos_bound d 2 ltac:(lia)).
  set (q := (n + d / 2) / d) in *. set (r := (n + d / 2) mod d) in *.
  assert (n - q * d = r - d / 2) by lia. split; [lia|]. intros T.
  assert (0 <= q) by (subst q; apply Z.div_pos; lia).
  assert (0 <= q * d) by nia. lia.
Qed.

Lemma nearest_away_opp_l n d r : nearest_away n d r -> nearest_away (- n) d (- r).
Proof.
  unfold nearest_away. intros [A B].
  replace (- n - - r * d) with (- (n - r * d)) by lia.
  replace (- r * d) with (- (r * d)) by lia. rewrite !Z.abs_opp. auto.
Qed.
Lemma nearest_away_opp_r n d r : nearest_away n d r -> nearest_away n (- d) (- r).
Proof.
  unfold nearest_away. intros [A B].
  replace (- r * - d) with (r * d) by lia. rewrite Z.abs_opp. auto.
Qed.

Lemma divaway_spec n d : d <> 0 -> nearest_away n d (divaway n d).
Proof.
  intros Hd.
  assert (P : forall n d, 0 < d -> 0 <= n -> nearest_away n d (divaway n d)).
  { intros. rewrite divaway_pos by lia. now apply nearest_away_pos. }
  destruct (Z.eq_dec n 0) as [->|Hn].
  { rewrite divaway_0 by easy. unfold nearest_away. cbn. lia. }
  assert (Q : forall d, 0 < d -> nearest_away n d (divaway n d)).
  { intros d' Hd'. destruct (Z_le_gt_dec 0 n); [now apply P|].
    replace n with (- - n) by lia. rewrite divaway_opp_l by lia.
    apply nearest_away_opp_l. apply P; lia. }
  destruct (Z_le_gt_dec 0 d); [apply Q; lia|].
  replace d with (- - d) by lia. rewrite divaway_opp_r by lia.
  apply nearest_away_opp_r. apply Q. lia.
Qed.

(** The specifications determine the result. *)
Lemma nearest_up_unique n d r r' : 0 < d -> nearest_up n d r -> nearest_up n d r' -> r = r'.
Proof. unfold nearest_up. intros. nia. Qed.

Lemma nearest_away_unique_pos n d r r' : 0 < d -> 0 <= n ->
  nearest_away n d r -> nearest_away n d r' -> r = r'.
Proof.
  unfold nearest_away. intros Hd Hn [A B] [A' B'].
  assert (-d <= 2 * (n - r * d) <= d) by lia.
  assert (-d <= 2 * (n - r' * d) <= d) by lia.
  assert (r = r' \/ r' = r + 1 \/ r = r' + 1) as [|[E|E]] by nia; [easy| |].
  - subst r'. assert (2 * (n - r * d) = d) by lia. assert (2 * (n - (r+1) * d) = -d) by lia.
    assert (Z.abs n <= Z.abs (r * d)) by (apply B; lia).
    assert (0 <= r \/ r <= -1) as [|] by lia; nia.
  - subst r. assert (2 * (n - r' * d) = d) by lia. assert (2 * (n - (r'+1) * d) = -d) by lia.
    assert (Z.abs n <= Z.abs (r' * d)) by (apply B'; lia).
    assert (0 <= r' \/ r' <= -1) as [|] by lia; nia.
Qed.
Lemma nearest_away_unique n d r r' : d <> 0 ->
  nearest_away n d r -> nearest_away n d r' -> r = r'.
Proof.
  intros Hd.
  assert (P : forall n d r r', 0 < d -> nearest_away n d r -> nearest_away n d r' -> r = r').
  { clear. intros n d r r' Hd A B. destruct (Z_le_gt_dec 0 n).
    - eapply nearest_away_unique_pos; eauto.
    - apply nearest_away_opp_l in A. apply nearest_away_opp_l in B.
      assert (- r = - r') by (eapply (nearest_away_unique_pos (-n)); eauto; lia). lia. }
  intros A B. destruct (Z_le_gt_dec 0 d).
  - eapply P; eauto. lia.
  - apply nearest_away_opp_r in A. apply nearest_away_opp_r in B.
    assert (- r = - r') by (eapply P; eauto; lia). lia.
Qed.

Lemma nearest_up_div n d : 0 < d -> nearest_up n d ((2 * n + d) / (2 * d)).
Proof.
  intros. unfold nearest_up.
  pose proof (Z.div_mod (2*n+d) (2*d) ltac:(lia)).
  pose proof (Z.mod_pos_bound (2*n+d) (2*d) ltac:(lia)). nia.
Qed.
Lemma nearest_up_64 n : nearest_up n 64 ((n + 32) / 64).
Proof. unfold nearest_up. lia. Qed.

(** ** Property lemmas *)
Lemma add_sub_spec a b : is_s24 a -> is_s24 b ->
  fixpt_add a b = Some (sat24 (a + b)) /\ fixpt_sub a b = Some (sat24 (a - b)) /\
  forall lo hi, lo <= hi ->
    fixpt_add_limited a b lo hi = Some (Z.max lo (Z.min hi (sat24 (a + b)))).
Proof.
  intros Ha Hb. split; [|split].
  - now apply fixpt_add_eq.
  - now apply fixpt_sub_eq.
  - intros. unfold fixpt_add_limited. rewrite fixpt_add_eq by easy. cbn [bind].
    unfold fixpt_clamp. f_equal.
    destruct (sat24 (a + b) <? lo) eqn:E.
    + destruct (hi <? lo) eqn:G; lia.
    + destruct (hi <? sat24 (a + b)) eqn:G; lia.
Qed.

Lemma mul_spec a b r : is_s24 a -> is_s24 b ->
  (fixpt_mul a b = Some r <->
   -(2 ^ 31) <= a * b /\ a * b + 32 <= 2 ^ 31 - 1 /\
   exists q, nearest_up (a * b) 64 q /\ r = sat24 q).
Proof.
  intros _ _. change (2^31) with 2147483648. split.
  - unfold fixpt_mul, fixpt_big_mul, fixpt_inflate. intros H. binv.
    split; [lia|]. split; [lia|]. exists ((a * b + 32) / 64). split; [apply nearest_up_64|].
    now rewrite shiftr6, deflate_sat.
  - intros (A & B & q & Hq & ->). rewrite fixpt_mul_eq by lia. do 2 f_equal.
    eapply nearest_up_unique; [|apply nearest_up_64|exact Hq]. lia.
Qed.

Lemma div_spec a b : is_s24 a -> is_s24 b -> b <> 0 ->
  exists q, nearest_away (64 * a) b q /\ fixpt_div a b = Some (sat24 q).
Proof.
  intros. exists (divaway (a * 64) b). split.
  - rewrite Z.mul_comm. now apply divaway_spec.
  - now apply fixpt_div_eq.
Qed.

Lemma div_zero_actual a : is_s24 a ->
  fixpt_div a 0 = Some (if a <? 0 then 1 else -1).
Proof.
  intros. unfold fixpt_div, fixpt_big_div, fixpt_inflate. cbn [bind Z.eqb].
  rewrite FIXPTBIG_MAX_val, FIXPTBIG_MIN_val. destruct (a <? 0); reflexivity.
Qed.

Lemma mul_div_big_eq a b c :
  -2147483648 <= a * b <= 2147483647 - 32 -> c <> 0 -> is_s32 c ->
  Z.abs ((a * b + 32) / 64 * 64) + Z.abs c / 2 <= 2147483647 ->
  fixpt_big_mul_div a b c = Some (divaway ((a * b + 32) / 64 * 64) c).
Proof.
  intros. unfold fixpt_big_mul_div. rewrite fixpt_big_mul_eq by lia. cbn [bind].
  apply fixpt_big_div_eq; try easy; lia.
Qed.

Lemma neg_abs_clamp_spec a : is_s24 a ->
  fixpt_neg a = sat24 (- a) /\ fixpt_abs a = sat24 (Z.abs a) /\
  forall lo hi, lo <= hi ->
    lo <= fixpt_clamp a lo hi <= hi /\ (lo <= a <= hi -> fixpt_clamp a lo hi = a) /\
    (a < lo -> fixpt_clamp a lo hi = lo) /\ (hi < a -> fixpt_clamp a lo hi = hi).
Proof.
  unfold is_s24. intros.
  assert (N : fixpt_neg a = sat24 (- a)).
  { unfold fixpt_neg. rewrite FIXPT_MIN_val, FIXPT_MAX_val, sat24_eq.
    destruct (a <=? -8388607) eqn:E; [lia|]. rewrite s24_id; lia. }
  split; [exact N|]. split.
  - unfold fixpt_abs. rewrite N. rewrite !sat24_eq. destruct (a <? 0) eqn:E; lia.
  - intros. unfold fixpt_clamp. destruct (a <? lo) eqn:A.
    + destruct (hi <? lo) eqn:B; lia.
    + destruct (hi <? a) eqn:B; lia.
Qed.

Lemma abs_eq a : is_s24 a -> fixpt_abs a = sat24 (Z.abs a).
Proof. intros H. now destruct (neg_abs_clamp_spec a H) as (_ & ? & _). Qed.
Lemma neg_eq a : is_s24 a -> fixpt_neg a = sat24 (- a).
Proof. intros H. now destruct (neg_abs_clamp_spec a H) as (? & _). Qed.
Lemma clamp_eq a lo hi : lo <= hi -> fixpt_clamp a lo hi = Z.max lo (Z.min hi a).
Proof.
  intros. unfold fixpt_clamp. destruct (a <? lo) eqn:A.
  - destruct (hi <? lo) eqn:B; lia.
  - destruct (hi <? a) eqn:B; lia.
Qed.
Lemma cclamp_eq a lo hi : lo <= hi -> cclamp a lo hi = Z.max lo (Z.min hi a).
Proof.
  intros. unfold cclamp, cmax, cmin.
  destruct (a <? hi) eqn:A; destruct (lo <? _) eqn:B; lia.
Qed.

Lemma int_to_fixpt_eq i : -33554432 <= i <= 33554431 ->
  int_to_fixpt i = Some (sat24 (i * 64)).
Proof.
  intros. unfold int_to_fixpt, int_to_fixpt_big. rewrite chk32_some by lia. cbn [bind].
  now rewrite deflate_sat.
Qed.

Lemma fixpt_big_to_int_eq p : -2147483615 <= p <= 2147483615 ->
  fixpt_big_to_int p = Some (if p <? 0 then - ((- p + 32) / 64) else (p + 32) / 64).
Proof.
  intros. unfold fixpt_big_to_int. destruct (p <? 0) eqn:E.
  - rewrite chk32_some by lia. cbn [bind]. rewrite chk32_some by lia. cbn [bind].
    rewrite shiftr6, chk32_some by lia. reflexivity.
  - rewrite chk32_some by lia. cbn [bind]. now rewrite shiftr6.
Qed.

Lemma int_conv_spec :
  (forall i, -(2 ^ 25) <= i <= 2 ^ 25 - 1 -> int_to_fixpt i = Some (sat24 (64 * i))) /\
  (forall p, is_s24 p -> exists r, fixpt_to_int p = Some r /\ nearest_away p 64 r) /\
  (forall i, -131071 <= i <= 131071 ->
     exists p, int_to_fixpt i = Some p /\ fixpt_to_int p = Some i).
Proof.
  change (2^25) with 33554432. split; [|split].
  - intros. rewrite int_to_fixpt_eq by lia. do 2 f_equal. lia.
  - unfold is_s24, fixpt_to_int, fixpt_inflate. intros p Hp.
    rewrite fixpt_big_to_int_eq by lia. eexists; split; [reflexivity|].
    unfold nearest_away. destruct (p <? 0) eqn:E; lia.
  - intros i Hi. rewrite int_to_fixpt_eq by lia. eexists; split; [reflexivity|].
    rewrite sat24_id by lia. unfold fixpt_to_int, fixpt_inflate.
    rewrite fixpt_big_to_int_eq by lia. f_equal. destruct (i * 64 <? 0) eqn:E; lia.
Qed.

(** ** Division macros *)
Lemma div32_eq a b : b <> 0 -> -2147483648 <= a <= 2147483647 ->
  ~ (a = -2147483648 /\ b = -1) -> div32 a b = Some (Z.quot a b).
Proof.
  intros. unfold div32. destruct (b =? 0) eqn:E; [lia|]. apply chk32_some.
  destruct (Z.eq_dec b 1) as [->|]; [rewrite Z.quot_1_r; lia|].
  destruct (Z.eq_dec b (-1)) as [->|].
  { change (-1) with (- (1)). rewrite Z.quot_opp_r, Z.quot_1_r by lia. lia. }
  assert (2 <= Z.abs b) by lia.
  assert (Z.abs (Z.quot a b) <= Z.abs a / 2); [|lia].
  rewrite <- Z.quot_abs by easy. rewrite Z.quot_div_nonneg by lia.
  apply Z.div_le_compat_l; lia.
Qed.

Lemma quot_facts x d : d <> 0 ->
  x = d * Z.quot x d + Z.rem x d /\ Z.abs (Z.rem x d) < Z.abs d /\
  (0 <= x -> 0 <= Z.rem x d) /\ (x <= 0 -> Z.rem x d <= 0).
Proof.
  intros N. split; [apply Z.quot_rem'|]. split; [now apply Z.rem_bound_abs|].
  split; intros; [apply Z.rem_nonneg|apply Z.rem_nonpos]; lia.
Qed.

Lemma sdiv_round_up_spec x d r :
  is_s32 x -> is_s32 d -> d <> 0 -> sdiv_round_up x d = Some r -> is_ceil x d r.
Proof.
  unfold is_s32, sdiv_round_up, is_ceil, div32. intros Hx Hd N H.
  destruct (d =? 0) eqn:Z0; [lia|].
  destruct (xorb (x <? 0) (d <? 0)) eqn:X.
  - binv. destruct (quot_facts x d N) as (A & B & C & D).
    set (q := Z.quot x d) in *. set (m := Z.rem x d) in *.
    replace ((q - 1) * d) with (d * q - d) by lia. replace (q * d) with (d * q) by lia.
    destruct (x <? 0) eqn:E; destruct (d <? 0) eqn:F; cbn in X; try easy; lia.
  - destruct ((x <? 0) && (d <? 0)) eqn:Y.
    + binv. assert (x < 0) by lia. assert (d < 0) by lia.
      destruct (quot_facts (x + d + 1) d N) as (A & B & C & D).
      set (q := Z.quot _ _) in *. set (m := Z.rem _ _) in *.
      replace ((q - 1) * d) with (d * q - d) by lia. replace (q * d) with (d * q) by lia. lia.
    + binv. assert (0 <= x /\ 0 < d).
      { destruct (x <? 0) eqn:E; destruct (d <? 0) eqn:F; cbn in X, Y; try easy; lia. }
      destruct (quot_facts (x + d - 1) d N) as (A & B & C & D).
      set (q := Z.quot _ _) in *. set (m := Z.rem _ _) in *.
      replace ((q - 1) * d) with (d * q - d) by lia. replace (q * d) with (d * q) by lia. lia.
Qed.

(** Definedness. *)
Lemma sdiv_round_up_def x d :
  is_s32 x -> is_s32 d -> d <> 0 -> ~ (x = -(2 ^ 31) /\ d = -1) ->
  -(2 ^ 31) <= x + d <= 2 ^ 31 - 1 ->
  exists r, sdiv_round_up x d = Some r.
Proof.
  change (2^31) with 2147483648. unfold is_s32, sdiv_round_up. intros Hx Hd N M H.
  destruct (xorb (x <? 0) (d <? 0)) eqn:X.
  - rewrite div32_eq by lia. eauto.
  - destruct ((x <? 0) && (d <? 0)) eqn:Y.
    + rewrite chk32_some by lia. cbn [bind]. rewrite chk32_some by lia. cbn [bind].
      rewrite div32_eq by lia. eauto.
    + rewrite chk32_some by lia. cbn [bind]. rewrite chk32_some by lia. cbn [bind].
      rewrite div32_eq by lia. eauto.
Qed.

Lemma sdiv_round_eq x d : is_s32 x -> is_s32 d -> d <> 0 ->
  Z.abs x + Z.abs d / 2 <= 2147483647 ->
  sdiv_round x d = Some (divaway x d).
Proof.
  unfold is_s32, sdiv_round. intros Hx Hd N H.
  pose proof (quot2_abs d).
  rewrite (div32_eq d 2) by lia. cbn [bind]. unfold divaway.
  destruct (xorb (x <? 0) (d <? 0)) eqn:X.
  - replace (((0 <=? x) && (0 <=? d)) || ((x <? 0) && (d <? 0))) with false.
    2:{ destruct (x <? 0) eqn:A; destruct (d <? 0) eqn:B; cbn in X; try easy; lia. }
    rewrite chk32_some by lia. cbn [bind]. apply div32_eq; lia.
  - replace (((0 <=? x) && (0 <=? d)) || ((x <? 0) && (d <? 0))) with true.
    2:{ destruct (x <? 0) eqn:A; destruct (d <? 0) eqn:B; cbn in X; try easy; lia. }
    rewrite chk32_some by lia. cbn [bind]. apply div32_eq; lia.
Qed.

Lemma udiv_spec x d : 0 <= x -> 0 < d -> x + d <= 2 ^ 32 - 1 ->
  (exists r, udiv_round_up x d = Some r /\ is_ceil x d r) /\
  (exists r, udiv_round x d = Some r /\ nearest_away x d r).
Proof.
  change (2^32) with 4294967296. intros Hx Hd H. split.
  - unfold udiv_round_up. destruct (d =? 0) eqn:E; [lia|]. eexists; split; [reflexivity|].
    rewrite (u32_id (x + d)) by lia. rewrite u32_id by lia. unfold is_ceil. split; [|lia].
    intros _. pose proof (Z.div_mod (x + d - 1) d ltac:(lia)).
    pose proof (Z.mod_pos_bound (x + d - 1) d Hd). nia.
  - unfold udiv_round. destruct (d =? 0) eqn:E; [lia|]. eexists; split; [reflexivity|].
    assert (0 <= d / 2 <= d) by lia.
    rewrite u32_id by lia. now apply nearest_away_pos.
Qed.

(** ** pow_int *)
Lemma odd_mod2 e : Z.odd e = (e mod 2 =? 1).
Proof. rewrite Zmod_odd. now destruct (Z.odd e). Qed.

Lemma pow_sq x n : 0 <= n -> (x * x) ^ n = x ^ (2 * n).
Proof. intros. rewrite <- Z.pow_2_r. rewrite <- Z.pow_mul_r by lia. reflexivity. Qed.

Lemma pow_abs_mono x n m : 1 <= n <= m -> Z.abs (x ^ n) <= Z.abs (x ^ m).
Proof.
  intros. rewrite !Z.abs_pow. destruct (Z.eq_dec x 0) as [->|N].
  - cbn. rewrite !Z.pow_0_l by lia. lia.
  - apply Z.pow_le_mono_r; lia.
Qed.

Lemma pow_strip_ok fuel e x :
  1 <= e < 2 ^ Z.of_nat fuel -> e <= 255 -> Z.abs (x ^ e) <= 2147483647 ->
  exists e1 x1, pow_strip fuel e x = Some (e1, x1) /\ 1 <= e1 <= e /\ Z.odd e1 = true /\
    x1 ^ e1 = x ^ e.
Proof.
  revert e x. induction fuel; intros e x He H255 Hx.
  - cbn in He. lia.
  - cbn [pow_strip]. destruct (Z.odd e) eqn:O.
    + exists e, x. repeat split; auto; lia.
    + rewrite odd_mod2 in O. assert (e mod 2 = 0) by lia.
      rewrite Nat2Z.inj_succ, Z.pow_succ_r in He by lia.
      assert (E2 : e = 2 * (e / 2)) by lia.
      assert (Z.abs (x * x) <= 2147483647).
      { rewrite <- Z.pow_2_r. pose proof (pow_abs_mono x 2 e). lia. }
      rewrite chk32_some by nia. cbn [bind]. rewrite shiftr1, u8_id by lia.
      destruct (IHfuel (e / 2) (x * x)) as (e1 & x1 & P & A & B & C); try lia.
      { rewrite pow_sq by lia. rewrite <- E2. lia. }
      exists e1, x1. repeat split; auto; try lia.
      rewrite C, pow_sq by lia. now rewrite <- E2.
Qed.

Lemma abs_prod_le a b c N : 1 <= Z.abs c -> Z.abs (a * (b * c)) <= N -> Z.abs (a * b) <= N.
Proof.
  intros H1 H2. rewrite Z.mul_assoc, Z.abs_mul in H2.
  pose proof (Z.abs_nonneg (a * b)).
  set (x := Z.abs (a * b)) in *. set (y := Z.abs c) in *. clearbody x y.
  assert (x * 1 <= x * y) by (apply Z.mul_le_mono_nonneg_l; lia). lia.
Qed.
Lemma abs_le_range x : Z.abs x <= 2147483647 -> -2147483648 <= x <= 2147483647.
Proof. lia. Qed.

Lemma pow_loop_ok fuel : forall e x y,
  0 <= e < 2 ^ Z.of_nat fuel -> e <= 255 ->
  Z.abs (y * x ^ (2 * e)) <= 2147483647 -> y <> 0 \/ x = 0 ->
  (x = 0 -> y = 0) ->
  pow_loop (S fuel) e x y = Some (y * x ^ (2 * e)).
Proof.
  induction fuel; intros e x y He H255 Hb Hy Hxy.
  { cbn in He. assert (e = 0) as -> by lia. cbn. f_equal. lia. }
  change (pow_loop (S (S fuel)) e x y) with
    (if e =? 0 then Some y else
      x' <- chk32 (x * x) ;;
      y' <- (if Z.odd e then chk32 (y * x') else Some y) ;;
      pow_loop (S fuel) (u8 (Z.shiftr e 1)) x' y').
  destruct (e =? 0) eqn:E0.
  - assert (e = 0) as -> by lia. cbn [Z.mul]. rewrite Z.pow_0_r. f_equal. lia.
  - rewrite Nat2Z.inj_succ, Z.pow_succ_r in He by lia.
    assert (Eh : 0 <= e / 2 < 2 ^ Z.of_nat fuel) by lia.
    assert (Eq : u8 (Z.shiftr e 1) = e / 2) by (rewrite shiftr1, u8_id by lia; reflexivity).
    assert (E1 : 1 <= e) by lia. assert (E2 : e / 2 <= 255) by lia.
    assert (Od : e = (if Z.odd e then 1 else 0) + 2 * (e / 2)).
    { rewrite odd_mod2. destruct (e mod 2 =? 1) eqn:O; lia. }
    rewrite Eq. set (h := e / 2) in *. clearbody h. clear He E0 Eq.
    destruct (Z.eq_dec x 0) as [->|Nx].
    + rewrite (Hxy eq_refl). cbn [Z.mul]. rewrite chk32_some by lia. cbn [bind].
      assert (forall b : bool, (if b then chk32 0 else Some 0) = Some 0) as -> by (intros []; reflexivity).
      cbn [bind]. etransitivity; [apply (IHfuel h 0 0)|]; try assumption; try (now right); try reflexivity.
      cbn. lia.
    + assert (Hy' : y <> 0) by (destruct Hy; [easy|contradiction]).
      assert (Sq : x ^ (2 * e) = (x * x) ^ e) by (now rewrite pow_sq by lia).
      rewrite Sq in *. set (x2 := x * x) in *.
      assert (N2 : x2 <> 0) by (subst x2; now apply Z.neq_mul_0).
      clearbody x2. clear Sq Hxy Hy Nx x.
      assert (P0 : forall k, 0 <= k -> 1 <= Z.abs (x2 ^ k)).
      { intros k Hk. assert (x2 ^ k <> 0) by (now apply Z.pow_nonzero). lia. }
      assert (Eo : x2 ^ e = (if Z.odd e then x2 else 1) * x2 ^ (2 * h)).
      { destruct (Z.odd e); rewrite Od.
        - rewrite Z.pow_add_r by (clear - Eh; lia). now rewrite Z.pow_1_r.
        - now rewrite Z.mul_1_l, Z.add_0_l. }
      assert (X2 : Z.abs x2 <= 2147483647).
      { assert (Z.abs (x2 ^ e) <= 2147483647).
        { rewrite <- (Z.mul_1_l (x2 ^ e)). apply (abs_prod_le 1 (x2 ^ e) y); [clear - Hy'; lia|].
          rewrite Z.mul_1_l, Z.mul_comm. exact Hb. }
        pose proof (pow_abs_mono x2 1 e (conj (Z.le_refl 1) E1)) as T. rewrite Z.pow_1_r in T.
        clear - T H. lia. }
      rewrite chk32_some by now apply abs_le_range. cbn [bind].
      set (y2 := if Z.odd e then y * x2 else y).
      assert (P1 : 1 <= Z.abs (x2 ^ (2 * h))) by (apply P0; clear - Eh; lia).
      rewrite Eo in Hb |- *.
      assert (R : y * ((if Z.odd e then x2 else 1) * x2 ^ (2 * h)) = y2 * x2 ^ (2 * h)).
      { subst y2. destruct (Z.odd e); [|now rewrite Z.mul_1_l]. now rewrite Z.mul_assoc. }
      assert (Y2 : (if Z.odd e then chk32 (y * x2) else Some y) = Some y2).
      { subst y2. destruct (Z.odd e); [|reflexivity]. apply chk32_some, abs_le_range.
        eapply abs_prod_le; [exact P1|exact Hb]. }
      rewrite Y2. cbn [bind]. rewrite R in *. apply IHfuel; try assumption.
      * left. subst y2. destruct (Z.odd e); [now apply Z.neq_mul_0|exact Hy'].
      * intros. contradiction.
Qed.

Lemma pow_int_spec b e : is_s16 b -> is_u8 e -> Z.abs (b ^ e) <= 2 ^ 31 - 1 ->
  pow_int b e = Some (b ^ e).
Proof.
  change (2^31) with 2147483648. unfold is_s16, is_u8, pow_int. intros Hb He H.
  destruct (e =? 0) eqn:E.
  - assert (e = 0) as -> by lia. now rewrite Z.pow_0_r.
  - destruct (pow_strip_ok 9 e b) as (e1 & x1 & -> & A & O & C); try lia.
    cbn [bind]. rewrite shiftr1, u8_id by lia.
    rewrite odd_mod2 in O. assert (E1 : e1 = 1 + 2 * (e1 / 2)) by lia.
    assert (R : b ^ e = x1 * x1 ^ (2 * (e1 / 2))).
    { rewrite <- C. rewrite E1 at 1. rewrite Z.pow_add_r by lia. now rewrite Z.pow_1_r. }
    rewrite R. assert (Eh : 0 <= e1 / 2 < 2 ^ Z.of_nat 8) by (change (2 ^ Z.of_nat 8) with 256; lia).
    apply (pow_loop_ok 8); [exact Eh|clear - A He; lia|rewrite <- R; exact H| |auto].
    destruct (Z.eq_dec x1 0); [now right|now left].
Qed.

(** ** Decimal decomposition *)
Lemma int_part_spec p : is_s24 p ->
  exists r, fixpt_get_int_part p = Some r /\ is_trunc p 64 r.
Proof.
  unfold is_s24, fixpt_get_int_part, is_trunc. intros.
  destruct (0 <=? p) eqn:E.
  - eexists; split; [reflexivity|]. rewrite shiftr6. nia.
  - rewrite chk32_some by lia. cbn [bind]. rewrite shiftr6, chk32_some by lia.
    eexists; split; [reflexivity|]. nia.
Qed.

Lemma land63 x : 0 <= x -> Z.land x 63 = x mod 64.
Proof. intros. change 63 with (Z.ones 6). now rewrite Z.land_ones by lia. Qed.

Lemma dec_fract_eq p n : is_s24 p -> 0 <= n <= 7 ->
  fixpt_get_dec_fract p n = Some (((sat24 (Z.abs p)) mod 64 * 10 ^ n + 32) / 64).
Proof.
  intros Hp Hn. unfold fixpt_get_dec_fract.
  rewrite abs_eq by easy. set (a := sat24 (Z.abs p)).
  assert (0 <= a) by (subst a; rewrite sat24_eq; lia).
  rewrite land63 by easy. rewrite s24_id by lia.
  assert (Pb : 1 <= 10 ^ n <= 10000000).
  { split; [apply (Z.pow_le_mono_r 10 0 n); lia|]. apply (Z.pow_le_mono_r 10 n 7); lia. }
  rewrite pow_int_spec; [|unfold is_s16; lia|unfold is_u8; lia|].
  2:{ change (2^31) with 2147483648. lia. }
  cbn [bind]. rewrite (u32_id (a mod 64)) by lia. rewrite (u32_id (10 ^ n)) by lia.
  assert (0 <= a mod 64 * 10 ^ n <= 630000000) by nia.
  rewrite u32_id by lia. unfold udiv_round. change (64 =? 0) with false. cbn [negb].
  change (64 / 2) with 32. rewrite u32_id by lia. reflexivity.
Qed.

Lemma dec_fract_spec p n : is_s24 p -> 0 <= n <= 7 -> Z.abs p <= 2 ^ 23 - 1 ->
  exists r, fixpt_get_dec_fract p n = Some r /\
    nearest_up (Z.abs p mod 64 * 10 ^ n) 64 r /\
    (n = 2 \/ n = 3 -> 0 <= r < 10 ^ n).
Proof.
  intros Hp Hn Ha. change (2^23) with 8388608 in Ha. eexists. split; [now apply dec_fract_eq|].
  rewrite sat24_id by lia. split.
  - apply nearest_up_64.
  - intros [-> | ->]; [change (10^2) with 100|change (10^3) with 1000]; lia.
Qed.
