(** * Proofs about ring.c, bitmap.h, filter.c, timer.c *)
From Coq Require Import ZArith List Bool Lia ZifyBool.
From Verif Require Import Base PBase SpecNum MUtil MFixpt PNum MRing MBitmap MFilter MTimer SpecSmall.
Import ListNotations.
Open Scope Z_scope.
Ltac Zify.zify_post_hook ::= Z.div_mod_to_equations.

(** ** Ring *)
Lemma ring_next_eq c m : 0 <= c <= m -> m <= 255 ->
  ring_next c m = if c =? m then 0 else c + 1.
Proof. intros. unfold ring_next, u8. destruct (_ <? _) eqn:E; destruct (c =? m) eqn:F; lia. Qed.
Lemma ring_prev_eq c m : 0 <= c <= m -> m <= 255 ->
  ring_prev c m = if c =? 0 then m else c - 1.
Proof. intros. unfold ring_prev, u8. destruct (_ <? _) eqn:E; destruct (c =? 0) eqn:F; lia. Qed.

Lemma ring_range c m : is_u8 c -> is_u8 m ->
  0 <= ring_next c m <= m /\ 0 <= ring_prev c m <= m.
Proof.
  unfold is_u8, ring_next, ring_prev, u8. intros. split; destruct (_ <? _) eqn:E; lia.
Qed.
Lemma ring_inverse c m : 0 <= c <= m -> m <= 255 ->
  ring_prev (ring_next c m) m = c /\ ring_next (ring_prev c m) m = c.
Proof.
  intros. rewrite ring_next_eq, (ring_prev_eq c) by lia. split.
  - rewrite ring_prev_eq; destruct (c =? m) eqn:E; try lia.
    + cbn. lia.
    + destruct (c + 1 =? 0) eqn:F; lia.
  - rewrite ring_next_eq; destruct (c =? 0) eqn:E; try lia.
    + rewrite Z.eqb_refl. lia.
    + destruct (c - 1 =? m) eqn:F; lia.
Qed.

Lemma mod_step_up a n : 0 < n -> (a + 1) mod n = if a mod n =? n - 1 then 0 else a mod n + 1.
Proof.
  intros. pose proof (Z.mod_pos_bound a n H) as B.
  pose proof (Z.div_mod a n ltac:(lia)) as E.
  destruct (a mod n =? n - 1) eqn:F.
  - symmetry. apply (Z.mod_unique_pos _ _ (a / n + 1)); lia.
  - symmetry. apply (Z.mod_unique_pos _ _ (a / n)); lia.
Qed.
Lemma mod_step_down a n : 0 < n -> (a - 1) mod n = if a mod n =? 0 then n - 1 else a mod n - 1.
Proof.
  intros. pose proof (Z.mod_pos_bound a n H) as B.
  pose proof (Z.div_mod a n ltac:(lia)) as E.
  destruct (a mod n =? 0) eqn:F.
  - symmetry. apply (Z.mod_unique_pos _ _ (a / n - 1)); lia.
  - symmetry. apply (Z.mod_unique_pos _ _ (a / n)); lia.
Qed.

Lemma ring_iter c m n : 0 <= c <= m -> m <= 255 ->
  Nat.iter n (fun x => ring_next x m) c = (c + Z.of_nat n) mod (m + 1) /\
  Nat.iter n (fun x => ring_prev x m) c = (c - Z.of_nat n) mod (m + 1).
Proof.
  intros Hc Hm. induction n as [|n [IH1 IH2]].
  - cbn. rewrite Z.add_0_r, Z.sub_0_r, Z.mod_small by lia. auto.
  - cbn [Nat.iter nat_rect]. change (nat_rect _ _ _ n) with (Nat.iter n (fun x => ring_next x m) c) at 1.
    unfold Nat.iter in IH1, IH2. unfold Nat.iter. rewrite IH1, IH2.
    rewrite Nat2Z.inj_succ. split.
    + rewrite ring_next_eq by (pose proof (Z.mod_pos_bound (c + Z.of_nat n) (m+1)); lia).
      replace (c + Z.succ (Z.of_nat n)) with (c + Z.of_nat n + 1) by lia.
      rewrite mod_step_up by lia. now replace (m + 1 - 1) with m by lia.
    + rewrite ring_prev_eq by (pose proof (Z.mod_pos_bound (c - Z.of_nat n) (m+1)); lia).
      replace (c - Z.succ (Z.of_nat n)) with (c - Z.of_nat n - 1) by lia.
      rewrite mod_step_down by lia. now replace (m + 1 - 1) with m by lia.
Qed.

Lemma ring_visits c m t : 0 <= c <= m -> m <= 255 -> 0 <= t <= m ->
  exists n : nat, Z.of_nat n <= m /\ Nat.iter n (fun x => ring_next x m) c = t /\
    forall n' : nat, Z.of_nat n' <= m -> Nat.iter n' (fun x => ring_next x m) c = t -> n' = n.
Proof.
  intros Hc Hm Ht. exists (Z.to_nat (if c <=? t then t - c else t - c + m + 1)).
  assert (E : forall n : nat, Z.of_nat n <= m ->
     (c + Z.of_nat n) mod (m + 1) = if c + Z.of_nat n <=? m then c + Z.of_nat n else c + Z.of_nat n - (m + 1)).
  { intros n Hn. destruct (c + Z.of_nat n <=? m) eqn:F.
    - apply Z.mod_small. lia.
    - symmetry. apply (Z.mod_unique_pos _ _ 1); lia. }
  split; [destruct (c <=? t) eqn:F; lia|].
  rewrite (proj1 (ring_iter c m _ Hc Hm)). rewrite E by (destruct (c <=? t) eqn:F; lia).
  split.
  - destruct (c <=? t) eqn:F.
    + destruct (_ <=? m) eqn:G; lia.
    + destruct (_ <=? m) eqn:G; lia.
  - intros n' Hn'. rewrite (proj1 (ring_iter c m _ Hc Hm)). rewrite E by lia.
    destruct (c <=? t) eqn:F; destruct (_ <=? m) eqn:G; lia.
Qed.

(** ** Bitmap *)
Lemma shr3 i : Z.shiftr i 3 = i / 8.
Proof. now rewrite Z.shiftr_div_pow2 by lia. Qed.
Lemma land7 i : Z.land i 7 = i mod 8.
Proof. change 7 with (Z.ones 3). now rewrite Z.land_ones by lia. Qed.

Lemma bitmask8_eq k : 0 <= k <= 7 -> BITMASK8 k = Some (2 ^ k).
Proof.
  intros. assert (k = 0 \/ k = 1 \/ k = 2 \/ k = 3 \/ k = 4 \/ k = 5 \/ k = 6 \/ k = 7) as D by lia.
  repeat destruct D as [->|D]; try reflexivity. now subst.
Qed.

Lemma zget_nth (l : list Z) i : 0 <= i < Z.of_nat (length l) -> zget l i = Some (nth (Z.to_nat i) l 0).
Proof.
  intros. unfold zget. destruct (i <? 0) eqn:E; [lia|]. apply nth_error_nth'. lia.
Qed.
Lemma nth_zupd (l : list Z) i v l' j : zupd l i v = Some l' -> 0 <= j < Z.of_nat (length l) ->
  nth (Z.to_nat j) l' 0 = if j =? i then v else nth (Z.to_nat j) l 0.
Proof.
  intros H Hj. pose proof (zget_zupd _ _ _ _ j H) as G. pose proof (zupd_len _ _ _ _ H) as L.
  rewrite !zget_nth in G by lia. destruct (j =? i); congruence.
Qed.

Lemma testbit_small b k : 0 <= b <= 255 -> 8 <= k -> Z.testbit b k = false.
Proof.
  intros. destruct (Z.eq_dec b 0) as [->|]; [apply Z.bits_0|].
  apply Z.bits_above_log2; [lia|]. assert (Z.log2 b < 8); [|lia].
  apply Z.log2_lt_pow2; lia.
Qed.

Lemma testbit_u8 x k : 0 <= k -> Z.testbit (u8 x) k = (k <? 8) && Z.testbit x k.
Proof.
  intros. unfold u8. change 256 with (2 ^ 8). destruct (k <? 8) eqn:E.
  - rewrite Z.mod_pow2_bits_low by lia. reflexivity.
  - rewrite Z.mod_pow2_bits_high by lia. reflexivity.
Qed.

Lemma bm_set_spec bm i : Forall is_u8 bm -> 0 <= i < 8 * Z.of_nat (length bm) ->
  exists bm', bm_set_bit bm i = Some bm' /\ length bm' = length bm /\ Forall is_u8 bm' /\
    forall j, 0 <= j < 8 * Z.of_nat (length bm) ->
      bit_of bm' j = if j =? i then true else bit_of bm j.
Proof.
  intros F Hi. unfold bm_set_bit. rewrite shr3, land7.
  rewrite zget_nth by lia. cbn [bind]. rewrite bitmask8_eq by lia. cbn [bind].
  set (b := nth _ _ _).
  destruct (zupd_some bm (i / 8) (u8 (Z.lor b (2 ^ (i mod 8))))) as [l' E]; [lia|].
  exists l'. split; [exact E|]. split; [eapply zupd_len; eauto|]. split.
  - apply Forall_forall. intros x Hx. destruct (zupd_in _ _ _ _ _ E Hx) as [->|I].
    + unfold is_u8. apply u8_range.
    + rewrite Forall_forall in F. auto.
  - intros j Hj. unfold bit_of. rewrite (nth_zupd _ _ _ _ _ E) by lia.
    destruct (j / 8 =? i / 8) eqn:G.
    + rewrite testbit_u8 by lia. rewrite Z.lor_spec, Z.pow2_bits_eqb by lia.
      assert (j / 8 = i / 8) as GE by lia. rewrite GE. fold b.
      destruct (j =? i) eqn:K.
      * replace (i mod 8 =? j mod 8) with true by lia. rewrite orb_true_r. lia.
      * replace (i mod 8 =? j mod 8) with false by lia. rewrite orb_false_r.
        replace (j mod 8 <? 8) with true by lia. reflexivity.
    + destruct (j =? i) eqn:K; [lia|reflexivity].
Qed.

Lemma bm_clear_spec bm i : Forall is_u8 bm -> 0 <= i < 8 * Z.of_nat (length bm) ->
  exists bm', bm_clear_bit bm i = Some bm' /\ length bm' = length bm /\ Forall is_u8 bm' /\
    forall j, 0 <= j < 8 * Z.of_nat (length bm) ->
      bit_of bm' j = if j =? i then false else bit_of bm j.
Proof.
  intros F Hi. unfold bm_clear_bit. rewrite shr3, land7.
  rewrite zget_nth by lia. cbn [bind]. rewrite bitmask8_eq by lia. cbn [bind].
  set (b := nth _ _ _).
  destruct (zupd_some bm (i / 8) (u8 (Z.land b (Z.lnot (2 ^ (i mod 8)))))) as [l' E]; [lia|].
  exists l'. split; [exact E|]. split; [eapply zupd_len; eauto|]. split.
  - apply Forall_forall. intros x Hx. destruct (zupd_in _ _ _ _ _ E Hx) as [->|I].
    + unfold is_u8. apply u8_range.
    + rewrite Forall_forall in F. auto.
  - intros j Hj. unfold bit_of. rewrite (nth_zupd _ _ _ _ _ E) by lia.
    destruct (j / 8 =? i / 8) eqn:G.
    + rewrite testbit_u8 by lia. rewrite Z.land_spec, Z.lnot_spec, Z.pow2_bits_eqb by lia.
      assert (j / 8 = i / 8) as GE by lia. rewrite GE. fold b.
      destruct (j =? i) eqn:K.
      * replace (i mod 8 =? j mod 8) with true by lia. cbn [negb]. rewrite andb_false_r. now rewrite andb_false_r.
      * replace (i mod 8 =? j mod 8) with false by lia. cbn [negb]. rewrite andb_true_r.
        replace (j mod 8 <? 8) with true by lia. reflexivity.
    + destruct (j =? i) eqn:K; [lia|reflexivity].
Qed.

Lemma bm_write_spec bm i v : Forall is_u8 bm -> 0 <= i < 8 * Z.of_nat (length bm) ->
  exists bm', bm_write_bit bm i v = Some bm' /\ length bm' = length bm /\ Forall is_u8 bm' /\
    forall j, 0 <= j < 8 * Z.of_nat (length bm) ->
      bit_of bm' j = if j =? i then negb (v =? 0) else bit_of bm j.
Proof.
  intros. unfold bm_write_bit. destruct (v =? 0); [now apply bm_clear_spec|now apply bm_set_spec].
Qed.

Lemma land_pow2_zero b k : 0 <= k -> (Z.land b (2 ^ k) =? 0) = negb (Z.testbit b k).
Proof.
  intros. destruct (Z.testbit b k) eqn:T; cbn [negb].
  - apply Z.eqb_neq. intros E. assert (Z.testbit (Z.land b (2 ^ k)) k = false) by (rewrite E; apply Z.bits_0).
    rewrite Z.land_spec, T, Z.pow2_bits_true in H0 by easy. discriminate.
  - apply Z.eqb_eq. apply Z.bits_inj'. intros n Hn. rewrite Z.land_spec, Z.pow2_bits_eqb, Z.bits_0 by easy.
    destruct (Z.eqb_spec k n); [subst; now rewrite T|apply andb_false_r].
Qed.

Lemma bm_get_bit_spec bm i : Forall is_u8 bm -> 0 <= i < 8 * Z.of_nat (length bm) ->
  bm_get_bit bm i = Some (if bit_of bm i then 2 ^ (i mod 8) else 0).
Proof.
  intros F Hi. unfold bm_get_bit, bit_of. rewrite shr3, land7.
  rewrite zget_nth by lia. cbn [bind]. rewrite bitmask8_eq by lia. cbn [bind]. f_equal.
  set (b := nth _ _ _).
  assert (0 <= b <= 255).
  { subst b. rewrite Forall_forall in F. apply F. apply nth_In. lia. }
  apply Z.bits_inj'. intros n Hn. rewrite testbit_u8, Z.land_spec, Z.pow2_bits_eqb by lia.
  destruct (Z.testbit b (i mod 8)) eqn:T.
  - rewrite Z.pow2_bits_eqb by lia. destruct (Z.eqb_spec (i mod 8) n).
    + subst n. rewrite T. lia.
    + now rewrite andb_false_r, andb_false_r.
  - rewrite Z.bits_0. destruct (Z.eqb_spec (i mod 8) n).
    + subst n. rewrite T. apply andb_false_r.
    + now rewrite andb_false_r, andb_false_r.
Qed.

Lemma bm_get_bool_spec bm i : Forall is_u8 bm -> 0 <= i < 8 * Z.of_nat (length bm) ->
  bm_get_bool bm i = Some (if bit_of bm i then 1 else 0).
Proof.
  intros F Hi. unfold bm_get_bool. rewrite bm_get_bit_spec by easy. cbn [bind].
  destruct (bit_of bm i); [|reflexivity].
  assert (0 < 2 ^ (i mod 8)) by (apply Z.pow_pos_nonneg; lia).
  destruct (_ =? 0) eqn:E; [lia|reflexivity].
Qed.

Lemma bm_writes_spec ws : forall bm, Forall is_u8 bm ->
  (forall i v, In (i, v) ws -> 0 <= i < 8 * Z.of_nat (length bm)) ->
  exists bm', bm_writes bm ws = Some bm' /\ length bm' = length bm /\ Forall is_u8 bm' /\
    forall j, 0 <= j < 8 * Z.of_nat (length bm) ->
      bm_get_bool bm' j = Some (if last_written (bit_of bm j) j ws then 1 else 0).
Proof.
  induction ws as [|[i v] r IH]; intros bm F H.
  - exists bm. repeat split; auto. intros. cbn. now apply bm_get_bool_spec.
  - cbn [bm_writes last_written].
    destruct (bm_write_spec bm i v F) as (b1 & E & L & F1 & S).
    { apply (H i v). now left. }
    rewrite E. cbn [bind].
    destruct (IH b1 F1) as (b2 & E2 & L2 & F2 & S2).
    { rewrite L. intros. eapply H. right. eauto. }
    exists b2. rewrite L in *. repeat split; auto. intros j Hj. rewrite S2 by easy.
    now rewrite S by easy.
Qed.

Lemma bm_init_spec n v j : 0 <= j < 8 * Z.of_nat n ->
  Forall is_u8 (bm_init n v) /\ bit_of (bm_init n v) j = negb (v =? 0).
Proof.
  intros. unfold bm_init. split.
  - apply Forall_forall. intros x I. apply repeat_spec in I. subst. unfold is_u8. destruct (v =? 0); lia.
  - unfold bit_of. rewrite (nth_indep _ 0 (if v =? 0 then 0 else 255)) by (rewrite repeat_length; lia).
    rewrite nth_repeat. destruct (v =? 0); [apply Z.bits_0|].
    change 255 with (Z.ones 8). rewrite Z.ones_spec_low by lia. reflexivity.
Qed.

(** ** 16-bit low-pass filter *)
Lemma lp_step B s x : 0 <= s <= 8 -> forall buf, 0 <= buf <= B * 2 ^ s -> 0 <= x <= B -> B <= 65535 ->
  exists buf', lp_filter_u16_run buf x s = (buf', buf' / 2 ^ s) /\
    buf' = buf - buf / 2 ^ s + x /\ 0 <= buf' <= B * 2 ^ s.
Proof.
  intros Hs buf Hb Hx HB.
  assert (P : 1 <= 2 ^ s <= 256).
  { split; [apply (Z.pow_le_mono_r 2 0 s); lia|apply (Z.pow_le_mono_r 2 s 8); lia]. }
  set (p := 2 ^ s) in *.
  assert (D : 0 <= buf / p <= buf).
  { split; [apply Z.div_pos; lia|]. apply Z.div_le_upper_bound; nia. }
  assert (U : buf - buf / p + x <= B * p).
  { pose proof (Z.div_mod buf p ltac:(lia)). pose proof (Z.mod_pos_bound buf p ltac:(lia)).
    set (q := buf / p) in *. set (m := buf mod p) in *.
    assert (q <= B) by nia.
    destruct (Z.eq_dec q B); [subst q; nia|]. assert (q + 1 <= B) by lia. nia. }
  assert (M : B * p <= 16776960) by nia.
  exists (buf - buf / p + x). split; [|lia].
  unfold lp_filter_u16_run. rewrite !Z.shiftr_div_pow2 by lia. fold p.
  rewrite (u24_id (buf - buf / p)) by lia. rewrite u24_id by lia. f_equal.
  assert ((buf - buf / p + x) / p <= B).
  { apply Z.div_le_upper_bound; lia. }
  assert (0 <= (buf - buf / p + x) / p) by (apply Z.div_pos; lia).
  unfold cmin. destruct (_ <? _) eqn:E; [apply u16_id; lia|]. rewrite u16_id; lia.
Qed.

Lemma lp_outputs_bound B s xs : 0 <= s <= 8 -> B <= 65535 -> forall buf,
  0 <= buf <= B * 2 ^ s -> Forall (fun x => 0 <= x <= B) xs ->
  Forall (fun o => 0 <= o <= B) (lp_outputs buf s xs).
Proof.
  intros Hs HB. induction xs as [|x r IH]; intros buf Hb F; [constructor|].
  inversion F; subst. cbn [lp_outputs].
  destruct (lp_step B s x Hs buf Hb H1 HB) as (b' & E & _ & R). rewrite E.
  constructor; [|now apply IH].
  assert (0 < 2 ^ s) by (apply Z.pow_pos_nonneg; lia).
  split; [apply Z.div_pos; lia|]. apply Z.div_le_upper_bound; lia.
Qed.

Lemma lp_outputs_firstn n : forall xs buf s,
  firstn n (lp_outputs buf s xs) = lp_outputs buf s (firstn n xs).
Proof.
  induction n as [|n IH]; intros [|x r] buf s; try reflexivity.
  cbn [firstn lp_outputs]. destruct (lp_filter_u16_run buf x s) as [b o]. cbn [firstn]. now rewrite IH.
Qed.
Lemma fold_max_ge l : forall m x, In x (m :: l) -> x <= fold_left Z.max l m.
Proof.
  induction l as [|a l IH]; intros m x H; cbn [fold_left].
  - destruct H as [->|[]]. lia.
  - destruct H as [->|[->|H]].
    + transitivity (Z.max x a); [lia|]. apply IH. now left.
    + transitivity (Z.max m x); [lia|]. apply IH. now left.
    + apply IH. now right.
Qed.
Lemma fold_max_le l : forall m B, m <= B -> Forall (fun x => x <= B) l -> fold_left Z.max l m <= B.
Proof.
  induction l as [|a l IH]; intros m B H F; cbn [fold_left]; [easy|]. inversion F; subst.
  apply IH; [lia|easy].
Qed.
Lemma lp_running_max s v xs n o : 0 <= s <= 8 -> is_u16 v -> Forall is_u16 xs ->
  nth_error (lp_outputs (lp_filter_u16_set v) s xs) n = Some o ->
  0 <= o <= fold_left Z.max (firstn (S n) xs) v.
Proof.
  intros Hs Hv Hx Hn. set (B := fold_left Z.max (firstn (S n) xs) v).
  assert (Fx : Forall is_u16 (firstn (S n) xs)).
  { rewrite Forall_forall in *. intros x I. apply Hx. rewrite <- (firstn_skipn (S n) xs).
    apply in_or_app. now left. }
  assert (HB : v <= B) by (apply fold_max_ge; now left).
  assert (HB2 : B <= 65535).
  { apply fold_max_le; [unfold is_u16 in Hv; lia|]. eapply Forall_impl; [|exact Fx].
    unfold is_u16. intros. lia. }
  assert (P : 1 <= 2 ^ s) by (apply (Z.pow_le_mono_r 2 0 s); lia).
  unfold is_u16 in Hv.
  assert (F : Forall (fun o => 0 <= o <= B) (lp_outputs (lp_filter_u16_set v) s (firstn (S n) xs))).
  { apply lp_outputs_bound; auto.
    - unfold lp_filter_u16_set. rewrite u24_id by lia. split; [lia|].
      transitivity (B * 1); [lia|]. apply Z.mul_le_mono_nonneg_l; lia.
    - rewrite Forall_forall in *. intros x I. split; [apply Fx in I; unfold is_u16 in I; lia|].
      apply fold_max_ge. now right. }
  rewrite <- lp_outputs_firstn in F. rewrite Forall_forall in F. apply F.
  eapply nth_error_In with (n := n). 
  assert (L : forall (l : list Z) k, nth_error (firstn (S k) l) k = nth_error l k).
  { intros l. induction l as [|a l IH]; intros [|k]; try reflexivity. exact (IH k). }
  now rewrite L.
Qed.

Lemma lp_no_wrap s xs : 0 <= s <= 8 -> forall buf,
  0 <= buf <= 65535 * 2 ^ s -> Forall is_u16 xs -> lp_final buf s xs = lp_ideal buf s xs.
Proof.
  intros Hs. induction xs as [|x r IH]; intros buf Hb F; [reflexivity|].
  inversion F; subst. cbn [lp_final lp_ideal].
  destruct (lp_step 65535 s x Hs buf Hb H1 ltac:(lia)) as (b' & E & Eb & R). rewrite E. cbn [fst].
  subst b'. now apply IH.
Qed.

Lemma lp_up s x buf : 0 <= s <= 8 -> 0 <= x <= 65535 -> 0 <= buf <= x * 2 ^ s ->
  let b := fst (lp_filter_u16_run buf x s) in
  snd (lp_filter_u16_run buf x s) = b / 2 ^ s /\
  buf <= b <= x * 2 ^ s /\ (buf < x * 2 ^ s -> buf + 1 <= b).
Proof.
  intros Hs Hx Hb. destruct (lp_step x s x Hs buf Hb ltac:(lia) ltac:(lia)) as (b' & -> & E & R).
  cbn. split; [reflexivity|]. assert (0 < 2 ^ s) by (apply Z.pow_pos_nonneg; lia).
  assert (buf / 2 ^ s <= x) by (apply Z.div_le_upper_bound; lia). split; [lia|].
  intros. assert (buf / 2 ^ s < x) by (apply Z.div_lt_upper_bound; lia). lia.
Qed.
Lemma lp_down s x buf : 0 <= s <= 8 -> 0 <= x <= 65535 -> x * 2 ^ s <= buf <= 65535 * 2 ^ s ->
  let b := fst (lp_filter_u16_run buf x s) in
  snd (lp_filter_u16_run buf x s) = b / 2 ^ s /\
  x * 2 ^ s <= b <= buf /\ ((x + 1) * 2 ^ s <= buf -> b <= buf - 1).
Proof.
  intros Hs Hx Hb. destruct (lp_step 65535 s x Hs buf) as (b' & -> & E & R); try lia.
  cbn. split; [reflexivity|].
  assert (P : 1 <= 2 ^ s <= 256).
  { split; [apply (Z.pow_le_mono_r 2 0 s); lia|apply (Z.pow_le_mono_r 2 s 8); lia]. }
  set (p := 2 ^ s) in *.
  pose proof (Z.div_mod buf p ltac:(lia)). pose proof (Z.mod_pos_bound buf p ltac:(lia)).
  set (q := buf / p) in *. set (m := buf mod p) in *.
  assert (x <= q) by nia. split; [nia|]. intros. assert (x + 1 <= q) by nia. lia.
Qed.

Lemma iter_S {A} n (f : A -> A) x : Nat.iter (S n) f x = f (Nat.iter n f x).
Proof. reflexivity. Qed.

Lemma lp_const_up s x buf n : 0 <= s <= 8 -> 0 <= x <= 65535 -> 0 <= buf <= x * 2 ^ s ->
  0 <= lp_const s x n buf <= x * 2 ^ s /\
  (lp_const s x n buf = x * 2 ^ s \/ buf + Z.of_nat n <= lp_const s x n buf).
Proof.
  intros Hs Hx Hb. unfold lp_const. induction n as [|n [IH1 IH2]]; [cbn; lia|].
  rewrite iter_S. set (c := Nat.iter n _ _) in *.
  destruct (lp_up s x c Hs Hx IH1) as (_ & A & B). split; [lia|].
  destruct (Z.eq_dec c (x * 2 ^ s)); [lia|]. right. lia.
Qed.
Lemma lp_const_down s x buf n : 0 <= s <= 8 -> 0 <= x <= 65535 -> x * 2 ^ s <= buf <= 65535 * 2 ^ s ->
  x * 2 ^ s <= lp_const s x n buf <= buf /\
  (lp_const s x n buf < (x + 1) * 2 ^ s \/ lp_const s x n buf <= buf - Z.of_nat n).
Proof.
  intros Hs Hx Hb. unfold lp_const. induction n as [|n [IH1 IH2]]; [cbn; lia|].
  rewrite iter_S. set (c := Nat.iter n _ _) in *.
  destruct (lp_down s x c Hs Hx ltac:(lia)) as (_ & A & B). split; [lia|].
  destruct (Z_lt_ge_dec c ((x+1) * 2 ^ s)); lia.
Qed.

Lemma div_mono a b c : 0 < c -> a <= b -> a / c <= b / c.
Proof. intros. now apply Z.div_le_mono. Qed.

Lemma lp_converges s x buf : 0 <= s <= 8 -> 0 <= x <= 65535 -> 0 <= buf <= 65535 * 2 ^ s ->
  (buf <= x * 2 ^ s -> forall n, lp_const_out s x n buf <= lp_const_out s x (S n) buf <= x) /\
  (x * 2 ^ s <= buf -> forall n, x <= lp_const_out s x (S n) buf <= lp_const_out s x n buf) /\
  exists N, forall n, (N <= n)%nat -> lp_const_out s x n buf = x.
Proof.
  intros Hs Hx Hb. assert (P : 0 < 2 ^ s) by (apply Z.pow_pos_nonneg; lia).
  assert (DX : x * 2 ^ s / 2 ^ s = x) by (apply Z.div_mul; lia).
  split; [|split].
  - intros L n. unfold lp_const_out.
    destruct (lp_const_up s x buf n Hs Hx ltac:(lia)) as [A _].
    destruct (lp_const_up s x buf (S n) Hs Hx ltac:(lia)) as [A' _].
    destruct (lp_up s x _ Hs Hx A) as (E & B & _).
    destruct (lp_up s x _ Hs Hx A') as (E' & B' & _).
    rewrite E, E'. unfold lp_const in *. rewrite iter_S in *.
    split; [apply div_mono; lia|]. apply Z.div_le_upper_bound; lia.
  - intros L n. unfold lp_const_out.
    destruct (lp_const_down s x buf n Hs Hx ltac:(lia)) as [A _].
    destruct (lp_const_down s x buf (S n) Hs Hx ltac:(lia)) as [A' _].
    destruct (lp_down s x _ Hs Hx ltac:(split; [apply A|lia])) as (E & B & _).
    destruct (lp_down s x _ Hs Hx ltac:(split; [apply A'|lia])) as (E' & B' & _).
    rewrite E, E'. unfold lp_const in *. rewrite iter_S in *.
    split; [|apply div_mono; lia]. apply Z.div_le_lower_bound; lia.
  - destruct (Z_le_gt_dec buf (x * 2 ^ s)) as [L|L].
    + exists (Z.to_nat (x * 2 ^ s - buf)). intros n Hn. unfold lp_const_out.
      destruct (lp_const_up s x buf n Hs Hx ltac:(lia)) as [A B].
      assert (lp_const s x n buf = x * 2 ^ s) as -> by lia.
      destruct (lp_up s x (x * 2 ^ s) Hs Hx ltac:(lia)) as (E & B' & _). rewrite E.
      etransitivity; [|exact DX]. f_equal. lia.
    + exists (Z.to_nat (buf - x * 2 ^ s)). intros n Hn. unfold lp_const_out.
      destruct (lp_const_down s x buf n Hs Hx ltac:(lia)) as [A B].
      destruct (lp_down s x (lp_const s x n buf) Hs Hx ltac:(lia)) as (E & B' & _). rewrite E.
      assert (x <= fst (lp_filter_u16_run (lp_const s x n buf) x s) / 2 ^ s).
      { apply Z.div_le_lower_bound; lia. }
      assert (fst (lp_filter_u16_run (lp_const s x n buf) x s) / 2 ^ s < x + 1); [|lia].
      apply Z.div_lt_upper_bound; lia.
Qed.

(** ** Fixed-point low-pass filter *)
Lemma divaway_mono n n' d : 0 < d -> n <= n' -> divaway n d <= divaway n' d.
Proof.
  intros Hd H. pose proof (divaway_spec n d ltac:(lia)) as [A A'].
  pose proof (divaway_spec n' d ltac:(lia)) as [B B'].
  set (q := divaway n d) in *. set (q' := divaway n' d) in *.
  destruct (Z_le_gt_dec q q'); [easy|]. exfalso.
  assert (q * d >= q' * d + d) by nia.
  assert (n - q * d = - (n' - q' * d) /\ 2 * (n' - q' * d) = d /\ q = q' + 1 /\ n = n').
  { assert (2 * (n - q * d) >= - d) by lia. assert (2 * (n' - q' * d) <= d) by lia.
    assert (q * d = q' * d + d) by lia. nia. }
  assert (Z.abs n <= Z.abs (q * d)) by (apply A'; lia).
  assert (Z.abs n' <= Z.abs (q' * d)) by (apply B'; lia).
  destruct H1 as (_ & H1 & -> & ->). assert (0 <= q' \/ q' + 1 <= 0) as [|] by lia; nia.
Qed.

Lemma divaway_unique n d r : d <> 0 -> nearest_away n d r -> divaway n d = r.
Proof. intros. eapply nearest_away_unique; eauto. now apply divaway_spec. Qed.

Lemma divaway_mul q d : d <> 0 -> divaway (q * d) d = q.
Proof.
  intros. apply divaway_unique; [easy|]. unfold nearest_away.
  rewrite Z.sub_diag. cbn. lia.
Qed.
Lemma divaway_scale n d k : 0 < k -> d <> 0 -> divaway (n * k) (d * k) = divaway n d.
Proof.
  intros. apply divaway_unique; [nia|]. pose proof (divaway_spec n d H0) as [A B].
  unfold nearest_away. replace (n * k - divaway n d * (d * k)) with ((n - divaway n d * d) * k) by lia.
  replace (divaway n d * (d * k)) with ((divaway n d * d) * k) by lia.
  rewrite !Z.abs_mul. replace (Z.abs k) with k by lia. split; [nia|].
  intros. assert (2 * Z.abs (n - divaway n d * d) = Z.abs d) by nia. apply B in H2. nia.
Qed.

(** One step of the filter with divisor [d] (an integer 1..64, raw 64*d). *)
Lemma lpf_step d lo hi x buf : 1 <= d <= 64 -> 0 <= lo <= hi -> hi <= 3200 ->
  lo * d <= buf <= hi * d -> lo <= x <= hi ->
  exists buf' out, lp_filter_fixpt_run buf x (d * 64) = Some (buf', out) /\
    lo * d <= buf' <= hi * d /\ lo <= out <= hi.
Proof.
  intros Hd Hl Hh Hb Hx. unfold lp_filter_fixpt_run.
  assert (0 <= lo * d <= 204800) by nia. assert (0 <= hi * d <= 204800) by nia.
  assert (Q : forall b, lo * d <= b <= hi * d -> lo <= divaway b d <= hi).
  { intros b Hb'. split.
    - rewrite <- (divaway_mul lo d) by lia. apply divaway_mono; lia.
    - rewrite <- (divaway_mul hi d) by lia. apply divaway_mono; lia. }
  rewrite fixpt_div_eq by (unfold is_s24; lia). rewrite divaway_scale by lia.
  pose proof (Q buf Hb) as Qb. rewrite sat24_id by lia. cbn [bind].
  rewrite fixpt_sub_eq by (unfold is_s24; lia). rewrite sat24_id by lia. cbn [bind].
  rewrite fixpt_add_eq by (unfold is_s24; lia). rewrite sat24_id by lia. cbn [bind].
  set (b2 := buf - divaway buf d + x).
  assert (R : lo * d <= b2 <= hi * d).
  { pose proof (divaway_spec buf d ltac:(lia)) as [A B]. set (q := divaway buf d) in *. subst b2.
    split.
    - destruct (Z.eq_dec q lo); [lia|].
      assert (M : (lo + 1) * (d - 1) <= q * (d - 1)) by (apply Z.mul_le_mono_nonneg_r; lia).
      assert (T : 2 * (q * d) - d <= 2 * buf) by (clear - A Hd; lia).
      clear - M T Hx Hd. lia.
    - destruct (Z.eq_dec q hi); [lia|].
      assert (M : q * (d - 1) <= (hi - 1) * (d - 1)) by (apply Z.mul_le_mono_nonneg_r; lia).
      assert (T : 2 * buf <= 2 * (q * d) + d) by (clear - A Hd; lia).
      clear - M T Hx Hd. lia. }
  rewrite fixpt_div_eq by (unfold is_s24; lia). rewrite divaway_scale by lia.
  pose proof (Q b2 R). rewrite sat24_id by lia. cbn [bind]. eauto 10.
Qed.

Lemma lpf_outputs_bound d lo hi xs : 1 <= d <= 64 -> 0 <= lo <= hi -> hi <= 3200 -> forall buf,
  lo * d <= buf <= hi * d -> Forall (fun x => lo <= x <= hi) xs ->
  exists os, lpf_outputs buf (d * 64) xs = Some os /\ length os = length xs /\
    Forall (fun o => lo <= o <= hi) os.
Proof.
  intros Hd Hl Hh. induction xs as [|x r IH]; intros buf Hb F; [exists []; cbn; auto|].
  inversion F; subst. destruct (lpf_step d lo hi x buf) as (b & o & E & B & O); auto.
  destruct (IH b B H2) as (os & Eo & L & Fo).
  exists (o :: os). cbn [lpf_outputs]. rewrite E. cbn [bind]. rewrite Eo. cbn [bind].
  cbn. repeat split; auto.
Qed.

Lemma lpf_reset d hi xs : 1 <= d <= 64 -> 0 <= hi <= 3200 -> Forall (fun x => 0 <= x <= hi) xs ->
  exists os, lpf_outputs lp_filter_fixpt_reset (d * 64) xs = Some os /\ length os = length xs /\
    Forall (fun o => 0 <= o <= hi) os.
Proof.
  intros Hd Hh F. apply lpf_outputs_bound; auto; [lia | lia |].
  change lp_filter_fixpt_reset with 0. assert (0 <= hi * d) by (apply Z.mul_nonneg_nonneg; lia). lia.
Qed.

Lemma counter_step t : 0 <= t -> timer_isr (counter t) = counter (t + 1).
Proof. intros. unfold timer_isr, counter, u16. lia. Qed.

Lemma ms_to_count_eq d : -32768 <= d <= 32767 -> timer_ms_to_count d = Some d.
Proof.
  intros. unfold timer_ms_to_count, TIMER_CPS. rewrite chk32_some by lia. cbn [bind].
  destruct (sdiv_round_up_def (1000 * d) 1000) as [r E]; unfold is_s32;
    change (2^31) with 2147483648; try lia.
  rewrite E. cbn [bind]. apply sdiv_round_up_spec in E; unfold is_s32; try lia.
  destruct E as [E _]. specialize (E ltac:(lia)). rewrite s16_id by lia. f_equal. lia.
Qed.
Lemma count_to_ms_eq c : -32768 <= c <= 32767 -> timer_count_to_ms c = Some c.
Proof.
  intros. unfold timer_count_to_ms, TIMER_CPS. rewrite chk32_some by lia. cbn [bind].
  rewrite sdiv_round_eq; unfold is_s32; try lia. now rewrite divaway_mul by lia.
Qed.
Lemma timer_arm_eq t d : 0 <= d <= 32767 -> timer_arm (counter t) d = Some (counter (t + d)).
Proof.
  intros. unfold timer_arm. rewrite ms_to_count_eq by lia. cbn [bind]. f_equal.
  unfold counter, u16. lia.
Qed.
Lemma timer_add_eq t d : 0 <= d <= 32767 -> timer_add (counter t) d = Some (counter (t + d)).
Proof.
  intros. unfold timer_add. rewrite ms_to_count_eq by lia. cbn [bind]. f_equal.
  unfold counter, u16. lia.
Qed.
Lemma count_since_eq t t0 : timer_count_since (counter t) (counter t0) = s16 (t - t0).
Proof. unfold timer_count_since, counter, u16, s16. lia. Qed.
Lemma timer_expired_eq t t0 :
  timer_expired (counter t) (counter t0) = ((t - t0) mod 65536 <? 32768).
Proof. unfold timer_expired. rewrite count_since_eq. unfold s16. lia. Qed.

Lemma timer_oneshot t0 d k : 0 <= d <= 32767 -> 0 <= k < d + 32768 ->
  exists tm, timer_arm (counter t0) d = Some tm /\
    (timer_expired (counter (t0 + k)) tm = true <-> d <= k).
Proof.
  intros. eexists; split; [now apply timer_arm_eq|]. rewrite timer_expired_eq. lia.
Qed.

Lemma ms_since_eq t0 k : 0 <= k <= 32767 ->
  timer_ms_since (counter (t0 + k)) (timer_set_now (counter t0)) = Some k.
Proof.
  intros. unfold timer_ms_since, timer_set_now. rewrite count_since_eq.
  replace (t0 + k - t0) with k by lia. rewrite s16_id by lia. apply count_to_ms_eq. lia.
Qed.

Lemma poll_timer_ideal p polls : 0 <= p <= 32767 -> forall due fs,
  ideal_timer due p polls = Some fs -> poll_timer (counter due) p polls = Some fs.
Proof.
  intros Hp. induction polls as [|t r IH]; intros due fs H; [exact H|].
  cbn [poll_timer ideal_timer] in *. destruct (_ && _) eqn:W; [|discriminate].
  rewrite timer_expired_eq. destruct (due <=? t) eqn:D.
  - replace ((t - due) mod 65536 <? 32768) with true by lia.
    rewrite timer_add_eq by easy. cbn [bind].
    destruct (ideal_timer (due + p) p r) eqn:E; [|discriminate].
    rewrite (IH _ _ E). exact H.
  - replace ((t - due) mod 65536 <? 32768) with false by lia.
    destruct (ideal_timer due p r) eqn:E; [|discriminate].
    rewrite (IH _ _ E). exact H.
Qed.

Lemma timer_expired_actual t0 d k : 0 <= d <= 32767 ->
  exists tm, timer_arm (counter t0) d = Some tm /\
    timer_expired (counter (t0 + k)) tm = ((k - d) mod 65536 <? 32768).
Proof.
  intros. eexists; split; [now apply timer_arm_eq|]. rewrite timer_expired_eq.
  do 2 f_equal. lia.
Qed.
Lemma tick_bound n : 0 <= n ->
  n * (F_CPU / 1000) <= n * tick_cpu_cycles /\
  100 * (n * tick_cpu_cycles - n * (F_CPU / 1000)) <= n * (F_CPU / 1000).
Proof. intros. change (F_CPU / 1000) with 8000. change tick_cpu_cycles with 8064. lia. Qed.
Lemma lp_prime_actual v : 0 <= v <= 1023 ->
  snd (lp_filter_u16_run (lp_filter_u16_set v) v 4) = (2 * v - v / 16) / 16.
Proof.
  intros. unfold lp_filter_u16_set. rewrite u24_id by lia.
  destruct (lp_step 1023 4 v ltac:(lia) v) as (b & -> & -> & _); [|lia|lia|].
  - change (2^4) with 16. lia.
  - cbn [snd]. change (2^4) with 16. f_equal. lia.
Qed.
