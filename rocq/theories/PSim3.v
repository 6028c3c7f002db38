(** * Proofs about the simulator: the lag of the decoder, the conversions *)
From Coq Require Import ZArith List Bool Lia.
From Verif Require Import Base PBase MConf MDebug SpecSettings SpecSys SpecControl PDebug MTele MSim SpecSim PSim PSim2.
Import ListNotations.
Open Scope Z_scope.

(** ** The lag *)
Lemma taken_pairs ch : Forall (fun d => exists a b, no13 a /\ no13 b /\ d = crlf a ++ crlf b) ch ->
  forall G k, Forall no13 G -> (k <= length G)%nat -> taken ch (concat (map crlf G)) k = (k + length ch)%nat.
Proof.
  induction 1 as [|d ch (a & b & Na & Nb & ->) _ IH]; intros G k N L; cbn [taken length]; [lia|].
  assert (E : concat (map crlf G) ++ crlf a ++ crlf b = concat (map crlf (G ++ [a; b]))) by (rewrite map_app, concat_app; cbn [map concat]; rewrite app_nil_r; reflexivity).
  assert (N' : Forall no13 (G ++ [a; b])) by (apply Forall_app; split; [exact N|repeat constructor; assumption]).
  assert (Ln : lines_in (concat (map crlf (G ++ [a; b]))) = (length G + 2)%nat).
  { rewrite <- (app_nil_r (concat _)), lines_skip by exact N'. rewrite app_length. cbn. lia. }
  rewrite E. destruct (crlf a ++ crlf b) as [|x t] eqn:Q; [destruct a; discriminate Q|]. rewrite Ln. replace (Nat.min (S k) (length G + 2)) with (S k) by lia.
  rewrite IH; [lia|exact N'|rewrite app_length; cbn; lia].
Qed.
Lemma pair_seg now c v : is_s24 v -> exists s, print_int true now (Some (prefix0 c)) (prefix1 c) v = Some (crlf s) /\ no13 s.
Proof. intros R. destruct (value_seg now c v R) as (s & E & N & _). exists s. split; assumption. Qed.
Lemma pairs_stream now c (v : nat -> Z) : (forall i, is_s24 (v i)) -> forall n k, exists ch,
  Forall2 (fun i d => exists a b, print_int true now (Some (prefix0 c)) (prefix1 c) (v (2 * i)%nat) = Some a /\
                                  print_int true now (Some (prefix0 c)) (prefix1 c) (v (2 * i + 1)%nat) = Some b /\ d = a ++ b) (seq k n) ch /\
  Forall (fun d => exists a b, no13 a /\ no13 b /\ d = crlf a ++ crlf b) ch /\
  sstream (map (fun i => SVal now c (v i)) (seq (2 * k) (2 * n))) (concat ch).
Proof.
  intros R. induction n as [|n IH]; intros k.
  - exists []. split; [constructor|]. split; constructor.
  - destruct (IH (S k)) as (ch & F & P & T). destruct (pair_seg now c _ (R (2 * k)%nat)) as (a & Ea & Na). destruct (pair_seg now c _ (R (2 * k + 1)%nat)) as (b & Eb & Nb).
    exists ((crlf a ++ crlf b) :: ch). split; [|split].
    + cbn [seq]. constructor; [|exact F]. exists (crlf a), (crlf b). repeat split; assumption.
    + constructor; [|exact P]. exists a, b. repeat split; assumption.
    + replace (2 * S n)%nat with (S (S (2 * n))) by lia. cbn [seq map concat]. rewrite <- app_assoc. constructor; [exact (R _)|exact Ea|].
      replace (S (2 * k)) with (2 * k + 1)%nat by lia. constructor; [exact (R _)|exact Eb|]. replace (S (2 * k + 1)) with (2 * S k)%nat by lia. exact T.
Qed.
Lemma shown_run now c (v : nat -> Z) n : forall k m d, (n < m)%nat -> shown (S n) (map (fun i => SVal now c (v i)) (seq k m)) c d = v (k + n)%nat.
Proof.
  induction n as [|n IH]; intros k m d L; (destruct m as [|m]; [lia|]); cbn [seq map shown].
  - destruct (cell_dec c c); [|contradiction]. rewrite Nat.add_0_r. destruct (map _ _) as [|[|? ? ?] ?]; reflexivity.
  - change (shown (S n) (map (fun i : nat => SVal now c (v i)) (seq (S k) m)) c (if cell_dec c c then v k else d) = v (k + S n)%nat).
    rewrite IH by lia. f_equal. lia.
Qed.
Lemma decoder_lags c now (v : nat -> Z) n : (forall i, is_s24 (v i)) -> exists ch,
  Forall2 (fun i d => exists a b, print_int true now (Some (prefix0 c)) (prefix1 c) (v (2 * i)%nat) = Some a /\
                                  print_int true now (Some (prefix0 c)) (prefix1 c) (v (2 * i + 1)%nat) = Some b /\ d = a ++ b) (seq 0 (S n)) ch /\
  forall m, fst (q_val (fold_left sim_handle (ch ++ repeat [] m) sim_reset) c) = v n.
Proof.
  intros R. destruct (pairs_stream now c v R (S n) 0) as (ch & F & P & T). exists ch. split; [exact F|]. intros m. rewrite fold_left_app.
  assert (Q : forall q, fold_left sim_handle (repeat [] m) q = q).
  { intros [b f e]. induction m as [|m IH]; [reflexivity|]. cbn [repeat fold_left]. exact IH. }
  rewrite Q. destruct (decoder_shows _ _ ch [] T (eq_sym (app_nil_r _))) as (K & _). rewrite K. cbn [fst].
  pose proof (taken_pairs ch P [] 0%nat (Forall_nil _) (le_n 0)) as X. cbn [map concat] in X. rewrite X. clear X. assert (Ln : length (seq 0 (S n)) = length ch) by (clear - F; induction F; cbn [length]; congruence). rewrite seq_length in Ln. rewrite <- Ln. cbn [plus].
  rewrite shown_run by lia. reflexivity.
Qed.

(** ** Conversions *)
Lemma to_float_id x : is_s24 x -> fixpt_to_float x = x.
Proof.
  unfold is_s24. intros R. unfold fixpt_to_float. change (Z.shiftl 1 24 - 1) with 16777215. change (Z.shiftl (Z.shiftr 16777215 6) 6) with 16777152. change (Z.lxor 16777215 16777152) with (Z.ones 6). cbv zeta.
  assert (S : (if Z.land x (Z.shiftl 1 23) =? 0 then x else - Z.land (Z.lnot x + 1) 16777215) = x).
  { destruct (Z.eqb_spec (Z.land x (Z.shiftl 1 23)) 0) as [_|N]; [reflexivity|]. change 16777215 with (Z.ones 24). rewrite Z.land_ones by lia. change (2 ^ 24) with 16777216. unfold Z.lnot.
    destruct (Z.ltb_spec x 0) as [L|L]; [lia|]. exfalso. apply N. apply Z.bits_inj'. intros i Hi. rewrite Z.land_spec, Z.bits_0. rewrite Z.shiftl_mul_pow2, Z.mul_1_l by lia.
    destruct (Z.eq_dec i 23) as [->|Ni].
    - rewrite (Z.bits_above_log2 x 23); [reflexivity|lia|]. destruct (Z.eq_dec x 0) as [->|]; [cbn; lia|]. apply Z.log2_lt_pow2; [lia|]. change (2 ^ 23) with 8388608. lia.
    - rewrite Z.pow2_bits_false by lia. apply andb_false_r. }
  rewrite S. set (w := x * (if x <? 0 then -1 else 1)). assert (W : 0 <= w <= 8388608) by (unfold w; destruct (Z.ltb_spec x 0); lia).
  assert (E : 64 * Z.shiftr (Z.land w 16777152) 6 + Z.land w (Z.ones 6) = w).
  { rewrite Z.shiftr_land. change (Z.shiftr 16777152 6) with (Z.ones 18). rewrite !Z.land_ones by lia. rewrite Z.shiftr_div_pow2 by lia. change (2 ^ 6) with 64. change (2 ^ 18) with 262144. lia. }
  rewrite E. unfold w. destruct (Z.ltb_spec x 0); lia.
Qed.
Lemma to_fixpt_near n d : 0 < d -> let r := float_to_fixpt n d in 2 * Z.abs (64 * n - d * r) <= d /\ (2 * Z.abs (64 * n - d * r) = d -> Z.abs (64 * n) < d * Z.abs r).
Proof.
  intros D. cbv zeta. unfold float_to_fixpt, py_trunc. destruct (Z.ltb_spec n 0) as [L|L].
  - replace (2 * 64 * n - d) with (- (d - 128 * n)) by lia. rewrite Z.quot_opp_l by lia. rewrite Z.quot_div_nonneg by lia.
    pose proof (Z.div_mod (d - 128 * n) (2 * d) ltac:(lia)) as E. pose proof (Z.mod_pos_bound (d - 128 * n) (2 * d) ltac:(lia)) as B.
    assert (0 <= (d - 128 * n) / (2 * d)) as Q by (apply Z.div_pos; lia). set (q := (d - 128 * n) / (2 * d)) in *. set (m := (d - 128 * n) mod (2 * d)) in *. clearbody q m.
    replace (d * - q) with (- (d * q)) by lia. rewrite (Z.abs_neq (- q)) by lia. replace (2 * d * q) with (2 * (d * q)) in E by ring. replace (d * - - q) with (d * q) by ring.
    assert (0 <= d * q) by (apply Z.mul_nonneg_nonneg; lia). generalize dependent (d * q). intros. lia.
  - rewrite Z.quot_div_nonneg by lia. pose proof (Z.div_mod (2 * 64 * n + d) (2 * d) ltac:(lia)) as E. pose proof (Z.mod_pos_bound (2 * 64 * n + d) (2 * d) ltac:(lia)) as B.
    assert (0 <= (2 * 64 * n + d) / (2 * d)) as Q by (apply Z.div_pos; lia). set (q := (2 * 64 * n + d) / (2 * d)) in *. set (m := (2 * 64 * n + d) mod (2 * d)) in *. clearbody q m.
    rewrite (Z.abs_eq q) by lia. replace (2 * d * q) with (2 * (d * q)) in E by ring. assert (0 <= d * q) by (apply Z.mul_nonneg_nonneg; lia). generalize dependent (d * q). intros. lia.
Qed.
Lemma round_trip x : is_s24 x -> float_to_fixpt (fixpt_to_float x) 64 = x.
Proof.
  intros R. rewrite to_float_id by exact R. destruct (to_fixpt_near x 64 ltac:(lia)) as (N & _). cbv zeta in N. lia.
Qed.
Lemma round_near n d : 0 < d -> 2 * Z.abs (d * py_round n d - n) <= d.
Proof.
  intros D. unfold py_round. cbv zeta. pose proof (Z.div_mod n d ltac:(lia)) as E. pose proof (Z.mod_pos_bound n d D) as B. set (q := n / d) in *. set (m := n mod d) in *. clearbody q m. subst n.
  destruct (Z.ltb_spec (2 * m) d); [|destruct (Z.ltb_spec d (2 * m)); [|destruct (Z.even q)]]; rewrite ?Z.mul_add_distr_l, ?Z.mul_1_r; generalize (d * q); intros; lia.
Qed.
(** A code set by the simulator is the nearest one. *)
Lemma temp_code n d : 0 < d -> 150 * d <= n <= 1485 * d -> exists code, adc_temp_set n d = Some code /\ 210 <= code <= 1023 /\ 2 * Z.abs (330 * d * (code - 210) - 201 * (n - 150 * d)) <= 330 * d.
Proof.
  intros D B. unfold adc_temp_set, py_unscale, do_scale. replace (480 * d - 150 * d =? 0) with false by lia. cbn [bind norm]. replace (480 * d - 150 * d <? 0) with false by lia. cbn [bind].
  pose proof (round_near ((411 - 210) * (n - 150 * d) + 210 * (480 * d - 150 * d)) (480 * d - 150 * d) ltac:(lia)) as N.
  set (r := py_round _ _) in *. clearbody r. replace ((480 * d - 150 * d) * r) with (330 * (d * r)) in N by ring.
  assert (L : 2 * Z.abs (330 * (d * r) - 330 * (210 * d) - 201 * (n - 150 * d)) <= 330 * d) by lia. clear N.
  assert (R : 210 <= r <= 1023).
  { split; apply Z.le_ngt; intros X.
    - assert (d * r <= d * 209) by (apply Z.mul_le_mono_nonneg_l; lia). lia.
    - assert (d * 1024 <= d * r) by (apply Z.mul_le_mono_nonneg_l; lia). lia. }
  exists r. assert (Xr : xy_adc_value r = r) by (unfold xy_adc_value, u32; lia). rewrite Xr. split; [reflexivity|]. split; [exact R|]. replace (330 * d * (r - 210)) with (330 * (d * r) - 330 * (210 * d)) by ring. exact L.
Qed.
Lemma curr_code n d : 0 < d -> 0 <= n <= 17 * d -> exists code, adc_current_set n d = Some code /\ 0 <= code <= 1023 /\ 2 * Z.abs (11 * d * code - 650 * n) <= 11 * d.
Proof.
  intros D B. unfold adc_current_set, py_unscale, do_scale. replace (11 * d - 0 =? 0) with false by lia. cbn [bind norm]. replace (11 * d - 0 <? 0) with false by lia. cbn [bind].
  pose proof (round_near ((65 - 0) * (10 * n - 0) + 0 * (11 * d - 0)) (11 * d - 0) ltac:(lia)) as N.
  set (r := py_round _ _) in *. clearbody r. replace ((11 * d - 0) * r) with (11 * (d * r)) in N by ring.
  assert (L : 2 * Z.abs (11 * (d * r) - 650 * n) <= 11 * d) by lia. clear N.
  assert (R : 0 <= r <= 1023).
  { split; apply Z.le_ngt; intros X.
    - assert (d * r <= d * (-1)) by (apply Z.mul_le_mono_nonneg_l; lia). lia.
    - assert (d * 1024 <= d * r) by (apply Z.mul_le_mono_nonneg_l; lia). lia. }
  exists r. assert (Xr : xy_adc_value r = r) by (unfold xy_adc_value, u32; lia). rewrite Xr. split; [reflexivity|]. split; [exact R|]. replace (11 * d * r) with (11 * (d * r)) by ring. exact L.
Qed.
Lemma temp_through C adj n d : c_smd C = true -> 0 < d -> 150 * d <= n <= 1485 * d -> exists code, adc_temp_set n d = Some code /\ 0 <= code <= 1023 /\
  forall v, temp_of_code C adj code v -> 402 * Z.abs (d * (v + (if c_adj C then adj else 0)) - 64 * n) <= 21321 * d.
Proof.
  intros Sm D B. destruct (temp_code n d D B) as (code & E & R & L). exists code. split; [exact E|]. split; [lia|]. intros v H. unfold temp_of_code in H. rewrite Sm in H.
  set (w := v + (if c_adj C then adj else 0)) in *. clearbody w. replace (330 * d * (code - 210)) with (330 * (d * (code - 210))) in L by ring.
  assert (H' : 2 * Z.abs (201 * (d * w) - 201 * (9600 * d) - 21120 * (d * (code - 210))) <= 201 * d).
  { replace (201 * (d * w) - 201 * (9600 * d) - 21120 * (d * (code - 210))) with (d * (201 * (w - 150 * 64) - (code - 210) * (330 * 64))) by ring. rewrite Z.abs_mul, (Z.abs_eq d) by lia.
    replace (2 * (d * Z.abs (201 * (w - 150 * 64) - (code - 210) * (330 * 64)))) with (d * (2 * Z.abs (201 * (w - 150 * 64) - (code - 210) * (330 * 64)))) by ring. rewrite (Z.mul_comm 201 d). apply Z.mul_le_mono_nonneg_l; lia. }
  clear H. generalize dependent (d * w). generalize dependent (d * (code - 210)). intros a La b Lb. lia.
Qed.
Lemma curr_through n d : 0 < d -> 0 <= n <= 17 * d -> exists code, adc_current_set n d = Some code /\ 0 <= code <= 1023 /\
  forall v, curr_of_code code v -> 130 * Z.abs (d * v - 640 * n) <= 769 * d.
Proof.
  intros D B. destruct (curr_code n d D B) as (code & E & R & L). exists code. split; [exact E|]. split; [lia|]. intros v H. unfold curr_of_code in H.
  replace (11 * d * code) with (11 * (d * code)) in L by ring.
  assert (H' : 2 * Z.abs (65 * (d * v) - 704 * (d * code)) <= 65 * d).
  { replace (65 * (d * v) - 704 * (d * code)) with (d * (65 * v - code * 704)) by ring. rewrite Z.abs_mul, (Z.abs_eq d) by lia.
    replace (2 * (d * Z.abs (65 * v - code * 704))) with (d * (2 * Z.abs (65 * v - code * 704))) by ring. rewrite (Z.mul_comm 65 d). apply Z.mul_le_mono_nonneg_l; lia. }
  clear H. generalize dependent (d * v). generalize dependent (d * code). intros a La b Lb. lia.
Qed.
Lemma pwm_through amps ocr : pwm_of amps ocr -> exists n, pwm_current_get ocr 8191 = Some (n, 8191) /\ Z.abs (640 * n - 8191 * amps) < 3200.
Proof.
  intros (R & L). unfold pwm_current_get, py_scale, do_scale. cbn [Z.sub Z.opp Z.add Z.eqb bind norm]. eexists. split; [reflexivity|]. lia.
Qed.
Lemma neg_code n d : 0 < d -> n < - 196 * d -> - 1000000 * d < n -> adc_temp_set n d = Some 65535.
Proof.
  intros D B1 B2. unfold adc_temp_set, py_unscale, do_scale. replace (480 * d - 150 * d =? 0) with false by lia. cbn [bind norm]. replace (480 * d - 150 * d <? 0) with false by lia. cbn [bind].
  pose proof (round_near ((411 - 210) * (n - 150 * d) + 210 * (480 * d - 150 * d)) (480 * d - 150 * d) ltac:(lia)) as N.
  set (r := py_round _ _) in *. clearbody r. replace ((480 * d - 150 * d) * r) with (330 * (d * r)) in N by ring.
  assert (R : -1000000 <= r < 0).
  { split; [apply Z.le_ngt|apply Z.lt_nge]; intros X.
    - assert (d * r <= d * (-1000001)) by (apply Z.mul_le_mono_nonneg_l; lia). lia.
    - assert (d * 0 <= d * r) by (apply Z.mul_le_mono_nonneg_l; lia). lia. }
  f_equal. unfold xy_adc_value, u32. lia.
Qed.
