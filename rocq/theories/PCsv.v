(** * The doubles of dumpcurves.py are near enough *)
From Coq Require Import ZArith List Bool Lia Floats.SpecFloat.
From Verif Require Import Base MDebug MCsv.
Import ListNotations.
Open Scope Z_scope.

Lemma digits_size p : digits2_pos p = Pos.size p.
Proof. induction p; cbn; congruence. Qed.
Lemma zdigits q k : 0 <= k -> 2 ^ k <= q < 2 ^ (k + 1) -> Zdigits2 q = k + 1.
Proof.
  intros K [A B]. assert (0 < 2 ^ k) by (apply Z.pow_pos_nonneg; lia). destruct q as [|p|p]; try lia. cbn [Zdigits2]. rewrite digits_size.
  pose proof (Pos.size_le p) as L. pose proof (Pos.size_gt p) as G.
  apply Pos2Z.pos_le_pos in L. apply Pos2Z.pos_lt_pos in G. rewrite Pos2Z.inj_pow in L, G. change (Z.pos p~0) with (2 * Z.pos p) in L.
  change 2%positive with (Z.to_pos 2) in *. cbn [Z.to_pos] in *.
  set (s := Z.pos (Pos.size p)) in *. assert (0 < s) by (unfold s; lia). clearbody s.
  assert (k < s). { apply (Z.pow_lt_mono_r_iff 2); lia. }
  assert (s - 1 < k + 1). { apply (Z.pow_lt_mono_r_iff 2); [lia..|]. replace s with (Z.succ (s - 1)) in L by lia. rewrite Z.pow_succ_r in L by lia. lia. }
  lia.
Qed.
Lemma shr1_ok mrs : 0 <= shr_m mrs -> shr_m (shr_1 mrs) = shr_m mrs / 2.
Proof.
  destruct mrs as [m r s]. cbn [shr_m]. intros H. unfold shr_1. destruct m as [|[p|p|]|p]; try reflexivity; try lia; cbn [shr_m].
  - change (Z.pos p~1) with (2 * Z.pos p + 1). apply Z.div_unique with 1; lia.
  - change (Z.pos p~0) with (2 * Z.pos p). apply Z.div_unique with 0; lia.
Qed.
Lemma round_near m l : m <= round_nearest_even m l <= m + 1.
Proof. destruct l as [|[]]; cbn; try lia. destruct (Z.even m); lia. Qed.
Lemma of_loc_m m l : shr_m (shr_record_of_loc m l) = m.
Proof. destruct l as [|[]]; reflexivity. Qed.
Lemma shr_fexp_ok m E l : -500 <= E <= 500 -> 2 ^ 52 <= m <= 2 ^ 54 -> exists mrs k, shr_fexp 53 1024 m E l = (mrs, E + k) /\ (k = 0 \/ k = 1 \/ k = 2) /\
  shr_m mrs = m / 2 ^ k /\ 2 ^ 52 <= m / 2 ^ k < 2 ^ 53 /\ (l = loc_Exact -> k = 0 -> mrs = Build_shr_record m false false).
Proof.
  intros HE [A B]. assert (exists k, Zdigits2 m = 53 + k /\ (k = 0 \/ k = 1 \/ k = 2) /\ 2 ^ 52 <= m / 2 ^ k < 2 ^ 53) as (k & D & K & R).
  { destruct (Z_lt_dec m (2 ^ 53)); [|destruct (Z_lt_dec m (2 ^ 54))].
    - exists 0. split; [apply (zdigits m 52); [lia|split; [exact A|exact l0]]|]. split; [lia|]. rewrite Z.div_1_r. split; assumption.
    - exists 1. split; [apply (zdigits m 53); [lia|split; [lia|exact l0]]|]. split; [lia|].
      change (2 ^ 1) with 2. change (2 ^ 53) with 9007199254740992 in *. change (2 ^ 54) with 18014398509481984 in *. change (2 ^ 52) with 4503599627370496 in *.
      split; [apply Z.div_le_lower_bound|apply Z.div_lt_upper_bound]; lia.
    - exists 2. split; [apply (zdigits m 54); [lia|split; [lia|]]|].
      + apply Z.le_lt_trans with (2 ^ 54); [exact B|reflexivity].
      + split; [lia|]. assert (m = 2 ^ 54) as -> by lia. vm_compute. split; [discriminate|reflexivity]. }
  unfold shr_fexp, fexp, emin. rewrite D. replace (Z.max (53 + k + E - 53) (3 - 1024 - 53) - E) with k by lia.
  destruct K as [ -> |[ -> | -> ]]; unfold shr; cbn [iter_pos].
  - exists (shr_record_of_loc m l), 0. rewrite Z.add_0_r. split; [reflexivity|]. split; [lia|]. rewrite of_loc_m. split; [rewrite Z.div_1_r; reflexivity|]. split; [exact R|].
    intros -> _. reflexivity.
  - exists (shr_1 (shr_record_of_loc m l)), 1. split; [reflexivity|]. split; [lia|]. rewrite shr1_ok by (rewrite of_loc_m; lia). rewrite of_loc_m.
    split; [reflexivity|]. split; [exact R|]. discriminate.
  - exists (shr_1 (shr_1 (shr_record_of_loc m l))), 2. split; [reflexivity|]. split; [lia|]. rewrite shr1_ok; rewrite shr1_ok; rewrite ?of_loc_m; try lia.
    2: apply Z.div_pos; lia. split; [rewrite Z.div_div by lia; reflexivity|]. split; [exact R|]. discriminate.
Qed.
(** Rounding keeps the value up to 3 units of the quotient. *)
Lemma round_aux_ok s q E l : -400 <= E <= 400 -> 2 ^ 52 <= q < 2 ^ 54 -> exists m k, binary_round_aux 53 1024 s q E l = S754_finite s m (E + k) /\
  2 ^ 52 <= Zpos m < 2 ^ 53 /\ 0 <= k <= 2 /\ Z.abs (Zpos m * 2 ^ k - q) <= 3.
Proof.
  intros HE [A B]. unfold binary_round_aux.
  assert (exists mrs k, shr_fexp 53 1024 q E l = (mrs, E + k) /\ (k = 0 \/ k = 1) /\ shr_m mrs = q / 2 ^ k /\ 2 ^ 52 <= q / 2 ^ k < 2 ^ 53) as (mrs & k & S1 & K & M & R).
  { destruct (shr_fexp_ok q E l ltac:(lia) ltac:(lia)) as (mrs & k & S1 & K & M & R & _). exists mrs, k. repeat split; try assumption; try apply R.
    destruct K as [K|[K|K]]; [lia|lia|]. subst k. exfalso. assert (q / 2 ^ 2 < 2 ^ 52); [apply Z.div_lt_upper_bound; [lia|exact B]|lia]. }
  rewrite S1. pose proof (round_near (shr_m mrs) (loc_of_shr_record mrs)) as RN. set (w := round_nearest_even _ _) in *. clearbody w. rewrite M in RN.
  assert (2 ^ 52 <= w <= 2 ^ 53) as W by lia.
  destruct (shr_fexp_ok w (E + k) loc_Exact ltac:(lia) ltac:(change (2 ^ 54) with (2 * 2 ^ 53); lia)) as (mrs2 & k2 & S2 & K2 & M2 & R2 & _).
  rewrite S2. rewrite M2. set (m := w / 2 ^ k2) in *. assert (m = w / 2 ^ k2) as Em by reflexivity. clearbody m.
  destruct m as [|m|m]; try lia. replace (E + k + k2 <=? 1024 - 53) with true by lia. exists m, (k + k2). rewrite <- Z.add_assoc. split; [reflexivity|]. split; [exact R2|].
  assert (k2 = 0 \/ k2 = 1 /\ w = 2 ^ 53) as K2'.
  { destruct K2 as [K2|[K2|K2]]; [left; exact K2|right|exfalso]; subst k2.
    - split; [reflexivity|]. assert (w < 2 ^ 53 \/ w = 2 ^ 53) as [L|L] by lia; [exfalso|exact L].
      assert (w / 2 ^ 1 < 2 ^ 52); [apply Z.div_lt_upper_bound; [lia|exact L]|lia].
    - assert (w / 2 ^ 2 < 2 ^ 52); [apply Z.div_lt_upper_bound; [lia|]; apply Z.le_lt_trans with (2 ^ 53); [apply W|reflexivity]|lia]. }
  assert (0 <= q - 2 ^ k * (q / 2 ^ k) < 2 ^ k) as Q.
  { pose proof (Z.mod_pos_bound q (2 ^ k) ltac:(destruct K; subst k; reflexivity)). rewrite Z.mod_eq in H by (destruct K; subst k; discriminate). exact H. }
  split; [destruct K, K2'; lia|]. clear - K K2' RN Q Em.
  destruct K2' as [-> |[-> ->]].
  - rewrite Z.add_0_r. rewrite Z.div_1_r in Em. rewrite Em. destruct K; subst k; [change (2 ^ 0) with 1 in *|change (2 ^ 1) with 2 in *]; lia.
  - assert (Z.pos m = 2 ^ 52) as -> by (rewrite Em; reflexivity). change (2 ^ 53) with (2 * 2 ^ 52) in *. set (P := 2 ^ 52) in *. clearbody P.
    destruct K; subst k; [change (2 ^ 0) with 1 in *; change (2 ^ (0 + 1)) with 2|change (2 ^ 1) with 2 in *; change (2 ^ (1 + 1)) with 4]; lia.
Qed.
Lemma round_aux_exact s q E : -400 <= E <= 400 -> 2 ^ 52 <= Zpos q < 2 ^ 53 -> binary_round_aux 53 1024 s (Zpos q) E loc_Exact = S754_finite s q E.
Proof.
  intros HE H. unfold binary_round_aux, shr_fexp, fexp, emin.
  assert (Zdigits2 (Z.pos q) = 53) as D by (apply (zdigits (Zpos q) 52); [lia|exact H]).
  rewrite D. replace (Z.max (53 + E - 53) (3 - 1024 - 53) - E) with 0 by lia. cbn [shr shr_record_of_loc shr_m loc_of_shr_record round_nearest_even].
  rewrite D. replace (Z.max (53 + E - 53) (3 - 1024 - 53) - E) with 0 by lia. cbn [shr shr_record_of_loc shr_m].
  replace (E <=? 1024 - 53) with true by lia. reflexivity.
Qed.
Lemma div_ok s1 m1 e1 s2 m2 e2 : -100 <= e1 <= 100 -> -100 <= e2 <= 100 -> 2 ^ 52 <= Zpos m1 < 2 ^ 53 -> 2 ^ 52 <= Zpos m2 < 2 ^ 53 ->
  exists m k, SFdiv 53 1024 (S754_finite s1 m1 e1) (S754_finite s2 m2 e2) = S754_finite (xorb s1 s2) m (e1 - e2 - 53 + k) /\
  2 ^ 52 <= Zpos m < 2 ^ 53 /\ 0 <= k <= 2 /\ Z.abs (Zpos m * 2 ^ k * Zpos m2 - Zpos m1 * 2 ^ 53) <= 4 * Zpos m2.
Proof.
  intros H1 H2 M1 M2. unfold SFdiv, SFdiv_core_binary.
  rewrite (zdigits (Zpos m1) 52), (zdigits (Zpos m2) 52) by (try lia; assumption).
  unfold fexp, emin. replace (Z.min (Z.max (52 + 1 + e1 - (52 + 1 + e2) - 53) (3 - 1024 - 53)) (e1 - e2)) with (e1 - e2 - 53) by lia.
  replace (e1 - e2 - (e1 - e2 - 53)) with 53 by lia. rewrite Z.shiftl_mul_pow2 by lia.
  set (n := Zpos m1 * 2 ^ 53). pose proof (Z_div_mod n (Zpos m2) ltac:(lia)) as DM. destruct (Z.div_eucl n (Z.pos m2)) as [q r]. destruct DM as [DM DR].
  assert (2 ^ 52 <= q < 2 ^ 54) as Q.
  { unfold n in DM. change (2 ^ 54) with (4 * 2 ^ 52). change (2 ^ 53) with (2 * 2 ^ 52) in *. set (P := 2 ^ 52) in *. assert (0 < P) by reflexivity. clearbody P. clear - H M1 M2 DM DR. nia. }
  destruct (round_aux_ok (xorb s1 s2) q (e1 - e2 - 53) (new_location (Z.pos m2) r) ltac:(lia) Q) as (m & k & E & R & K & B).
  exists m, k. split; [exact E|]. split; [exact R|]. split; [exact K|].
  replace (Z.pos m * 2 ^ k * Z.pos m2 - n) with ((Z.pos m * 2 ^ k - q) * Z.pos m2 - r) by (rewrite DM; ring).
  clear - B DR. set (a := Z.pos m * 2 ^ k - q) in *. clearbody a. assert (0 < Z.pos m2) by lia. nia.
Qed.
(** A number up to 32 bits is exact in a double with a full mantissa. *)
Lemma float_ok p : Zpos p < 2 ^ 32 -> exists m d, 1 <= d <= 32 /\ 2 ^ 52 <= Zpos m < 2 ^ 53 /\ Zpos m = Zpos p * 2 ^ (53 - d) /\
  forall s, binary_round 53 1024 s p 0 = S754_finite s m (d - 53).
Proof.
  intros H. pose proof (Z.log2_spec (Zpos p) ltac:(lia)) as [A B]. set (k := Z.log2 (Z.pos p)) in *.
  assert (0 <= k) as K by apply Z.log2_nonneg. assert (k < 32) as K2 by (apply (Z.pow_lt_mono_r_iff 2); lia). clearbody k.
  assert (Zdigits2 (Zpos p) = k + 1) as D by (apply zdigits; [lia|split; [exact A|exact B]]).
  cbn [Zdigits2] in D. set (m := shift_pos (Z.to_pos (52 - k)) p).
  assert (Zpos m = Zpos p * 2 ^ (53 - (k + 1))) as M.
  { unfold m. rewrite shift_pos_correct. change (Z.pow_pos 2 (Z.to_pos (52 - k))) with (2 ^ Z.pos (Z.to_pos (52 - k))). rewrite Z2Pos.id by lia.
    replace (53 - (k + 1)) with (52 - k) by lia. apply Z.mul_comm. }
  assert (2 ^ 52 <= Zpos m < 2 ^ 53) as R.
  { rewrite M. replace (53 - (k + 1)) with (52 - k) by lia. replace (2 ^ 52) with (2 ^ k * 2 ^ (52 - k)) by (rewrite <- Z.pow_add_r by lia; f_equal; lia).
    replace (2 ^ 53) with (2 ^ Z.succ k * 2 ^ (52 - k)) by (rewrite <- Z.pow_add_r by lia; f_equal; lia).
    assert (0 < 2 ^ (52 - k)) by (apply Z.pow_pos_nonneg; lia). split; [apply Z.mul_le_mono_nonneg_r; lia|apply Z.mul_lt_mono_pos_r; lia]. }
  exists m, (k + 1). split; [lia|]. split; [exact R|]. split; [exact M|]. intros s.
  unfold binary_round, shl_align, fexp, emin. rewrite D.
  replace (Z.max (k + 1 + 0 - 53) (3 - 1024 - 53) - 0) with (- Z.pos (Z.to_pos (52 - k))) by (rewrite Z2Pos.id by lia; lia).
  cbn [Z.opp]. replace (Z.max (k + 1 + 0 - 53) (3 - 1024 - 53)) with (k + 1 - 53) by lia. fold m.
  apply round_aux_exact; [lia|exact R].
Qed.
Lemma f64_eq : f64 = S754_finite false 4503599627370496 (-46).
Proof. reflexivity. Qed.
Lemma f10_eq : f10 = S754_finite false 5629499534213120 (-49).
Proof. reflexivity. Qed.
Lemma round_even_ok num den : 0 < den -> 2 * Z.abs (round_even num den * den - num) <= den.
Proof.
  intros H. unfold round_even. pose proof (Z.div_mod num den ltac:(lia)) as E. pose proof (Z.mod_pos_bound num den H) as B.
  set (q := num / den) in *. set (r := num mod den) in *. clearbody q r.
  destruct (Z.ltb_spec (2 * r) den); [|destruct (Z.ltb_spec den (2 * r)); [|destruct (Z.even q)]]; subst num; nia.
Qed.
(** The integer in the output of "%f": the value in millionths *)
Definition micro (x : spec_float) : option (bool * Z) :=
  match x with
  | S754_finite s m e => if e <? 0 then Some (s, round_even (Zpos m * 1000000) (2 ^ (- e))) else None
  | _ => None
  end.
Lemma fixpt_ok p : Zpos p < 2 ^ 32 -> forall s, exists m d k, py_div (binary_round 53 1024 s p 0) f64 = S754_finite s m (d - 60 + k) /\ 1 <= d <= 32 /\ 0 <= k <= 2 /\
  2 ^ 52 <= Zpos m < 2 ^ 53 /\ Z.abs (Zpos m * 2 ^ k - Zpos p * 2 ^ (54 - d)) <= 4.
Proof.
  intros H s. destruct (float_ok p H) as (m0 & d & D & R0 & M0 & E0). rewrite E0. unfold py_div. rewrite f64_eq.
  destruct (div_ok s m0 (d - 53) false 4503599627370496 (-46) ltac:(lia) ltac:(lia) R0 ltac:(split; [discriminate|reflexivity])) as (m & k & E & R & K & B).
  rewrite E. exists m, d, k. replace (d - 53 - -46 - 53 + k) with (d - 60 + k) by lia. rewrite xorb_false_r. split; [reflexivity|]. split; [exact D|]. split; [exact K|]. split; [exact R|].
  rewrite M0 in B. replace (54 - d) with (Z.succ (53 - d)) by lia. rewrite Z.pow_succ_r by lia. change (2 ^ 53) with (2 * 4503599627370496) in B.
  clear - B. set (a := Z.pos m * 2 ^ k) in *. set (b := 2 ^ (53 - d)) in *. clearbody a b. nia.
Qed.
Lemma w_big d : 1 <= d <= 32 -> 4194304 <= 2 ^ (54 - d).
Proof. intros H. change 4194304 with (2 ^ 22). apply Z.pow_le_mono_r; lia. Qed.
Lemma fixpt_micro p : Zpos p < 2 ^ 32 -> forall s, micro (py_div (binary_round 53 1024 s p 0) f64) = Some (s, 15625 * Zpos p).
Proof.
  intros H s. destruct (fixpt_ok p H s) as (m & d & k & E & D & K & R & B). rewrite E. unfold micro. replace (d - 60 + k <? 0) with true by lia. do 2 f_equal.
  pose proof (round_even_ok (Z.pos m * 1000000) (2 ^ (- (d - 60 + k))) ltac:(apply Z.pow_pos_nonneg; lia)) as N. set (n := round_even _ _) in *. clearbody n.
  assert (2 ^ (- (d - 60 + k)) * 2 ^ k = 64 * 2 ^ (54 - d)) as W.
  { change 64 with (2 ^ 6). rewrite <- !Z.pow_add_r by lia. f_equal. lia. }
  pose proof (w_big d D) as WB. assert (0 < 2 ^ k) as KP by (apply Z.pow_pos_nonneg; lia).
  set (den := 2 ^ (- (d - 60 + k))) in *. set (c := 2 ^ k) in *. set (w := 2 ^ (54 - d)) in *. clearbody den c w.
  assert (2 * Z.abs (n * 64 * w - Z.pos m * c * 1000000) <= 64 * w) as N2.
  { rewrite <- W. replace (n * 64 * w) with (n * den * c) by (rewrite <- Z.mul_assoc, W; ring).
    replace (n * den * c - Z.pos m * c * 1000000) with ((n * den - Z.pos m * 1000000) * c) by ring. rewrite Z.abs_mul, (Z.abs_eq c) by lia. nia. }
  set (a := Z.pos m * c) in *. clearbody a. clear - N2 B WB. set (v := Z.pos p) in *. clearbody v.
  assert (Z.abs ((n * 64 - v * 1000000) * w) <= 32 * w + 4000000) as F by lia.
  assert (Z.abs (n * 64 - v * 1000000) < 64); [|lia]. rewrite Z.abs_mul, (Z.abs_eq w) in F by lia. nia.
Qed.
Lemma current_micro p : Zpos p < 2 ^ 32 -> forall s, exists n, micro (py_div (py_div (binary_round 53 1024 s p 0) f64) f10) = Some (s, n) /\ Z.abs (2 * n - 3125 * Zpos p) <= 1.
Proof.
  intros H s. destruct (fixpt_ok p H s) as (m & d & k & E & D & K & R & B). rewrite E. unfold py_div. rewrite f10_eq.
  destruct (div_ok s m (d - 60 + k) false 5629499534213120 (-49) ltac:(lia) ltac:(lia) R ltac:(split; [discriminate|reflexivity])) as (m3 & k3 & E3 & R3 & K3 & B3).
  rewrite E3. unfold micro. replace (d - 60 + k - -49 - 53 + k3) with (d - 64 + (k + k3)) by lia. replace (d - 64 + (k + k3) <? 0) with true by lia. rewrite xorb_false_r. eexists. split; [reflexivity|].
  pose proof (round_even_ok (Z.pos m3 * 1000000) (2 ^ (- (d - 64 + (k + k3)))) ltac:(apply Z.pow_pos_nonneg; lia)) as N. set (n := round_even _ _) in *. clearbody n.
  assert (2 ^ (- (d - 64 + (k + k3))) * (2 ^ k * 2 ^ k3) = 1024 * 2 ^ (54 - d)) as W.
  { change 1024 with (2 ^ 10). rewrite <- !Z.pow_add_r by lia. f_equal. lia. }
  pose proof (w_big d D) as WB. assert (0 < 2 ^ k) as KP by (apply Z.pow_pos_nonneg; lia). assert (0 < 2 ^ k3) as KP3 by (apply Z.pow_pos_nonneg; lia).
  assert (2 ^ k <= 4) as K4 by (change 4 with (2 ^ 2); apply Z.pow_le_mono_r; lia).
  assert (Z.abs (Z.pos m3 * 2 ^ k3 * 5 - 8 * Z.pos m) <= 20) as B3'.
  { change (2 ^ 53) with (8 * 1125899906842624) in B3. change (Z.pos 5629499534213120) with (5 * 1125899906842624) in B3. clear - B3. nia. }
  set (den := 2 ^ (- (d - 64 + (k + k3)))) in *. set (c := 2 ^ k) in *. set (c3 := 2 ^ k3) in *. set (w := 2 ^ (54 - d)) in *. clearbody den c c3 w.
  assert (2 * Z.abs (n * 1024 * w - Z.pos m3 * c3 * c * 1000000) <= 1024 * w) as N2.
  { rewrite <- W. replace (n * 1024 * w) with (n * den * (c * c3)) by (rewrite <- Z.mul_assoc, W; ring).
    replace (n * den * (c * c3) - Z.pos m3 * c3 * c * 1000000) with ((n * den - Z.pos m3 * 1000000) * (c * c3)) by ring.
    assert (0 < c * c3) by nia. rewrite Z.abs_mul, (Z.abs_eq (c * c3)) by lia. rewrite Z.mul_assoc. apply Z.mul_le_mono_nonneg_r; [lia|exact N]. }
  assert (Z.abs (5 * (Z.pos m3 * c3 * c) - 8 * (Z.pos m * c)) <= 80) as B4.
  { replace (5 * (Z.pos m3 * c3 * c) - 8 * (Z.pos m * c)) with ((Z.pos m3 * c3 * 5 - 8 * Z.pos m) * c) by ring. rewrite Z.abs_mul, (Z.abs_eq c) by lia.
    apply Z.le_trans with (20 * c); [apply Z.mul_le_mono_nonneg_r; lia|lia]. }
  set (y := Z.pos m3 * c3 * c) in *. set (a := Z.pos m * c) in *. clearbody a y. clear - N2 B B4 WB. set (v := Z.pos p) in *. clearbody v.
  assert (Z.abs ((5120 * n - 8000000 * v) * w) <= 2560 * w + 112000000) as F by lia.
  assert (Z.abs (5120 * n - 8000000 * v) < 5120); [|lia]. rewrite Z.abs_mul, (Z.abs_eq w) in F by lia. nia.
Qed.
