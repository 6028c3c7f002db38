(** * The text of the table and its reader *)
From Coq Require Import ZArith List Bool Lia String Floats.SpecFloat.
From Verif Require Import Base MDebug SpecHost MCsv SpecCsv PCsv PDebug.
Import ListNotations.
Open Scope Z_scope.

Definition dig (c : Z) : Prop := 48 <= c <= 57.
Lemma read_dig d t n k b : 0 <= d < 10 -> read_dec (digit_char d :: t) n k b = read_dec t (10 * n + d) (if k <? 0 then k else k + 1) true.
Proof.
  intros H. unfold digit_char. replace (d <? 10) with true by lia. cbn [read_dec]. replace ((48 <=? 48 + d) && (48 + d <=? 57)) with true by lia.
  f_equal; lia.
Qed.
Lemma dig_char d : 0 <= d < 10 -> dig (digit_char d).
Proof. intros H. unfold digit_char, dig. replace (d <? 10) with true by lia. lia. Qed.
Lemma dec_loop f : forall v acc, 0 <= v < 10 ^ Z.of_nat f -> f <> O ->
  exists ds p, digits_loop f v 10 acc = Some (ds ++ acc) /\ ds <> [] /\ Forall dig ds /\
    forall t n b, read_dec (ds ++ t) n (-1) b = read_dec t (n * p + v) (-1) true.
Proof.
  induction f as [|f IH]; intros v acc H N; [contradiction|]. cbn [digits_loop].
  assert (0 <= v mod 10 < 10) as M by (apply Z.mod_pos_bound; lia). pose proof (Z.div_mod v 10 ltac:(lia)) as E.
  destruct (Z.eqb_spec (v / 10) 0) as [Q|Q].
  - exists [digit_char (v mod 10)], 10. split; [reflexivity|]. split; [discriminate|]. split; [constructor; [apply dig_char; exact M|constructor]|].
    intros t n b. cbn [app]. rewrite read_dig by exact M. cbn [Z.ltb Z.compare]. f_equal. lia.
  - assert (0 < v / 10) as P by (assert (0 <= v / 10) by (apply Z.div_pos; lia); lia).
    assert (v / 10 < 10 ^ Z.of_nat f) as L by (apply Z.div_lt_upper_bound; [lia|]; rewrite Nat2Z.inj_succ, Z.pow_succ_r in H by lia; lia).
    assert (f <> O) as F by (intros ->; change (10 ^ Z.of_nat 0) with 1 in L; lia).
    destruct (IH (v / 10) (digit_char (v mod 10) :: acc) (conj (Z.lt_le_incl _ _ P) L) F) as (ds & p & G1 & G2 & G3 & G4).
    exists (ds ++ [digit_char (v mod 10)]), (10 * p). split; [rewrite <- app_assoc; exact G1|]. split; [destruct ds; discriminate|].
    split; [apply Forall_app; split; [exact G3|constructor; [apply dig_char; exact M|constructor]]|].
    intros t n b. rewrite <- app_assoc, G4. cbn [app]. rewrite read_dig by exact M. cbn [Z.ltb Z.compare]. f_equal. lia.
Qed.
Lemma dec_ok v : 0 <= v -> exists ds, dec v = Some ds /\ ds <> [] /\ Forall dig ds /\ forall t b, read_dec (ds ++ t) 0 (-1) b = read_dec t v (-1) true.
Proof.
  intros H. destruct (dec_loop (S (Z.to_nat (Z.log2 v))) v []) as (ds & p & E & N & F & R); [|discriminate|].
  - split; [exact H|]. rewrite Nat2Z.inj_succ, Z2Nat.id by apply Z.log2_nonneg.
    destruct (Z.eq_dec v 0) as [->|]; [reflexivity|]. apply Z.lt_le_trans with (2 ^ Z.succ (Z.log2 v)); [apply Z.log2_spec; lia|apply Z.pow_le_mono_l; lia].
  - rewrite app_nil_r in E. exists ds. split; [exact E|]. split; [exact N|]. split; [exact F|]. intros t b. rewrite R. f_equal.
Qed.
(** The characters of a number *)
Definition numc (c : Z) : Prop := c = 45 \/ c = 46 \/ dig c.
Lemma head_dig ds : ds <> [] -> Forall dig ds -> forall t, read_num (ds ++ t) = read_dec (ds ++ t) 0 (-1) false.
Proof. intros N F t. destruct ds as [|c ds]; [contradiction|]. inversion F; subst. unfold dig in *. cbn [app read_num]. replace (c =? 45) with false by lia. reflexivity. Qed.
Lemma dig_numc ds : Forall dig ds -> Forall numc ds.
Proof. apply Forall_impl. intros c H. right. right. exact H. Qed.
Lemma fmt_d_ok v : exists s, fmt_d v = Some s /\ Forall numc s /\ read_num s = Some (v, 0).
Proof.
  unfold fmt_d. destruct (dec_ok (Z.abs v) (Z.abs_nonneg v)) as (ds & E & N & F & R). rewrite E. cbn [bind].
  destruct (Z.ltb_spec v 0).
  - exists (45 :: ds). split; [reflexivity|]. split; [constructor; [left; reflexivity|apply dig_numc; exact F]|].
    cbn [read_num Z.eqb Pos.eqb]. specialize (R [] false). rewrite app_nil_r in R. rewrite R. cbn [read_dec bind]. change (Z.max 0 (-1)) with 0. do 2 f_equal. lia.
  - exists ds. split; [reflexivity|]. split; [apply dig_numc; exact F|]. pose proof (head_dig ds N F []) as HD. rewrite app_nil_r in HD. rewrite HD.
    specialize (R [] false). rewrite app_nil_r in R. rewrite R. cbn [read_dec]. change (Z.max 0 (-1)) with 0. do 2 f_equal. lia.
Qed.
Lemma six_ok n w b : 0 <= n -> read_dec (six n) w 0 b = Some (1000000 * w + n mod 1000000, 6).
Proof.
  intros H. unfold six. cbn [map].
  assert (forall k, 0 <= (n / 10 ^ k) mod 10 < 10) as M by (intros k; apply Z.mod_pos_bound; lia).
  rewrite !read_dig by apply M. cbn [Z.ltb Z.compare]. cbn [read_dec]. change (Z.max 0 (0 + 1 + 1 + 1 + 1 + 1 + 1)) with 6. do 2 f_equal.
  change (10 ^ 5) with 100000. change (10 ^ 4) with 10000. change (10 ^ 3) with 1000. change (10 ^ 2) with 100. change (10 ^ 1) with 10. change (10 ^ 0) with 1.
  clear M. rewrite Z.div_1_r. Z.div_mod_to_equations. lia.
Qed.
Lemma fmt_f_ok x s n : micro x = Some (s, n) -> 0 <= n -> exists t, fmt_f x = Some t /\ Forall numc t /\ read_num t = Some ((if s then - n else n), 6).
Proof.
  unfold micro, fmt_f. destruct x as [| | |s' m e]; try discriminate. destruct (Z.ltb_spec e 0) as [L|L]; [|discriminate].
  replace (0 <=? e) with false by lia. set (q := round_even _ _). clearbody q. intros E P. assert (s' = s /\ q = n) as [-> ->] by (split; congruence). clear E.
  destruct (dec_ok (n / 1000000) ltac:(apply Z.div_pos; lia)) as (ds & D & N & F & R). rewrite D. cbn [bind].
  assert (Forall numc (ds ++ 46 :: six n)) as FN.
  { apply Forall_app. split; [apply dig_numc; exact F|]. constructor; [right; left; reflexivity|]. unfold six. cbn [map].
    assert (forall k, numc (digit_char ((n / 10 ^ k) mod 10))) as HC by (intros k; right; right; apply dig_char; apply Z.mod_pos_bound; lia).
    repeat (constructor; [apply HC|]). constructor. }
  assert (read_dec (ds ++ 46 :: six n) 0 (-1) false = Some (n, 6)) as RD.
  { rewrite R. cbn [read_dec Z.leb Z.compare Pos.compare Pos.compare_cont Z.eqb Pos.eqb andb Z.ltb]. rewrite six_ok by exact P. do 2 f_equal. symmetry. apply Z.div_mod. lia. }
  destruct s.
  - eexists. split; [reflexivity|]. split; [constructor; [left; reflexivity|exact FN]|]. cbn [read_num Z.eqb Pos.eqb]. rewrite RD. reflexivity.
  - eexists. split; [reflexivity|]. split; [exact FN|]. rewrite head_dig by assumption. exact RD.
Qed.
Lemma norm_eq v : is_s32 v -> v <> 0 -> exists p s, Zpos p = Z.abs v /\ v = (if s : bool then - Zpos p else Zpos p) /\ Zpos p < 2 ^ 32 /\ py_float v = Some (binary_round 53 1024 s p 0).
Proof.
  unfold is_s32. intros R N. destruct v as [|p|p]; [contradiction| |]; exists p; [exists false|exists true].
  - assert (Zpos p < 2 ^ 32) as L by (change (2 ^ 32) with 4294967296; lia). split; [reflexivity|]. split; [reflexivity|]. split; [exact L|].
    unfold py_float, binary_normalize. destruct (float_ok p L) as (m & d & _ & _ & _ & E). rewrite E. reflexivity.
  - assert (Zpos p < 2 ^ 32) as L by (change (2 ^ 32) with 4294967296; lia). split; [reflexivity|]. split; [reflexivity|]. split; [exact L|].
    unfold py_float, binary_normalize. destruct (float_ok p L) as (m & d & _ & _ & _ & E). rewrite E. reflexivity.
Qed.
Lemma numc_zero : Forall numc (codes "0.000000").
Proof.
  change (codes "0.000000") with [48; 46; 48; 48; 48; 48; 48; 48]. unfold numc, dig. repeat (apply Forall_cons; [lia|]). apply Forall_nil.
Qed.
Lemma cell_ok i v : is_s32 v -> exists s n, cell i v = Some s /\ Forall numc s /\ read_num s = Some n /\ cell_shows i v n.
Proof.
  intros R.
  assert (exists s, fmt_d v = Some s /\ Forall numc s /\ read_num s = Some (v, 0)) as (sd & D1 & D2 & D3) by apply fmt_d_ok.
  assert (exactly 1 v (v, 0)) as D4 by (split; cbn [fst snd]; [lia|change (10 ^ 0) with 1; lia]).
  assert (exists s n, (x <- fixpt_float v ;; fmt_f x) = Some s /\ Forall numc s /\ read_num s = Some n /\ exactly 64 v n) as FX.
  { destruct (Z.eq_dec v 0) as [->|N].
    - exists (codes "0.000000"), (0, 6). split; [reflexivity|]. split; [exact numc_zero|]. split; [reflexivity|]. split; cbn; lia.
    - destruct (norm_eq v R N) as (p & s & P & V & L & E). unfold fixpt_float. rewrite E. cbn [bind].
      destruct (fmt_f_ok _ _ _ (fixpt_micro p L s) ltac:(lia)) as (t & T1 & T2 & T3). exists t, ((if s then - (15625 * Z.pos p) else 15625 * Z.pos p), 6).
      split; [exact T1|]. split; [exact T2|]. split; [exact T3|]. split; cbn [fst snd]; [lia|]. change (10 ^ 6) with 1000000. rewrite V. destruct s; lia. }
  assert (exists s n, (x <- current_float v ;; fmt_f x) = Some s /\ Forall numc s /\ read_num s = Some n /\ nearest 640 v n) as CX.
  { destruct (Z.eq_dec v 0) as [->|N].
    - exists (codes "0.000000"), (0, 6). split; [reflexivity|]. split; [exact numc_zero|]. split; [reflexivity|]. split; cbn; lia.
    - destruct (norm_eq v R N) as (p & s & P & V & L & E). unfold current_float, fixpt_float. rewrite E. cbn [bind].
      destruct (current_micro p L s) as (n & M & B). destruct (fmt_f_ok _ _ _ M ltac:(lia)) as (t & T1 & T2 & T3). exists t, ((if s then - n else n), 6).
      split; [exact T1|]. split; [exact T2|]. split; [exact T3|]. split; cbn [fst snd]; [reflexivity|]. rewrite V. destruct s; lia. }
  destruct FX as (s1 & n1 & A1 & A2 & A3 & A4). destruct CX as (s2 & n2 & B1 & B2 & B3 & B4).
  destruct i; unfold cell, cell_shows; cbn [item_unit Z.eqb Pos.eqb].
  all: first [ exists s2, n2; split; [exact B1|]; split; [exact B2|]; split; [exact B3|]; exact B4
             | exists s1, n1; split; [exact A1|]; split; [exact A2|]; split; [exact A3|]; exact A4
             | exists sd, (v, 0); split; [exact D1|]; split; [exact D2|]; split; [exact D3|]; exact D4 ].
Qed.

(** ** Splitting *)
Lemma split_one c w t : Forall (fun x => x <> c) w -> split_at c (w ++ c :: t) = w :: split_at c t.
Proof.
  induction 1 as [|x w H F IH]; cbn [app split_at]; [rewrite Z.eqb_refl; reflexivity|]. replace (x =? c) with false by lia. rewrite IH. reflexivity.
Qed.
Lemma split_last c w : Forall (fun x => x <> c) w -> split_at c w = [w].
Proof. induction 1 as [|x w H F IH]; cbn [split_at]; [reflexivity|]. replace (x =? c) with false by lia. rewrite IH. reflexivity. Qed.
Lemma numc_not s : Forall numc s -> Forall (fun x => x <> 59) s /\ Forall (fun x => x <> 10) s.
Proof. intros F. split; revert F; apply Forall_impl; intros c [H|[H|H]]; unfold dig in *; lia. Qed.
Lemma chomp_ok s : chomp (s ++ [13]) = Some s.
Proof. unfold chomp. rewrite rev_app_distr. cbn [rev app Z.eqb Pos.eqb]. rewrite rev_involutive. reflexivity. Qed.

Definition row_ok (row : Z * (item -> Z * Z)) : Prop := forall i, is_s32 (fst (snd row i)).
Lemma row_text row : row_ok row -> exists w nums, csv_row row = Some (w ++ [13; 10]) /\ Forall (fun x => x <> 10) w /\
  read_all (split_at 59 w) = Some nums /\ row_shows row nums.
Proof.
  intros H. destruct row as [ts vals]. unfold row_ok in H. cbn [snd] in H. unfold csv_row.
  destruct (fmt_d_ok ts) as (s0 & E0 & F0 & R0). rewrite E0. cbn [bind].
  destruct (cell_ok Cr1 _ (H Cr1)) as (s1 & n1 & E1 & F1 & R1 & C1). rewrite E1. cbn [bind].
  destruct (cell_ok Cr2 _ (H Cr2)) as (s2 & n2 & E2 & F2 & R2 & C2). rewrite E2. cbn [bind].
  destruct (cell_ok Rs _ (H Rs)) as (s3 & n3 & E3 & F3 & R3 & C3). rewrite E3. cbn [bind].
  destruct (cell_ok Cy _ (H Cy)) as (s4 & n4 & E4 & F4 & R4 & C4). rewrite E4. cbn [bind].
  destruct (cell_ok Tr _ (H Tr)) as (s5 & n5 & E5 & F5 & R5 & C5). rewrite E5. cbn [bind].
  destruct (cell_ok Ty1 _ (H Ty1)) as (s6 & n6 & E6 & F6 & R6 & C6). rewrite E6. cbn [bind].
  destruct (cell_ok Ty2 _ (H Ty2)) as (s7 & n7 & E7 & F7 & R7 & C7). rewrite E7. cbn [bind].
  destruct (cell_ok Mc _ (H Mc)) as (s8 & n8 & E8 & F8 & R8 & C8). rewrite E8. cbn [bind].
  destruct (cell_ok Fc _ (H Fc)) as (s9 & n9 & E9 & F9 & R9 & C9). rewrite E9. cbn [bind].
  destruct (cell_ok Mt _ (H Mt)) as (s10 & n10 & E10 & F10 & R10 & C10). rewrite E10. cbn [bind].
  destruct (cell_ok Tb _ (H Tb)) as (s11 & n11 & E11 & F11 & R11 & C11). rewrite E11. cbn [bind].
  apply numc_not in F0, F1, F2, F3, F4, F5, F6, F7, F8, F9, F10, F11.
  destruct F0 as [F0 G0], F1 as [F1 G1], F2 as [F2 G2], F3 as [F3 G3], F4 as [F4 G4], F5 as [F5 G5], F6 as [F6 G6], F7 as [F7 G7], F8 as [F8 G8], F9 as [F9 G9], F10 as [F10 G10], F11 as [F11 G11].
  exists (s0 ++ 59 :: s1 ++ 59 :: s2 ++ 59 :: s3 ++ 59 :: s4 ++ 59 :: s5 ++ 59 :: s6 ++ 59 :: s7 ++ 59 :: s8 ++ 59 :: s9 ++ 59 :: s10 ++ 59 :: s11),
    [(ts, 0); n1; n2; n3; n4; n5; n6; n7; n8; n9; n10; n11].
  split; [f_equal; rewrite <- ?app_assoc; repeat (cbn [app]; rewrite <- ?app_assoc); reflexivity|].
  assert (59 <> 10) as NE by discriminate.
  split; [repeat (apply Forall_app; split; [assumption|constructor; [exact NE|]]); assumption|].
  split.
  - rewrite !split_one by assumption. rewrite split_last by assumption. cbn [read_all].
    rewrite R0, R1, R2, R3, R4, R5, R6, R7, R8, R9, R10, R11. reflexivity.
  - cbn [row_shows fst snd]. split; [split; cbn [fst snd]; [lia|change (10 ^ 0) with 1; lia]|]. unfold columns.
    repeat (constructor; [assumption|]). constructor.
Qed.
Lemma split_nonnil c s : split_at c s <> [].
Proof. destruct s as [|x s]; cbn [split_at]; [discriminate|]. destruct (x =? c); [discriminate|]. destruct (split_at c s); discriminate. Qed.
Lemma lines_ok rows : Forall row_ok rows -> exists b nums, csv_lines rows = Some b /\ read_rows (split_at 10 b) = Some nums /\ Forall2 row_shows rows nums.
Proof.
  induction 1 as [|r rows H F (b & nums & E & R & S)].
  - exists [], []. split; [reflexivity|]. split; [reflexivity|constructor].
  - destruct (row_text r H) as (w & n & E1 & N & R1 & S1). exists ((w ++ [13; 10]) ++ b), (n :: nums). cbn [csv_lines]. rewrite E1, E. cbn [bind]. split; [reflexivity|].
    split; [|constructor; assumption].
    replace ((w ++ [13; 10]) ++ b) with ((w ++ [13]) ++ 10 :: b) by (rewrite <- !app_assoc; reflexivity).
    rewrite split_one by (apply Forall_app; split; [exact N|constructor; [discriminate|constructor]]). cbn [read_rows].
    destruct (split_at 10 b) as [|x y] eqn:X; [exfalso; exact (split_nonnil _ _ X)|]. rewrite chomp_ok. cbn [bind]. rewrite R1. cbn [bind]. rewrite R. reflexivity.
Qed.
Lemma header_split : exists h, csv_header = (h ++ [13]) ++ [10] /\ Forall (fun x => x <> 10) (h ++ [13]) /\ split_at 59 h = titles.
Proof.
  exists (firstn (List.length csv_header - 2) csv_header). split; [vm_compute; reflexivity|]. split; [|vm_compute; reflexivity].
  apply Forall_forall. intros x I E. subst x. revert I.
  assert (forallb (fun x => negb (x =? 10)) (firstn (Datatypes.length csv_header - 2) csv_header ++ [13]) = true) as A by (vm_compute; reflexivity).
  intros I. rewrite forallb_forall in A. specialize (A _ I). discriminate.
Qed.
Lemma file_ok r : Forall row_ok (r_rows r) -> exists text, csv_file r = Some text /\ holds (rev (r_rows r)) text.
Proof.
  intros F. destruct (lines_ok (rev (r_rows r)) (Forall_rev F)) as (b & nums & E & R & S). unfold csv_file. rewrite E. cbn [bind]. eexists. split; [reflexivity|].
  exists nums. split; [|exact S]. destruct header_split as (h & H1 & H2 & H3). rewrite H1. unfold read_csv.
  replace (((h ++ [13]) ++ [10]) ++ b) with ((h ++ [13]) ++ 10 :: b) by (rewrite <- !app_assoc; reflexivity).
  rewrite split_one by exact H2. rewrite chomp_ok. cbn [bind]. rewrite R. cbn [bind]. rewrite H3. reflexivity.
Qed.
