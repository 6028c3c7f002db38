(** * Proofs about the telemetry *)
From Coq Require Import ZArith List Bool Lia.
From Verif Require Import Base PBase MDebug SpecHost.
Import ListNotations.
Open Scope Z_scope.
Ltac apps := cbn [app]; repeat (rewrite <- app_assoc; cbn [app]); reflexivity.

(** ** Numbers *)
Definition hexd (c : Z) : Prop := (48 <= c <= 57) \/ (97 <= c <= 102).
Lemma hexd_nb c : hexd c -> blank c = false /\ c <> 58 /\ c <> 95 /\ c < 128 /\ c <> 10 /\ c <> 45 /\ c <> 43 /\ c <> 120 /\ c <> 88.
Proof. unfold hexd, blank. intros H. lia. Qed.
Lemma digit_ok base d : base = 10 \/ base = 16 -> 0 <= d < base -> hexd (digit_char d) /\ digit_val (digit_char d) = Some d.
Proof.
  intros Hb H. unfold digit_char, hexd. destruct (Z.ltb_spec d 10).
  - split; [lia|]. unfold digit_val. replace ((48 <=? 48 + d) && (48 + d <=? 57)) with true by lia. f_equal. lia.
  - split; [lia|]. unfold digit_val. replace ((48 <=? 87 + d) && (87 + d <=? 57)) with false by lia.
    replace ((97 <=? 87 + d) && (87 + d <=? 122)) with true by lia. f_equal. lia.
Qed.
Lemma digits_ok base : base = 10 \/ base = 16 -> forall f val acc, 0 <= val < base ^ Z.of_nat f -> f <> O ->
  exists ds, digits_loop f val base acc = Some (ds ++ acc) /\ ds <> [] /\ Forall hexd ds /\
    (forall k, 1 <= k -> val < base ^ k -> Z.of_nat (length ds) <= k) /\
    forall t a b, int_digits (ds ++ t) base a b = int_digits t base (a * base ^ Z.of_nat (length ds) + val) false.
Proof.
  intros Hb f. assert (1 < base) as B by lia. induction f as [|f IH]; intros val acc H N; [contradiction|].
  cbn [digits_loop]. assert (0 <= val mod base < base) as M by (apply Z.mod_pos_bound; lia).
  destruct (digit_ok base _ Hb M) as [D1 D2]. pose proof (hexd_nb _ D1) as D3.
  assert (forall t a b, int_digits (digit_char (val mod base) :: t) base a b = int_digits t base (a * base + val mod base) false) as ST.
  { intros t a b. cbn [int_digits]. replace (digit_char (val mod base) =? 95) with false by lia. rewrite D2.
    replace (val mod base <? base) with true by lia. reflexivity. }
  assert (val = base * (val / base) + val mod base) as E by (apply Z.div_mod; lia).
  destruct (Z.eqb_spec (val / base) 0) as [Q|Q].
  - exists [digit_char (val mod base)]. split; [reflexivity|]. split; [discriminate|]. split; [constructor; [exact D1|constructor]|].
    split; [intros; cbn; lia|]. intros t a b. cbn [app length]. rewrite ST. f_equal. change (Z.of_nat 1) with 1. rewrite Z.pow_1_r. rewrite Q in E. lia.
  - assert (0 < val / base) as P by (assert (0 <= val / base) by (apply Z.div_pos; lia); lia).
    assert (val / base < base ^ Z.of_nat f) as L.
    { apply Z.div_lt_upper_bound; [lia|]. rewrite Nat2Z.inj_succ, Z.pow_succ_r in H by lia. lia. }
    assert (f <> O) as F by (intros ->; change (base ^ Z.of_nat 0) with 1 in L; lia).
    destruct (IH (val / base) (digit_char (val mod base) :: acc) (conj (Z.lt_le_incl _ _ P) L) F) as (ds & G1 & G2 & G3 & G4 & G5).
    exists (ds ++ [digit_char (val mod base)]). split; [rewrite <- app_assoc; exact G1|].
    split; [destruct ds; discriminate|]. split; [apply Forall_app; split; [exact G3|constructor; [exact D1|constructor]]|].
    assert (Z.of_nat (length (ds ++ [digit_char (val mod base)])) = Z.of_nat (length ds) + 1) as LL by (rewrite app_length; cbn [length]; lia).
    split.
    + intros k K1 K2. rewrite LL. assert (1 < k) as K.
      { destruct (Z.eq_dec k 1) as [->|]; [|lia]. rewrite Z.pow_1_r in K2. exfalso. apply Q. apply Z.div_small. lia. }
      assert (val / base < base ^ (k - 1)) as K3.
      { apply Z.div_lt_upper_bound; [lia|]. rewrite <- Z.pow_succ_r by lia. replace (Z.succ (k - 1)) with k by lia. exact K2. }
      specialize (G4 (k - 1) ltac:(lia) K3). lia.
    + intros t a b. rewrite <- app_assoc. rewrite G5. cbn [app]. rewrite ST. f_equal. rewrite LL, Z.pow_add_r, Z.pow_1_r by lia.
      rewrite E at 3. ring.
Qed.
Lemma into_buf_ok size s : Z.of_nat (length s) + 1 <= size -> into_buf size s = Some s.
Proof. intros H. unfold into_buf. replace (Z.of_nat (length s) + 1 <=? size) with true by lia. reflexivity. Qed.

Lemma lstrip_nb c s : blank c = false -> lstrip (c :: s) = c :: s.
Proof. intros H. cbn [lstrip]. rewrite H. reflexivity. Qed.
Definition nbs (s : list Z) : Prop := Forall (fun c => blank c = false) s.
Lemma lstrip_word s t : nbs s -> s <> [] -> lstrip (s ++ t) = s ++ t.
Proof. intros H N. destruct s; [contradiction|]. cbn [app]. apply lstrip_nb. inversion H. assumption. Qed.
Lemma nbs_rev s : nbs s -> nbs (rev s).
Proof. apply Forall_rev. Qed.
Lemma rev_nil {A} (s : list A) : s <> [] -> rev s <> [].
Proof. intros H E. apply H. rewrite <- (rev_involutive s), E. reflexivity. Qed.
Lemma lstrip_blanks b s : Forall (fun c => blank c = true) b -> lstrip (b ++ s) = lstrip s.
Proof. induction 1 as [|c b H _ IH]; [reflexivity|]. cbn [app lstrip]. rewrite H. exact IH. Qed.
(** blanks, a word, anything, a word, blanks *)
Lemma strip_between b w m v e : Forall (fun c => blank c = true) b -> Forall (fun c => blank c = true) e ->
  nbs w -> nbs v -> w <> [] -> v <> [] -> strip (b ++ (w ++ m ++ v) ++ e) = w ++ m ++ v.
Proof.
  intros Hb He Hw Hv Nw Nv. unfold strip. rewrite lstrip_blanks by exact Hb. rewrite <- !app_assoc. rewrite lstrip_word by assumption.
  replace (w ++ m ++ v ++ e) with ((w ++ m ++ v) ++ e) by (rewrite <- !app_assoc; reflexivity).
  rewrite rev_app_distr. rewrite lstrip_blanks by (apply Forall_rev; exact He).
  rewrite !rev_app_distr, <- app_assoc. rewrite lstrip_word; [|apply nbs_rev; exact Hv|apply rev_nil; exact Nv].
  rewrite !rev_app_distr, !rev_involutive, <- app_assoc. reflexivity.
Qed.
Lemma strip_word w : nbs w -> w <> [] -> strip w = w.
Proof.
  intros H N. unfold strip. rewrite <- (app_nil_r w) at 1. rewrite lstrip_word by assumption. rewrite app_nil_r.
  rewrite <- (app_nil_r (rev w)). rewrite lstrip_word; [|apply nbs_rev; exact H|apply rev_nil; exact N]. rewrite app_nil_r. apply rev_involutive.
Qed.
Lemma hex_nbs ds : Forall hexd ds -> nbs ds.
Proof. apply Forall_impl. intros c H. apply hexd_nb in H. tauto. Qed.

Lemma utoa_ok now : exists ds, utoa (u16 now) 16 5 = Some ds /\ ds <> [] /\ Forall hexd ds /\ py_int ds 16 = Some (u16 now).
Proof.
  assert (0 <= u16 now <= 65535) as R by apply u16_range. set (v := u16 now) in *. clearbody v.
  assert (0 <= v < 16 ^ Z.of_nat 16) as R2 by (change (16 ^ Z.of_nat 16) with 18446744073709551616; lia).
  destruct (digits_ok 16 (or_intror eq_refl) 16 v [] R2 ltac:(discriminate)) as (ds & E & N & F & L & K).
  exists ds. unfold utoa. rewrite E, app_nil_r. cbn [bind]. rewrite into_buf_ok by (assert (v < 16 ^ 4) by (change (16 ^ 4) with 65536; lia); specialize (L 4 ltac:(lia) H); lia).
  split; [reflexivity|]. split; [exact N|]. split; [exact F|].
  specialize (K [] 0 true). rewrite app_nil_r in K. cbn [int_digits] in K. rewrite Z.mul_0_l, Z.add_0_l in K.
  unfold py_int. rewrite strip_word by (try apply hex_nbs; assumption).
  destruct ds as [|c ds]; [contradiction|]. inversion F as [|x y Fc Fs]; subst. apply hexd_nb in Fc.
  replace (c =? 45) with false by lia. replace (c =? 43) with false by lia.
  destruct ds as [|d ds]; [cbn [fst snd]; rewrite K; reflexivity|].
  inversion Fs as [|x y Fd Fs']; subst. apply hexd_nb in Fd. replace ((d =? 120) || (d =? 88)) with false by lia. rewrite andb_false_r.
  rewrite K. reflexivity.
Qed.
Lemma ltoa_ok v : is_s32 v -> exists s, ltoa10 v 12 = Some s /\ s <> [] /\ Forall (fun c => c = 45 \/ hexd c) s /\ parse_int s = v.
Proof.
  unfold is_s32. intros R. unfold ltoa10. assert (u32 (Z.abs v) = Z.abs v) as -> by (unfold u32; lia).
  assert (0 <= Z.abs v < 10 ^ Z.of_nat 16) as R2 by (change (10 ^ Z.of_nat 16) with 10000000000000000; lia).
  destruct (digits_ok 10 (or_introl eq_refl) 16 (Z.abs v) [] R2 ltac:(discriminate)) as (ds & E & N & F & L & K).
  rewrite E, app_nil_r. cbn [bind]. assert (Z.of_nat (length ds) <= 10) as L' by (apply L; [lia|change (10 ^ 10) with 10000000000; lia]). clear L E.
  assert (int_digits ds 10 0 true = Some (Z.abs v)) as K'.
  { specialize (K [] 0 true). rewrite app_nil_r in K. cbn [int_digits] in K. rewrite Z.mul_0_l, Z.add_0_l in K. exact K. }
  clear K. destruct (Z.ltb_spec v 0) as [S|S].
  - rewrite into_buf_ok by (cbn [length]; lia). exists (45 :: ds). split; [reflexivity|]. split; [discriminate|].
    split; [constructor; [left; reflexivity|revert F; apply Forall_impl; tauto]|].
    unfold parse_int, py_int. rewrite strip_word; [|constructor; [reflexivity|apply hex_nbs; exact F]|discriminate].
    cbn [Z.eqb Pos.eqb]. replace (10 =? 16) with false by reflexivity. cbn [andb].
    assert (match ds with | c :: _ :: _ => ds | _ => ds end = ds) as -> by (destruct ds as [|? [|? ?]]; reflexivity).
    rewrite K'. cbn [bind]. lia.
  - rewrite into_buf_ok by lia. exists ds. split; [reflexivity|]. split; [exact N|].
    split; [revert F; apply Forall_impl; tauto|].
    unfold parse_int, py_int. rewrite strip_word; [|apply hex_nbs; exact F|exact N].
    destruct ds as [|c ds]; [contradiction|]. inversion F as [|x y Fc Fs]; subst. apply hexd_nb in Fc.
    replace (c =? 45) with false by lia. replace (c =? 43) with false by lia. replace (10 =? 16) with false by reflexivity. cbn [andb].
    assert (match ds with | _ :: _ => c :: ds | _ => c :: ds end = c :: ds) as -> by (destruct ds; reflexivity).
    rewrite K'. cbn [bind]. lia.
Qed.

(** ** One line *)
Lemma words_run w : nbs w -> forall s cur, split_words (w ++ s) cur = split_words s (rev w ++ cur).
Proof.
  induction 1 as [|c w H _ IH]; intros s cur; [reflexivity|]. cbn [app split_words]. rewrite H, IH. cbn [rev]. rewrite <- app_assoc. reflexivity.
Qed.
Lemma words_one w s : nbs w -> w <> [] -> split_words (w ++ 32 :: s) [] = w :: split_words s [].
Proof.
  intros H N. rewrite words_run by exact H. rewrite app_nil_r. cbn [split_words]. change (blank 32) with true. cbn [andb].
  destruct (rev w) eqn:E; [apply rev_nil in N; contradiction|]. rewrite <- E, rev_involutive. reflexivity.
Qed.
Lemma words_last w : nbs w -> w <> [] -> split_words w [] = [w].
Proof.
  intros H N. rewrite <- (app_nil_r w) at 1. rewrite words_run by exact H. rewrite app_nil_r. cbn [split_words].
  destruct (rev w) eqn:E; [apply rev_nil in N; contradiction|]. rewrite <- E, rev_involutive. reflexivity.
Qed.
Lemma cut_ok a b : Forall (fun c => c <> 58) a -> cut_colon (a ++ 58 :: b) = Some (a, b).
Proof.
  induction 1 as [|c a H _ IH]; [reflexivity|]. cbn [app cut_colon]. replace (c =? 58) with false by lia. rewrite IH. reflexivity.
Qed.
Lemma filter_id s : Forall (fun c => c < 128) s -> filter (fun c => c <? 128) s = s.
Proof. induction 1 as [|c s H _ IH]; [reflexivity|]. cbn [filter]. replace (c <? 128) with true by lia. rewrite IH. reflexivity. Qed.
Lemma str_eqb_true a b : str_eqb a b = true <-> a = b.
Proof. unfold str_eqb. destruct (list_eq_dec Z.eq_dec a b); split; congruence. Qed.
Lemma str_eqb_false a b : str_eqb a b = false <-> a <> b.
Proof. unfold str_eqb. destruct (list_eq_dec Z.eq_dec a b); split; congruence. Qed.
Lemma name_nbs n : name_ok n -> nbs n /\ n <> [] /\ Forall (fun c => c < 128) n /\ Forall (fun c => c <> 10) n.
Proof.
  intros [N F]. repeat split; [|exact N| |]; revert F; apply Forall_impl; intros c H; unfold blank; lia.
Qed.
Lemma num_nbs s : Forall (fun c => c = 45 \/ hexd c) s -> nbs s /\ Forall (fun c => c < 128) s /\ Forall (fun c => c <> 10) s.
Proof.
  intros F. repeat split; revert F; apply Forall_impl; intros c [->|H]; try reflexivity; try discriminate; apply hexd_nb in H; tauto.
Qed.
Lemma hex_parts s : Forall hexd s -> nbs s /\ Forall (fun c => c < 128) s /\ Forall (fun c => c <> 10) s /\ Forall (fun c => c <> 58) s.
Proof. intros F. repeat split; revert F; apply Forall_impl; intros c H; apply hexd_nb in H; tauto. Qed.

(** The effect of the words of a line. *)
Definition rx_words (r : rx) (ts : Z) (ws : list (list Z)) : rx :=
  match ws with
  | [name; val] =>
    match find_item all_items name with
    | None => r
    | Some i => let vals := set_item (r_val r) i (parse_int val, item_div i) in mkRx vals ((ts, vals) :: r_rows r)
    end
  | _ => r
  end.
Lemma rx_line_ok r now t n m v : Forall hexd t -> t <> [] -> py_int t 16 = Some (u16 now) -> nbs n -> n <> [] -> Forall (fun c => c < 128) n ->
  Forall (fun c => c < 128) m -> nbs v -> v <> [] -> Forall (fun c => c < 128) v ->
  rx_line r (t ++ [58; 32] ++ (n ++ m ++ v) ++ [13; 10]) = rx_words r (u16 now) (split_words (n ++ m ++ v) []).
Proof.
  intros Ft Nt Pt Bn Nn An Am Bv Nv Av. destruct (hex_parts t Ft) as (T1 & T2 & T3 & T4). unfold rx_line.
  rewrite filter_id.
  2: { repeat (apply Forall_app; split); try assumption; repeat (constructor; [lia|]); constructor. }
  assert (strip (t ++ [58; 32] ++ (n ++ m ++ v) ++ [13; 10]) = t ++ 58 :: 32 :: n ++ m ++ v) as ->.
  { replace (t ++ [58; 32] ++ (n ++ m ++ v) ++ [13; 10]) with ([] ++ (t ++ ([58; 32] ++ n ++ m) ++ v) ++ [13; 10]) by apps.
    rewrite strip_between; [apps|constructor|repeat constructor|assumption..]. }
  destruct t as [|c t]; [contradiction|]. cbn [app].
  assert (str_eqb (c :: t ++ 58 :: 32 :: n ++ m ++ v) [115; 116] = false) as ->.
  { apply str_eqb_false. intros E. assert (In 58 [115; 116]) as I; [|cbn in I; lia]. rewrite <- E. right. apply in_or_app. right. left. reflexivity. }
  change (c :: t ++ 58 :: 32 :: n ++ m ++ v) with ((c :: t) ++ 58 :: 32 :: n ++ m ++ v). rewrite cut_ok by exact T4. rewrite Pt.
  assert (strip (32 :: n ++ m ++ v) = n ++ m ++ v) as ->; [|reflexivity].
  replace (32 :: n ++ m ++ v) with ([32] ++ (n ++ m ++ v) ++ []) by (rewrite app_nil_r; reflexivity).
  apply strip_between; try assumption; repeat constructor.
Qed.
Lemma rx_bytes_line s : Forall (fun c => c <> 10) s -> forall r cur t, rx_bytes r cur (s ++ 10 :: t) = rx_bytes (rx_line r (rev cur ++ s ++ [10])) [] t.
Proof.
  induction 1 as [|c s H _ IH]; intros r cur t.
  - cbn [app rx_bytes]. change (10 =? 10) with true. cbn [rev]. reflexivity.
  - cbn [app rx_bytes]. replace (c =? 10) with false by lia. rewrite IH. cbn [rev]. rewrite <- app_assoc. reflexivity.
Qed.

(** The effect of a message on the receiver. *)
Definition rx_msg (r : rx) (m : msg) : rx :=
  match m with
  | Hello => rx_reset
  | Value now n v =>
    match find_item all_items n with
    | None => r
    | Some i => let vals := set_item (r_val r) i (v, item_div i) in mkRx vals ((u16 now, vals) :: r_rows r)
    end
  | Value2 _ _ _ _ => r
  end.
Lemma hello_ok r cur t : rx_bytes r cur (greeting ++ t) = rx_bytes rx_reset [] t.
Proof. cbn [greeting app rx_bytes Z.eqb Pos.eqb rev]. reflexivity. Qed.
Lemma print_str3_ok now n m v : exists t, print_str3 true now n m v = Some (t ++ [58; 32] ++
    (match n with Some s => s | None => [] end) ++ (match m with Some s => 32 :: s | None => [] end) ++ (match v with Some s => 32 :: s | None => [] end) ++ [13; 10]) /\
  t <> [] /\ Forall hexd t /\ py_int t 16 = Some (u16 now).
Proof.
  destruct (utoa_ok now) as (t & E & N & F & P). exists t. split; [|tauto]. unfold print_str3, timestamp. rewrite E. cbn [negb bind].
  unfold EOL. rewrite <- !app_assoc. reflexivity.
Qed.
Lemma value_ok r now n v : name_ok n -> is_s32 v -> exists b, print_int true now (Some n) None v = Some b /\
  forall t, rx_bytes r [] (b ++ t) = rx_bytes (rx_msg r (Value now n v)) [] t.
Proof.
  intros Hn Hv. destruct (ltoa_ok v Hv) as (s & Es & Ns & Fs & Ps). unfold print_int. rewrite Es. cbn [bind].
  destruct (print_str3_ok now (Some n) None (Some s)) as (t & E & Nt & Ft & Pt). rewrite E. eexists. split; [reflexivity|]. intros tl.
  destruct (name_nbs n Hn) as (N1 & N2 & N3 & N4). destruct (num_nbs s Fs) as (S1 & S2 & S3). destruct (hex_parts t Ft) as (T1 & T2 & T3 & T4).
  replace ((t ++ [58; 32] ++ n ++ [] ++ (32 :: s) ++ [13; 10]) ++ tl) with ((t ++ [58; 32] ++ n ++ (32 :: s) ++ [13]) ++ 10 :: tl)
    by apps.
  rewrite rx_bytes_line.
  2: { repeat (apply Forall_app; split); try assumption; try (constructor; [lia|]); try (constructor; [lia|]); try constructor; try lia; assumption. }
  f_equal. cbn [rev app].
  replace ((t ++ 58 :: 32 :: n ++ 32 :: s ++ [13]) ++ [10]) with (t ++ [58; 32] ++ (n ++ [32] ++ s) ++ [13; 10])
    by apps.
  rewrite (rx_line_ok r now) by (try assumption; repeat constructor).
  cbn [app]. rewrite words_one, words_last by assumption. unfold rx_words, rx_msg. rewrite Ps. reflexivity.
Qed.
Lemma value2_ok r now n n' v : name_ok n -> name_ok n' -> is_s32 v -> exists b, print_int true now (Some n) (Some n') v = Some b /\
  forall t, rx_bytes r [] (b ++ t) = rx_bytes r [] t.
Proof.
  intros Hn Hm Hv. destruct (ltoa_ok v Hv) as (s & Es & Ns & Fs & Ps). unfold print_int. rewrite Es. cbn [bind].
  destruct (print_str3_ok now (Some n) (Some n') (Some s)) as (t & E & Nt & Ft & Pt). rewrite E. eexists. split; [reflexivity|]. intros tl.
  destruct (name_nbs n Hn) as (N1 & N2 & N3 & N4). destruct (name_nbs n' Hm) as (M1 & M2 & M3 & M4).
  destruct (num_nbs s Fs) as (S1 & S2 & S3). destruct (hex_parts t Ft) as (T1 & T2 & T3 & T4).
  replace ((t ++ [58; 32] ++ n ++ (32 :: n') ++ (32 :: s) ++ [13; 10]) ++ tl) with ((t ++ [58; 32] ++ n ++ (32 :: n') ++ (32 :: s) ++ [13]) ++ 10 :: tl)
    by apps.
  rewrite rx_bytes_line.
  2: { repeat (apply Forall_app; split); try assumption; try (constructor; [lia|]); try (constructor; [lia|]); try constructor; try lia; assumption. }
  f_equal. cbn [rev app].
  replace ((t ++ 58 :: 32 :: n ++ 32 :: n' ++ 32 :: s ++ [13]) ++ [10]) with (t ++ [58; 32] ++ (n ++ (32 :: n' ++ [32]) ++ s) ++ [13; 10])
    by apps.
  rewrite (rx_line_ok r now); try assumption.
  2: { constructor; [lia|]. apply Forall_app; split; [exact M3|]. repeat constructor. }
  replace (n ++ (32 :: n' ++ [32]) ++ s) with (n ++ 32 :: n' ++ 32 :: s) by apps.
  rewrite !words_one, words_last by assumption. reflexivity.
Qed.
Lemma msg_step r m : msg_ok m -> exists b, msg_bytes m = Some b /\ forall t, rx_bytes r [] (b ++ t) = rx_bytes (rx_msg r m) [] t.
Proof.
  destruct m as [|now n v|now n n' v]; cbn [msg_ok msg_bytes].
  - intros _. exists greeting. split; [reflexivity|]. intros t. apply hello_ok.
  - intros [H1 H2]. exact (value_ok r now n v H1 H2).
  - intros (H1 & H2 & H3). exact (value2_ok r now n n' v H1 H2 H3).
Qed.
Lemma stream_ok l : Forall msg_ok l -> exists b, stream l = Some b /\ forall r t, rx_bytes r [] (b ++ t) = rx_bytes (fold_left rx_msg l r) [] t.
Proof.
  induction 1 as [|m l H _ (b & E & K)]; [exists []; split; reflexivity|].
  destruct (msg_step rx_reset m H) as (a & Ea & _). cbn [stream]. rewrite Ea, E. cbn [bind]. exists (a ++ b). split; [reflexivity|].
  intros r t. destruct (msg_step r m H) as (a' & Ea' & Ka). rewrite Ea in Ea'. apply Some_inj in Ea'. subst a'.
  rewrite <- app_assoc, Ka, K. reflexivity.
Qed.
Lemma stream_defined l : Forall msg_ok l -> exists b, stream l = Some b.
Proof. intros H. destruct (stream_ok l H) as (b & E & _). eauto. Qed.
Lemma stream_receive l b : Forall msg_ok l -> stream l = Some b -> receive b = fold_left rx_msg l rx_reset.
Proof.
  intros H E. destruct (stream_ok l H) as (b' & E' & K). rewrite E in E'. apply Some_inj in E'. subst b'.
  unfold receive. specialize (K rx_reset []). rewrite app_nil_r in K. rewrite K. reflexivity.
Qed.

(** ** The table *)
Lemma fw_item i : fw_name i = item_name i.
Proof. destruct i; reflexivity. Qed.
Lemma find_name i : find_item all_items (fw_name i) = Some i.
Proof. destruct i; reflexivity. Qed.
Lemma find_inv n i : find_item all_items n = Some i -> n = fw_name i.
Proof.
  generalize all_items. intros l. induction l as [|j l IH]; [discriminate|]. cbn [find_item].
  rewrite <- fw_item. destruct (str_eqb n (fw_name j)) eqn:E; [|exact IH]. apply str_eqb_true in E. intros H. injection H as <-. exact E.
Qed.
Lemma name_inj i j : fw_name i = fw_name j -> i = j.
Proof. intros H. pose proof (find_name i) as A. rewrite H, find_name in A. congruence. Qed.
Lemma find_none n : find_item all_items n = None -> ~ known n.
Proof. intros H [i ->]. rewrite find_name in H. discriminate. Qed.
Lemma item_eqb_eq i j : item_eqb i j = true <-> i = j.
Proof. unfold item_eqb. rewrite str_eqb_true. split; [intros H; apply name_inj; rewrite !fw_item; exact H|intros ->; reflexivity]. Qed.
Lemma latest_app n l m d : latest n (l ++ [m]) d = match m with
  | Hello => 0 | Value _ n' v => if list_eq_dec Z.eq_dec n n' then v else latest n l d | Value2 _ _ _ _ => latest n l d end.
Proof. revert d. induction l as [|x l IH]; intros d; [destruct m; reflexivity|]. cbn [app latest]. destruct x; apply IH. Qed.
Lemma table_ok l : (forall i, r_val (fold_left rx_msg l rx_reset) i = (latest (fw_name i) l 0, item_div i)) /\ table l (r_rows (fold_left rx_msg l rx_reset)).
Proof.
  induction l as [|m l [IH1 IH2]] using rev_ind; [split; [reflexivity|constructor]|]. rewrite fold_left_app. cbn [fold_left].
  destruct m as [|now n v|now n n' v]; cbn [rx_msg].
  - split; [intros i; rewrite latest_app; reflexivity|constructor].
  - destruct (find_item all_items n) as [i|] eqn:E.
    + apply find_inv in E. subst n.
      assert (forall j, set_item (r_val (fold_left rx_msg l rx_reset)) i (v, item_div i) j = (latest (fw_name j) (l ++ [Value now (fw_name i) v]) 0, item_div j)) as V.
      { intros j. unfold set_item. rewrite latest_app. destruct (item_eqb j i) eqn:Q.
        - apply item_eqb_eq in Q. subst j. destruct (list_eq_dec Z.eq_dec _ _); [reflexivity|contradiction].
        - destruct (list_eq_dec Z.eq_dec (fw_name j) (fw_name i)) as [Y|Y]; [|apply IH1].
          apply name_inj in Y. apply item_eqb_eq in Y. congruence. }
      split; [exact V|]. cbn [r_rows]. unfold u16. apply TValue; [exact IH2|exact V].
    + split; [|apply TUnknown; [exact IH2|apply find_none; exact E]]. intros i. rewrite latest_app, IH1.
      destruct (list_eq_dec Z.eq_dec (fw_name i) n) as [Y|Y]; [|reflexivity]. exfalso. apply (find_none n E). exists i. congruence.
  - split; [intros i; rewrite latest_app; apply IH1|apply TValue2; exact IH2].
Qed.
Lemma decodes l b : Forall msg_ok l -> stream l = Some b ->
  (forall i, r_val (receive b) i = (latest (fw_name i) l 0, item_div i)) /\ table l (r_rows (receive b)).
Proof. intros H E. rewrite (stream_receive l b H E). apply table_ok. Qed.
Lemma rx_bytes_app a : forall r cur b, rx_bytes r cur (a ++ b) = rx_bytes (fst (rx_bytes r cur a)) (snd (rx_bytes r cur a)) b.
Proof. induction a as [|c a IH]; intros r cur b; [reflexivity|]. cbn [app rx_bytes]. destruct (c =? 10); apply IH. Qed.
Lemma resync g l b : Forall msg_ok l -> stream l = Some b -> receive (g ++ greeting ++ b) = receive b.
Proof. intros H E. unfold receive. rewrite rx_bytes_app, hello_ok. reflexivity. Qed.
Lemma resync_table g l b : Forall msg_ok l -> stream (Hello :: l) = Some b ->
  (forall i, r_val (receive (g ++ b)) i = (latest (fw_name i) l 0, item_div i)) /\ table l (r_rows (receive (g ++ b))).
Proof.
  intros H E. cbn [stream msg_bytes] in E. cbn [bind] in E. destruct (stream l) as [b'|] eqn:E'; [|discriminate]. cbn [bind] in E. apply Some_inj in E. subst b.
  rewrite (resync g l b' H E'). exact (decodes l b' H E').
Qed.
Lemma two_names now n n' v b : name_ok n -> name_ok n' -> is_s32 v -> print_int true now (Some n) (Some n') v = Some b ->
  forall l b0, Forall msg_ok l -> stream l = Some b0 -> receive (b0 ++ b) = receive b0.
Proof.
  intros H1 H2 H3 E l b0 Hl E0. unfold receive. destruct (stream_ok l Hl) as (b1 & E1 & K). rewrite E0 in E1. apply Some_inj in E1. subst b1.
  destruct (value2_ok (fold_left rx_msg l rx_reset) now n n' v H1 H2 H3) as (b2 & E2 & K2). rewrite E in E2. apply Some_inj in E2. subst b2.
  rewrite K. specialize (K2 []). rewrite app_nil_r in K2. rewrite K2. specialize (K rx_reset []). rewrite app_nil_r in K. rewrite K. reflexivity.
Qed.

(** ** Reports *)
Definition cells (old : item -> Z) (l : list call) (i : item) : Z := given i l (old i).
Lemma name_item_ok i : name_ok (fw_name i).
Proof. split; [destruct i; discriminate|]. destruct i; repeat constructor; lia. Qed.
Lemma reports_ok l : Forall call_ok l -> forall old, exists old' b, reports true old l = Some (old', b) /\ (forall i, old' i = given i l (old i)) /\
  stream (map value_of (changes old l)) = Some b.
Proof.
  induction 1 as [|[[now i] v] l H _ IH]; intros old; [exists old, []; repeat split|]. cbn [call_ok] in H.
  cbn [reports changes given]. unfold report. rewrite (Z.eqb_sym v (old i)).
  destruct (Z.eqb_spec (old i) v) as [E|E].
  - cbn [bind]. rewrite E.
    destruct (IH (fun j => if item_dec j i then v else old j)) as (o & b & R & G & S). rewrite R. cbn [bind app]. exists o, b.
    split; [reflexivity|]. split; [|exact S]. intros j. rewrite G. reflexivity.
  - destruct (msg_step rx_reset (Value now (fw_name i) v) (conj (name_item_ok i) H)) as (a & Ea & _). cbn [msg_bytes] in Ea. rewrite Ea. cbn [bind].
    destruct (IH (fun j => if item_dec j i then v else old j)) as (o & b & R & G & S). rewrite R. cbn [bind]. exists o, (a ++ b).
    split; [reflexivity|]. split; [intros j; rewrite G; reflexivity|]. cbn [app map stream value_of msg_bytes]. rewrite Ea. cbn [bind]. rewrite S. reflexivity.
Qed.
Lemma changes_ok l : Forall call_ok l -> forall old, Forall msg_ok (map value_of (changes old l)).
Proof.
  induction 1 as [|[[now i] v] l H _ IH]; intros old; [constructor|]. cbn [changes]. destruct (v =? old i); cbn [app map value_of]; [apply IH|].
  constructor; [split; [apply name_item_ok|exact H]|apply IH].
Qed.
(** What the receiver knows after the greeting. *)
Lemma latest_changes l : forall old d i, latest (fw_name i) (map value_of (changes old l)) d =
  if forallb (fun c => match c with (_, j, v) => negb (item_eqb j i) || (v =? old i) end) l then d else given i l (old i).
Proof.
  induction l as [|[[now j] v] l IH]; intros old d i; [reflexivity|]. cbn [changes forallb given].
  destruct (Z.eqb_spec v (old j)) as [E|E].
  - cbn [app]. rewrite IH. destruct (item_dec i j) as [->|N].
    + rewrite E. rewrite Z.eqb_refl, orb_true_r. reflexivity.
    + assert (item_eqb j i = false) as -> by (destruct (item_eqb j i) eqn:Q; [apply item_eqb_eq in Q; congruence|reflexivity]). reflexivity.
  - cbn [app map value_of latest]. rewrite IH. destruct (item_dec i j) as [->|N].
    + destruct (list_eq_dec Z.eq_dec (fw_name j) (fw_name j)) as [_|K]; [|contradiction].
      assert (item_eqb j j = true) as -> by (apply item_eqb_eq; reflexivity). replace (v =? old j) with false by lia. cbn [negb orb andb].
      match goal with |- (if ?f then _ else _) = _ => destruct f eqn:F; [|reflexivity] end.
      clear - F. revert F. generalize v. clear v. induction l as [|[[n k] w] l IH]; intros v F; [reflexivity|]. cbn [forallb given] in *.
      apply andb_prop in F. destruct F as [F1 F2]. destruct (item_dec j k) as [->|N].
      * assert (item_eqb k k = true) as Q by (apply item_eqb_eq; reflexivity). rewrite Q in F1. cbn in F1. apply Z.eqb_eq in F1. subst w. apply IH. exact F2.
      * apply IH. exact F2.
    + destruct (list_eq_dec Z.eq_dec (fw_name i) (fw_name j)) as [Y|_]; [apply name_inj in Y; contradiction|].
      assert (item_eqb j i = false) as -> by (destruct (item_eqb j i) eqn:Q; [apply item_eqb_eq in Q; congruence|reflexivity]). reflexivity.
Qed.

Lemma never_changed i l : forall x, forallb (fun c : call => match c with (_, j, v) => negb (item_eqb j i) || (v =? x) end) l = true -> given i l x = x.
Proof.
  induction l as [|[[n k] w] l IH]; intros x F; [reflexivity|]. cbn [forallb given] in *. apply andb_prop in F. destruct F as [F1 F2].
  destruct (item_dec i k) as [->|N].
  - assert (item_eqb k k = true) as Q by (apply item_eqb_eq; reflexivity). rewrite Q in F1. cbn in F1. apply Z.eqb_eq in F1. subst w. apply IH. exact F2.
  - apply IH. exact F2.
Qed.
(** The firmware was switched on with the cells [old]; the receiver saw the greeting. *)
Lemma receiver_late g old l old' b : Forall call_ok l -> reports true old l = Some (old', b) -> forall i,
  (exists now v, In (now, i, v) l /\ v <> old i) -> r_val (receive (g ++ greeting ++ b)) i = (given i l 0, item_div i).
Proof.
  intros H E i (now & v & I & N). destruct (reports_ok l H old) as (o & b' & R & G & S). rewrite E in R. apply Some_inj in R. injection R as <- <-.
  rewrite (resync g _ b (changes_ok l H old) S). rewrite (proj1 (decodes _ b (changes_ok l H old) S) i). f_equal. rewrite latest_changes.
  assert (forall l x y, In (now, i, v) l -> given i l x = given i l y) as IR.
  { clear. induction l as [|[[n k] w] l IH]; intros x y I; [destruct I|]. cbn [given]. destruct I as [I|I].
    - injection I as -> -> ->. destruct (item_dec i i); [reflexivity|contradiction].
    - apply IH. exact I. }
  match goal with |- (if ?f then _ else _) = _ => destruct f eqn:F end; [|apply IR; exact I].
  exfalso. rewrite forallb_forall in F. specialize (F _ I). cbn beta iota in F.
  assert (item_eqb i i = true) as Q by (apply item_eqb_eq; reflexivity). rewrite Q in F. cbn in F. apply Z.eqb_eq in F. contradiction.
Qed.
Lemma receiver_stale g old l old' b : Forall call_ok l -> reports true old l = Some (old', b) -> forall i,
  (forall now v, In (now, i, v) l -> v = old i) -> r_val (receive (g ++ greeting ++ b)) i = (0, item_div i).
Proof.
  intros H E i A. destruct (reports_ok l H old) as (o & b' & R & G & S). rewrite E in R. apply Some_inj in R. injection R as <- <-.
  rewrite (resync g _ b (changes_ok l H old) S). rewrite (proj1 (decodes _ b (changes_ok l H old) S) i). f_equal. rewrite latest_changes.
  match goal with |- (if ?f then _ else _) = _ => assert (f = true) as -> end; [|reflexivity].
  apply forallb_forall. intros [[n k] w] I. destruct (item_eqb k i) eqn:Q; [|reflexivity]. apply item_eqb_eq in Q. subst k.
  rewrite (A _ _ I), Z.eqb_refl. reflexivity.
Qed.
(** Switched on while all cells are 0: the receiver knows the last value given. *)
Lemma receiver_ok g l old' b : Forall call_ok l -> reports true (fun _ => 0) l = Some (old', b) -> forall i,
  r_val (receive (g ++ greeting ++ b)) i = (given i l 0, item_div i).
Proof.
  intros H E i. destruct (reports_ok l H (fun _ => 0)) as (o & b' & R & G & S). rewrite E in R. apply Some_inj in R. injection R as <- <-.
  rewrite (resync g _ b (changes_ok l H _) S). rewrite (proj1 (decodes _ b (changes_ok l H _) S) i). f_equal. rewrite latest_changes.
  match goal with |- (if ?f then _ else _) = _ => destruct f eqn:F; [|reflexivity] end. symmetry. exact (never_changed i l 0 F).
Qed.
Lemma reports_lines l old : Forall call_ok l -> exists old' b, reports true old l = Some (old', b) /\ stream (map value_of (changes old l)) = Some b.
Proof. intros H. destruct (reports_ok l H old) as (o & b & R & _ & S). eauto. Qed.
Lemma reports_off l : Forall call_ok l -> forall old, exists old', reports false old l = Some (old', []) /\ forall i, old' i = given i l (old i).
Proof.
  induction 1 as [|[[now i] v] l H _ IH]; intros old; [exists old; repeat split|]. cbn [call_ok] in H.
  cbn [reports given]. unfold report.
  destruct (IH (fun j => if item_dec j i then v else old j)) as (o & R & G).
  destruct (Z.eqb_spec (old i) v) as [E|E].
  - cbn [bind]. rewrite E, R. cbn [bind app]. exists o. split; [reflexivity|]. intros j. rewrite G. reflexivity.
  - unfold print_int. destruct (ltoa_ok v H) as (s & Es & _). rewrite Es. cbn [bind print_str3 negb]. rewrite R. cbn [bind app]. exists o. split; [reflexivity|].
    intros j. rewrite G. reflexivity.
Qed.
(** Values given while the output was off are not known. *)
Lemma late_unknown : exists l1 l2 old1 old2 b i, Forall call_ok (l1 ++ l2) /\ reports false (fun _ => 0) l1 = Some (old1, []) /\
  reports true old1 l2 = Some (old2, b) /\ r_val (receive (greeting ++ b)) i <> (given i (l1 ++ l2) 0, item_div i).
Proof.
  exists [(5, Cy, 320)], [(9, Cy, 320)]. destruct (reports_off [(5, Cy, 320)] ltac:(repeat constructor; unfold is_s32; lia) (fun _ => 0)) as (o1 & R1 & G1).
  exists o1. assert (reports true o1 [(9, Cy, 320)] = Some (fun j => if item_dec j Cy then o1 Cy else o1 j, [])) as R2.
  { cbn [reports]. unfold report. assert (o1 Cy = 320) as -> by (rewrite G1; reflexivity). reflexivity. }
  eexists _, [], Cy. split; [repeat constructor; unfold is_s32; lia|]. split; [exact R1|]. split; [exact R2|]. vm_compute. discriminate.
Qed.
Lemma cc_ok : name_ok [99; 99].
Proof. split; [discriminate|]. repeat (constructor; [lia|]). constructor. Qed.
Lemma e_ok : name_ok [101].
Proof. split; [discriminate|]. repeat (constructor; [lia|]). constructor. Qed.
Lemma two_names_lost : exists now n n' v b, name_ok n /\ name_ok n' /\ is_s32 v /\ print_int true now (Some n) (Some n') v = Some b /\ receive b = rx_reset.
Proof.
  assert (is_s32 5) as I by (unfold is_s32; lia).
  exists 7, [99; 99], [101], 5. destruct (value2_ok rx_reset 7 [99; 99] [101] 5 cc_ok e_ok I) as (b & E & K).
  exists b. split; [exact cc_ok|]. split; [exact e_ok|]. split; [exact I|].
  split; [exact E|]. unfold receive. specialize (K []). rewrite app_nil_r in K. rewrite K. reflexivity.
Qed.
