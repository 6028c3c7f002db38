(** * Proofs about the settings storage *)
From Coq Require Import ZArith List Bool Lia ZifyBool.
From Verif Require Import Base PBase MConf MUtil MFixpt MRing MTimer MPid MSettings SpecNum PNum SpecSmall PSmall SpecSettings.
Import ListNotations.
Open Scope Z_scope.
Ltac Zify.zify_post_hook ::= Z.div_mod_to_equations.

(** ** Byte layout *)
Lemma of_bytes24_range a b c : is_s24 (of_bytes24 a b c).
Proof. unfold of_bytes24. pose proof (s24_range (a + 256*b + 65536*c)). unfold is_s24. lia. Qed.
Lemma bytes24_of a b c : is_u8 a -> is_u8 b -> is_u8 c -> bytes24 (of_bytes24 a b c) = [a; b; c].
Proof.
  unfold is_u8, bytes24, of_bytes24, u8, s24. intros Ha Hb Hc.
  repeat f_equal; lia.
Qed.
Lemma of_bytes24_of x : is_s24 x -> of_bytes24 (u8 x) (u8 (x / 256)) (u8 (x / 65536)) = x.
Proof.
  unfold is_s24, of_bytes24, u8, s24. intros H.
  assert (E : x mod 256 + 256 * ((x / 256) mod 256) + 65536 * ((x / 65536) mod 256) = x mod 16777216).
  { lia. }
  rewrite E. clear E. lia.
Qed.

Definition cb (s : settings) (k : Z) : Z := nth (Z.to_nat k) (settings_bytes s) 0.

Lemma settings_of_cb s : settings_wf s -> settings_of (cb s) = s.
Proof.
  intros ((k1&k2&k3&Ek&K1&K2&K3)&Hi&(a&b&c&d&e&f&Ep&Ha&Hb&Hc&Hd&He&Hf)&Hac&Had&(r1&r2&Er&R1&R2)&Hs).
  destruct s as [k i p ac ad r se]. cbn [s_k s_idle s_preset s_active s_adj s_reserved s_serial] in *.
  subst k p r. destruct k1 as [p1 i1 d1 q1], k2 as [p2 i2 d2 q2], k3 as [p3 i3 d3 q3]. unfold k24 in *. cbn [kp ki kd d_decay_div] in *.
  destruct K1 as (?&?&?&?), K2 as (?&?&?&?), K3 as (?&?&?&?).
  cbv -[of_bytes24 u8 Z.div].
  repeat (rewrite of_bytes24_of by assumption). reflexivity.
Qed.

Lemma settings_bytes_of b : (forall i, 0 <= i < 64 -> is_u8 (b i)) ->
  settings_bytes (settings_of b) = map b (map Z.of_nat (seq 0 64)).
Proof.
  intros H. unfold settings_bytes, settings_of, rd_k, rd24, k_bytes.
  cbn [s_k s_idle s_preset s_active s_adj s_reserved s_serial flat_map kp ki kd d_decay_div].
  repeat (rewrite bytes24_of by (apply H; lia)). reflexivity.
Qed.
Lemma cb_settings_of b k : (forall i, 0 <= i < 64 -> is_u8 (b i)) -> 0 <= k < 64 ->
  cb (settings_of b) k = b k.
Proof.
  intros H Hk. unfold cb. rewrite settings_bytes_of by exact H.
  rewrite map_map. rewrite nth_indep with (d' := b (Z.of_nat 0)) by (rewrite map_length, seq_length; lia).
  rewrite map_nth with (f := fun x => b (Z.of_nat x)). rewrite seq_nth by lia. f_equal. lia.
Qed.
Lemma settings_of_wf b : (forall i, 0 <= i < 64 -> is_u8 (b i)) -> settings_wf (settings_of b).
Proof.
  intros H. unfold settings_wf, settings_of. cbn.
  assert (R : forall o, is_s24 (rd24 b o)) by (intros; apply of_bytes24_range).
  split; [|split;[|split;[|split;[|split;[|split]]]]].
  - exists (rd_k b 0), (rd_k b 12), (rd_k b 24). unfold k24, rd_k. cbn. repeat split; apply R.
  - apply R.
  - eexists _, _, _, _, _, _. split; [reflexivity|]. repeat split; apply R.
  - apply H; lia.
  - apply R.
  - eexists _, _. split; [reflexivity|]. split; apply H; lia.
  - apply H; lia.
Qed.
Lemma settings_of_ext b b' : (forall i, 0 <= i < 64 -> b i = b' i) -> settings_of b = settings_of b'.
Proof.
  intros H. unfold settings_of, rd_k, rd24. cbn [Z.add Pos.add Pos.succ Pos.add_carry].
  repeat rewrite H by lia. reflexivity.
Qed.

Lemma settings_bytes_len s : settings_wf s -> length (settings_bytes s) = 64%nat.
Proof.
  intros ((k1&k2&k3&Ek&_)&_&(a&b&c&d&e&f&Ep&_)&_&_&(r1&r2&Er&_)&_).
  unfold settings_bytes. rewrite Ek, Ep, Er. reflexivity.
Qed.
Lemma zget_bytes s o : settings_wf s -> 0 <= o < 64 -> zget (settings_bytes s) o = Some (cb s o).
Proof.
  intros W H. unfold zget, cb. destruct (o <? 0) eqn:E; [lia|].
  apply nth_error_nth'. rewrite settings_bytes_len by exact W. lia.
Qed.
Lemma bytes24_u8 x : Forall is_u8 (bytes24 x).
Proof. unfold bytes24, is_u8. repeat (apply Forall_cons; [apply u8_range|]). apply Forall_nil. Qed.
Lemma settings_bytes_u8 s : settings_wf s -> Forall is_u8 (settings_bytes s).
Proof.
  intros ((k1&k2&k3&Ek&_)&_&(a&b&c&d&e&f&Ep&_)&Ha&_&(r1&r2&Er&R1&R2)&Hs).
  unfold settings_bytes. rewrite Ek, Ep, Er.
  repeat (apply Forall_app; split); cbn [flat_map]; unfold k_bytes;
    repeat (apply Forall_app; split); try apply bytes24_u8; try apply Forall_nil;
    repeat (apply Forall_cons; [assumption|]); apply Forall_nil.
Qed.
Lemma cb_u8 s k : settings_wf s -> 0 <= k < 64 -> is_u8 (cb s k).
Proof.
  intros W H. pose proof (settings_bytes_u8 s W) as F. rewrite Forall_forall in F.
  apply F. unfold cb. apply nth_In. rewrite settings_bytes_len by exact W. lia.
Qed.
Lemma cb_63 s : settings_wf s -> cb s 63 = s_serial s.
Proof.
  intros ((k1&k2&k3&Ek&_)&_&(a&b&c&d&e&f&Ep&_)&_&_&(r1&r2&Er&_)&_).
  unfold cb, settings_bytes. rewrite Ek, Ep, Er. reflexivity.
Qed.

Lemma same_content_refl a : same_content a a.
Proof. repeat split. Qed.
Lemma same_content_sym a b : same_content a b -> same_content b a.
Proof. unfold same_content. intuition congruence. Qed.
Lemma same_content_trans a b c : same_content a b -> same_content b c -> same_content a c.
Proof. unfold same_content. intuition congruence. Qed.
Lemma same_content_serial a v : same_content a (set_s_serial a v).
Proof. repeat split. Qed.
Lemma wf_serial a v : settings_wf a -> is_u8 v -> settings_wf (set_s_serial a v).
Proof. unfold settings_wf. cbn. tauto. Qed.

(** Content of settings whose first 63 bytes agree. *)
Lemma settings_of_content b b' : (forall i, 0 <= i < 63 -> b i = b' i) ->
  same_content (settings_of b) (settings_of b').
Proof.
  intros H. unfold settings_of, rd_k, rd24, same_content. cbn [Z.add Pos.add Pos.succ Pos.add_carry].
  cbn [s_k s_idle s_preset s_active s_adj s_reserved s_serial].
  repeat rewrite H by lia. repeat split.
Qed.

(** ** The chain of serial numbers *)
Definition ser (ee : Z -> Z) (m : Z) : Z := ee (64 * m + 63).
Definition chain (N : Z) (ee : Z -> Z) (i c : Z) : Prop :=
  0 <= i < N /\
  (forall m, 0 <= m <= i -> ser ee m = u8 (c + m)) /\
  (forall m, i < m < N -> ser ee m <> u8 (c + m)).

Lemma land255 x : Z.land x 255 = u8 x.
Proof. change 255 with (Z.ones 8). rewrite Z.land_ones by lia. reflexivity. Qed.

Lemma ee_read_in C ee a : 0 <= a < 64 * c_slots C -> ee_read_byte C ee a = ee a.
Proof. intros H. unfold ee_read_byte. destruct (_ && _) eqn:E; [easy|lia]. Qed.

Tactic Notation "sx" := cbn [x_timer x_request x_cache x_index x_offset x_ee x_eerie x_busy set_x_timer set_x_request set_x_cache set_x_index set_x_offset set_x_ee set_x_eerie set_x_busy w_x w_now w_committed w_inflight set_s_serial s_serial].
Tactic Notation "sx" "in" hyp(H) := cbn [x_timer x_request x_cache x_index x_offset x_ee x_eerie x_busy set_x_timer set_x_request set_x_cache set_x_index set_x_offset set_x_ee set_x_eerie set_x_busy w_x w_now w_committed w_inflight set_s_serial s_serial] in H.

Lemma fupd_same m a v : fupd m a v a = v.
Proof. unfold fupd. now rewrite Z.eqb_refl. Qed.
Lemma fupd_other m a v b : b <> a -> fupd m a v b = m b.
Proof. unfold fupd. intros. destruct (b =? a) eqn:E; [lia|reflexivity]. Qed.

Section Ring.
Variable C : conf.
Hypothesis HC : ring_conf C.
Let N := c_slots C.

Lemma HN : 2 <= N <= 254. Proof. destruct HC as (_&H&_). exact H. Qed.
Lemma NR : NR_EE_SETTINGS C = N.
Proof. destruct HC as (E&_). unfold NR_EE_SETTINGS. now rewrite E. Qed.
Lemma ee_read_N ee : ee_read_byte C ee (64 * N + 63) = ser ee 0.
Proof.
  destruct HC as (_&_&H). unfold ee_read_byte. fold N. destruct (_ && _) eqn:E; [lia|]. apply H.
Qed.
Lemma ee_read_ser ee m : 0 <= m <= N -> ee_read_byte C ee (64 * m + 63) = ser ee (if m =? N then 0 else m).
Proof.
  intros H. destruct (m =? N) eqn:E.
  - replace m with N by lia. apply ee_read_N.
  - unfold ser; apply ee_read_in. fold N. lia.
Qed.

(** The scan for arbitrary contents: stops at the end of the longest run of consecutive serials. *)
Lemma scan_run ee fuel k s0 : (forall m, 0 <= m <= k -> ser ee m = u8 (s0 + m)) ->
  0 <= k < N -> (Z.to_nat (N - k) <= fuel)%nat ->
  exists i, ee_scan C ee fuel k (ser ee k) = Some i /\ k <= i < N /\
    (forall m, 0 <= m <= i -> ser ee m = u8 (s0 + m)) /\
    (i + 1 < N -> ser ee (i + 1) <> u8 (s0 + (i + 1))).
Proof.
  pose proof HN. revert k. induction fuel as [|f IH]; intros k Hs Hk Hf; [lia|].
  cbn [ee_scan]. rewrite NR. rewrite (u8_id (N + 1)) by lia.
  rewrite ring_next_eq by lia. destruct (k =? N + 1) eqn:E1; [lia|].
  rewrite ee_read_ser by lia. rewrite land255. rewrite (Hs k) by lia.
  destruct (k + 1 =? N) eqn:E2.
  - rewrite (Hs 0) by lia. replace (_ =? _) with false.
    2:{ symmetry. apply Z.eqb_neq. clear - Hk E2 H. unfold u8. lia. }
    cbn [negb]. exists k. split; [reflexivity|]. split; [lia|]. split; [exact Hs|]. lia.
  - replace (u8 (u8 (s0 + k) + 1)) with (u8 (s0 + (k + 1))) by (unfold u8; clear; lia).
    destruct (ser ee (k + 1) =? u8 (s0 + (k + 1))) eqn:E3; cbn [negb].
    + destruct (k + 1 =? 0) eqn:E4; [lia|]. cbn [negb].
      destruct (IH (k + 1)) as (i & A & B & D & F).
      * intros m Hm. destruct (Z.eq_dec m (k + 1)); [subst; lia|apply Hs; lia].
      * lia.
      * lia.
      * exists i. split; [exact A|]. split; [lia|]. split; assumption.
    + exists k. split; [reflexivity|]. split; [lia|]. split; [exact Hs|]. lia.
Qed.

Lemma scan_chain ee i c : chain N ee i c -> ee_scan C ee 300 0 (ser ee 0) = Some i.
Proof.
  pose proof HN. intros (Hi & Hle & Hgt).
  destruct (scan_run ee 300 0 c) as (j & A & B & D & F).
  - intros m Hm. replace m with 0 by lia. apply Hle. lia.
  - lia.
  - lia.
  - rewrite A. f_equal. destruct (Z.lt_total i j) as [L|[L|L]]; [|lia|].
    + destruct (Hgt j); [lia|]. apply D. lia.
    + destruct (F ltac:(lia)). apply Hle. lia.
Qed.

Definition slot (ee : Z -> Z) (i : Z) : settings := settings_of (fun k => ee (64 * i + k)).

Lemma init_chain ee i c : chain N ee i c ->
  settings_init C ee = Some (mkSst 0 false (slot ee i) i 0 ee false None).
Proof.
  intros H. pose proof HN. unfold settings_init. destruct HC as (E&_). rewrite E.
  rewrite ee_read_in by (fold N; lia). change (ee 63) with (ser ee 0).
  rewrite (scan_chain _ _ _ H). cbn [bind]. destruct H as (Hi&_). f_equal. f_equal.
  apply settings_of_ext. intros k Hk. apply ee_read_in. fold N. lia.
Qed.

(** ** Invariant *)
Definition ee_ok (ee : Z -> Z) : Prop := forall a, is_u8 (ee a).
Definition eff (x : sst) : Z -> Z :=
  match x_busy x with Some (a, v) => fupd (x_ee x) a v | None => x_ee x end.

Definition inv_quiet (x : sst) (c : Z) : Prop :=
  x_eerie x = false /\ x_busy x = None /\
  chain N (x_ee x) (x_index x) c /\ s_serial (x_cache x) = ser (x_ee x) (x_index x) /\
  (x_request x = false -> forall k, 0 <= k < 64 -> x_ee x (64 * x_index x + k) = cb (x_cache x) k).

Definition busy_ok (x : sst) : Prop :=
  match x_busy x with
  | None => x_offset x <= 63
  | Some (a, v) => 1 <= x_offset x /\ a = 64 * x_index x + x_offset x - 1 /\ is_u8 v /\
                   (x_offset x = 64 -> v = s_serial (x_cache x))
  end.
Definition inv_busy (x : sst) (i c : Z) : Prop :=
  0 <= x_offset x <= 64 /\ x_eerie x = (x_offset x <? 64) /\
  x_index x = (if i =? N - 1 then 0 else i + 1) /\ chain N (x_ee x) i c /\
  s_serial (x_cache x) = u8 (c + i + 1) /\ busy_ok x /\
  (x_request x = false -> forall k, 0 <= k < x_offset x ->
     eff x (64 * x_index x + k) = cb (x_cache x) k).

Definition sinv (x : sst) : Prop :=
  ee_ok (x_ee x) /\ settings_wf (x_cache x) /\
  exists c, inv_quiet x c \/ exists i, inv_busy x i c.

Lemma ee_ok_upd ee a v : ee_ok ee -> is_u8 v -> ee_ok (fupd ee a v).
Proof. intros H Hv b. unfold fupd. destruct (b =? a); auto. Qed.

(** Writing a byte which is not a serial number keeps the chain. *)
Lemma chain_data ee i c j k v : chain N ee i c -> 0 <= k < 63 ->
  chain N (fupd ee (64 * j + k) v) i c.
Proof.
  intros (A & B & D) Hk. unfold chain, ser in *. split; [exact A|].
  split; intros m Hm; rewrite fupd_other by lia; auto.
Qed.
(** Writing the serial number of the slot after the newest. *)
Lemma chain_serial ee i c v : chain N ee i c -> is_u8 v ->
  let j := if i =? N - 1 then 0 else i + 1 in
  let ee' := fupd ee (64 * j + 63) v in
  chain N ee' i c \/ (exists c', chain N ee' j c').
Proof.
  pose proof HN as HN. intros (A & B & D) Hv j ee'. unfold chain, ser in *.
  assert (S : forall m, m <> j -> ee' (64 * m + 63) = ee (64 * m + 63)).
  { intros m Hm. unfold ee'. apply fupd_other. lia. }
  assert (S' : ee' (64 * j + 63) = v) by apply fupd_same.
  destruct (i =? N - 1) eqn:E; unfold j in *.
  - destruct (Z.eq_dec v (u8 c)) as [Ev|Ev].
    + left. split; [exact A|]. split; [|intros; lia]. intros m Hm.
      destruct (Z.eq_dec m 0) as [->|M]; [rewrite S', Ev; f_equal; lia|rewrite S by exact M; apply B; lia].
    + right. exists v. split; [lia|]. split.
      * intros m Hm. replace m with 0 by lia. rewrite S'. rewrite Z.add_0_r. symmetry. apply u8_id. exact Hv.
      * intros m Hm. rewrite S by lia. rewrite B by lia. clear - Hv Ev. unfold u8, is_u8 in *. lia.
  - destruct (Z.eq_dec v (u8 (c + (i + 1)))) as [Ev|Ev].
    + right. exists c. split; [lia|]. split.
      * intros m Hm. destruct (Z.eq_dec m (i + 1)) as [->|M]; [rewrite S', Ev; f_equal; lia|rewrite S by exact M; apply B; lia].
      * intros m Hm. rewrite S by lia. apply D. lia.
    + left. split; [exact A|]. split.
      * intros m Hm. rewrite S by lia. apply B. lia.
      * intros m Hm. destruct (Z.eq_dec m (i + 1)) as [->|M]; [rewrite S'; exact Ev|rewrite S by exact M; apply D; lia].
Qed.
(** ... in particular with the next serial number. *)
Lemma chain_commit ee i c : chain N ee i c ->
  let j := if i =? N - 1 then 0 else i + 1 in
  exists c', chain N (fupd ee (64 * j + 63) (u8 (c + i + 1))) j c'.
Proof.
  pose proof HN as HN. intros H j. assert (Hj : j <> i) by (unfold j; destruct H as (A&_); destruct (_ =? _) eqn:E; lia).
  destruct (chain_serial ee i c (u8 (c + i + 1)) H (u8_range _)) as [F|F]; [|exact F].
  exfalso. fold j in F. destruct H as (A & B & D), F as (A' & B' & D'). unfold ser in *.
  unfold j in *. destruct (i =? N - 1) eqn:E.
  - specialize (B' 0 ltac:(lia)). rewrite fupd_same in B'. clear - B' E HN. unfold u8 in *. lia.
  - specialize (D' (i + 1) ltac:(lia)). rewrite fupd_same in D'. apply D'. f_equal. lia.
Qed.

Lemma next_index i : 0 <= i < N -> ring_next i (NR_EE_SETTINGS C - 1) = if i =? N - 1 then 0 else i + 1.
Proof. intros. pose proof HN. rewrite NR. apply ring_next_eq; lia. Qed.

(** ** Reboot *)
Lemma slot_wf ee i : ee_ok ee -> settings_wf (slot ee i).
Proof. intros H. apply settings_of_wf. intros. apply H. Qed.
Lemma slot_cb ee i k : ee_ok ee -> 0 <= k < 64 -> cb (slot ee i) k = ee (64 * i + k).
Proof. intros H Hk. unfold slot. rewrite cb_settings_of; [reflexivity| |exact Hk]. intros. apply H. Qed.

Lemma boot_inv ee i c : ee_ok ee -> chain N ee i c ->
  let x := mkSst 0 false (slot ee i) i 0 ee false None in
  settings_init C ee = Some x /\ sinv x.
Proof.
  intros Ho H x. split; [eapply init_chain; exact H|]. unfold sinv, x; sx.
  split; [exact Ho|]. split; [apply slot_wf; exact Ho|]. exists c. left. unfold inv_quiet; sx.
  split; [reflexivity|]. split; [reflexivity|]. split; [exact H|].
  assert (S : forall k, 0 <= k < 64 -> ee (64 * i + k) = cb (slot ee i) k).
  { intros. symmetry. apply slot_cb; assumption. }
  split; [|intros _; exact S].
  rewrite <- (cb_63 (slot ee i)) by (apply slot_wf; exact Ho). symmetry. apply S. lia.
Qed.

(** What a power failure leaves: the newest slot or, while the serial is being programmed, the
    slot just written. *)
Lemma crash_chain x v : sinv x -> is_u8 v ->
  ee_ok (ee_after_crash x v) /\
  exists i c, chain N (ee_after_crash x v) i c /\
  ((x_eerie x = false /\ x_busy x = None /\ i = x_index x) \/
   (exists i0 c0, inv_busy x i0 c0 /\ (i = i0 \/ (i = x_index x /\ x_offset x = 64)))).
Proof.
  intros (Ho & Hw & c & [Q|(i & B)]) Hv.
  - destruct Q as (E1 & E2 & Hc & _ & _). unfold ee_after_crash. rewrite E2. split; [exact Ho|].
    exists (x_index x), c. split; [exact Hc|]. left. auto.
  - assert (B' := B). destruct B as (Hof & He & Hi & Hc & Hs & Hb & Hd).
    unfold ee_after_crash. unfold busy_ok in Hb. destruct (x_busy x) as [[a d]|] eqn:Eb.
    + split; [apply ee_ok_upd; assumption|]. destruct Hb as (H1 & -> & Hd8 & H64).
      destruct (Z.eq_dec (x_offset x) 64) as [E|E].
      * rewrite E in *. replace (64 * x_index x + 64 - 1) with (64 * x_index x + 63) by lia.
        rewrite Hi. destruct (chain_serial _ _ _ v Hc Hv) as [F|(c' & F)].
        -- exists i, c. split; [exact F|]. right. exists i, c. auto.
        -- eexists _, c'. split; [exact F|]. right. exists i, c. auto.
      * exists i, c. split.
        -- replace (64 * x_index x + x_offset x - 1) with (64 * x_index x + (x_offset x - 1)) by lia.
           apply chain_data; [exact Hc|lia].
        -- right. exists i, c. auto.
    + split; [exact Ho|]. exists i, c. split; [exact Hc|]. right. exists i, c. auto.
Qed.

(** ** Invariant is preserved *)
Lemma store_eq now x : store_settings now x = Some (set_x_timer (set_x_request x true) (u16 (now + 1000))).
Proof. reflexivity. Qed.

Lemma sinv_modify now x f x' : sinv x ->
  (forall s, settings_wf s -> settings_wf (f s) /\ s_serial (f s) = s_serial s) ->
  store_settings now (set_x_cache x (f (x_cache x))) = Some x' -> sinv x'.
Proof.
  intros (Ho & Hw & c & H) Hf E. rewrite store_eq in E. apply Some_inj in E. subst x'.
  destruct (Hf _ Hw) as [W S]. unfold sinv. sx. split; [exact Ho|]. split; [exact W|].
  exists c. destruct H as [(E1&E2&Hc&Hs&_)|(i&Hof&He&Hi&Hc&Hs&Hb&_)].
  - left. unfold inv_quiet; sx. rewrite S. repeat (split; [assumption|]). discriminate.
  - right. exists i. unfold inv_busy, busy_ok in *; sx. rewrite S. repeat (split; [assumption|]). discriminate.
Qed.

Lemma sinv_work now x : sinv x ->
  (x_request x = true -> timer_expired now (x_timer x) = true -> quiet x = true) ->
  sinv (settings_work C now x).
Proof.
  intros Hinv Hq. unfold settings_work. destruct (x_request x) eqn:R; cbn [negb]; [|exact Hinv].
  destruct (timer_expired now (x_timer x)) eqn:T; cbn [negb]; [|exact Hinv].
  specialize (Hq eq_refl eq_refl). unfold quiet in Hq.
  destruct Hinv as (Ho & Hw & c & H). destruct HC as (Er&_). rewrite Er.
  assert (Q : inv_quiet x c).
  { destruct H as [Q|(i & Hof & He & Hi & Hc & Hs & Hb & _)]; [exact Q|exfalso].
    destruct (x_busy x) eqn:Eb; [rewrite andb_false_r in Hq; discriminate|].
    unfold busy_ok in Hb. rewrite Eb in Hb. rewrite He in Hq. destruct (x_offset x <? 64) eqn:F; cbn in Hq; [discriminate|lia]. }
  destruct Q as (E1 & E2 & Hc & Hs & Hd). assert (Hc' := Hc). destruct Hc' as (Hi & Hle & _).
  unfold sinv. sx. split; [exact Ho|]. split; [apply wf_serial; [exact Hw|apply u8_range]|].
  exists c. right. exists (x_index x). unfold inv_busy, busy_ok; sx. rewrite E2.
  split; [lia|]. split; [reflexivity|]. split; [apply next_index; exact Hi|]. split; [exact Hc|].
  split; [|split; [lia|intros _ k Hk; lia]].
  rewrite Hs, Hle by lia. clear. unfold u8. lia.
Qed.

Lemma isr_eq x : settings_wf (x_cache x) -> 0 <= x_index x < N -> 0 <= x_offset x < 64 ->
  ee_ready_isr C x = Some
    (let d := cb (x_cache x) (x_offset x) in let a := 64 * x_index x + x_offset x in
     let x1 := if x_ee x a =? d then x else set_x_busy x (Some (a, d)) in
     let x2 := set_x_offset x1 (x_offset x + 1) in
     if 64 <=? x_offset x + 1 then set_x_eerie x2 false else x2).
Proof.
  intros W Hi Ho. unfold ee_ready_isr. destruct HC as (Er&_). rewrite Er, NR.
  destruct (_ && _) eqn:E; [|lia]. rewrite zget_bytes by assumption. cbn [bind].
  rewrite ee_read_in by (fold N; lia). unfold SIZEOF_SETTINGS. rewrite u8_id by lia. reflexivity.
Qed.

Lemma sinv_index x i c : inv_busy x i c -> 0 <= x_index x < N /\ x_index x <> i /\ 0 <= i < N.
Proof.
  pose proof HN. intros (_ & _ & Hi & (Hr & _) & _). rewrite Hi. destruct (i =? N - 1) eqn:E; lia.
Qed.

Lemma sinv_ready x : sinv x -> x_eerie x = true -> x_busy x = None ->
  exists x', ee_ready_isr C x = Some x' /\ sinv x' /\ x_eerie x' = (x_offset x' <? 64) /\
    x_offset x' = x_offset x + 1 /\ x_index x' = x_index x /\ x_cache x' = x_cache x /\
    x_ee x' = x_ee x /\ x_request x' = x_request x /\ x_timer x' = x_timer x /\
    (x_busy x' = None \/ exists d, x_busy x' = Some (64 * x_index x + x_offset x, d) /\
       d = cb (x_cache x) (x_offset x) /\ d <> x_ee x (64 * x_index x + x_offset x)) /\
    (x_busy x' = None -> x_offset x < 63) /\ 0 <= x_offset x < 64.
Proof.
  intros (Ho & Hw & c & [Q|(i & B)]) He Hb.
  { destruct Q as (F & _). congruence. }
  pose proof (sinv_index _ _ _ B) as (Hix & Hne & Hir).
  destruct B as (Hof & He' & Hi & Hc & Hs & Hbo & Hd). unfold busy_ok in Hbo. rewrite Hb in Hbo.
  rewrite isr_eq by (assumption || lia). eexists. split; [reflexivity|].
  set (d := cb (x_cache x) (x_offset x)) in *. set (a := 64 * x_index x + x_offset x) in *. cbv zeta.
  assert (Dr : is_u8 d) by (apply cb_u8; [exact Hw|lia]).
  assert (Last : x_offset x = 63 -> x_ee x a <> d).
  { intros E. unfold a, d. rewrite E. rewrite cb_63 by exact Hw. rewrite Hs, Hi.
    pose proof HN. destruct Hc as (A & B & D). destruct (i =? N - 1) eqn:F.
    - specialize (B 0 ltac:(lia)). unfold ser in B. rewrite B. clear - F H. unfold u8. lia.
    - specialize (D (i + 1) ltac:(lia)). unfold ser in D. replace (c + i + 1) with (c + (i + 1)) by lia. exact D. }
  set (x1 := if x_ee x a =? d then x else set_x_busy x (Some (a, d))).
  assert (X1 : x_ee x1 = x_ee x /\ x_index x1 = x_index x /\ x_cache x1 = x_cache x /\ x_request x1 = x_request x
     /\ x_eerie x1 = true /\ x_timer x1 = x_timer x).
  { unfold x1. destruct (x_ee x a =? d); sx; auto 10. }
  destruct X1 as (X1a & X1b & X1c & X1d & X1e & X1f).
  set (x2 := if 64 <=? x_offset x + 1 then _ else _).
  assert (X2 : x_ee x2 = x_ee x /\ x_index x2 = x_index x /\ x_cache x2 = x_cache x /\ x_request x2 = x_request x
     /\ x_offset x2 = x_offset x + 1 /\ x_eerie x2 = (x_offset x2 <? 64) /\ x_busy x2 = x_busy x1 /\ x_timer x2 = x_timer x).
  { unfold x2. destruct (64 <=? x_offset x + 1) eqn:F; sx; rewrite ?X1a, ?X1b, ?X1c, ?X1d, ?X1e, ?X1f;
    repeat (split; [reflexivity|]); (split; [|split; reflexivity]); lia. }
  clearbody x2. destruct X2 as (Y1 & Y2 & Y3 & Y4 & Y5 & Y6 & Y7 & Y8).
  assert (BB : (x_ee x a = d /\ x_busy x2 = None /\ x_offset x < 63) \/ (x_ee x a <> d /\ x_busy x2 = Some (a, d))).
  { rewrite Y7. unfold x1. destruct (x_ee x a =? d) eqn:F.
    - left. split; [lia|]. split; [exact Hb|]. assert (x_offset x <> 63) by (intros Z; apply (Last Z); lia). lia.
    - right. split; [lia|]. reflexivity. }
  clear x1 X1a X1b X1c X1d X1e X1f Y7.
  split.
  - unfold sinv. rewrite Y1, Y3. split; [exact Ho|]. split; [exact Hw|]. exists c. right. exists i.
    unfold inv_busy, busy_ok. rewrite Y1, Y2, Y3, Y4, Y5. rewrite Y5 in Y6.
    split; [lia|]. split; [exact Y6|]. split; [exact Hi|]. split; [exact Hc|]. split; [exact Hs|]. split.
    + destruct BB as [(F1 & -> & F3)|(F1 & ->)]; [lia|]. split; [lia|]. split; [unfold a; lia|]. split; [exact Dr|].
      intros F. unfold d. replace (x_offset x) with 63 by lia. apply cb_63. exact Hw.
    + intros Rq k Hk. assert (Eff : eff x = x_ee x) by (unfold eff; rewrite Hb; reflexivity).
      specialize (Hd Rq). rewrite Eff in Hd. unfold eff.
      destruct BB as [(F1 & -> & F3)|(F1 & ->)]; rewrite Y1; destruct (Z.eq_dec k (x_offset x)) as [->|Nk].
      * fold a. exact F1.
      * apply Hd. lia.
      * fold a. apply fupd_same.
      * rewrite fupd_other by (unfold a; lia). apply Hd. lia.
  - split; [exact Y6|]. split; [exact Y5|]. split; [exact Y2|]. split; [exact Y3|]. split; [exact Y1|]. split; [exact Y4|].
    split; [exact Y8|]. split; [|split; [|lia]].
    + destruct BB as [(F1 & -> & F3)|(F1 & ->)]; [left; reflexivity|right]. exists d. split; [reflexivity|]. split; [reflexivity|]. congruence.
    + destruct BB as [(F1 & E & F3)|(F1 & ->)]; [intros _; exact F3|discriminate].
Qed.

Lemma sinv_done x : sinv x -> sinv (ee_prog_done x).
Proof.
  intros (Ho & Hw & c & H). unfold ee_prog_done. destruct (x_busy x) as [[a d]|] eqn:Eb.
  2:{ split; [exact Ho|]. split; [exact Hw|]. exists c. exact H. }
  destruct H as [(_&F&_)|(i & B)]; [congruence|].
  pose proof (sinv_index _ _ _ B) as (Hix & Hne & Hir).
  destruct B as (Hof & He & Hi & Hc & Hs & Hbo & Hd). unfold busy_ok in Hbo. rewrite Eb in Hbo.
  destruct Hbo as (H1 & -> & Hd8 & H64). unfold sinv. sx. split; [apply ee_ok_upd; assumption|]. split; [exact Hw|].
  unfold eff in Hd. rewrite Eb in Hd.
  destruct (Z.eq_dec (x_offset x) 64) as [E|E].
  - rewrite E in *. specialize (H64 eq_refl). subst d.
    replace (64 * x_index x + 64 - 1) with (64 * x_index x + 63) in * by lia.
    destruct (chain_commit _ _ _ Hc) as (c' & F). rewrite <- Hi, <- Hs in F.
    exists c'. left. unfold inv_quiet; sx. split; [exact He|]. split; [reflexivity|]. split; [exact F|].
    split; [unfold ser; rewrite fupd_same; reflexivity|exact Hd].
  - exists c. right. exists i. unfold inv_busy, busy_ok, eff; sx. split; [lia|]. split; [exact He|]. split; [exact Hi|].
    split; [replace (64 * x_index x + x_offset x - 1) with (64 * x_index x + (x_offset x - 1)) by lia; apply chain_data; [exact Hc|lia]|].
    split; [exact Hs|]. split; [lia|exact Hd].
Qed.

Lemma sinv_power x v : sinv x -> is_u8 v -> exists x', settings_init C (ee_after_crash x v) = Some x' /\ sinv x' /\
   x_request x' = false /\ quiet x' = true.
Proof.
  intros H Hv. destruct (crash_chain x v H Hv) as (Ho & i & c & Hc & _).
  destruct (boot_inv _ _ _ Ho Hc) as (A & B). eexists. split; [exact A|]. split; [exact B|]. split; reflexivity.
Qed.

Lemma default_wf : settings_wf (default_settings C).
Proof.
  unfold settings_wf, default_settings. cbn.
  split; [|repeat split; try (unfold is_s24, is_u8; cbn; lia)].
  - destruct (c_boost C); eexists _, _, _; (split; [reflexivity|]); unfold k24, is_s24; cbn; lia.
  - destruct (c_idle C); cbn; lia.
  - destruct (c_idle C); cbn; lia.
  - eexists _, _, _, _, _, _. split; [reflexivity|]. unfold is_s24; cbn. lia.
  - exists 0, 0. repeat split; unfold is_u8; cbn; lia.
Qed.
Lemma factory_boot : ee_ok (factory_ee C) /\ chain N (factory_ee C) 0 0 /\ slot (factory_ee C) 0 = default_settings C.
Proof.
  pose proof HN. split; [|split].
  - intros a. unfold factory_ee. destruct (_ && _) eqn:E; [|unfold is_u8; lia].
    apply (cb_u8 _ a default_wf). lia.
  - split; [lia|]. split.
    + intros m Hm. replace m with 0 by lia. unfold ser, factory_ee. cbn -[settings_bytes default_settings].
      pose proof (cb_63 _ default_wf) as E. unfold cb in E. exact E.
    + intros m Hm. unfold ser, factory_ee. destruct (_ && _) eqn:E; [lia|]. rewrite u8_id by lia. lia.
  - unfold slot. rewrite <- (settings_of_cb _ default_wf). apply settings_of_ext. intros k Hk.
    unfold factory_ee, cb. destruct (_ && _) eqn:E; [|lia]. reflexivity.
Qed.

Lemma observe_x w x : w_x (observe w x) = x.
Proof. unfold observe. destruct (w_inflight w); [destruct (quiet x)|destruct (x_eerie x)]; reflexivity. Qed.
Lemma observe_now w x : w_now (observe w x) = w_now w.
Proof. unfold observe. destruct (w_inflight w); [destruct (quiet x)|destruct (x_eerie x)]; reflexivity. Qed.

Lemma sinv_step w op : sinv (w_x w) -> op_basic C w op ->
  exists w', sstep C w op = Some w' /\ sinv (w_x w').
Proof.
  intros H Hop. destruct op; cbn [sstep op_basic] in *.
  - eexists. split; [reflexivity|exact H].
  - rewrite store_eq. cbn [bind]. eexists. split; [reflexivity|]. rewrite observe_x.
    eapply sinv_modify; [exact H|exact Hop|]. rewrite store_eq with (now := w_now w). reflexivity.
  - eexists. split; [reflexivity|]. rewrite observe_x. apply sinv_work; assumption.
  - destruct (x_eerie (w_x w)) eqn:E1; [|eexists; split; [reflexivity|exact H]].
    destruct (x_busy (w_x w)) eqn:E2; [eexists; split; [reflexivity|exact H]|].
    destruct (sinv_ready _ H E1 E2) as (x' & A & B & _). rewrite A. cbn [bind].
    eexists. split; [reflexivity|]. rewrite observe_x. exact B.
  - eexists. split; [reflexivity|]. rewrite observe_x. apply sinv_done. exact H.
  - destruct (sinv_power _ _ H Hop) as (x' & A & B & _). rewrite A. cbn [bind].
    eexists. split; [reflexivity|]. exact B.
Qed.

Lemma sboot_inv : exists w, sboot C = Some w /\ sinv (w_x w) /\ w_inflight w = None /\
   w_committed w = x_cache (w_x w) /\ quiet (w_x w) = true /\ x_cache (w_x w) = default_settings C
   /\ x_request (w_x w) = false /\ x_index (w_x w) = 0.
Proof.
  destruct factory_boot as (A & B & D). destruct (boot_inv _ _ _ A B) as (E & F).
  unfold sboot. rewrite E. cbn [bind]. eexists. split; [reflexivity|]. sx. split; [exact F|]. rewrite D. repeat split.
Qed.

Lemma sreach_inv calm w : sreach C calm w -> sinv (w_x w).
Proof.
  induction 1 as [w Hb|w op w' _ IH Hop _ Hs].
  - destruct sboot_inv as (w0 & A & B & _). congruence.
  - destruct (sinv_step _ _ IH Hop) as (w1 & A & B). congruence.
Qed.

(** ** C50: durability *)
Lemma durable calm w : sreach C calm w ->
  quiet (w_x w) = true -> x_request (w_x w) = false ->
  exists x', settings_init C (x_ee (w_x w)) = Some x' /\ x_cache x' = x_cache (w_x w) /\
             x_index x' = x_index (w_x w).
Proof.
  intros R Q Rq. apply sreach_inv in R. destruct R as (Ho & Hw & c & H).
  unfold quiet in Q. destruct H as [(E1&E2&Hc&Hs&Hd)|(i&Hof&He&Hi&Hc&Hs&Hb&Hd)].
  - destruct (boot_inv _ _ _ Ho Hc) as (A & _). eexists. split; [exact A|]. sx. split; [|reflexivity].
    rewrite <- (settings_of_cb _ Hw). apply settings_of_ext. intros k Hk. apply Hd; assumption.
  - exfalso. unfold busy_ok in Hb. destruct (x_busy (w_x w)); [rewrite andb_false_r in Q; discriminate|].
    rewrite He in Q. destruct (_ <? _) eqn:F; cbn in Q; [discriminate|lia].
Qed.

(** ** C49: atomicity *)
Definition atom_inv (w : world) : Prop :=
  let x := w_x w in
  (x_eerie x = false /\ x_busy x = None /\ w_inflight w = None /\
     same_content (slot (x_ee x) (x_index x)) (w_committed w)) \/
  (exists i c n, inv_busy x i c /\ w_inflight w = Some n /\ same_content (x_cache x) n /\
     x_request x = false /\ same_content (slot (x_ee x) i) (w_committed w)).

Lemma slot_upd ee i a v : (a < 64 * i \/ 64 * i + 64 <= a) -> slot (fupd ee a v) i = slot ee i.
Proof. intros H. apply settings_of_ext. intros k Hk. apply fupd_other. lia. Qed.

Lemma quiet_iff x : quiet x = true <-> x_eerie x = false /\ x_busy x = None.
Proof.
  unfold quiet. destruct (x_eerie x), (x_busy x); sx; split; intros H;
    try discriminate; try (destruct H; discriminate); auto.
Qed.

Lemma atom_crash w v : sinv (w_x w) -> atom_inv w -> is_u8 v ->
  exists x', settings_init C (ee_after_crash (w_x w) v) = Some x' /\
    (same_content (x_cache x') (w_committed w) \/
     exists n, w_inflight w = Some n /\ same_content (x_cache x') n) /\
    same_content (slot (x_ee x') (x_index x')) (x_cache x').
Proof.
  intros H A Hv. destruct (crash_chain _ _ H Hv) as (Ho & i & c & Hc & Hx).
  destruct (boot_inv _ _ _ Ho Hc) as (E & _). eexists. split; [exact E|]. sx.
  split; [|apply same_content_refl].
  unfold atom_inv in A; cbv zeta in A. set (x := w_x w) in *. destruct A as [(E1 & E2 & E3 & S)|(i1 & c1 & n & B1 & Ef & S1 & Rq & S)].
  - left. destruct Hx as [(_ & _ & ->)|(i0 & c0 & B & _)].
    + unfold ee_after_crash. rewrite E2. exact S.
    + exfalso. destruct B as (_ & He & _ & _ & _ & Hb & _). unfold busy_ok in Hb. rewrite E2 in Hb. rewrite E1 in He. lia.
  - assert (U : forall i0 c0, inv_busy x i0 c0 -> i0 = i1).
    { intros i0 c0 (_ & _ & Hi0 & (R0 & _) & _). destruct B1 as (_ & _ & Hi1 & (R1 & _) & _).
      rewrite Hi0 in Hi1. destruct (i0 =? N - 1) eqn:F0, (i1 =? N - 1) eqn:F1; lia. }
    destruct Hx as [(G1 & G2 & _)|(i0 & c0 & B0 & Hi)].
    + exfalso. destruct B1 as (_ & He & _ & _ & _ & Hb & _). unfold busy_ok in Hb. rewrite G2 in Hb. rewrite G1 in He. lia.
    + rewrite (U _ _ B0) in Hi. pose proof (sinv_index _ _ _ B1) as (Rx & Nx & Ri). destruct Hi as [->|(-> & O64)].
      * left. unfold ee_after_crash. destruct (x_busy x) as [[a d]|] eqn:Eb; [|exact S].
        destruct B1 as (_ & _ & _ & _ & _ & Hb & _). unfold busy_ok in Hb. rewrite Eb in Hb. destruct Hb as (Hb1 & -> & _).
        rewrite slot_upd; [exact S|]. destruct H as (_ & _ & c2 & [Q|(i2 & (Hof & _))]); [destruct Q as (_ & Q & _); congruence|]. lia.
      * right. exists n. split; [exact Ef|]. eapply same_content_trans; [|exact S1].
        destruct H as (_ & Hw & _). rewrite <- (settings_of_cb _ Hw). apply settings_of_content. intros k Hk.
        destruct B1 as (_ & _ & _ & _ & _ & Hb & Hd). specialize (Hd Rq). unfold busy_ok in Hb.
        rewrite O64 in *. unfold eff in Hd. unfold ee_after_crash.
        destruct (x_busy x) as [[a d]|] eqn:Eb; [|lia]. destruct Hb as (_ & -> & _).
        specialize (Hd k ltac:(lia)). rewrite fupd_other in Hd by lia. rewrite fupd_other by lia. exact Hd.
Qed.

Lemma atom_step w op w' : sinv (w_x w) -> atom_inv w -> op_basic C w op -> op_calm w op ->
  sstep C w op = Some w' -> atom_inv w'.
Proof.
  intros H A Hop Hcalm E. destruct op; cbn [sstep op_basic op_calm] in *.
  - apply Some_inj in E. subst w'. exact A.
  - rewrite store_eq in E. cbn [bind] in E. apply Some_inj in E. subst w'. apply quiet_iff in Hcalm. destruct Hcalm as (Q1 & Q2).
    destruct A as [(E1 & E2 & E3 & S)|(i & c & n & B & _)].
    + left. unfold observe. sx. rewrite E3, E1. sx. auto.
    + exfalso. destruct B as (_ & He & _ & _ & _ & Hb & _). unfold busy_ok in Hb. rewrite Q2 in Hb. rewrite Q1 in He. lia.
  - apply Some_inj in E. subst w'. unfold settings_work.
    assert (NoStart : atom_inv (observe w (w_x w))).
    { destruct A as [(E1 & E2 & E3 & S)|(i & c & n & B & Ef & A)].
      - left. unfold observe. rewrite E3, E1. sx. auto.
      - right. exists i, c, n. unfold observe. rewrite Ef.
        assert (Q : quiet (w_x w) = false).
        { destruct (quiet (w_x w)) eqn:Q; [exfalso|reflexivity]. apply quiet_iff in Q. destruct Q as (Q1 & Q2).
          destruct B as (_ & He & _ & _ & _ & Hb & _). unfold busy_ok in Hb. rewrite Q2 in Hb. rewrite Q1 in He. lia. }
        rewrite Q. sx. auto. }
    destruct (x_request (w_x w)) eqn:R; cbn [negb]; [|exact NoStart].
    destruct (timer_expired (w_now w) (x_timer (w_x w))) eqn:T; cbn [negb]; [|exact NoStart].
    clear NoStart. specialize (Hop eq_refl eq_refl).
    assert (Hw := sinv_work (w_now w) _ H (fun _ _ => Hop)).
    unfold settings_work in Hw. rewrite R, T in Hw. cbn [negb] in Hw.
    apply quiet_iff in Hop. destruct Hop as (Q1 & Q2).
    destruct A as [(E1 & E2 & E3 & S)|(i & c & n & B & _)].
    2:{ exfalso. destruct B as (_ & He & _ & _ & _ & Hb & _). unfold busy_ok in Hb. rewrite Q2 in Hb. rewrite Q1 in He. lia. }
    destruct HC as (Er & _). rewrite Er in *.
    destruct Hw as (_ & _ & c & [(F & _)|(i & B)]); [cbn in F; discriminate|].
    right. unfold observe. rewrite E3. sx. exists i, c. eexists. split; [exact B|].
    split; [reflexivity|]. split; [apply same_content_refl|]. split; [reflexivity|].
    assert (i = x_index (w_x w)).
    { destruct B as (_ & _ & Hi & (R1 & _) & _). cbn in Hi.
      destruct H as (_ & _ & c2 & [(_ & _ & (R2 & _) & _)|(i2 & B2)]).
      - rewrite next_index in Hi by exact R2. destruct (x_index (w_x w) =? N - 1) eqn:F0, (i =? N - 1) eqn:F1; lia.
      - exfalso. destruct B2 as (_ & He & _ & _ & _ & Hb & _). unfold busy_ok in Hb. rewrite Q2 in Hb. rewrite Q1 in He. lia. }
    subst i. exact S.
  - destruct (x_eerie (w_x w)) eqn:E1; [|apply Some_inj in E; subst w'; exact A].
    destruct (x_busy (w_x w)) eqn:E2; [apply Some_inj in E; subst w'; exact A|].
    destruct (sinv_ready _ H E1 E2) as (x' & F & G & He & Hoff & Hix & Hca & Hee & Hrq & _ & _ & Hbn & Hor).
    rewrite F in E. cbn [bind] in E. apply Some_inj in E. subst w'.
    destruct A as [(E3 & _)|(i & c & n & B & Ef & S1 & Rq & S)]; [congruence|].
    right. unfold observe. rewrite Ef.
    assert (Q : quiet x' = false).
    { destruct (quiet x') eqn:Q; [exfalso|reflexivity]. apply quiet_iff in Q. destruct Q as (Q1 & Q2).
      specialize (Hbn Q2). rewrite Q1 in He. lia. }
    rewrite Q. sx. destruct G as (_ & _ & c' & [(Q1 & Q2 & _)|(i' & B')]).
    { exfalso. assert (quiet x' = true) by (apply quiet_iff; auto). congruence. }
    exists i', c', n. split; [exact B'|]. split; [reflexivity|]. rewrite Hca, Hrq, Hee. split; [exact S1|]. split; [exact Rq|].
    replace i' with i; [exact S|]. destruct B as (_ & _ & I1 & (R1 & _) & _), B' as (_ & _ & I2 & (R2 & _) & _).
    rewrite Hix in I2. rewrite I1 in I2. destruct (i' =? N - 1) eqn:F0, (i =? N - 1) eqn:F1; lia.
  - apply Some_inj in E. subst w'. assert (H2 := sinv_done _ H). unfold ee_prog_done in *.
    destruct (x_busy (w_x w)) as [[a d]|] eqn:Eb.
    + destruct A as [(_ & E2 & _)|(i & c & n & B & Ef & S1 & Rq & S)]; [congruence|].
      pose proof (sinv_index _ _ _ B) as (Rx & Nx & Ri).
      assert (Ha : a = 64 * x_index (w_x w) + x_offset (w_x w) - 1 /\ 1 <= x_offset (w_x w) <= 64).
      { destruct B as (Ho & _ & _ & _ & _ & Hb & _). unfold busy_ok in Hb. rewrite Eb in Hb. lia. }
      destruct Ha as (-> & Ho).
      unfold observe. rewrite Ef. destruct (quiet _) eqn:Q.
      * left. sx. apply quiet_iff in Q. cbn in Q. destruct Q as (Q1 & _). split; [exact Q1|]. split; [reflexivity|]. split; [reflexivity|].
        eapply same_content_trans; [|exact S1]. destruct H as (_ & Hw & _).
        rewrite <- (settings_of_cb _ Hw). apply settings_of_content. intros k Hk.
        destruct B as (_ & He & _ & _ & _ & _ & Hd). specialize (Hd Rq). unfold eff in Hd. rewrite Eb in Hd.
        rewrite Q1 in He. apply Hd. lia.
      * right. sx. destruct H2 as (_ & _ & c' & [(Q1 & Q2 & _)|(i' & B')]).
        { exfalso. match type of Q with quiet ?y = _ => assert (quiet y = true) by (apply quiet_iff; auto) end. congruence. }
        exists i', c', n. split; [exact B'|]. split; [reflexivity|]. split; [exact S1|]. split; [exact Rq|].
        assert (i' = i).
        { destruct B as (_ & _ & I1 & (R1 & _) & _), B' as (_ & _ & I2 & (R2 & _) & _). cbn in I2.
          rewrite I1 in I2. destruct (i' =? N - 1) eqn:F0, (i =? N - 1) eqn:F1; lia. }
        subst i'. rewrite slot_upd by lia. exact S.
    + destruct A as [(E1 & E2 & E3 & S)|(i & c & n & B & Ef & A)].
      * left. unfold observe. rewrite E3, E1. sx. auto.
      * right. exists i, c, n. unfold observe. rewrite Ef.
        assert (Q : quiet (w_x w) = false).
        { destruct (quiet (w_x w)) eqn:Q; [exfalso|reflexivity]. apply quiet_iff in Q. destruct Q as (Q1 & Q2).
          destruct B as (_ & He & _ & _ & _ & Hb & _). unfold busy_ok in Hb. rewrite Q2 in Hb. rewrite Q1 in He. lia. }
        rewrite Q. sx. auto.
  - destruct (atom_crash _ _ H A Hop) as (x' & F & _ & S). destruct (sinv_power _ _ H Hop) as (x2 & F2 & _ & _ & Q).
    rewrite F in *. cbn [bind] in E. apply Some_inj in E. apply Some_inj in F2. subst x2 w'.
    apply quiet_iff in Q. destruct Q as (Q1 & Q2).
    left. sx. auto.
Qed.

Lemma sreach_atom w : sreach C true w -> atom_inv w.
Proof.
  induction 1 as [w Hb|w op w' R IH Hop Hcalm Hs].
  - destruct sboot_inv as (w0 & A & H & B & D & Q & _). rewrite A in Hb. apply Some_inj in Hb. subst w0. left. apply quiet_iff in Q. destruct Q.
    split; [assumption|]. split; [assumption|]. split; [assumption|]. rewrite D.
    destruct factory_boot as (F1 & F2 & F3). destruct (boot_inv _ _ _ F1 F2) as (F4 & _).
    unfold sboot in A. rewrite F4 in A. cbn [bind] in A. apply Some_inj in A. subst w. sx. apply same_content_refl.
  - eapply atom_step; eauto. eapply sreach_inv; eauto.
Qed.
End Ring.

(** ** C54: the scan *)
Lemma scan_total C ee fuel k s : 2 <= c_slots C <= 254 -> c_eering C = true ->
  0 <= k <= c_slots C + 1 -> (Z.to_nat (c_slots C + 2 - k) <= fuel)%nat ->
  exists i, ee_scan C ee fuel k s = Some i /\ 0 <= i <= c_slots C + 1.
Proof.
  intros HN Er. revert k s. induction fuel as [|f IH]; intros k s Hk Hf; [lia|].
  cbn [ee_scan]. unfold NR_EE_SETTINGS. rewrite Er. rewrite (u8_id (c_slots C + 1)) by lia.
  rewrite ring_next_eq by lia.
  destruct (negb _); [exists k; split; [reflexivity|lia]|].
  destruct (k =? c_slots C + 1) eqn:E; [exists k; split; [reflexivity|lia]|].
  destruct (k + 1 =? 0) eqn:F; [lia|]. cbn [negb]. apply IH; lia.
Qed.
Lemma init_total C ee : 2 <= c_slots C <= 254 -> exists x, settings_init C ee = Some x.
Proof.
  intros H. unfold settings_init. destruct (c_eering C) eqn:E; [|eexists; reflexivity].
  destruct (scan_total C ee 300 0 (ee_read_byte C ee 63) H E ltac:(lia) ltac:(lia)) as (i & -> & _).
  eexists. reflexivity.
Qed.

(** ** C52 *)
Section Discipline.
Variable C : conf.
Hypothesis HC : ring_conf C.
Let N := c_slots C.

Lemma isr_discipline calm w w' : sreach C calm w -> sstep C w SReady = Some w' ->
  x_ee (w_x w') = x_ee (w_x w) /\
  (w_x w' = w_x w \/ x_busy (w_x w') = None \/
   exists k, 0 <= k < 64 /\
     x_busy (w_x w') = Some (64 * x_index (w_x w) + k, nth (Z.to_nat k) (settings_bytes (x_cache (w_x w))) 0) /\
     nth (Z.to_nat k) (settings_bytes (x_cache (w_x w))) 0 <> x_ee (w_x w) (64 * x_index (w_x w) + k)).
Proof.
  intros R E. apply (sreach_inv C HC) in R. cbn [sstep] in E.
  destruct (x_eerie (w_x w)) eqn:E1; [|apply Some_inj in E; subst w'; auto].
  destruct (x_busy (w_x w)) eqn:E2; [apply Some_inj in E; subst w'; auto|].
  destruct (sinv_ready C HC _ R E1 E2) as (x' & F & G & He & Hoff & Hix & Hca & Hee & Hrq & _ & Hb & Hbn & Hor).
  rewrite F in E. cbn [bind] in E. apply Some_inj in E. subst w'. rewrite observe_x. split; [exact Hee|]. right.
  destruct Hb as [Hb|(d & Hb & Hd & Hn)]; [left; exact Hb|right]. exists (x_offset (w_x w)). split; [exact Hor|].
  unfold cb in Hd. rewrite <- Hd. auto.
Qed.

Lemma cells_discipline calm w op w' a : sreach C calm w -> op_basic C w op -> sstep C w op = Some w' ->
  x_ee (w_x w') a <> x_ee (w_x w) a ->
  64 * x_index (w_x w) <= a < 64 * x_index (w_x w) + 64 /\
  exists d, x_busy (w_x w) = Some (a, d) /\ (op = SDone \/ exists v, op = SPower v).
Proof.
  intros R Hop E Hne. apply (sreach_inv C HC) in R.
  assert (BR : forall b d, x_busy (w_x w) = Some (b, d) -> 64 * x_index (w_x w) <= b < 64 * x_index (w_x w) + 64).
  { intros b d Eb. destruct R as (_ & _ & c & [(_&F&_)|(i&Hof&_&_&_&_&Hb&_)]); [congruence|].
    unfold busy_ok in Hb. rewrite Eb in Hb. lia. }
  destruct op; cbn [sstep] in E.
  - apply Some_inj in E. subst w'. destruct (Hne eq_refl).
  - rewrite store_eq in E. cbn [bind] in E. apply Some_inj in E. subst w'. rewrite observe_x in Hne. destruct (Hne eq_refl).
  - apply Some_inj in E. subst w'. rewrite observe_x in Hne. unfold settings_work in Hne.
    destruct (negb _); [destruct (Hne eq_refl)|]. destruct (negb _); [destruct (Hne eq_refl)|].
    destruct (c_eering C); destruct (Hne eq_refl).
  - destruct (x_eerie (w_x w)) eqn:E1; [|apply Some_inj in E; subst w'; destruct (Hne eq_refl)].
    destruct (x_busy (w_x w)) eqn:E2; [apply Some_inj in E; subst w'; destruct (Hne eq_refl)|].
    destruct (sinv_ready C HC _ R E1 E2) as (x' & F & _ & _ & _ & _ & _ & Hee & _).
    rewrite F in E. cbn [bind] in E. apply Some_inj in E. subst w'. rewrite observe_x, Hee in Hne. destruct (Hne eq_refl).
  - apply Some_inj in E. subst w'. rewrite observe_x in Hne. unfold ee_prog_done in Hne.
    destruct (x_busy (w_x w)) as [[b d]|] eqn:Eb; [|destruct (Hne eq_refl)]. sx in Hne.
    destruct (Z.eq_dec a b) as [->|Nab]; [|rewrite fupd_other in Hne by exact Nab; destruct (Hne eq_refl)].
    split; [eapply BR; reflexivity|]. exists d. auto.
  - apply bind_inv in E. destruct E as (x' & E & F). apply Some_inj in F. subst w'. sx in Hne.
    unfold settings_init in E. apply bind_inv in E. destruct E as (i & _ & F). apply Some_inj in F. subst x'. sx in Hne.
    unfold ee_after_crash in Hne. destruct (x_busy (w_x w)) as [[b d]|] eqn:Eb; [|destruct (Hne eq_refl)].
    destruct (Z.eq_dec a b) as [->|Nab]; [|rewrite fupd_other in Hne by exact Nab; destruct (Hne eq_refl)].
    split; [eapply BR; reflexivity|]. exists d. split; [reflexivity|]. right. eexists. reflexivity.
Qed.

Lemma index_step w op w' : sinv C (w_x w) -> op_basic C w op -> no_power op -> sstep C w op = Some w' ->
  x_index (w_x w') = (x_index (w_x w) + match op with SWork => if starts (w_x w) (w_x w') then 1 else 0 | _ => 0 end) mod N.
Proof.
  intros R Hop Hnp E. pose proof (HN C HC) as HN. fold N in HN.
  assert (Ix : 0 <= x_index (w_x w) < N).
  { destruct R as (_ & _ & c & [(_&_&(F&_)&_)|(i&B)]); [exact F|]. apply (sinv_index C HC) in B. fold N in B. lia. }
  assert (Same : x_index (w_x w) = (x_index (w_x w) + 0) mod N) by (rewrite Z.add_0_r, Z.mod_small; lia).
  destruct op; cbn [sstep] in E; try contradiction.
  - apply Some_inj in E. subst w'. exact Same.
  - rewrite store_eq in E. cbn [bind] in E. apply Some_inj in E. subst w'. rewrite observe_x. exact Same.
  - apply Some_inj in E. subst w'. rewrite observe_x. unfold settings_work, starts.
    cbn [op_basic] in Hop.
    assert (NQ : quiet (w_x w) && x_eerie (w_x w) = false).
    { unfold quiet. destruct (x_eerie (w_x w)); [reflexivity|apply andb_false_r]. }
    destruct (x_request (w_x w)) eqn:Rq; cbn [negb]; [|rewrite NQ; exact Same].
    destruct (timer_expired _ _) eqn:T; cbn [negb]; [|rewrite NQ; exact Same].
    destruct HC as (Er & _). rewrite Er. sx. rewrite (Hop eq_refl eq_refl). cbn [andb].
    rewrite (next_index C HC) by exact Ix. fold N. destruct (x_index (w_x w) =? N - 1) eqn:F.
    + replace (x_index (w_x w) + 1) with N by lia. rewrite Z.mod_same by lia. reflexivity.
    + rewrite Z.mod_small by lia. reflexivity.
  - destruct (x_eerie (w_x w)) eqn:E1; [|apply Some_inj in E; subst w'; exact Same].
    destruct (x_busy (w_x w)) eqn:E2; [apply Some_inj in E; subst w'; exact Same|].
    destruct (sinv_ready C HC _ R E1 E2) as (x' & F & _ & _ & _ & Hix & _).
    rewrite F in E. cbn [bind] in E. apply Some_inj in E. subst w'. rewrite observe_x, Hix. exact Same.
  - apply Some_inj in E. subst w'. rewrite observe_x. unfold ee_prog_done.
    destruct (x_busy (w_x w)) as [[b d]|]; sx; exact Same.
Qed.

Lemma round_robin_inv w ops w' : srun C w ops w' -> sinv C (w_x w) -> Forall no_power ops ->
  x_index (w_x w') = (x_index (w_x w) + nstores C w ops) mod N.
Proof.
  pose proof (HN C HC) as HN. fold N in HN.
  induction 1 as [w|w op w1 ops w2 Hop Hs Hr IH]; intros R Hf.
  - cbn [nstores]. rewrite Z.add_0_r.
    rewrite Z.mod_small; [reflexivity|].
    destruct R as (_ & _ & c & [(_&_&(F&_)&_)|(i&B)]); [exact F|]. apply (sinv_index C HC) in B. fold N in B. lia.
  - inversion Hf as [|? ? Hnp Hf']; subst. cbn [nstores]. rewrite Hs.
    destruct (sinv_step C HC _ _ R Hop) as (wx & A & B). rewrite Hs in A. apply Some_inj in A. subst wx.
    rewrite (IH B Hf'). rewrite (index_step _ _ _ R Hop Hnp Hs). rewrite Zplus_mod_idemp_l. f_equal. lia.
Qed.
Lemma round_robin calm w ops w' : sreach C calm w -> srun C w ops w' -> Forall no_power ops ->
  x_index (w_x w') = (x_index (w_x w) + nstores C w ops) mod c_slots C.
Proof. intros R. intros. apply round_robin_inv; auto. eapply sreach_inv; eauto. Qed.
End Discipline.

(** ** C53: timing *)
Lemma expired_elapsed now e : is_u16 now -> 0 <= e <= 33767 + 0 ->
  timer_expired now (u16 (now - e + 1000)) = (1000 <=? e).
Proof.
  intros H He. unfold timer_expired, timer_count_since.
  replace (u16 (now - u16 (now - e + 1000))) with (u16 (e - 1000)).
  2:{ clear. unfold u16. lia. }
  clear - He. unfold s16, u16. lia.
Qed.
Lemma expired_min now e : is_u16 now -> 0 <= e ->
  timer_expired now (u16 (now - e + 1000)) = true -> 1000 <= e.
Proof.
  intros H He T. destruct (Z_lt_le_dec e 1000); [|lia]. rewrite expired_elapsed in T by (assumption || lia). lia.
Qed.

Lemma nticks_nonneg ops : 0 <= nticks ops.
Proof. induction ops as [|o r IH]; cbn [nticks]; [lia|]. destruct o; lia. Qed.

(** State of the request flag and timer after [e] ticks since the last change. *)
Definition pending (w : world) (e : Z) : Prop :=
  is_u16 (w_now w) /\ x_request (w_x w) = true /\ x_timer (w_x w) = u16 (w_now w - e + 1000).
Definition nopending (w : world) : Prop := is_u16 (w_now w) /\ x_request (w_x w) = false.

Lemma tick_now n : is_u16 (timer_isr n).
Proof. unfold timer_isr, is_u16. pose proof (u16_range (n + 1)). lia. Qed.

Lemma modify_pending C w f w' : is_u16 (w_now w) -> sstep C w (SModify f) = Some w' -> pending w' 0.
Proof.
  intros H E. cbn [sstep] in E. rewrite store_eq in E. cbn [bind] in E. apply Some_inj in E. subst w'.
  unfold pending. rewrite observe_x, observe_now. sx. split; [exact H|]. split; [reflexivity|]. f_equal. lia.
Qed.

Lemma isr_fields C x x' : ee_ready_isr C x = Some x' -> x_request x' = x_request x /\ x_timer x' = x_timer x.
Proof.
  unfold ee_ready_isr. destruct (_ && _); [|discriminate]. intros E. apply bind_inv in E. destruct E as (d & _ & E).
  apply Some_inj in E. subst x'. destruct (_ =? _); destruct (_ <=? _); split; reflexivity.
Qed.

Lemma quiet_step C w op w' : no_user op -> sstep C w op = Some w' -> op <> SWork -> 
  is_u16 (w_now w) ->
  (forall e, pending w e -> pending w' (e + match op with STick => 1 | _ => 0 end)) /\
  (nopending w -> nopending w').
Proof.
  intros Hn E Hw Hu. destruct op; cbn [sstep no_user] in *; try contradiction.
  - apply Some_inj in E. subst w'. unfold pending, nopending. sx. split.
    + intros e (A & B & D). split; [apply tick_now|]. split; [exact B|]. rewrite D. unfold timer_isr, u16. clear. lia.
    + intros (A & B). split; [apply tick_now|exact B].
  - destruct (x_eerie (w_x w)) eqn:E1; [|apply Some_inj in E; subst w'; split; [intros e; rewrite Z.add_0_r|]; auto].
    destruct (x_busy (w_x w)) eqn:E2; [apply Some_inj in E; subst w'; split; [intros e; rewrite Z.add_0_r|]; auto|].
    apply bind_inv in E. destruct E as (x' & E & F). apply Some_inj in F. subst w'. apply isr_fields in E. destruct E as (A & B).
    unfold pending, nopending. rewrite observe_x, observe_now, A, B. split; [intros e; rewrite Z.add_0_r|]; auto.
  - apply Some_inj in E. subst w'. unfold pending, nopending, ee_prog_done. rewrite observe_x, observe_now.
    destruct (x_busy (w_x w)) as [[a d]|]; sx; (split; [intros e; rewrite Z.add_0_r|]; auto).
Qed.

Lemma work_nostart x : starts x x = false.
Proof. unfold starts, quiet. destruct (x_eerie x); cbn; [reflexivity|apply andb_false_r]. Qed.

Lemma work_pending C w w' e : pending w e -> 0 <= e -> sstep C w SWork = Some w' ->
  (starts (w_x w) (w_x w') = true -> 1000 <= e) /\
  ((pending w' e /\ w_x w' = w_x w) \/ (nopending w' /\ 1000 <= e /\ (op_basic C w SWork -> starts (w_x w) (w_x w') = true))) /\
  (1000 <= e <= 33767 -> op_basic C w SWork -> starts (w_x w) (w_x w') = true).
Proof.
  intros (U & R & T) He E. cbn [sstep] in E. apply Some_inj in E. subst w'. unfold pending, nopending.
  rewrite observe_x, observe_now. unfold settings_work. rewrite R, T. cbn [negb].
  destruct (timer_expired _ _) eqn:X; cbn [negb].
  - pose proof (expired_min _ _ U He X) as Le. split; [intros _; exact Le|].
    match goal with |- (_ \/ (_ /\ _ /\ (_ -> ?S))) /\ _ => assert (St : op_basic C w SWork -> S) end.
    { intros Hb. cbn [op_basic] in Hb. rewrite R, T in Hb. specialize (Hb eq_refl X).
      unfold starts. rewrite Hb. destruct (c_eering C); reflexivity. }
    split; [right|intros _; exact St].
    split; [destruct (c_eering C); sx; auto|]. split; [exact Le|exact St].
  - rewrite work_nostart. split; [discriminate|]. split; [left; auto|].
    intros Hr _. rewrite expired_elapsed in X by (assumption || lia). lia.
Qed.
Lemma work_nopending C w w' : nopending w -> sstep C w SWork = Some w' ->
  nopending w' /\ starts (w_x w) (w_x w') = false.
Proof.
  intros (U & R) E. cbn [sstep] in E. apply Some_inj in E. subst w'. unfold nopending.
  rewrite observe_x, observe_now. unfold settings_work. rewrite R. cbn [negb]. split; [auto|apply work_nostart].
Qed.

Lemma idle_no_store C w ops w' : srun C w ops w' -> Forall no_user ops -> nopending w ->
  nstores C w ops = 0 /\ nopending w'.
Proof.
  induction 1 as [w|w op w1 ops w2 Hop Hs Hr IH]; intros Hf P; [cbn; auto|].
  inversion Hf as [|? ? Hn Hf']; subst. cbn [nstores]. rewrite Hs.
  destruct (match op with SWork => true | _ => false end) eqn:IsW.
  - destruct op; try discriminate. destruct (work_nopending _ _ _ P Hs) as (A & B). rewrite B.
    destruct (IH Hf' A) as (I1 & I2). split; [rewrite I1; reflexivity|exact I2].
  - destruct (quiet_step C w op w1 Hn Hs ltac:(intros ->; discriminate) ltac:(apply P)) as (_ & Q).
    destruct (IH Hf' (Q P)) as (I1 & I2). split; [|exact I2]. rewrite I1. destruct op; try reflexivity. discriminate.
Qed.

Lemma pending_run C w ops w' e : srun C w ops w' -> Forall no_user ops -> pending w e -> 0 <= e ->
  (e + nticks ops < 1000 -> nstores C w ops = 0) /\
  (nstores C w ops = 0 \/ nstores C w ops = 1) /\
  (nstores C w ops = 0 -> pending w' (e + nticks ops)).
Proof.
  intros H. revert e. induction H as [w|w op w1 ops w2 Hop Hs Hr IH]; intros e Hf P He.
  - cbn [nstores nticks]. rewrite Z.add_0_r. auto.
  - inversion Hf as [|? ? Hn Hf']; subst. cbn [nstores]. rewrite Hs.
    destruct (match op with SWork => true | _ => false end) eqn:IsW.
    + destruct op; try discriminate. cbn [nticks]. destruct (work_pending _ _ _ _ P He Hs) as (A & [(B & B2)|(B & B2 & B3)] & _).
      * assert (NS : starts (w_x w) (w_x w1) = false) by (rewrite B2; apply work_nostart). rewrite NS. cbn [Z.add]. apply IH; assumption.
      * destruct (idle_no_store _ _ _ _ Hr Hf' B) as (I1 & I2). rewrite I1. pose proof (nticks_nonneg ops).
        split; [lia|]. rewrite (B3 Hop). split; [right; reflexivity|]. discriminate.
    + destruct (quiet_step C w op w1 Hn Hs ltac:(intros ->; discriminate) ltac:(apply P)) as (Q & _).
      specialize (Q e P). destruct (IH _ Hf' Q ltac:(destruct op; lia)) as (I1 & I2 & I3).
      destruct op; try discriminate; cbn [nticks]; rewrite ?Z.add_0_l, ?Z.add_0_r in *;
        try (replace (e + (1 + nticks ops)) with (e + 1 + nticks ops) by lia); auto.
Qed.

Lemma srun_app C w a w1 b w2 : srun C w a w1 -> srun C w1 b w2 -> srun C w (a ++ b) w2.
Proof. induction 1; cbn; [auto|]. intros. econstructor; eauto. Qed.
Lemma nstores_app C w a w1 b : srun C w a w1 -> nstores C w (a ++ b) = nstores C w a + nstores C w1 b.
Proof.
  induction 1 as [w|w op w1 ops w2 Hop Hs Hr IH]; [reflexivity|].
  cbn [app nstores]. rewrite Hs, IH. lia.
Qed.

Lemma coalesce C w f w1 ops w2 : is_u16 (w_now w) ->
  sstep C w (SModify f) = Some w1 -> srun C w1 ops w2 -> Forall no_user ops ->
  (nticks ops < 1000 -> nstores C w1 ops = 0) /\
  (nstores C w1 ops <= 1) /\
  (nstores C w1 ops = 0 -> 1000 <= nticks ops <= 33767 ->
     op_basic C w2 SWork -> nstores C w1 (ops ++ [SWork]) = 1).
Proof.
  intros U M R F. apply (modify_pending _ _ _ _ U) in M.
  destruct (pending_run _ _ _ _ 0 R F M ltac:(lia)) as (A & B & D). cbn [Z.add] in *.
  split; [exact A|]. split; [lia|]. intros Z0 Ht Hb. rewrite (nstores_app _ _ _ _ _ R), Z0.
  pose proof (D Z0) as P.
  assert (S : exists w3, sstep C w2 SWork = Some w3) by (eexists; reflexivity). destruct S as (w3 & S).
  destruct (work_pending _ _ _ _ P ltac:(lia) S) as (_ & _ & G). cbn [nstores]. rewrite S.
  rewrite (G ltac:(lia) Hb). reflexivity.
Qed.

(** Consecutive store starts are at least 1000 ticks apart. *)
Definition gap_inv (w : world) (t : Z) : Prop :=
  nopending w \/ exists e, pending w e /\ 0 <= e <= t.
Lemma gap_step C w op w' t : gap_inv w t -> no_power op -> sstep C w op = Some w' -> 0 <= t ->
  (starts (w_x w) (w_x w') = false \/ op <> SWork) -> 
  gap_inv w' (t + match op with STick => 1 | _ => 0 end).
Proof.
  intros G Hn E Ht Hns. assert (U : is_u16 (w_now w)) by (destruct G as [(U&_)|(e&(U&_)&_)]; exact U).
  destruct op; try contradiction.
  - destruct (quiet_step C w STick w' I E ltac:(discriminate) U) as (Q1 & Q2).
    destruct G as [G|(e & G & He)]; [left; auto|right]. exists (e + 1). split; [apply Q1; exact G|lia].
  - right. exists 0. split; [eapply modify_pending; eauto|lia].
  - destruct G as [G|(e & G & He)].
    + left. eapply work_nopending; eauto.
    + destruct (work_pending _ _ _ _ G ltac:(lia) E) as (_ & [(B & _)|(B & _)] & _); [right|left; exact B].
      exists e. split; [exact B|lia].
  - destruct (quiet_step C w SReady w' I E ltac:(discriminate) U) as (Q1 & Q2).
    destruct G as [G|(e & G & He)]; [left; auto|right]. exists (e + 0). split; [apply Q1; exact G|lia].
  - destruct (quiet_step C w SDone w' I E ltac:(discriminate) U) as (Q1 & Q2).
    destruct G as [G|(e & G & He)]; [left; auto|right]. exists (e + 0). split; [apply Q1; exact G|lia].
Qed.
Lemma gap_run C w ops w' t : srun C w ops w' -> Forall no_power ops -> gap_inv w t -> 0 <= t ->
  nstores C w ops = 0 -> gap_inv w' (t + nticks ops).
Proof.
  intros H. revert t. induction H as [w|w op w1 ops w2 Hop Hs Hr IH]; intros t Hf G Ht Hz.
  - cbn [nticks]. rewrite Z.add_0_r. exact G.
  - inversion Hf as [|? ? Hn Hf']; subst. cbn [nstores] in Hz. rewrite Hs in Hz.
    assert (NN : forall w l, 0 <= nstores C w l).
    { clear. intros w l. revert w. induction l as [|o r IH]; intros w; cbn [nstores]; [lia|].
      destruct (sstep C w o) as [w'|]; [|lia]. specialize (IH w'). destruct o; try lia. destruct (starts _ _); lia. }
    pose proof (NN w1 ops) as P1.
    assert (A : (starts (w_x w) (w_x w1) = false \/ op <> SWork) /\ nstores C w1 ops = 0).
    { destruct op; try (split; [right; discriminate|lia]). destruct (starts _ _); [lia|]. split; [left; reflexivity|lia]. }
    destruct A as (A1 & A2). pose proof (gap_step C _ _ _ _ G Hn Hs Ht A1) as G'.
    specialize (IH _ Hf' G' ltac:(destruct op; lia) A2).
    destruct op; cbn [nticks]; rewrite ?Z.add_0_l, ?Z.add_0_r in *;
      try (replace (t + (1 + nticks ops)) with (t + 1 + nticks ops) by lia); auto.
Qed.
Lemma store_gap C w w1 ops w2 w3 : is_u16 (w_now w) ->
  sstep C w SWork = Some w1 -> starts (w_x w) (w_x w1) = true ->
  srun C w1 ops w2 -> Forall no_power ops -> nstores C w1 ops = 0 ->
  sstep C w2 SWork = Some w3 -> starts (w_x w2) (w_x w3) = true -> 1000 <= nticks ops.
Proof.
  intros U S1 St1 R F Z0 S2 St2.
  assert (G : gap_inv w1 0).
  { left. cbn [sstep] in S1. apply Some_inj in S1. subst w1. revert St1. unfold nopending. rewrite observe_x, observe_now.
    unfold settings_work. destruct (x_request (w_x w)) eqn:Rq; cbn [negb]; [|rewrite work_nostart; discriminate].
    destruct (timer_expired _ _); cbn [negb]; [|rewrite work_nostart; discriminate].
    intros _. split; [exact U|]. destruct (c_eering C); reflexivity. }
  pose proof (gap_run _ _ _ _ _ R F G ltac:(lia) Z0) as G2. cbn [Z.add] in G2.
  destruct G2 as [P|(e & P & He)].
  - destruct (work_nopending _ _ _ P S2) as (_ & X). congruence.
  - destruct (work_pending _ _ _ _ P ltac:(lia) S2) as (X & _). specialize (X St2). lia.
Qed.

Lemma reach_now C calm w : sreach C calm w -> is_u16 (w_now w).
Proof.
  induction 1 as [w Hb|w op w' R IH Hop _ Hs].
  - unfold sboot in Hb. apply bind_inv in Hb. destruct Hb as (x & _ & Hb). apply Some_inj in Hb. subst w. unfold is_u16. sx. lia.
  - destruct op; cbn [sstep] in Hs.
    + apply Some_inj in Hs. subst w'. apply tick_now.
    + apply bind_inv in Hs. destruct Hs as (x & _ & Hs). apply Some_inj in Hs. subst w'. rewrite observe_now. exact IH.
    + apply Some_inj in Hs. subst w'. rewrite observe_now. exact IH.
    + destruct (x_eerie (w_x w)); [|apply Some_inj in Hs; subst w'; exact IH].
      destruct (x_busy (w_x w)); [apply Some_inj in Hs; subst w'; exact IH|].
      apply bind_inv in Hs. destruct Hs as (x & _ & Hs). apply Some_inj in Hs. subst w'. rewrite observe_now. exact IH.
    + apply Some_inj in Hs. subst w'. rewrite observe_now. exact IH.
    + apply bind_inv in Hs. destruct Hs as (x & _ & Hs). apply Some_inj in Hs. subst w'. unfold is_u16. sx. lia.
Qed.

(** For examples: many ticks at once. *)
Lemma sreach_ticks C calm w n : sreach C calm w ->
  sreach C calm (mkW (Nat.iter n timer_isr (w_now w)) (w_x w) (w_committed w) (w_inflight w)).
Proof.
  intros R. induction n as [|n IH].
  - destruct w; exact R.
  - eapply sreach_step with (op := STick); [exact IH|exact I|intros _; exact I|reflexivity].
Qed.

(** ** A started store completes *)
(** Rounds in the order programming-done, ready; a final done. *)
Definition drounds (n : nat) : list sop := concat (repeat [SDone; SReady] n) ++ [SDone].
Lemma done_facts C w w1 : sstep C w SDone = Some w1 ->
  x_busy (w_x w1) = None /\ x_eerie (w_x w1) = x_eerie (w_x w) /\ x_offset (w_x w1) = x_offset (w_x w) /\
  x_cache (w_x w1) = x_cache (w_x w) /\ x_request (w_x w1) = x_request (w_x w).
Proof.
  cbn [sstep]. intros E. apply Some_inj in E. subst w1. rewrite observe_x. unfold ee_prog_done.
  destruct (x_busy (w_x w)) as [[a d]|] eqn:E; sx; rewrite ?E; auto.
Qed.
Lemma store_completes C (HC : ring_conf C) n w : sinv C (w_x w) ->
  64 - x_offset (w_x w) <= Z.of_nat n \/ x_eerie (w_x w) = false ->
  exists w', sexec C w (drounds n) = Some w' /\ quiet (w_x w') = true /\
    x_cache (w_x w') = x_cache (w_x w) /\ x_request (w_x w') = x_request (w_x w).
Proof.
  revert w. induction n as [|n IH]; intros w H Ho.
  - change (drounds 0) with [SDone]. cbn [sexec]. destruct (sinv_step C HC w SDone H I) as (w1 & A1 & B1).
    rewrite A1. cbn [bind]. exists w1. split; [reflexivity|]. apply done_facts in A1. destruct A1 as (D1 & D2 & D3 & D4 & D5).
    split; [|auto]. apply quiet_iff. split; [|exact D1]. rewrite D2.
    destruct (x_eerie (w_x w)) eqn:E; [|reflexivity]. exfalso.
    destruct H as (_ & _ & c & [(F&_)|(i&Hof&He&_)]); [congruence|]. rewrite E in He. destruct Ho; [lia|discriminate].
  - change (drounds (S n)) with (SDone :: SReady :: drounds n). cbn [sexec].
    destruct (sinv_step C HC w SDone H I) as (w1 & A1 & B1).
    destruct (sinv_step C HC w1 SReady B1 I) as (w2 & A2 & B2). rewrite A1. cbn [bind]. rewrite A2. cbn [bind].
    apply done_facts in A1. destruct A1 as (D1 & D2 & D3 & D4 & D5).
    assert (K : x_cache (w_x w2) = x_cache (w_x w) /\ x_request (w_x w2) = x_request (w_x w) /\
       (64 - x_offset (w_x w2) <= Z.of_nat n \/ x_eerie (w_x w2) = false)).
    { cbn [sstep] in A2. rewrite D1, D2 in A2. destruct (x_eerie (w_x w)) eqn:E1.
      - destruct (sinv_ready C HC _ B1 D2 D1) as (x' & F & _ & He & Hoff & Hix & Hca & Hee & Hrq & _).
        rewrite F in A2. cbn [bind] in A2. apply Some_inj in A2. subst w2. rewrite observe_x.
        split; [congruence|]. split; [congruence|]. left. destruct Ho; [lia|discriminate].
      - apply Some_inj in A2. subst w2. split; [exact D4|]. split; [exact D5|]. right. exact D2. }
    destruct K as (K1 & K2 & K3). destruct (IH w2 B2 K3) as (w' & F1 & F2 & F3 & F4).
    exists w'. split; [exact F1|]. split; [exact F2|]. split; congruence.
Qed.

(** ** Checking concrete executions *)
Definition mod_ok (op : sop) : Prop :=
  match op with
  | SModify f => forall s, settings_wf s -> settings_wf (f s) /\ s_serial (f s) = s_serial s
  | SPower v => is_u8 v
  | _ => True
  end.
Fixpoint okb (C : conf) (calm : bool) (w : world) (ops : list sop) : bool :=
  match ops with
  | [] => true
  | o :: r =>
    match o with
    | SWork => negb (x_request (w_x w)) || negb (timer_expired (w_now w) (x_timer (w_x w))) || quiet (w_x w)
    | SModify _ => negb calm || quiet (w_x w)
    | _ => true
    end && match sstep C w o with Some w' => okb C calm w' r | None => false end
  end.
Lemma okb_head C calm w o r : mod_ok o -> okb C calm w (o :: r) = true ->
  op_basic C w o /\ (calm = true -> op_calm w o) /\ exists w', sstep C w o = Some w' /\ okb C calm w' r = true.
Proof.
  intros M K. cbn [okb] in K. apply andb_true_iff in K. destruct K as (K1 & K2).
  split; [|split].
  - destruct o; cbn [op_basic mod_ok] in *; auto. intros E1 E2. rewrite E1, E2 in K1. exact K1.
  - intros ->. destruct o; cbn [op_calm]; auto.
  - destruct (sstep C w o) as [w'|]; [|discriminate]. eauto.
Qed.
Lemma okb_srun C w ops : Forall mod_ok ops -> okb C false w ops = true ->
  exists w', sexec C w ops = Some w' /\ srun C w ops w'.
Proof.
  revert w. induction ops as [|o r IH]; intros w F K; [exists w; split; [reflexivity|constructor]|].
  inversion F as [|? ? M F']; subst. destruct (okb_head _ _ _ _ _ M K) as (A & _ & w1 & B & D).
  destruct (IH w1 F' D) as (w' & E1 & E2). exists w'. cbn [sexec]. rewrite B. split; [exact E1|]. econstructor; eauto.
Qed.
Lemma okb_sreach C calm w ops : sreach C calm w -> Forall mod_ok ops -> okb C calm w ops = true ->
  exists w', sexec C w ops = Some w' /\ sreach C calm w'.
Proof.
  revert w. induction ops as [|o r IH]; intros w R F K; [exists w; split; [reflexivity|exact R]|].
  inversion F as [|? ? M F']; subst. destruct (okb_head _ _ _ _ _ M K) as (A & A2 & w1 & B & D).
  destruct (IH w1 ltac:(eapply sreach_step; eauto) F' D) as (w' & E1 & E2). exists w'. cbn [sexec]. rewrite B. auto.
Qed.
Lemma mod_ok_repeat o n : mod_ok o -> Forall mod_ok (repeat o n).
Proof. intros H. apply Forall_forall. intros x Hx. apply repeat_spec in Hx. now subst. Qed.
Lemma mod_ok_concat l n : Forall mod_ok l -> Forall mod_ok (concat (repeat l n)).
Proof. intros H. induction n; cbn; [constructor|]. apply Forall_app. auto. Qed.

(** Change of the first preset (a user change). *)
Definition set_preset0 (v : Z) (s : settings) : settings :=
  set_s_preset s (match s_preset s with _ :: t => v :: t | [] => [] end).
Lemma set_preset0_ok v : is_s24 v -> mod_ok (SModify (set_preset0 v)).
Proof.
  intros Hv s (K & I & (a&b&c&d&e&f&Ep&Ha) & R). unfold set_preset0. rewrite Ep. split; [|reflexivity].
  unfold settings_wf. cbn. split; [exact K|]. split; [exact I|]. split; [|exact R].
  exists v, b, c, d, e, f. split; [reflexivity|]. tauto.
Qed.
Lemma srun_sreach C w ops w' : sreach C false w -> srun C w ops w' -> sreach C false w'.
Proof.
  intros R H. induction H as [w|w op w1 ops w2 Hop Hs Hr IH]; [exact R|].
  apply IH. eapply sreach_step; eauto. discriminate.
Qed.

Lemma atomic C w v : ring_conf C -> sreach C true w -> is_u8 v ->
  exists x', settings_init C (ee_after_crash (w_x w) v) = Some x' /\
    (same_content (x_cache x') (w_committed w) \/
     exists n, w_inflight w = Some n /\ same_content (x_cache x') n).
Proof.
  intros HC R Hv. destruct (atom_crash C HC w v (sreach_inv C HC _ _ R) (sreach_atom C HC w R) Hv) as (x' & A & B & _). eauto.
Qed.
Lemma quiet_no_inflight C w : ring_conf C -> sreach C true w -> quiet (w_x w) = true -> w_inflight w = None.
Proof.
  intros HC R Q. apply quiet_iff in Q. destruct Q as (Q1 & Q2). destruct (sreach_atom C HC w R) as [(_&_&E&_)|(i&c&n&B&_)]; [exact E|].
  exfalso. destruct B as (_ & He & _ & _ & _ & Hb & _). unfold busy_ok in Hb. rewrite Q2 in Hb. rewrite Q1 in He. lia.
Qed.
Lemma reach_total C calm w op : ring_conf C -> sreach C calm w -> op_basic C w op -> exists w', sstep C w op = Some w'.
Proof.
  intros HC R Hop. destruct (sinv_step C HC w op (sreach_inv C HC _ _ R) Hop) as (w' & A & _). eauto.
Qed.
Lemma reach_completes C calm w : ring_conf C -> sreach C calm w ->
  exists w', sexec C w (drounds 64) = Some w' /\ quiet (w_x w') = true /\
    x_cache (w_x w') = x_cache (w_x w) /\ x_request (w_x w') = x_request (w_x w).
Proof.
  intros HC R. apply store_completes; [exact HC|eapply sreach_inv; eauto|].
  apply (sreach_inv C HC) in R. destruct R as (_ & _ & c & [(E&_)|(i&Ho&_)]); [right; exact E|left; lia].
Qed.
Lemma scan_exact C ee : ring_conf C -> (forall a, is_u8 (ee a)) ->
  exists x i, settings_init C ee = Some x /\ x_index x = i /\ 0 <= i < c_slots C /\
    x_cache x = settings_of (fun k => ee (64 * i + k)) /\
    (forall m, 0 <= m < i -> ee (64 * (m + 1) + 63) = (ee (64 * m + 63) + 1) mod 256) /\
    (i + 1 < c_slots C -> ee (64 * (i + 1) + 63) <> (ee (64 * i + 63) + 1) mod 256).
Proof.
  intros HC Hb. pose proof (HN C HC) as HN.
  destruct (scan_run C HC ee 300 0 (ser ee 0)) as (i & A & B & D & F).
  - intros m Hm. replace m with 0 by lia. rewrite Z.add_0_r, u8_id; [reflexivity|apply Hb].
  - lia.
  - lia.
  - unfold settings_init. destruct HC as (Er & _). rewrite Er.
    rewrite ee_read_in by lia. change (ee 63) with (ser ee 0). rewrite A. cbn [bind].
    eexists _, i. split; [reflexivity|]. sx. split; [reflexivity|]. split; [lia|]. split; [|split].
    + apply settings_of_ext. intros k Hk. apply ee_read_in. lia.
    + intros m Hm. pose proof (D m ltac:(lia)) as D1. pose proof (D (m + 1) ltac:(lia)) as D2. unfold ser in *. rewrite D1, D2.
      clear. unfold u8. lia.
    + intros Hi. specialize (F Hi). pose proof (D i ltac:(lia)) as D1. unfold ser in *. rewrite D1.
      intros E. apply F. rewrite E. clear. unfold u8. lia.
Qed.
