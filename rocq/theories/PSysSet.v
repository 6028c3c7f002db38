(** * The settings in the running system: value ranges that survive torn and mixed stores *)
From Coq Require Import ZArith List Bool Lia ZifyBool.
From Verif Require Import Base PBase MConf MUtil MFixpt MRing MTimer MPid MSettings SpecNum PNum SpecSmall PSmall
  SpecSettings PSettings.
Import ListNotations.
Open Scope Z_scope.
Ltac Zify.zify_post_hook ::= Z.div_mod_to_equations.

(** Bounds of gains P and D, gain I, temperatures, adjustment. *)
Record bnds : Type := mkB { bK : Z; bI : Z; bT : Z; bAlo : Z; bAhi : Z }.
Definition strict : bnds := mkB 6336 576 30720 (-6336) 6336.
Definition relaxed : bnds := mkB 6399 767 30975 (-65536) 65535.

Definition gain_rng (B : bnds) (used : bool) (k : pid_k) : Prop :=
  0 <= kp k <= bK B /\ 0 <= ki k <= bI B /\ 0 <= kd k <= bK B /\
  0 <= d_decay_div k <= 255 /\ (used = true -> d_decay_div k = 128).
Definition rng (B : bnds) (C : conf) (s : settings) : Prop :=
  (exists k1 k2 k3, s_k s = [k1; k2; k3] /\ gain_rng B true k1 /\ gain_rng B (c_boost C) k2 /\ gain_rng B (c_boost C) k3) /\
  0 <= s_idle s <= bT B /\
  (exists a b c d e f, s_preset s = [a; b; c; d; e; f] /\
     0 <= a <= bT B /\ 0 <= b <= bT B /\ 0 <= c <= bT B /\ 0 <= d <= bT B /\ 0 <= e <= bT B /\ 0 <= f <= bT B) /\
  0 <= s_active s <= 5 /\ bAlo B <= s_adj s <= bAhi B /\
  (exists a b, s_reserved s = [a; b] /\ is_u8 a /\ is_u8 b) /\ is_u8 (s_serial s).

Definition le_b (A B : bnds) : Prop :=
  bK A <= bK B /\ bI A <= bI B /\ bT A <= bT B /\ bAlo B <= bAlo A /\ bAhi A <= bAhi B.
Lemma le_b_refl A : le_b A A. Proof. unfold le_b. lia. Qed.
Lemma strict_relaxed : le_b strict relaxed. Proof. unfold le_b; cbn; lia. Qed.
Lemma gain_rng_le A B u k : le_b A B -> gain_rng A u k -> gain_rng B u k.
Proof. unfold le_b, gain_rng. intros (?&?&?&?&?) (?&?&?&?&?). repeat (split; [lia|]). assumption. Qed.
Lemma rng_le A B C s : le_b A B -> rng A C s -> rng B C s.
Proof.
  intros L ((k1&k2&k3&Ek&G1&G2&G3)&Hi&(a&b&c&d&e&f&Ep&Ha&Hb&Hc&Hd&He&Hf)&Hac&Had&Hr&Hs).
  assert (L' := L). destruct L' as (L1&L2&L3&L4&L5). split; [|split; [|split; [|split; [|split; [|split]]]]].
  - exists k1, k2, k3. split; [exact Ek|]. split; [|split]; eapply gain_rng_le; eassumption.
  - lia.
  - exists a, b, c, d, e, f. split; [exact Ep|]. lia.
  - exact Hac.
  - lia.
  - exact Hr.
  - exact Hs.
Qed.
Lemma rng_wf C s : rng relaxed C s -> settings_wf s.
Proof.
  intros ((k1&k2&k3&Ek&G1&G2&G3)&Hi&(a&b&c&d&e&f&Ep&Ha&Hb&Hc&Hd&He&Hf)&Hac&Had&Hr&Hs). cbn [relaxed bK bI bT bAlo bAhi] in *.
  assert (G : forall u k, gain_rng relaxed u k -> k24 k).
  { unfold gain_rng, k24, is_s24; cbn. lia. }
  split; [|split; [|split; [|split; [|split; [|split]]]]].
  - exists k1, k2, k3. split; [exact Ek|]. split; [|split]; eapply G; eassumption.
  - unfold is_s24; lia.
  - exists a, b, c, d, e, f. split; [exact Ep|]. unfold is_s24; lia.
  - unfold is_u8; lia.
  - unfold is_s24; lia.
  - exact Hr.
  - exact Hs.
Qed.

(** Changes of single members. *)
Lemma rng_idle B C s w : rng B C s -> 0 <= w <= bT B -> rng B C (set_s_idle s w).
Proof. unfold rng. cbn. tauto. Qed.
Lemma rng_active B C s w : rng B C s -> 0 <= w <= 5 -> rng B C (set_s_active s w).
Proof. unfold rng. cbn. tauto. Qed.
Lemma rng_adj B C s w : rng B C s -> bAlo B <= w <= bAhi B -> rng B C (set_s_adj s w).
Proof. unfold rng. cbn. tauto. Qed.
Lemma rng_serial B C s w : rng B C s -> is_u8 w -> rng B C (set_s_serial s w).
Proof. unfold rng. cbn. tauto. Qed.
Lemma rng_preset_get B C s : rng B C s ->
  exists a, zget (s_preset s) (s_active s) = Some a /\ 0 <= a <= bT B.
Proof.
  intros (_ & _ & (a&b&c&d&e&f&Ep&P1&P2&P3&P4&P5&P6)&Hac&_). rewrite Ep.
  assert (s_active s = 0 \/ s_active s = 1 \/ s_active s = 2 \/ s_active s = 3 \/ s_active s = 4 \/ s_active s = 5) as D by lia.
  destruct D as [->|[->|[->|[->|[->| ->]]]]]; cbn; eexists; (split; [reflexivity|assumption]).
Qed.
Lemma rng_preset_set B C s w : rng B C s -> 0 <= w <= bT B ->
  exists l, zupd (s_preset s) (s_active s) w = Some l /\ rng B C (set_s_preset s l) /\
    zget l (s_active s) = Some w.
Proof.
  intros (H1&H2&(a&b&c&d&e&f&Ep&P1&P2&P3&P4&P5&P6)&Hac&H3) Hw. rewrite Ep.
  assert (s_active s = 0 \/ s_active s = 1 \/ s_active s = 2 \/ s_active s = 3 \/ s_active s = 4 \/ s_active s = 5) as D by lia.
  destruct D as [E|[E|[E|[E|[E|E]]]]]; rewrite E; cbn; eexists; (split; [reflexivity|]); (split; [|reflexivity]);
    (split; [exact H1|]); (split; [exact H2|]); (split; [|split; [exact Hac|exact H3]]);
    eexists _, _, _, _, _, _; (split; [reflexivity|]); auto 10.
Qed.
Lemma rng_gain_get B C s i : rng B C s -> i = 0 \/ (c_boost C = true /\ 0 <= i <= 2) ->
  exists k, zget (s_k s) i = Some k /\ gain_rng B true k.
Proof.
  intros ((k1&k2&k3&Ek&G1&G2&G3) & _) Hi. rewrite Ek. destruct Hi as [->|(Eb&Hi)]; [exists k1; split; [reflexivity|assumption]|].
  rewrite Eb in *. assert (i = 0 \/ i = 1 \/ i = 2) as [->|[->| ->]] by lia; eexists; (split; [reflexivity|assumption]).
Qed.
Lemma rng_gain_set B C s i k : rng B C s -> i = 0 \/ (c_boost C = true /\ 0 <= i <= 2) -> gain_rng B true k ->
  exists l, zupd (s_k s) i k = Some l /\ rng B C (set_s_k s l) /\ zget l i = Some k.
Proof.
  intros ((k1&k2&k3&Ek&G1&G2&G3)&R) Hi G. rewrite Ek. unfold rng. cbn [set_s_k s_k s_idle s_preset s_active s_adj s_reserved s_serial].
  destruct Hi as [->|(Eb&Hi)].
  - cbn. eexists. split; [reflexivity|]. split; [|reflexivity]. split; [|exact R]. eexists _, _, _. split; [reflexivity|]. auto.
  - rewrite Eb in *. assert (i = 0 \/ i = 1 \/ i = 2) as [->|[->| ->]] by lia; cbn; eexists; (split; [reflexivity|]);
      (split; [|reflexivity]); (split; [|exact R]); eexists _, _, _; (split; [reflexivity|]); auto.
Qed.

(** ** Bytes *)
Definition ble (v n : Z) : bool := v <=? n.
Definition beq (v n : Z) : bool := v =? n.
Definition gain_byte (used : bool) (j v : Z) : bool :=
  if (j =? 1) || (j =? 7) then ble v 24
  else if j =? 4 then ble v 2
  else if j =? 9 then negb used || (beq v 128)
  else if (j =? 0) || (j =? 3) || (j =? 6) then true
  else beq v 0.
Definition temp_byte (j v : Z) : bool :=
  if j =? 0 then true else if j =? 1 then ble v 120 else beq v 0.
Definition bp (C : conf) (k v : Z) : bool :=
  if k <? 12 then gain_byte true k v
  else if k <? 36 then gain_byte (c_boost C) (k mod 12) v
  else if k <? 57 then temp_byte (k mod 3) v
  else if k =? 57 then ble v 5
  else if k =? 60 then (beq v 0) || (beq v 255)
  else true.

Definition offsets : list Z := map Z.of_nat (seq 0 64).
Lemma in_offsets k : 0 <= k < 64 -> In k offsets.
Proof. intros H. unfold offsets. apply in_map_iff. exists (Z.to_nat k). split; [lia|]. apply in_seq. lia. Qed.

Lemma temp_bytes x : 0 <= x <= 30975 -> (ble (u8 (x / 256)) 120) = true /\ (beq (u8 (x / 65536)) 0) = true.
Proof. unfold ble, beq, u8. lia. Qed.
Lemma temp_of_bytes x : is_s24 x -> (ble (u8 (x / 256)) 120) = true -> (beq (u8 (x / 65536)) 0) = true -> 0 <= x <= 30975.
Proof. unfold ble, beq, u8, is_s24. lia. Qed.
Lemma gain_bytes x : 0 <= x <= 6399 -> (ble (u8 (x / 256)) 24) = true /\ (beq (u8 (x / 65536)) 0) = true.
Proof. unfold ble, beq, u8. lia. Qed.
Lemma gain_of_bytes x : is_s24 x -> (ble (u8 (x / 256)) 24) = true -> (beq (u8 (x / 65536)) 0) = true -> 0 <= x <= 6399.
Proof. unfold ble, beq, u8, is_s24. lia. Qed.
Lemma ki_bytes x : 0 <= x <= 767 -> (ble (u8 (x / 256)) 2) = true /\ (beq (u8 (x / 65536)) 0) = true.
Proof. unfold ble, beq, u8. lia. Qed.
Lemma ki_of_bytes x : is_s24 x -> (ble (u8 (x / 256)) 2) = true -> (beq (u8 (x / 65536)) 0) = true -> 0 <= x <= 767.
Proof. unfold ble, beq, u8, is_s24. lia. Qed.
Lemma dec_bytes u x : 0 <= x <= 255 -> (u = true -> x = 128) ->
  negb u || (beq (u8 x) 128) = true /\ (beq (u8 (x / 256)) 0) = true /\ (beq (u8 (x / 65536)) 0) = true.
Proof. unfold ble, beq, u8. intros. destruct u; cbn [negb orb]; [specialize (H0 eq_refl)|]; lia. Qed.
Lemma dec_of_bytes u x : is_s24 x -> negb u || (beq (u8 x) 128) = true -> (beq (u8 (x / 256)) 0) = true ->
  (beq (u8 (x / 65536)) 0) = true -> 0 <= x <= 255 /\ (u = true -> x = 128).
Proof. unfold ble, beq, u8, is_s24. intros. split; [lia|]. intros ->. cbn in H0. lia. Qed.
Lemma adj_bytes x : -65536 <= x <= 65535 -> (beq (u8 (x / 65536)) 0) || (beq (u8 (x / 65536)) 255) = true.
Proof. unfold ble, beq, u8. lia. Qed.
Lemma adj_of_bytes x : is_s24 x -> (beq (u8 (x / 65536)) 0) || (beq (u8 (x / 65536)) 255) = true -> -65536 <= x <= 65535.
Proof. unfold ble, beq, u8, is_s24. lia. Qed.

Lemma rng_bytes C s : rng relaxed C s -> forall k, 0 <= k < 64 -> bp C k (cb s k) = true.
Proof.
  intros ((k1&k2&k3&Ek&G1&G2&G3)&Hi&(a&b&c&d&e&f&Ep&Ha&Hb&Hc&Hd&He&Hf)&Hac&Had&(r1&r2&Er&R1&R2)&Hs).
  destruct s as [k i p ac ad r se]. cbn [s_k s_idle s_preset s_active s_adj s_reserved s_serial] in *.
  subst k p r. destruct k1 as [p1 i1 d1 q1], k2 as [p2 i2 d2 q2], k3 as [p3 i3 d3 q3].
  unfold gain_rng in *. cbn [kp ki kd d_decay_div relaxed bK bI bT bAlo bAhi] in *.
  destruct G1 as (A1&A2&A3&A4&A5), G2 as (B1&B2&B3&B4&B5), G3 as (D1&D2&D3&D4&D5).
  apply gain_bytes in A1, A3, B1, B3, D1, D3. apply ki_bytes in A2, B2, D2.
  apply (dec_bytes true) in A4; [|exact A5]. apply (dec_bytes (c_boost C)) in B4, D4; [|exact D5|exact B5].
  apply temp_bytes in Hi, Ha, Hb, Hc, Hd, He, Hf. apply adj_bytes in Had.
  assert (Hac' : (ble ac 5) = true) by (unfold ble; lia).
  repeat match goal with H : _ /\ _ |- _ => destruct H end.
  intros k Hk. apply in_offsets in Hk. revert k Hk. apply forallb_forall.
  cbv -[u8 Z.div ble beq c_boost orb negb andb].
  repeat (apply andb_true_intro; split; [first [reflexivity|assumption]|]). reflexivity.
Qed.

Lemma bytes_rng C s : settings_wf s -> (forall k, 0 <= k < 63 -> bp C k (cb s k) = true) -> rng relaxed C s.
Proof.
  intros ((k1&k2&k3&Ek&K1&K2&K3)&Hi&(a&b&c&d&e&f&Ep&Ha&Hb&Hc&Hd&He&Hf)&Hac&Had&(r1&r2&Er&R1&R2)&Hs) F.
  destruct s as [k i p ac ad r se]. cbn [s_k s_idle s_preset s_active s_adj s_reserved s_serial] in *.
  subst k p r. destruct k1 as [p1 i1 d1 q1], k2 as [p2 i2 d2 q2], k3 as [p3 i3 d3 q3]. unfold k24 in *. cbn [kp ki kd d_decay_div] in *.
  destruct K1 as (?&?&?&?), K2 as (?&?&?&?), K3 as (?&?&?&?).
  assert (F' : forallb (fun k => bp C k (cb (mkSettings [mkK p1 i1 d1 q1; mkK p2 i2 d2 q2; mkK p3 i3 d3 q3] i
      [a; b; c; d; e; f] ac ad [r1; r2] se) k)) (map Z.of_nat (seq 0 63)) = true).
  { apply forallb_forall. intros k Hk. apply F. apply in_map_iff in Hk. destruct Hk as (n & <- & Hn). apply in_seq in Hn. lia. }
  clear F. cbv -[u8 Z.div ble beq c_boost orb negb is_s24 is_u8 andb] in F'.
  repeat match goal with H : _ && _ = true |- _ => apply andb_prop in H; destruct H end.
  unfold rng, gain_rng. cbn [s_k s_idle s_preset s_active s_adj s_reserved s_serial relaxed bK bI bT bAlo bAhi].
  split; [|split; [|split; [|split; [|split; [|split]]]]].
  - eexists _, _, _. split; [reflexivity|]. cbn [kp ki kd d_decay_div].
    split; [|split]; (split; [apply gain_of_bytes; assumption|]); (split; [apply ki_of_bytes; assumption|]);
      (split; [apply gain_of_bytes; assumption|]); apply dec_of_bytes; assumption.
  - apply temp_of_bytes; assumption.
  - eexists _, _, _, _, _, _. split; [reflexivity|]. repeat split; apply temp_of_bytes; assumption.
  - unfold is_u8 in Hac. match goal with H : ble ac 5 = true |- _ => unfold ble in H; clear - Hac H; lia end.
  - apply adj_of_bytes; assumption.
  - exists r1, r2. auto.
  - exact Hs.
Qed.

(** ** Ranges in the EEPROM *)
Lemma default_rng C : rng strict C (default_settings C).
Proof.
  unfold rng, default_settings, gain_rng. cbn [s_k s_idle s_preset s_active s_adj s_reserved s_serial strict bK bI bT bAlo bAhi].
  split; [|split; [|split; [|split; [|split; [|split]]]]].
  - destruct (c_boost C); eexists _, _, _; (split; [reflexivity|]); cbn; repeat split; try lia; try discriminate.
  - destruct (c_idle C); cbn; lia.
  - eexists _, _, _, _, _, _. split; [reflexivity|]. cbn. lia.
  - lia.
  - lia.
  - eexists _, _. split; [reflexivity|]. unfold is_u8. lia.
  - unfold is_u8. lia.
Qed.

Section Ring.
Variable C : conf.
Hypothesis HC : ring_conf C.
Let N := c_slots C.

Lemma chain_unique ee i c j d : chain N ee i c -> chain N ee j d -> i = j.
Proof.
  assert (W : forall i c j d, chain N ee i c -> chain N ee j d -> i < j -> False).
  { clear i c j d. intros i c j d (A & B & D) (A' & B' & D') L.
    apply (D j); [lia|]. rewrite B' by lia. specialize (B 0 ltac:(lia)). specialize (B' 0 ltac:(lia)).
    rewrite B in B'. clear - B'. unfold u8 in *. lia. }
  intros H1 H2. destruct (Z.lt_total i j) as [L|[L|L]]; [|exact L|]; exfalso; eauto.
Qed.

Definition einv (x : sst) : Prop :=
  (forall i c, chain N (x_ee x) i c -> forall k, 0 <= k < 63 -> bp C k (x_ee x (64 * i + k)) = true) /\
  (quiet x = false -> forall k, 0 <= k < 63 -> k < x_offset x -> bp C k (eff x (64 * x_index x + k)) = true).

(** The settings invariant of the running system, with the ring. *)
Definition ring_inv (B : bnds) (x : sst) : Prop :=
  sinv C x /\ rng B C (x_cache x) /\ einv x.

Lemma quiet_inv x : sinv C x -> quiet x = false -> exists i c, inv_busy C x i c.
Proof.
  intros (_ & _ & c & [Q|(i & B)]) H; [|eauto]. destruct Q as (E1 & E2 & _). unfold quiet in H. rewrite E1, E2 in H. discriminate.
Qed.

Lemma ring_modify B now x s x' : ring_inv B x -> rng B C s -> rng relaxed C s -> s_serial s = s_serial (x_cache x) ->
  store_settings now (set_x_cache x s) = Some x' -> ring_inv B x'.
Proof.
  intros (I & R & (E1 & E2)) Rs Rr Ser E. split; [|].
  - eapply (sinv_modify C now x (fun t => if s_serial t =? s_serial s then s else t) x' I).
    + intros t Wt. destruct (Z.eqb_spec (s_serial t) (s_serial s)) as [Es|Es]; [split; [eapply rng_wf; exact Rr|congruence]|split; [exact Wt|reflexivity]].
    + cbv beta. rewrite <- Ser, Z.eqb_refl. exact E.
  - rewrite store_eq in E. apply Some_inj in E. subst x'. sx. split; [exact Rs|].
    unfold einv, quiet, eff in *. sx. split; [exact E1|exact E2].
Qed.

Lemma ring_work B now x : ring_inv B x ->
  (x_request x = true -> timer_expired now (x_timer x) = true -> quiet x = true) ->
  ring_inv B (settings_work C now x).
Proof.
  intros (I & R & (E1 & E2)) Hq. split; [apply sinv_work; assumption|].
  unfold settings_work. destruct (x_request x) eqn:Q; cbn [negb]; [|split; [exact R|split; assumption]].
  destruct (timer_expired now (x_timer x)) eqn:T; cbn [negb]; [|split; [exact R|split; assumption]].
  destruct HC as (Er & _). rewrite Er. sx. split; [apply rng_serial; [exact R|apply u8_range]|].
  unfold einv; sx. split; [exact E1|]. intros _ k Hk1 Hk2. lia.
Qed.

Lemma ring_ready B x : ring_inv B x -> le_b B relaxed -> x_eerie x = true -> x_busy x = None ->
  exists x', ee_ready_isr C x = Some x' /\ ring_inv B x' /\ x_cache x' = x_cache x /\ x_request x' = x_request x /\ x_timer x' = x_timer x.
Proof.
  intros (I & R & (E1 & E2)) LB Ee Eb.
  destruct (sinv_ready C HC x I Ee Eb) as (x' & A & I' & H1 & H2 & H3 & H4 & H5 & H6 & H7 & H8 & H9 & H10).
  exists x'. split; [exact A|]. split; [|split; [exact H4|split; [exact H6|exact H7]]]. split; [exact I'|]. rewrite H4. split; [exact R|].
  unfold einv. rewrite H3, H5. split; [exact E1|]. intros _ k Hk Hl. rewrite H2 in Hl.
  assert (Qx : quiet x = false) by (unfold quiet; rewrite Ee; reflexivity).
  assert (Ef : forall a, a <> 64 * x_index x + x_offset x -> eff x' a = eff x a).
  { intros a Ha. unfold eff. rewrite Eb, H5. destruct H8 as [->|(d & -> & _)]; [reflexivity|]. apply fupd_other. exact Ha. }
  destruct (Z.eq_dec k (x_offset x)) as [->|Nk]; [|rewrite Ef by lia; apply E2; [exact Qx|exact Hk|lia]].
  assert (Bc : bp C (x_offset x) (cb (x_cache x) (x_offset x)) = true) by (apply rng_bytes; [eapply rng_le; eassumption|lia]).
  unfold eff. rewrite H5. destruct H8 as [Hn|(d & -> & -> & _)]; [|rewrite fupd_same; exact Bc].
  rewrite Hn. assert (W : settings_wf (x_cache x)) by (eapply rng_wf, rng_le; eassumption).
  destruct (quiet_inv x I Qx) as (i & c & Bz). pose proof (sinv_index C HC x i c Bz) as (Hix & _ & _).
  rewrite (isr_eq C HC x W Hix) in A by lia. apply Some_inj in A. cbv zeta in A.
  destruct (x_ee x (64 * x_index x + x_offset x) =? cb (x_cache x) (x_offset x)) eqn:F; [apply Z.eqb_eq in F; rewrite F; exact Bc|].
  exfalso. rewrite <- A in Hn. destruct (64 <=? x_offset x + 1) in Hn; sx in Hn; discriminate Hn.
Qed.

Lemma ring_done B x : ring_inv B x -> ring_inv B (ee_prog_done x).
Proof.
  intros (I & R & (E1 & E2)). split; [apply sinv_done; assumption|]. unfold ee_prog_done.
  destruct (x_busy x) as [[a d]|] eqn:Eb; [|split; [exact R|split; assumption]]. sx. split; [exact R|].
  assert (Qx : quiet x = false) by (unfold quiet; rewrite Eb; apply andb_false_r).
  destruct (quiet_inv x I Qx) as (i & c & Bz). pose proof (sinv_index C HC x i c Bz) as (Hix & Hne & Hir).
  pose proof (sinv_done C HC x I) as I'. unfold ee_prog_done in I'. rewrite Eb in I'.
  assert (Bz' := Bz). destruct Bz' as (Hof & He & Hi & Hc & Hs & Hbo & _). unfold busy_ok in Hbo. rewrite Eb in Hbo.
  destruct Hbo as (H1 & -> & Hd8 & H64).
  assert (Ef : eff x = fupd (x_ee x) (64 * x_index x + x_offset x - 1) d) by (unfold eff; rewrite Eb; reflexivity).
  specialize (E2 Qx). rewrite Ef in E2. unfold einv; sx. split.
  - intros j e Hj k Hk. destruct (Z.eq_dec (x_offset x) 64) as [E|E].
    + rewrite E in *. specialize (H64 eq_refl). subst d.
      replace (64 * x_index x + 64 - 1) with (64 * x_index x + 63) in * by lia.
      destruct (chain_commit C HC _ _ _ Hc) as (c' & F). fold N in F, Hi. rewrite <- Hi, <- Hs in F.
      rewrite (chain_unique _ _ _ _ _ Hj F). apply E2; lia.
    + assert (F : chain N (fupd (x_ee x) (64 * x_index x + x_offset x - 1) d) i c).
      { replace (64 * x_index x + x_offset x - 1) with (64 * x_index x + (x_offset x - 1)) by lia. apply chain_data; [exact Hc|lia]. }
      rewrite (chain_unique _ _ _ _ _ Hj F). rewrite fupd_other by lia. eapply E1; eassumption.
  - intros Qn k Hk Hl. unfold eff; sx. apply E2; assumption.
Qed.

Lemma ring_boot ee i c : ee_ok ee -> chain N ee i c -> (forall k, 0 <= k < 63 -> bp C k (ee (64 * i + k)) = true) ->
  exists x, settings_init C ee = Some x /\ ring_inv relaxed x /\ x_ee x = ee /\ x_cache x = slot ee i /\ x_request x = false.
Proof.
  intros Ho Hc Hb. destruct (boot_inv C HC ee i c Ho Hc) as (A & I). eexists. split; [exact A|]. split; [|sx; auto].
  split; [exact I|]. sx. split.
  - apply bytes_rng; [apply slot_wf; exact Ho|]. intros k Hk. rewrite slot_cb by (assumption || lia). apply Hb. exact Hk.
  - unfold einv; sx. split; [|intros Q; discriminate Q].
    intros j d Hj k Hk. rewrite (chain_unique _ _ _ _ _ Hj Hc). apply Hb. exact Hk.
Qed.

Lemma ring_power B x v : ring_inv B x -> is_u8 v ->
  exists x', settings_init C (ee_after_crash x v) = Some x' /\ ring_inv relaxed x' /\ x_request x' = false.
Proof.
  intros (I & R & (E1 & E2)) Hv.
  destruct (crash_chain C HC x v I Hv) as (Ho & i & c & Hc & Hcase). fold N in Hc.
  destruct (ring_boot (ee_after_crash x v) i c Ho Hc) as (x' & A & I' & _ & _ & Rq); [|eauto].
  intros k Hk. destruct Hcase as [(F1 & F2 & ->)|(i0 & c0 & Bz & Hor)].
  - unfold ee_after_crash in *. rewrite F2 in *. eapply E1; eassumption.
  - pose proof (sinv_index C HC x i0 c0 Bz) as (Hix & Hne & Hir).
    destruct Bz as (Hof & He & Hi & Hc0 & Hs & Hbo & _). unfold busy_ok in Hbo. unfold ee_after_crash in *.
    destruct Hor as [->|(-> & E64)].
    + destruct (x_busy x) as [[a d]|]; [|eapply E1; eassumption].
      destruct Hbo as (H1 & -> & _). rewrite fupd_other by lia. eapply E1; eassumption.
    + destruct (x_busy x) as [[a d]|] eqn:Eb; [|lia].
      destruct Hbo as (H1 & -> & _). rewrite fupd_other by lia.
      assert (Qx : quiet x = false) by (unfold quiet; rewrite Eb; apply andb_false_r).
      specialize (E2 Qx k Hk). unfold eff in E2. rewrite Eb in E2. rewrite fupd_other in E2 by lia. apply E2. lia.
Qed.

Lemma ring_factory : exists x, settings_init C (factory_ee C) = Some x /\ ring_inv strict x /\
  x_cache x = default_settings C /\ x_request x = false.
Proof.
  destruct (factory_boot C HC) as (Ho & Hc & Es). destruct (ring_boot _ _ _ Ho Hc) as (x & A & (I & _ & E) & _ & Ec & Rq).
  - intros k Hk. rewrite <- (slot_cb _ 0) by (assumption || lia). rewrite Es. apply rng_bytes; [|lia].
    eapply rng_le; [exact strict_relaxed|apply default_rng].
  - exists x. split; [exact A|]. rewrite Es in Ec. split; [|auto]. split; [exact I|]. split; [rewrite Ec; apply default_rng|exact E].
Qed.
End Ring.

(** ** Without the ring: one record, overwritten in place *)
Definition ninv (C : conf) (x : sst) : Prop :=
  x_index x = 0 /\ ee_ok (x_ee x) /\ settings_wf (x_cache x) /\ 0 <= x_offset x <= 64 /\
  (x_eerie x = true -> x_offset x < 64) /\
  (forall k, 0 <= k < 64 -> bp C k (x_ee x k) = true) /\
  match x_busy x with Some (a, d) => 0 <= a < 64 /\ is_u8 d /\ bp C a d = true | None => True end.

(** The settings invariant of the running system. *)
Definition set_inv (C : conf) (B : bnds) (x : sst) : Prop :=
  (if c_eering C then sinv C x else ninv C x) /\ rng B C (x_cache x) /\ (if c_eering C then einv C x else True).

Lemma set_modify C B now x s x' : set_inv C B x -> rng B C s -> rng relaxed C s -> s_serial s = s_serial (x_cache x) ->
  store_settings now (set_x_cache x s) = Some x' -> set_inv C B x'.
Proof.
  unfold set_inv. destruct (c_eering C); [apply ring_modify|].
  intros ((H1&H2&H3&H4&H5&H6&H7)&R&_) Rs Rr _ E. rewrite store_eq in E. apply Some_inj in E. subst x'. unfold ninv. sx.
  split; [|split; [exact Rs|exact Logic.I]]. assert (settings_wf s) by (eapply rng_wf; exact Rr). tauto.
Qed.

Lemma factory_slot C : ee_ok (factory_ee C) /\ slot (factory_ee C) 0 = default_settings C.
Proof.
  assert (W : settings_wf (default_settings C)) by (eapply rng_wf, rng_le; [exact strict_relaxed|apply default_rng]). split.
  - intros a. unfold factory_ee. destruct (_ && _) eqn:E; [|unfold is_u8; lia]. apply (cb_u8 _ a W). lia.
  - unfold slot. rewrite <- (settings_of_cb _ W). apply settings_of_ext. intros k Hk.
    unfold factory_ee, cb. destruct (_ && _) eqn:E; [|lia]. reflexivity.
Qed.

Section Build.
Variable C : conf.
Hypothesis HC : build_conf C.

Lemma set_work B now x : set_inv C B x ->
  (x_request x = true -> timer_expired now (x_timer x) = true -> quiet x = true) ->
  set_inv C B (settings_work C now x).
Proof.
  unfold set_inv. destruct HC as [HR|(E & _)]; [rewrite (proj1 HR); apply ring_work; exact HR|rewrite E].
  intros ((H1&H2&H3&H4&H5&H6&H7)&R&_) _. unfold settings_work. rewrite E.
  destruct (x_request x); cbn [negb]; [|unfold ninv; tauto]. destruct (timer_expired now (x_timer x)); cbn [negb]; [|unfold ninv; tauto].
  unfold ninv. sx. split; [|split; [exact R|exact Logic.I]]. repeat (split; [tauto || lia|]). tauto.
Qed.

Lemma set_ready B x : set_inv C B x -> le_b B relaxed -> x_eerie x = true -> x_busy x = None ->
  exists x', ee_ready_isr C x = Some x' /\ set_inv C B x' /\ x_cache x' = x_cache x /\ x_request x' = x_request x /\ x_timer x' = x_timer x.
Proof.
  unfold set_inv. destruct HC as [HR|(E & Hs)]; [rewrite (proj1 HR); apply ring_ready; exact HR|rewrite E].
  intros ((H1&H2&H3&H4&H5&H6&H7)&R&_) LB Ee Eb. specialize (H5 Ee). unfold ee_ready_isr, NR_EE_SETTINGS. rewrite E. cbn [Z.leb Z.ltb Z.compare andb].
  rewrite zget_bytes by (assumption || lia). cbn [bind]. cbv zeta.
  assert (Ed : bp C (x_offset x) (cb (x_cache x) (x_offset x)) = true) by (apply rng_bytes; [eapply rng_le; eassumption|lia]).
  assert (Du : is_u8 (cb (x_cache x) (x_offset x))) by (apply cb_u8; [exact H3|lia]).
  assert (Eu : u8 (x_offset x + 1) = x_offset x + 1) by (unfold u8; lia). rewrite Eu. unfold SIZEOF_SETTINGS.
  eexists. split; [reflexivity|]. rewrite Z.mul_0_r, Z.add_0_l. unfold ninv.
  destruct (ee_read_byte C (x_ee x) (x_offset x) =? cb (x_cache x) (x_offset x));
    destruct (64 <=? x_offset x + 1) eqn:F; sx; rewrite ?Eb; (split; [split; [|split; [exact R|exact Logic.I]]|auto]);
    repeat (split; [tauto || lia || discriminate|]); repeat split; (lia || tauto || idtac); try (intros; discriminate); try exact Ed; try apply Du.
Qed.

Lemma set_done B x : set_inv C B x -> set_inv C B (ee_prog_done x).
Proof.
  unfold set_inv. destruct HC as [HR|(E & Hs)]; [rewrite (proj1 HR); apply ring_done; exact HR|rewrite E].
  intros ((H1&H2&H3&H4&H5&H6&H7)&R&_). unfold ee_prog_done. destruct (x_busy x) as [[a d]|] eqn:Eb; [|unfold ninv; rewrite Eb; tauto].
  destruct H7 as (Ha & Hd & Hb). unfold ninv. sx. split; [|split; [exact R|exact Logic.I]]. split; [exact H1|].
  split; [apply ee_ok_upd; assumption|]. repeat (split; [tauto|]). split; [|exact I].
  intros k Hk. destruct (Z.eq_dec k a) as [->|Nk]; [rewrite fupd_same; exact Hb|rewrite fupd_other by exact Nk; apply H6; exact Hk].
Qed.

Lemma plain_boot ee : c_eering C = false -> 1 <= c_slots C -> ee_ok ee -> (forall k, 0 <= k < 64 -> bp C k (ee k) = true) ->
  exists x, settings_init C ee = Some x /\ ninv C x /\ rng relaxed C (x_cache x) /\ x_cache x = slot ee 0 /\ x_request x = false.
Proof.
  intros E Hs Ho Hb. unfold settings_init. rewrite E. cbn [bind]. eexists. split; [reflexivity|]. sx.
  assert (Es : settings_of (fun i : Z => ee_read_byte C ee (64 * 0 + i)) = slot ee 0).
  { unfold slot, settings_of, rd_k, rd24, ee_read_byte. 
    repeat match goal with |- context[(0 <=? ?a) && (?b <? 64 * c_slots C)] => replace ((0 <=? a) && (b <? 64 * c_slots C)) with true by lia end. reflexivity. }
  rewrite Es. assert (W := slot_wf ee 0 Ho). split; [|split; [|auto]].
  - unfold ninv. sx. repeat (split; [tauto || lia || discriminate|]). exact I.
  - apply bytes_rng; [exact W|]. intros k Hk. rewrite slot_cb by (assumption || lia). rewrite Z.mul_0_r, Z.add_0_l. apply Hb. lia.
Qed.

Lemma set_power B x v : set_inv C B x -> is_u8 v -> (c_eering C = false -> x_busy x = None) ->
  exists x', settings_init C (ee_after_crash x v) = Some x' /\ set_inv C relaxed x' /\ x_request x' = false.
Proof.
  unfold set_inv. destruct HC as [HR|(E & Hs)]; [rewrite (proj1 HR); intros A Hv _; eapply ring_power; eassumption|rewrite E].
  intros ((H1&H2&H3&H4&H5&H6&H7)&R&_) Hv Q. unfold ee_after_crash. rewrite (Q eq_refl).
  destruct (plain_boot (x_ee x) E Hs H2 H6) as (x' & A1 & A2 & A3 & _ & A5). exists x'. auto 6.
Qed.

Lemma set_factory : exists x, settings_init C (factory_ee C) = Some x /\ set_inv C strict x /\
  x_cache x = default_settings C /\ x_request x = false.
Proof.
  unfold set_inv. destruct HC as [HR|(E & Hs)]; [rewrite (proj1 HR); apply ring_factory; exact HR|rewrite E].
  destruct (factory_slot C) as (Ho & Es).
  destruct (plain_boot (factory_ee C) E Hs Ho) as (x' & A1 & A2 & A3 & A4 & A5).
  - intros k Hk. replace k with (64 * 0 + k) by lia. rewrite <- (slot_cb _ 0) by (assumption || lia). rewrite Es. apply rng_bytes; [|lia].
    eapply rng_le; [exact strict_relaxed|apply default_rng].
  - exists x'. rewrite Es in A4. split; [exact A1|]. split; [split; [exact A2|split; [rewrite A4; apply default_rng|exact Logic.I]]|auto].
Qed.
End Build.
