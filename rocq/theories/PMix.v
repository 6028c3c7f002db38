(** * Proofs about stores during which the settings are changed *)
From Coq Require Import ZArith List Bool Lia ZifyBool.
From Verif Require Import Base PBase MConf MUtil MFixpt MRing MTimer MPid MSettings SpecNum PNum SpecSmall PSmall SpecSettings PSettings SpecMix.
Import ListNotations.
Open Scope Z_scope.
Ltac Zify.zify_post_hook ::= Z.div_mod_to_equations.

Lemma from_cons L s k b : from L k b -> from (s :: L) k b.
Proof. intros (s0 & I & E). exists s0. split; [right; exact I|exact E]. Qed.
Lemma from_hd L s k : from (s :: L) k (cb s k).
Proof. exists s. split; [left; reflexivity|reflexivity]. Qed.

Section Common.
Variable C : conf.
Lemma quiet_false_iff x : quiet x = false <-> x_eerie x = true \/ x_busy x <> None.
Proof.
  unfold quiet. destruct (x_eerie x), (x_busy x); cbn; split; intros H; try reflexivity; try discriminate; auto.
  - right. discriminate.
  - destruct H as [H|H]; [discriminate|congruence].
Qed.
End Common.

(** ** With the ring *)
Section Ring.
Variable C : conf.
Hypothesis HC : ring_conf C.
Local Notation N := (c_slots C).

Definition minv (x : sst) (h : list settings * option (list settings)) : Prop :=
  Forall settings_wf (fst h) /\ (forall L, snd h = Some L -> Forall settings_wf L) /\
  ((x_eerie x = false /\ x_busy x = None /\ snd h = None /\ forall k, 0 <= k < 63 -> from (fst h) k (x_ee x (64 * x_index x + k))) \/
   (exists i c L, inv_busy C x i c /\ snd h = Some L /\ In (x_cache x) L /\
      (forall k, 0 <= k < 63 -> from (fst h) k (x_ee x (64 * i + k))) /\
      (forall k, 0 <= k < 63 -> k < x_offset x -> from L k (eff x (64 * x_index x + k))))).

Lemma busy_unique x i0 c0 i1 c1 : inv_busy C x i0 c0 -> inv_busy C x i1 c1 -> i0 = i1.
Proof.
  pose proof (HN C HC). intros (_ & _ & Hi0 & (R0 & _) & _) (_ & _ & Hi1 & (R1 & _) & _).
  rewrite Hi0 in Hi1. destruct (i0 =? N - 1) eqn:F0, (i1 =? N - 1) eqn:F1; lia.
Qed.
Lemma busy_noisy x i c : inv_busy C x i c -> quiet x = false.
Proof.
  intros (_ & He & _ & _ & _ & Hb & _). apply quiet_false_iff. unfold busy_ok in Hb. destruct (x_busy x); [right; discriminate|left].
  rewrite He. lia.
Qed.
Lemma sinv_noisy x : sinv C x -> quiet x = false -> exists i c, inv_busy C x i c.
Proof.
  intros (_ & _ & c & [(Q1 & Q2 & _)|(i & B)]) Q; [|exists i, c; exact B]. exfalso.
  assert (quiet x = true) by (apply quiet_iff; auto). congruence.
Qed.

Lemma minv_crash x h v : sinv C x -> minv x h -> is_u8 v ->
  exists x', settings_init C (ee_after_crash x v) = Some x' /\ settings_wf (x_cache x') /\
    (mixture (fst h) (x_cache x') \/ exists L, snd h = Some L /\ mixture L (x_cache x')) /\
    x_eerie x' = false /\ x_busy x' = None /\
    (forall k, 0 <= k < 63 -> x_ee x' (64 * x_index x' + k) = cb (x_cache x') k).
Proof.
  intros H (W1 & W2 & A) Hv. destruct (crash_chain C HC _ _ H Hv) as (Ho & i & c & Hc & Hx).
  destruct (boot_inv C HC _ _ _ Ho Hc) as (E & _). eexists. split; [exact E|]. cbn [x_cache x_eerie x_busy x_ee x_index].
  split; [apply slot_wf; exact Ho|].
  split; [|split; [reflexivity|split; [reflexivity|]]].
  2:{ intros k Hk. rewrite slot_cb by (exact Ho || lia). reflexivity. }
  assert (SB : forall k, 0 <= k < 63 -> byte_of (slot (ee_after_crash x v) i) k = ee_after_crash x v (64 * i + k)).
  { intros k Hk. apply slot_cb; [exact Ho|lia]. }
  destruct A as [(E1 & E2 & E3 & S)|(i1 & c1 & L & B1 & Ef & Ic & S & D)].
  - left. destruct Hx as [(_ & _ & ->)|(i0 & c0 & B & _)].
    + intros k Hk. rewrite SB by exact Hk. unfold ee_after_crash. rewrite E2. apply S. exact Hk.
    + exfalso. pose proof (busy_noisy _ _ _ B) as Q. apply quiet_false_iff in Q. destruct Q as [Q|Q]; congruence.
  - destruct Hx as [(G1 & G2 & _)|(i0 & c0 & B0 & Hi)].
    + exfalso. pose proof (busy_noisy _ _ _ B1) as Q. apply quiet_false_iff in Q. destruct Q as [Q|Q]; congruence.
    + rewrite (busy_unique _ _ _ _ _ B0 B1) in Hi. pose proof (sinv_index C HC _ _ _ B1) as (Rx & Nx & Ri).
      assert (Ha : forall a d, x_busy x = Some (a, d) -> a = 64 * x_index x + x_offset x - 1 /\ 1 <= x_offset x <= 64).
      { intros a d Eb. destruct B1 as (Hof & _ & _ & _ & _ & Hb & _). unfold busy_ok in Hb. rewrite Eb in Hb. lia. }
      destruct Hi as [->|(-> & O64)].
      * left. intros k Hk. rewrite SB by exact Hk. unfold ee_after_crash. destruct (x_busy x) as [[a d]|] eqn:Eb; [|apply S; exact Hk].
        destruct (Ha _ _ eq_refl) as (-> & O). rewrite fupd_other by lia. apply S. exact Hk.
      * right. exists L. split; [exact Ef|]. intros k Hk. rewrite SB by exact Hk. specialize (D k Hk ltac:(lia)).
        unfold eff in D. unfold ee_after_crash. destruct (x_busy x) as [[a d]|] eqn:Eb; [|exact D].
        destruct (Ha _ _ eq_refl) as (-> & O). rewrite fupd_other in D by lia. rewrite fupd_other by lia. exact D.
Qed.

(** What an operation without power failure may do to the storage. *)
Lemma minv_step w op w' h : sinv C (w_x w) -> minv (w_x w) h -> op_basic C w op ->
  sstep C w op = Some w' -> minv (w_x w') (log_next op w' h).
Proof.
  intros H M Hop E. destruct (sinv_step C HC _ _ H Hop) as (w1 & E1 & H'). rewrite E in E1. apply Some_inj in E1. subst w1.
  destruct (match op with SPower _ => true | _ => false end) eqn:Ep.
  { destruct op; try discriminate. cbn [sstep log_next op_basic] in *. destruct (minv_crash _ _ _ H M Hop) as (x' & F & Wx & _ & Q1 & Q2 & S).
    rewrite F in E. cbn [bind] in E. apply Some_inj in E. subst w'. cbn [w_x] in *. split; [constructor; [exact Wx|constructor]|].
    split; [discriminate|]. left. split; [exact Q1|]. split; [exact Q2|]. split; [reflexivity|]. intros k Hk. cbn [fst]. rewrite S by exact Hk. apply from_hd. }
  destruct M as (W1 & W2 & A).
  assert (LN : log_next op w' h = match snd h with
         | Some L => if quiet (w_x w') then (x_cache (w_x w') :: L, None) else (fst h, Some (x_cache (w_x w') :: L))
         | None => if x_eerie (w_x w') then (fst h, Some [x_cache (w_x w')]) else (fst h, None) end)
    by (destruct op; try reflexivity; discriminate).
  rewrite LN. clear LN.
  assert (Wc : settings_wf (x_cache (w_x w'))) by (destruct H' as (_ & Z & _); exact Z).
  assert (Wc0 : settings_wf (x_cache (w_x w))) by (destruct H as (_ & Z & _); exact Z).
  (* the shape of one operation *)
  assert (SH : let x := w_x w in let x' := w_x w' in
     (x_ee x' = x_ee x /\ x_busy x' = x_busy x /\ x_eerie x' = x_eerie x /\ x_offset x' = x_offset x /\ x_index x' = x_index x) \/
     (quiet x = true /\ x_ee x' = x_ee x /\ x_busy x' = None /\ x_eerie x' = true /\ x_offset x' = 0 /\ x_index x' = ring_next (x_index x) (NR_EE_SETTINGS C - 1)) \/
     (quiet x = false /\ x_ee x' = x_ee x /\ x_busy x = None /\ x_offset x' = x_offset x + 1 /\ x_index x' = x_index x /\ x_cache x' = x_cache x /\
        quiet x' = false /\
        eff x' (64 * x_index x + x_offset x) = cb (x_cache x) (x_offset x) /\ forall a, a <> 64 * x_index x + x_offset x -> eff x' a = x_ee x a) \/
     (quiet x = false /\ eff x' = eff x /\ x_ee x' = eff x /\ x_busy x <> None /\ x_busy x' = None /\ x_offset x' = x_offset x /\ x_index x' = x_index x /\ x_cache x' = x_cache x /\ x_eerie x' = x_eerie x)).
  { cbv zeta. destruct op; cbn [sstep] in E; try discriminate.
    - apply Some_inj in E. subst w'. left. repeat split.
    - rewrite store_eq in E. cbn [bind] in E. apply Some_inj in E. subst w'. rewrite observe_x. left. repeat split.
    - apply Some_inj in E. subst w'. rewrite observe_x. unfold settings_work. cbn [op_basic] in Hop.
      destruct (x_request (w_x w)); cbn [negb]; [|left; repeat split].
      destruct (timer_expired _ _); cbn [negb]; [|left; repeat split]. specialize (Hop eq_refl eq_refl). right; left.
      split; [exact Hop|]. apply quiet_iff in Hop. destruct Hop as (_ & Q). destruct HC as (Er & _). rewrite Er. cbn. rewrite Q. repeat split.
    - destruct (x_eerie (w_x w)) eqn:E1; [|apply Some_inj in E; subst w'; left; repeat split; congruence].
      destruct (x_busy (w_x w)) eqn:E2; [apply Some_inj in E; subst w'; left; repeat split; congruence|].
      destruct (sinv_ready C HC _ H E1 E2) as (x' & F & G & He & Hoff & Hix & Hca & Hee & Hrq & _ & Hbb & Hbn & Hor).
      rewrite F in E. cbn [bind] in E. apply Some_inj in E. subst w'. rewrite observe_x in *. right; right; left.
      split; [apply quiet_false_iff; left; exact E1|]. split; [exact Hee|]. split; [reflexivity|]. split; [exact Hoff|]. split; [exact Hix|]. split; [exact Hca|].
      split.
      { destruct (quiet x') eqn:Q; [exfalso|reflexivity]. apply quiet_iff in Q. destruct Q as (Q1 & Q2). specialize (Hbn Q2). rewrite Q1 in He. lia. }
      destruct Hbb as [Hbb|(d & Hbb & -> & Hne)]; unfold eff; rewrite Hbb, Hee.
      + split; [|reflexivity]. destruct (sinv_noisy (w_x w) H) as (i & c & B); [apply quiet_false_iff; left; exact E1|].
        pose proof (sinv_index C HC _ _ _ B) as (Rx & _ & _). rewrite (isr_eq C HC) in F by (exact Wc0 || lia).
        apply Some_inj in F. subst x'. destruct (x_ee (w_x w) (64 * x_index (w_x w) + x_offset (w_x w)) =? cb (x_cache (w_x w)) (x_offset (w_x w))) eqn:G2; [lia|].
        exfalso. cbv zeta in Hbb. rewrite ?G2 in Hbb. destruct (64 <=? _); cbn in Hbb; discriminate Hbb.
      + split; [apply fupd_same|]. intros a Ha. apply fupd_other. exact Ha.
    - apply Some_inj in E. subst w'. rewrite observe_x. unfold ee_prog_done. destruct (x_busy (w_x w)) as [[a d]|] eqn:Eb; [|left; repeat split; congruence].
      right; right; right. split; [apply quiet_false_iff; right; congruence|]. cbn. unfold eff. rewrite Eb. cbn. repeat split. congruence. }
  cbv zeta in SH. set (x := w_x w) in *. set (x' := w_x w') in *. clearbody x x'. clear E Hop Ep.
  assert (Wall : forall L, snd h = Some L -> Forall settings_wf (x_cache x' :: L)) by (intros L F; constructor; [exact Wc|apply W2; exact F]).
  destruct A as [(E1 & E2 & E3 & S)|(i & c & L & B & Ef & Ic & S & D)].
  - rewrite E3 in *. assert (Q : quiet x = true) by (apply quiet_iff; auto).
    destruct SH as [(S1 & S2 & S3 & S4 & S5)|[(_ & S1 & S2 & S3 & S4 & S5)|[(Q' & _)|(Q' & _)]]]; try congruence.
    + rewrite S3, E1. split; [exact W1|]. split; [cbn [snd]; discriminate|]. left. rewrite S1, S2, S3, S5. auto.
    + rewrite S3. cbn [fst snd]. split; [exact W1|]. split; [cbn [snd]; intros L F; apply Some_inj in F; subst L; constructor; [exact Wc|constructor]|].
      right. destruct (sinv_noisy x' H') as (i & c & B); [apply quiet_false_iff; left; exact S3|].
      exists i, c, [x_cache x']. split; [exact B|]. cbn [fst snd]. split; [reflexivity|]. split; [left; reflexivity|]. split.
      * assert (i = x_index x).
        { destruct H as (_ & _ & c0 & [(_ & _ & (R0 & _) & _)|(i0 & B0)]); [|pose proof (busy_noisy _ _ _ B0); congruence].
          destruct B as (_ & _ & I1 & (R1 & _) & _). rewrite S5 in I1. rewrite (next_index C HC) in I1 by exact R0.
          destruct (x_index x =? N - 1) eqn:F0, (i =? N - 1) eqn:F1; lia. }
        subst i. rewrite S1. exact S.
      * intros k Hk Ho. lia.
  - rewrite Ef in *. assert (Q : quiet x = false) by (eapply busy_noisy; exact B).
    assert (Ii : forall i' c', inv_busy C x' i' c' -> x_index x' = x_index x -> i' = i).
    { intros i' c' (_ & _ & I2 & (R2 & _) & _) I. destruct B as (_ & _ & I1 & (R1 & _) & _).
      rewrite I, I1 in I2. destruct (i' =? N - 1) eqn:F0, (i =? N - 1) eqn:F1; lia. }
    pose proof (sinv_index C HC _ _ _ B) as (Rx & Nx & Ri).
    assert (Ob : 0 <= x_offset x <= 64) by (destruct B as (Z & _); exact Z).
    destruct SH as [(S1 & S2 & S3 & S4 & S5)|[(Q' & _)|[(_ & S1 & S2 & S3 & S4 & S5 & S6 & S7 & S8)|(_ & S1 & S2 & S3 & S4 & S5 & S6 & S7 & S9)]]]; try congruence.
    + assert (Q' : quiet x' = false) by (unfold quiet in *; rewrite S2, S3; exact Q). rewrite Q'. cbn [fst snd].
      split; [exact W1|]. split; [cbn [snd]; intros L0 F; apply Some_inj in F; subst L0; apply Wall; reflexivity|]. right.
      destruct (sinv_noisy x' H' Q') as (i' & c' & B'). pose proof (Ii _ _ B' S5). subst i'.
      exists i, c', (x_cache x' :: L). split; [exact B'|]. cbn [fst snd]. split; [reflexivity|]. split; [left; reflexivity|]. split; [rewrite S1; exact S|].
      intros k Hk Ho. apply from_cons. rewrite S5. unfold eff. rewrite S1, S2. fold (eff x). apply D; [exact Hk|lia].
    + rewrite S6. split; [exact W1|]. split; [cbn [snd]; intros L0 F; apply Some_inj in F; subst L0; apply Wall; reflexivity|]. right.
      destruct (sinv_noisy x' H' S6) as (i' & c' & B'). pose proof (Ii _ _ B' S4). subst i'.
      exists i, c', (x_cache x' :: L). split; [exact B'|]. cbn [fst snd]. split; [reflexivity|]. split; [left; reflexivity|]. split; [rewrite S1; exact S|].
      intros k Hk Ho. rewrite S4. destruct (Z.eq_dec k (x_offset x)) as [->|Nk].
      * rewrite S7, <- S5. apply from_hd.
      * apply from_cons. rewrite S8 by lia. unfold eff in D. rewrite S2 in D. apply D; [exact Hk|lia].
    + assert (Hab : exists a d, x_busy x = Some (a, d) /\ a = 64 * x_index x + x_offset x - 1 /\ 1 <= x_offset x).
      { destruct (x_busy x) as [[a d]|] eqn:Eb; [|congruence]. exists a, d. destruct B as (_ & _ & _ & _ & _ & Hb & _). unfold busy_ok in Hb. rewrite Eb in Hb.
        split; [reflexivity|]. lia. }
      destruct Hab as (a & d & Eb & Ea & O1).
      destruct (quiet x') eqn:Q'.
      * apply quiet_iff in Q'. destruct Q' as (Q1 & Q2). cbn [fst snd]. split; [cbn [fst]; apply Wall; reflexivity|]. split; [discriminate|].
        left. split; [exact Q1|]. split; [exact Q2|]. split; [reflexivity|]. intros k Hk. cbn [fst]. apply from_cons. rewrite S6, S2. apply D; [exact Hk|].
        (* a quiet end only after the last byte *)
        destruct B as (_ & He & _). rewrite S9, He in Q1. lia.
      * cbn [fst snd]. split; [exact W1|]. split; [cbn [snd]; intros L0 F; apply Some_inj in F; subst L0; apply Wall; reflexivity|]. right.
        destruct (sinv_noisy x' H' Q') as (i' & c' & B'). pose proof (Ii _ _ B' S6). subst i'.
        exists i, c', (x_cache x' :: L). split; [exact B'|]. cbn [fst snd]. split; [reflexivity|]. split; [left; reflexivity|]. split.
        -- intros k Hk. rewrite S2. unfold eff. rewrite Eb, Ea. rewrite fupd_other by lia. apply S. exact Hk.
        -- intros k Hk Ho. apply from_cons. rewrite S6, S1. apply D; [exact Hk|lia].
Qed.

Lemma logged_inv w h : logged C w h -> sinv C (w_x w) /\ minv (w_x w) h.
Proof.
  induction 1 as [w Hb|w op w' h _ (I1 & I2) Hop Hs].
  - destruct (sboot_inv C HC) as (w0 & A & B & _). rewrite A in Hb. apply Some_inj in Hb. subst w0. split; [exact B|].
    destruct (factory_boot C HC) as (F1 & F2 & F3). destruct (boot_inv C HC _ _ _ F1 F2) as (F4 & _).
    unfold sboot in A. rewrite F4 in A. cbn [bind] in A. apply Some_inj in A. subst w. unfold minv. cbn [w_x x_cache x_eerie x_busy x_ee x_index fst snd].
    assert (W : settings_wf (slot (factory_ee C) 0)) by (apply slot_wf; exact F1).
    split; [constructor; [exact W|constructor]|]. split; [discriminate|]. left. repeat split. intros k Hk.
    exists (slot (factory_ee C) 0). split; [left; reflexivity|]. unfold byte_of. fold (cb (slot (factory_ee C) 0) k). rewrite slot_cb by (exact F1 || lia). reflexivity.
  - destruct (sinv_step C HC _ _ I1 Hop) as (w1 & A & B). rewrite Hs in A. apply Some_inj in A. subst w1. split; [exact B|].
    exact (minv_step w op w' h I1 I2 Hop Hs).
Qed.

Lemma ring_mixture w h v : logged C w h -> is_u8 v ->
  exists x', settings_init C (ee_after_crash (w_x w) v) = Some x' /\ settings_wf (x_cache x') /\
    ((Forall settings_wf (fst h) /\ mixture (fst h) (x_cache x')) \/
     exists L, snd h = Some L /\ Forall settings_wf L /\ mixture L (x_cache x')).
Proof.
  intros HL Hv. destruct (logged_inv _ _ HL) as (I1 & I2). destruct (minv_crash _ _ _ I1 I2 Hv) as (x' & A & B & D & _).
  exists x'. split; [exact A|]. split; [exact B|]. destruct I2 as (W1 & W2 & _). destruct D as [D|(L & D1 & D2)]; [left; auto|right].
  exists L. auto.
Qed.
End Ring.

(** ** Without the ring *)
Section Plain.
Variable C : conf.
Hypothesis Er : c_eering C = false.
Hypothesis Sl : 1 <= c_slots C.

Definition pinv (x : sst) (h : list settings * option (list settings)) : Prop :=
  ee_ok (x_ee x) /\ settings_wf (x_cache x) /\ x_index x = 0 /\
  Forall settings_wf (fst h) /\ (forall L, snd h = Some L -> Forall settings_wf L) /\
  ((x_eerie x = false /\ x_busy x = None /\ snd h = None /\ forall k, 0 <= k < 64 -> from (fst h) k (x_ee x k)) \/
   (exists L, 0 <= x_offset x <= 64 /\ x_eerie x = (x_offset x <? 64) /\ snd h = Some L /\ In (x_cache x) L /\
      match x_busy x with
      | None => x_offset x <= 63
      | Some (a, v) => 1 <= x_offset x /\ a = x_offset x - 1 /\ is_u8 v
      end /\
      (forall k, 0 <= k < x_offset x -> from L k (eff x k)) /\
      (forall k, x_offset x <= k < 64 -> from (fst h) k (x_ee x k)))).

Lemma pinit ee : settings_init C ee = Some (mkSst 0 false (slot ee 0) 0 0 ee false None).
Proof.
  unfold settings_init. rewrite Er. cbn [bind]. f_equal. f_equal. unfold slot. apply settings_of_ext. intros k Hk.
  rewrite ee_read_in by lia. f_equal.
Qed.
Lemma pboot_inv ee : ee_ok ee -> pinv (mkSst 0 false (slot ee 0) 0 0 ee false None) ([slot ee 0], None).
Proof.
  intros Ho. unfold pinv. cbn [x_ee x_cache x_index x_eerie x_busy fst snd].
  assert (W : settings_wf (slot ee 0)) by (apply slot_wf; exact Ho).
  split; [exact Ho|]. split; [exact W|]. split; [reflexivity|]. split; [constructor; [exact W|constructor]|]. split; [discriminate|].
  left. split; [reflexivity|]. split; [reflexivity|]. split; [reflexivity|]. intros k Hk. exists (slot ee 0). split; [left; reflexivity|].
  unfold byte_of. fold (cb (slot ee 0) k). rewrite slot_cb by assumption. f_equal.
Qed.
Lemma crash_ok x h v : pinv x h -> is_u8 v -> ee_ok (ee_after_crash x v).
Proof.
  intros (Ho & _) Hv. unfold ee_after_crash. destruct (x_busy x) as [[a d]|]; [apply ee_ok_upd; assumption|exact Ho].
Qed.

Lemma plain_isr x : settings_wf (x_cache x) -> 0 <= x_offset x < 64 ->
  ee_ready_isr C x = Some
    (let d := cb (x_cache x) (x_offset x) in let a := x_offset x in
     let x1 := if x_ee x a =? d then x else set_x_busy x (Some (a, d)) in
     let x2 := set_x_offset x1 (x_offset x + 1) in
     if 64 <=? x_offset x + 1 then set_x_eerie x2 false else x2).
Proof.
  intros W Ho. unfold ee_ready_isr, NR_EE_SETTINGS. rewrite Er. cbn [andb].
  change ((0 <=? 0) && (0 <? 1)) with true. cbv iota. rewrite zget_bytes by assumption. cbn [bind].
  rewrite ee_read_in by lia. unfold SIZEOF_SETTINGS. rewrite u8_id by lia. reflexivity.
Qed.

Lemma pinv_step w op w' h : pinv (w_x w) h -> op_basic C w op -> sstep C w op = Some w' -> pinv (w_x w') (log_next op w' h).
Proof.
  intros I Hop E.
  destruct (match op with SPower _ => true | _ => false end) eqn:Ep.
  { destruct op; try discriminate. cbn [sstep log_next op_basic] in *. pose proof (crash_ok _ _ _ I Hop) as Ho.
    rewrite pinit in E. cbn [bind] in E. apply Some_inj in E. subst w'. cbn [w_x x_cache]. apply pboot_inv. exact Ho. }
  assert (LN : log_next op w' h = match snd h with
         | Some L => if quiet (w_x w') then (x_cache (w_x w') :: L, None) else (fst h, Some (x_cache (w_x w') :: L))
         | None => if x_eerie (w_x w') then (fst h, Some [x_cache (w_x w')]) else (fst h, None) end)
      by (destruct op; try reflexivity; discriminate).
  rewrite LN. clear LN. destruct I as (Ho & Hw & Hi & W1 & W2 & A).
  assert (Q0 : quiet (w_x w) = true -> snd h = None /\ forall k, 0 <= k < 64 -> from (fst h) k (x_ee (w_x w) k)).
  { intros Q. apply quiet_iff in Q. destruct Q as (Q1 & Q2). destruct A as [(_ & _ & A3 & A4)|(L & _ & B2 & _ & _ & B5 & _)]; [auto|].
    exfalso. rewrite Q2 in B5. rewrite Q1 in B2. lia. }
  assert (Q1 : quiet (w_x w) = false -> exists L, 0 <= x_offset (w_x w) <= 64 /\ x_eerie (w_x w) = (x_offset (w_x w) <? 64) /\ snd h = Some L /\
     In (x_cache (w_x w)) L /\
      match x_busy (w_x w) with
      | None => x_offset (w_x w) <= 63
      | Some (a, v) => 1 <= x_offset (w_x w) /\ a = x_offset (w_x w) - 1 /\ is_u8 v
      end /\
      (forall k, 0 <= k < x_offset (w_x w) -> from L k (eff (w_x w) k)) /\
      (forall k, x_offset (w_x w) <= k < 64 -> from (fst h) k (x_ee (w_x w) k))).
  { intros Q. destruct A as [(A1 & A2 & _)|A]; [|exact A]. apply quiet_false_iff in Q. destruct Q as [Q|Q]; congruence. }
  clear A.
  assert (SH : let x := w_x w in let x' := w_x w' in x_index x' = 0 /\ settings_wf (x_cache x') /\
     ((x_ee x' = x_ee x /\ x_busy x' = x_busy x /\ x_eerie x' = x_eerie x /\ x_offset x' = x_offset x) \/
      (quiet x = true /\ x_ee x' = x_ee x /\ x_busy x' = None /\ x_eerie x' = true /\ x_offset x' = 0) \/
      (quiet x = false /\ x_ee x' = x_ee x /\ x_busy x = None /\ x_offset x' = x_offset x + 1 /\ x_cache x' = x_cache x /\
         x_eerie x' = (x_offset x' <? 64) /\
         (x_busy x' = None \/ x_busy x' = Some (x_offset x, cb (x_cache x) (x_offset x))) /\
         eff x' (x_offset x) = cb (x_cache x) (x_offset x) /\ forall a, a <> x_offset x -> eff x' a = x_ee x a) \/
      (quiet x = false /\ eff x' = eff x /\ x_ee x' = eff x /\ x_busy x <> None /\ x_busy x' = None /\ x_offset x' = x_offset x /\ x_cache x' = x_cache x
         /\ x_eerie x' = x_eerie x))).
  { cbv zeta. destruct op; cbn [sstep] in E; try discriminate.
    - apply Some_inj in E. subst w'. split; [exact Hi|]. split; [exact Hw|]. left. repeat split.
    - rewrite store_eq in E. cbn [bind] in E. apply Some_inj in E. subst w'. rewrite observe_x. split; [exact Hi|].
      split; [cbn; apply Hop; exact Hw|]. left. repeat split.
    - apply Some_inj in E. subst w'. rewrite observe_x. unfold settings_work. cbn [op_basic] in Hop. rewrite Er.
      destruct (x_request (w_x w)); cbn [negb]; [|split; [exact Hi|split; [exact Hw|left; repeat split]]].
      destruct (timer_expired _ _); cbn [negb]; [|split; [exact Hi|split; [exact Hw|left; repeat split]]]. specialize (Hop eq_refl eq_refl).
      split; [exact Hi|]. split; [exact Hw|]. right; left.
      split; [exact Hop|]. apply quiet_iff in Hop. destruct Hop as (_ & Q). cbn. rewrite Q. repeat split.
    - destruct (x_eerie (w_x w)) eqn:E1; [|apply Some_inj in E; subst w'; split; [exact Hi|split; [exact Hw|left; repeat split; congruence]]].
      destruct (x_busy (w_x w)) eqn:E2; [apply Some_inj in E; subst w'; split; [exact Hi|split; [exact Hw|left; repeat split; congruence]]|].
      assert (Q : quiet (w_x w) = false) by (apply quiet_false_iff; left; exact E1).
      destruct (Q1 Q) as (L & B1 & B2 & _ & _ & B5 & _).
      rewrite plain_isr in E by (exact Hw || lia). cbv zeta in E. cbn [bind] in E. apply Some_inj in E. subst w'. rewrite observe_x.
      set (d := cb (x_cache (w_x w)) (x_offset (w_x w))).
      assert (Z : exists b, (if 64 <=? x_offset (w_x w) + 1
          then set_x_eerie (set_x_offset (if x_ee (w_x w) (x_offset (w_x w)) =? d then w_x w else set_x_busy (w_x w) (Some (x_offset (w_x w), d))) (x_offset (w_x w) + 1)) false
          else set_x_offset (if x_ee (w_x w) (x_offset (w_x w)) =? d then w_x w else set_x_busy (w_x w) (Some (x_offset (w_x w), d))) (x_offset (w_x w) + 1)) =
          mkSst (x_timer (w_x w)) (x_request (w_x w)) (x_cache (w_x w)) (x_index (w_x w)) (x_offset (w_x w) + 1) (x_ee (w_x w)) (x_offset (w_x w) + 1 <? 64) b /\
          (b = None /\ x_ee (w_x w) (x_offset (w_x w)) = d \/ b = Some (x_offset (w_x w), d))).
      { destruct (64 <=? x_offset (w_x w) + 1) eqn:F1, (x_ee (w_x w) (x_offset (w_x w)) =? d) eqn:F2; 
        (replace (x_offset (w_x w) + 1 <? 64) with (negb (64 <=? x_offset (w_x w) + 1)) by (rewrite F1; cbn; lia)); rewrite F1;
        unfold set_x_eerie, set_x_offset, set_x_busy; cbn; rewrite ?E1, ?E2; eexists;
        (split; [reflexivity|]); try (right; reflexivity); left; (split; [reflexivity|lia]). }
      destruct Z as (b & -> & Hb). cbn [x_index x_cache x_ee x_busy x_eerie x_offset]. split; [exact Hi|]. split; [exact Hw|]. right; right; left.
      split; [exact Q|]. split; [reflexivity|]. split; [reflexivity|]. split; [reflexivity|]. split; [reflexivity|]. split; [reflexivity|].
      unfold eff. cbn [x_busy x_ee]. destruct Hb as [(-> & Hb)| ->].
      + split; [left; reflexivity|]. split; [exact Hb|reflexivity].
      + split; [right; reflexivity|]. split; [apply fupd_same|]. intros a Ha. apply fupd_other. exact Ha.
    - apply Some_inj in E. subst w'. rewrite observe_x. unfold ee_prog_done. destruct (x_busy (w_x w)) as [[a d]|] eqn:Eb;
        [|split; [exact Hi|split; [exact Hw|left; repeat split; congruence]]].
      split; [exact Hi|]. split; [exact Hw|]. right; right; right. split; [apply quiet_false_iff; right; congruence|].
      cbn. unfold eff. rewrite Eb. cbn. repeat split. congruence. }
  cbv zeta in SH. set (x := w_x w) in *. set (x' := w_x w') in *. clearbody x x'. clear E Hop Ep. destruct SH as (Ix & Wc & SH).
  assert (Wall : forall L, snd h = Some L -> Forall settings_wf (x_cache x' :: L)) by (intros L F; constructor; [exact Wc|apply W2; exact F]).
  assert (W1' : Forall settings_wf [x_cache x']) by (constructor; [exact Wc|constructor]).
  destruct (quiet x) eqn:Q.
  - clear Q1. destruct (Q0 eq_refl) as (E3 & S). rewrite E3 in *. apply quiet_iff in Q. destruct Q as (E1 & E2).
    destruct SH as [(S1 & S2 & S3 & S4)|[(_ & S1 & S2 & S3 & S4)|[(Q' & _)|(Q' & _)]]]; try congruence; unfold pinv; rewrite S1, S3, ?E1.
    + cbn [fst snd]. split; [exact Ho|]. split; [exact Wc|]. split; [exact Ix|]. split; [exact W1|]. split; [discriminate|].
      left. split; [reflexivity|]. split; [congruence|]. split; [reflexivity|]. exact S.
    + cbn [fst snd]. split; [exact Ho|]. split; [exact Wc|]. split; [exact Ix|]. split; [exact W1|].
      split; [intros L F; apply Some_inj in F; subst L; exact W1'|]. right. exists [x_cache x']. rewrite S2, S4. split; [lia|]. split; [reflexivity|].
      split; [reflexivity|]. split; [left; reflexivity|]. split; [lia|]. split; [intros k Hk; lia|]. intros k Hk. apply S. lia.
  - clear Q0. destruct (Q1 eq_refl) as (L & B1 & B2 & Ef & B4 & B5 & B6 & B7). clear Q1. rewrite Ef in *.
    assert (WL : Forall settings_wf (x_cache x' :: L)) by (apply Wall; reflexivity).
    destruct SH as [(S1 & S2 & S3 & S4)|[(Q' & _)|[(_ & S1 & S2 & S3 & S4 & S5 & S6 & S7 & S8)|(_ & S1 & S2 & S3 & S4 & S5 & S6 & S7)]]]; try congruence.
    + assert (Q' : quiet x' = false) by (unfold quiet in *; rewrite S2, S3; exact Q). rewrite Q'. unfold pinv. rewrite S1, S2, S3, S4. cbn [fst snd].
      split; [exact Ho|]. split; [exact Wc|]. split; [exact Ix|]. split; [exact W1|].
      split; [intros L0 F; apply Some_inj in F; subst L0; exact WL|]. right. exists (x_cache x' :: L). split; [exact B1|]. split; [exact B2|]. split; [reflexivity|].
      split; [left; reflexivity|]. split; [exact B5|]. split; [|exact B7]. intros k Hk. apply from_cons. unfold eff. rewrite S1, S2. apply B6. exact Hk.
    + rewrite S2 in B5.
      assert (D : forall k, 0 <= k < x_offset x + 1 -> from (x_cache x' :: L) k (eff x' k)).
      { intros k Hk. destruct (Z.eq_dec k (x_offset x)) as [->|Nk]; [rewrite S7, <- S4; apply from_hd|].
        rewrite S8 by exact Nk. apply from_cons. unfold eff in B6. rewrite S2 in B6. apply B6. lia. }
      destruct (quiet x') eqn:Q'.
      * apply quiet_iff in Q'. destruct Q' as (Q1' & Q2'). unfold pinv. cbn [fst snd]. rewrite S1.
        split; [exact Ho|]. split; [exact Wc|]. split; [exact Ix|]. split; [exact WL|]. split; [discriminate|]. left.
        split; [exact Q1'|]. split; [exact Q2'|]. split; [reflexivity|]. intros k Hk. rewrite S5 in Q1'.
        assert (G : eff x' k = x_ee x k) by (unfold eff; rewrite Q2', S1; reflexivity). rewrite <- G. apply D. lia.
      * unfold pinv. cbn [fst snd]. rewrite S1, S5, S3.
        split; [exact Ho|]. split; [exact Wc|]. split; [exact Ix|]. split; [exact W1|].
        split; [intros L0 F; apply Some_inj in F; subst L0; exact WL|]. right. exists (x_cache x' :: L). split; [lia|]. split; [reflexivity|]. split; [reflexivity|].
        split; [left; reflexivity|]. split; [|split; [exact D|intros k Hk; apply B7; lia]].
        destruct S6 as [S6|S6]; rewrite S6.
        -- apply quiet_false_iff in Q'. rewrite S6, S5 in Q'. destruct Q' as [Q'|Q']; [lia|congruence].
        -- split; [lia|]. split; [lia|]. apply cb_u8; [exact Hw|lia].
    + destruct (x_busy x) as [[a d]|] eqn:Eb; [|congruence]. destruct B5 as (B8 & -> & B9).
      assert (Ho' : ee_ok (eff x)) by (unfold eff; rewrite Eb; apply ee_ok_upd; assumption).
      assert (G : forall k, x_offset x <= k -> eff x k = x_ee x k) by (intros k Hk; unfold eff; rewrite Eb; apply fupd_other; lia).
      destruct (quiet x') eqn:Q'.
      * apply quiet_iff in Q'. destruct Q' as (Q1' & Q2'). unfold pinv. cbn [fst snd]. rewrite S2.
        split; [exact Ho'|]. split; [exact Wc|]. split; [exact Ix|]. split; [exact WL|]. split; [discriminate|]. left.
        split; [exact Q1'|]. split; [exact Q2'|]. split; [reflexivity|]. intros k Hk. rewrite S7, B2 in Q1'. apply from_cons. apply B6. lia.
      * unfold pinv. cbn [fst snd]. rewrite S2, S4, S5, S7.
        split; [exact Ho'|]. split; [exact Wc|]. split; [exact Ix|]. split; [exact W1|].
        split; [intros L0 F; apply Some_inj in F; subst L0; exact WL|]. right. exists (x_cache x' :: L). split; [lia|]. split; [exact B2|]. split; [reflexivity|].
        split; [left; reflexivity|]. split; [|split; [intros k Hk; apply from_cons; rewrite S1; apply B6; exact Hk|]].
        -- apply quiet_false_iff in Q'. rewrite S4, S7, B2 in Q'. destruct Q' as [Q'|Q']; [lia|congruence].
        -- intros k Hk. rewrite G by lia. apply B7. exact Hk.
Qed.

Lemma plogged_inv w h : logged C w h -> pinv (w_x w) h.
Proof.
  induction 1 as [w Hb|w op w' h _ I Hop Hs].
  - unfold sboot in Hb. rewrite pinit in Hb. cbn [bind] in Hb. apply Some_inj in Hb. subst w. cbn [w_x x_cache]. apply pboot_inv.
    intros a. unfold factory_ee. destruct (_ && _) eqn:E; [|unfold is_u8; lia]. apply (cb_u8 _ a (default_wf C)). lia.
  - exact (pinv_step w op w' h I Hop Hs).
Qed.

(** After a power failure: a prefix of the record from the store in progress, the rest from the last completed
    one, and one byte torn. *)
Lemma plain_mixture w h v : logged C w h -> is_u8 v ->
  exists x' o, settings_init C (ee_after_crash (w_x w) v) = Some x' /\ settings_wf (x_cache x') /\ (snd h = None -> o = 0) /\
    forall k, 0 <= k < 64 ->
      (torn (w_x w) k /\ byte_of (x_cache x') k = v) \/
      (k < o /\ exists L, snd h = Some L /\ from L k (byte_of (x_cache x') k)) \/
      (o <= k /\ from (fst h) k (byte_of (x_cache x') k)).
Proof.
  intros HL Hv. pose proof (plogged_inv _ _ HL) as I. pose proof (crash_ok _ _ _ I Hv) as Hoc. rewrite pinit.
  exists (mkSst 0 false (slot (ee_after_crash (w_x w) v) 0) 0 0 (ee_after_crash (w_x w) v) false None).
  cbn [x_cache]. destruct I as (Ho & Hw & Hi & W1 & W2 & A).
  assert (SB : forall k, 0 <= k < 64 -> byte_of (slot (ee_after_crash (w_x w) v) 0) k = ee_after_crash (w_x w) v k).
  { intros k Hk. unfold byte_of. fold (cb (slot (ee_after_crash (w_x w) v) 0) k). rewrite slot_cb by assumption. f_equal. }
  destruct A as [(A1 & A2 & A3 & A4)|(L & B1 & B2 & B3 & B4 & B5 & B6 & B7)].
  - exists 0. split; [reflexivity|]. split; [apply slot_wf; exact Hoc|]. split; [reflexivity|]. intros k Hk. right; right. split; [lia|].
    rewrite SB by exact Hk. unfold ee_after_crash. rewrite A2. apply A4. exact Hk.
  - exists (x_offset (w_x w)). split; [reflexivity|]. split; [apply slot_wf; exact Hoc|]. split; [congruence|]. intros k Hk.
    rewrite SB by exact Hk. unfold ee_after_crash, torn. destruct (x_busy (w_x w)) as [[a d]|] eqn:Eb.
    + destruct B5 as (B8 & -> & B9). destruct (Z.eq_dec k (x_offset (w_x w) - 1)) as [->|Nk].
      * left. split; [exists d; reflexivity|]. apply fupd_same.
      * rewrite fupd_other by exact Nk. right. destruct (Z_lt_ge_dec k (x_offset (w_x w))) as [F|F].
        -- left. split; [exact F|]. exists L. split; [exact B3|]. specialize (B6 k ltac:(lia)). unfold eff in B6. rewrite Eb in B6. rewrite fupd_other in B6 by exact Nk. exact B6.
        -- right. split; [lia|]. apply B7. lia.
    + right. destruct (Z_lt_ge_dec k (x_offset (w_x w))) as [F|F].
      * left. split; [exact F|]. exists L. split; [exact B3|]. specialize (B6 k ltac:(lia)). unfold eff in B6. rewrite Eb in B6. exact B6.
      * right. split; [lia|]. apply B7. lia.
Qed.
End Plain.

(** ** Fields that were not changed *)
Lemma mixture_fields L s : settings_wf s -> Forall settings_wf L -> mixture L s ->
  (forall v, (forall s0, In s0 L -> s_idle s0 = v) -> s_idle s = v) /\
  (forall v, (forall s0, In s0 L -> s_active s0 = v) -> s_active s = v) /\
  (forall v, (forall s0, In s0 L -> s_adj s0 = v) -> s_adj s = v) /\
  (forall i v, 0 <= i < 6 -> (forall s0, In s0 L -> nth (Z.to_nat i) (s_preset s0) 0 = v) -> nth (Z.to_nat i) (s_preset s) 0 = v) /\
  (forall i f v, 0 <= i < 3 -> In f [kp; ki; kd; d_decay_div] ->
     (forall s0, In s0 L -> f (nth (Z.to_nat i) (s_k s0) (mkK 0 0 0 0)) = v) -> f (nth (Z.to_nat i) (s_k s) (mkK 0 0 0 0)) = v).
Proof.
  intros W WL M. rewrite Forall_forall in WL.
  assert (K24 : forall (g : settings -> Z) o, 0 <= o <= 60 -> (forall s0, settings_wf s0 -> g s0 = of_bytes24 (cb s0 o) (cb s0 (o + 1)) (cb s0 (o + 2))) ->
     (forall s0, settings_wf s0 -> is_s24 (g s0) /\ cb s0 o = u8 (g s0) /\ cb s0 (o + 1) = u8 (g s0 / 256) /\ cb s0 (o + 2) = u8 (g s0 / 65536)) ->
     forall v, (forall s0, In s0 L -> g s0 = v) -> g s = v).
  { intros g o Ho G1 G2 v Hv. rewrite (G1 s W).
    destruct (M o ltac:(lia)) as (s1 & I1 & F1), (M (o + 1) ltac:(lia)) as (s2 & I2 & F2), (M (o + 2) ltac:(lia)) as (s3 & I3 & F3).
    unfold byte_of in F1, F2, F3. fold (cb s o) in F1. fold (cb s (o + 1)) in F2. fold (cb s (o + 2)) in F3. rewrite F1, F2, F3.
    fold (cb s1 o) (cb s2 (o + 1)) (cb s3 (o + 2)).
    destruct (G2 s1 (WL _ I1)) as (R & -> & _), (G2 s2 (WL _ I2)) as (_ & _ & -> & _), (G2 s3 (WL _ I3)) as (_ & _ & _ & ->).
    rewrite (Hv _ I1), (Hv _ I2), (Hv _ I3). rewrite (Hv _ I1) in R. apply of_bytes24_of. exact R. }
  assert (Sh : forall (g : settings -> Z) o, 0 <= o <= 60 -> (forall s0, settings_wf s0 -> is_s24 (g s0) /\ cb s0 o = u8 (g s0) /\ cb s0 (o + 1) = u8 (g s0 / 256) /\ cb s0 (o + 2) = u8 (g s0 / 65536)) ->
     forall v, (forall s0, In s0 L -> g s0 = v) -> g s = v).
  { intros g o Ho G v Hv. apply (K24 g o Ho); [|exact G|exact Hv]. intros s0 W0. destruct (G s0 W0) as (R & -> & -> & ->). symmetry. apply of_bytes24_of. exact R. }
  clear K24.
  assert (OPEN : forall s0, settings_wf s0 -> exists p1 i1 d1 q1 p2 i2 d2 q2 p3 i3 d3 q3 id a b c d e f ac ad r1 r2 se,
     s0 = mkSettings [mkK p1 i1 d1 q1; mkK p2 i2 d2 q2; mkK p3 i3 d3 q3] id [a; b; c; d; e; f] ac ad [r1; r2] se /\
     Forall is_s24 [p1; i1; d1; q1; p2; i2; d2; q2; p3; i3; d3; q3; id; a; b; c; d; e; f; ad]).
  { intros s0 ((k1&k2&k3&Ek&K1&K2&K3)&Hi&(a&b&c&d&e&f&Ep&Ha&Hb&Hc&Hd&He&Hf)&Hac&Had&(r1&r2&Er&R1&R2)&Hs).
    destruct s0 as [k i p ac ad r se]. cbn [s_k s_idle s_preset s_active s_adj s_reserved s_serial] in *. subst k p r.
    destruct k1 as [p1 i1 d1 q1], k2 as [p2 i2 d2 q2], k3 as [p3 i3 d3 q3]. unfold k24 in *. cbn [kp ki kd d_decay_div] in *.
    destruct K1 as (?&?&?&?), K2 as (?&?&?&?), K3 as (?&?&?&?).
    exists p1, i1, d1, q1, p2, i2, d2, q2, p3, i3, d3, q3, i, a, b, c, d, e, f, ac, ad, r1, r2, se. split; [reflexivity|].
    repeat (constructor; [assumption|]). constructor. }
  assert (SOLVE : forall (g : settings -> Z) o, 0 <= o <= 60 ->
     (forall p1 i1 d1 q1 p2 i2 d2 q2 p3 i3 d3 q3 id a b c d e f ac ad r1 r2 se,
        let s0 := mkSettings [mkK p1 i1 d1 q1; mkK p2 i2 d2 q2; mkK p3 i3 d3 q3] id [a; b; c; d; e; f] ac ad [r1; r2] se in
        In (g s0) [p1; i1; d1; q1; p2; i2; d2; q2; p3; i3; d3; q3; id; a; b; c; d; e; f; ad] /\
        cb s0 o = u8 (g s0) /\ cb s0 (o + 1) = u8 (g s0 / 256) /\ cb s0 (o + 2) = u8 (g s0 / 65536)) ->
     forall v, (forall s0, In s0 L -> g s0 = v) -> g s = v).
  { intros g o Ho G. apply (Sh g o Ho). intros s0 W0.
    destruct (OPEN s0 W0) as (p1&i1&d1&q1&p2&i2&d2&q2&p3&i3&d3&q3&id&a&b&c&d&e&f&ac&ad&r1&r2&se&->&F).
    destruct (G p1 i1 d1 q1 p2 i2 d2 q2 p3 i3 d3 q3 id a b c d e f ac ad r1 r2 se) as (G1 & G2). split; [|exact G2].
    rewrite Forall_forall in F. apply F. exact G1. }
  clear Sh OPEN.
  split; [|split; [|split; [|split]]].
  - apply (SOLVE s_idle 36); [lia|]. intros. cbn. tauto.
  - intros v Hv. destruct (M 57 ltac:(lia)) as (s1 & I1 & F1).
    assert (Z : forall s0, settings_wf s0 -> byte_of s0 57 = s_active s0).
    { intros s0 ((k1&k2&k3&Ek&_)&_&(a&b&c&d&e&f&Ep&_)&_). destruct s0. cbn in *. subst. reflexivity. }
    rewrite (Z s W) in F1. rewrite (Z s1 (WL _ I1)) in F1. rewrite F1. apply Hv. exact I1.
  - apply (SOLVE s_adj 58); [lia|]. intros. cbn. tauto.
  - intros i v Hi. assert (i = 0 \/ i = 1 \/ i = 2 \/ i = 3 \/ i = 4 \/ i = 5) as [->|[->|[->|[->|[->| ->]]]]] by lia.
    + apply (SOLVE (fun s0 => nth (Z.to_nat 0) (s_preset s0) 0) 39); [lia|]. intros. cbn. tauto.
    + apply (SOLVE (fun s0 => nth (Z.to_nat 1) (s_preset s0) 0) 42); [lia|]. intros. cbn. tauto.
    + apply (SOLVE (fun s0 => nth (Z.to_nat 2) (s_preset s0) 0) 45); [lia|]. intros. cbn. tauto.
    + apply (SOLVE (fun s0 => nth (Z.to_nat 3) (s_preset s0) 0) 48); [lia|]. intros. cbn. tauto.
    + apply (SOLVE (fun s0 => nth (Z.to_nat 4) (s_preset s0) 0) 51); [lia|]. intros. cbn. tauto.
    + apply (SOLVE (fun s0 => nth (Z.to_nat 5) (s_preset s0) 0) 54); [lia|]. intros. cbn. tauto.
  - intros i f v Hi Hf. assert (i = 0 \/ i = 1 \/ i = 2) as [->|[->| ->]] by lia; cbn [In] in Hf; destruct Hf as [<-|[<-|[<-|[<-|[]]]]].
    + apply (SOLVE (fun s0 => kp (nth (Z.to_nat 0) (s_k s0) (mkK 0 0 0 0))) 0); [lia|]. intros. cbn. tauto.
    + apply (SOLVE (fun s0 => ki (nth (Z.to_nat 0) (s_k s0) (mkK 0 0 0 0))) 3); [lia|]. intros. cbn. tauto.
    + apply (SOLVE (fun s0 => kd (nth (Z.to_nat 0) (s_k s0) (mkK 0 0 0 0))) 6); [lia|]. intros. cbn. tauto.
    + apply (SOLVE (fun s0 => d_decay_div (nth (Z.to_nat 0) (s_k s0) (mkK 0 0 0 0))) 9); [lia|]. intros. cbn. tauto.
    + apply (SOLVE (fun s0 => kp (nth (Z.to_nat 1) (s_k s0) (mkK 0 0 0 0))) 12); [lia|]. intros. cbn. tauto.
    + apply (SOLVE (fun s0 => ki (nth (Z.to_nat 1) (s_k s0) (mkK 0 0 0 0))) 15); [lia|]. intros. cbn. tauto.
    + apply (SOLVE (fun s0 => kd (nth (Z.to_nat 1) (s_k s0) (mkK 0 0 0 0))) 18); [lia|]. intros. cbn. tauto.
    + apply (SOLVE (fun s0 => d_decay_div (nth (Z.to_nat 1) (s_k s0) (mkK 0 0 0 0))) 21); [lia|]. intros. cbn. tauto.
    + apply (SOLVE (fun s0 => kp (nth (Z.to_nat 2) (s_k s0) (mkK 0 0 0 0))) 24); [lia|]. intros. cbn. tauto.
    + apply (SOLVE (fun s0 => ki (nth (Z.to_nat 2) (s_k s0) (mkK 0 0 0 0))) 27); [lia|]. intros. cbn. tauto.
    + apply (SOLVE (fun s0 => kd (nth (Z.to_nat 2) (s_k s0) (mkK 0 0 0 0))) 30); [lia|]. intros. cbn. tauto.
    + apply (SOLVE (fun s0 => d_decay_div (nth (Z.to_nat 2) (s_k s0) (mkK 0 0 0 0))) 33); [lia|]. intros. cbn. tauto.
Qed.
