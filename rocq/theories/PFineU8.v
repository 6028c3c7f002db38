(** * The user interface with interrupts inside the work functions, part 8: the delays stay short *)
From Coq Require Import ZArith List Bool Lia ZifyBool.
From Verif Require Import Base PBase MConf MUtil MFixpt MScale MRing MFilter MTimer MPid MPwm MTempMap MCurr MSens
  SpecNum SpecPid SpecSmall PNum PSmall PScale PPid SpecCurr PCurr MSettings SpecSettings PSettings PSysSet
  MSseg MDisplay MText MState MTemp MMeas MMenu MMain SpecDisplay PDisplay SpecSys SpecRun SpecUI PSys PSysMeas PSysMenu PSysDisp PSysBtn PSysStep PSysRun
  PSysCC PSysSafe MFine SpecFine SpecFineLive SpecFineUI PFine PFine2 PFine3 PFine4 PSysUI PSysUI2 PSysUI3 PSysUI6 PSysUI7 PFineU PFineU2 PFineU3 PFineU4 PFineU5 PFineU6 PFineU7.
Import ListNotations.
Open Scope Z_scope.
Ltac Zify.zify_post_hook ::= Z.div_mod_to_equations.

(** ** Menus and ramps; [s]: the time of the last poll *)
Definition aged (s : Z) (u : ui) : Prop := s <= u_time u /\ forall d, menu_limit (u_menu u) = Some d -> u_age u < d + (u_time u - s).
Definition ramped (s : Z) (u : ui) : Prop := s <= u_time u /\ ramp_lag (u_time u - s) (u_ramp u).
Lemma aged_later s a b : aged s a -> later a b -> aged s b.
Proof. intros (H & K) (k & Hk & ->). split; uf; [lia|]. intros d Hd. specialize (K d Hd). lia. Qed.
Lemma ramped_later s a b : ramped s a -> later a b -> ramped s b.
Proof.
  intros (H & K) (k & Hk & ->). split; uf; [lia|]. destruct (u_ramp a) as [|up n|up n [|j]]; cbn [ramp_lag] in *; try exact Logic.I; lia.
Qed.
Lemma aged_ext s a b : aged s a -> u_time b = u_time a -> u_menu b = u_menu a -> u_age b = u_age a -> aged s b.
Proof. intros (H & K) T M A. split; [lia|]. intros d Hd. rewrite M in Hd. specialize (K d Hd). lia. Qed.
Lemma ramped_ext s a b : ramped s a -> u_time b = u_time a -> u_ramp b = u_ramp a -> ramped s b.
Proof. intros (H & K) T M. split; [lia|]. rewrite M, T. exact K. Qed.
Lemma ramped_none s u : s <= u_time u -> u_ramp u = RNone -> ramped s u.
Proof. intros H E. split; [exact H|]. rewrite E. exact Logic.I. Qed.
Lemma aged_zero s u : s <= u_time u -> u_age u = 0 -> aged s u.
Proof. intros H E. split; [exact H|]. intros d Hd. pose proof (limit_pos _ _ Hd). lia. Qed.
Lemma aged_enter s u x : aged s u -> aged s (ui_enter u x).
Proof.
  intros (H & K). rewrite ui_enter_eq. destruct (mstate_eqb (u_menu u) x) eqn:E.
  - apply mstate_eqb_ok in E. subst x. split; uf; assumption.
  - apply aged_zero; uf; [exact H|reflexivity].
Qed.
Lemma error_frame u e : u_time (ui_error u e) = u_time u /\ u_menu (ui_error u e) = u_menu u /\ u_age (ui_error u e) = u_age u /\ u_iron (ui_error u e) = u_iron u /\
  u_count (ui_error u e) = u_count u /\ u_pins (ui_error u e) = u_pins u /\ (u_ramp (ui_error u e) = u_ramp u \/ u_ramp (ui_error u e) = RNone).
Proof. unfold ui_error. destruct (_ =? _); repeat split; auto. Qed.

(** How the iron key's press ages when no event of the key occurs *)
Definition iron_same (u u' : ui) : Prop := u_time u <= u_time u' /\ u_count u' = u_count u /\ u_pins u' = u_pins u /\
  u_iron u' = match u_iron u with Some n => Some (n + (u_time u' - u_time u)) | None => None end.
Lemma same_later a b : later a b -> iron_same a b.
Proof. intros (k & Hk & ->). split; [uf; lia|]. split; [reflexivity|]. split; [reflexivity|]. uf. destruct (u_iron a); [|reflexivity]. f_equal. lia. Qed.
Lemma same_eq a b : u_time b = u_time a -> u_count b = u_count a -> u_pins b = u_pins a -> u_iron b = u_iron a -> iron_same a b.
Proof. intros T Hc P E. split; [lia|]. split; [exact Hc|]. split; [exact P|]. rewrite E. destruct (u_iron a); [|reflexivity]. f_equal. lia. Qed.
Lemma same_trans a b c : iron_same a b -> iron_same b c -> iron_same a c.
Proof.
  intros (T & Hc & P & E) (T' & Hc' & P' & E'). split; [lia|]. split; [congruence|]. split; [congruence|]. rewrite E', E. destruct (u_iron a); [|reflexivity]. f_equal. lia.
Qed.
Lemma same_lag C u u' : iron_same u u' -> iron_lag C u -> iron_lag C u'.
Proof.
  intros (T & Hc & P & E) L n Hn. rewrite E in Hn. destruct (u_iron u) as [i|] eqn:Ei; [|discriminate Hn]. apply Some_inj in Hn. subst n.
  destruct (L i Ei) as (A & B & D). rewrite P, Hc. split; [exact A|]. split; [exact B|lia].
Qed.

(** ** A poll of the menu *)
Lemma enter_same u x : iron_same u (ui_enter u x).
Proof. rewrite ui_enter_eq. apply same_eq; reflexivity. Qed.
Lemma limit_lag C u u' s : allowed C (u_menu u) = true -> ramped s u -> fui_limit C u u' -> aged (u_time u) u' /\ ramped s u' /\ iron_same u u'.
Proof.
  intros Al Rm (u1 & L1 & H). pose proof (later_time _ _ L1) as T1. pose proof (ramped_later _ _ _ Rm L1) as R1. pose proof (same_later _ _ L1) as S1.
  assert (Al1 : allowed C (u_menu u1) = true) by (rewrite (later_menu _ _ L1); exact Al).
  assert (Stay : (forall d, menu_limit (u_menu u1) = Some d -> u_age u1 < d) -> aged (u_time u) u1 /\ ramped s u1 /\ iron_same u u1).
  { intros K. split; [split; [exact T1|intros d Hd; specialize (K d Hd); lia]|]. split; assumption. }
  destruct (menu_limit (u_menu u1)) as [d|] eqn:Ed; [|subst u'; apply Stay; intros d Hd; congruence].
  destruct (d <=? u_age u1) eqn:Ea; [|subst u'; apply Stay; intros d' Hd; injection Hd as <-; lia].
  destruct H as (u2 & L2 & ->). pose proof (later_time _ _ L2). destruct Rm as (Rs & _).
  assert (M2 : u_menu u2 = u_menu u1) by exact (later_menu _ _ L2). rewrite ui_enter_eq.
  split; [apply aged_zero; uf; [lia|]; rewrite M2, expired_ne; [reflexivity|exact Al1|congruence]|].
  split; [apply ramped_none; [uf; lia|reflexivity]|]. eapply same_trans; [exact S1|]. eapply same_trans; [apply same_later; exact L2|]. apply same_eq; reflexivity.
Qed.
Lemma ramp_lags t m u u' : t <= u_time u -> m <= 25 -> aged t u -> ramped (t - m) u -> fui_ramp u u' -> aged t u' /\ ramped t u' /\ iron_same u u'.
Proof.
  intros Ht Hm A Rm (u1 & L1 & H). pose proof (later_time _ _ L1) as T1. pose proof (ramped_later _ _ _ Rm L1) as R1. pose proof (same_later _ _ L1) as S1.
  pose proof (aged_later _ _ _ A L1) as A1. destruct R1 as (_ & R1). destruct (u_ramp u1) as [|up n|up n k] eqn:Er.
  - subst u'. split; [exact A1|]. split; [apply ramped_none; [lia|exact Er]|exact S1].
  - destruct (1000 <=? n) eqn:En.
    + destruct H as (u2 & L2 & ->). pose proof (later_time _ _ L2). pose proof (aged_later _ _ _ A1 L2) as A2.
      split; [eapply aged_ext; [exact A2|reflexivity..]|]. split; [split; uf; [lia|cbn [ramp_lag]; lia]|]. eapply same_trans; [exact S1|]. eapply same_trans; [apply same_later; exact L2|]. apply same_eq; reflexivity.
    + subst u'. split; [exact A1|]. split; [|exact S1]. split; [lia|]. rewrite Er. cbn [ramp_lag]. lia.
  - destruct (step_time k <=? n) eqn:En.
    + destruct H as (u2 & L2 & ->). set (v := set_u_ramp _ _) in L2. assert (Av : aged t v) by (eapply aged_ext; [exact A1|reflexivity..]).
      assert (Rv : ramped t v).
      { split; [change (t <= u_time u1); lia|]. change (u_time v) with (u_time u1). change (u_ramp v) with (RRun up n (S k)). cbn [ramp_lag]. pose proof (PSysUI6.step_gap k).
        destruct k; cbn [ramp_lag] in R1; [cbn [step_time]; lia|lia]. }
      assert (Sv : iron_same u v) by (eapply same_trans; [exact S1|apply same_eq; reflexivity]). clearbody v.
      pose proof (aged_later _ _ _ Av L2) as A2. pose proof (ramped_later _ _ _ Rv L2) as R2. pose proof (same_trans _ _ _ Sv (same_later _ _ L2)) as S2.
      destruct (shows_preset _); [|auto]. split; [apply aged_enter; exact A2|]. split; [rewrite ui_enter_eq; eapply ramped_ext; [exact R2|reflexivity..]|].
      eapply same_trans; [exact S2|apply enter_same].
    + subst u'. split; [exact A1|]. split; [|exact S1]. split; [lia|]. rewrite Er. destruct k; cbn [ramp_lag step_time] in *; lia.
Qed.
Lemma poll_lag C u err u' m b : allowed C (u_menu u) = true -> lag C u m b -> fui_poll C u err u' -> u_time u' - u_time u <= 25 -> b + (u_time u' - u_time u) <= 10 ->
  lag C u' (u_time u' - u_time u) (b + (u_time u' - u_time u)).
Proof.
  intros Al [lg_m0 lg_b0 lg_age0 lg_ramp0 lg_keys0 lg_iron0] (u1 & u2 & u3 & H1 & L2 & H3 & L4) Hm Hb.
  destruct (limit_lag C u u1 (u_time u - m) Al) as (A1 & R1 & S1); [split; [lia|replace (u_time u - (u_time u - m)) with m by lia; exact lg_ramp0]|exact H1|].
  pose proof (aged_later _ _ _ A1 L2) as A2. pose proof (ramped_later _ _ _ R1 L2) as R2. pose proof (same_trans _ _ _ S1 (same_later _ _ L2)) as S2.
  destruct (error_frame u2 err) as (E1 & E2 & E3 & E4 & E5 & E6 & E7). set (v := ui_error u2 err) in *. clearbody v.
  assert (Sv : iron_same u v) by (eapply same_trans; [exact S2|apply same_eq; assumption]).
  destruct (ramp_lags (u_time u) m v u3) as (A3 & R3 & S3); [apply Sv|lia|eapply aged_ext; [exact A2|assumption..]| |exact H3|].
  { destruct E7 as [E7|E7]; [eapply ramped_ext; [exact R2|assumption..]|apply ramped_none; [destruct R2; lia|exact E7]]. }
  pose proof (aged_later _ _ _ A3 L4) as A5. pose proof (ramped_later _ _ _ R3 L4) as R5. pose proof (same_trans _ _ _ (same_trans _ _ _ Sv S3) (same_later _ _ L4)) as S5.
  assert (T : u_time u <= u_time u') by apply S5. constructor; try lia.
  - apply A5.
  - apply R5.
  - destruct S5 as (_ & -> & _). lia.
  - eapply same_lag; eassumption.
Qed.

(** ** Time passes *)
Lemma later_lag C u u' m b : lag C u m b -> later u u' -> m + (u_time u' - u_time u) <= 25 -> b + (u_time u' - u_time u) <= 10 ->
  lag C u' (m + (u_time u' - u_time u)) (b + (u_time u' - u_time u)).
Proof.
  intros [lg_m0 lg_b0 lg_age0 lg_ramp0 lg_keys0 lg_iron0] L Hm Hb. pose proof (later_time _ _ L).
  assert (A : aged (u_time u - m) u) by (split; [lia|intros d Hd; specialize (lg_age0 d Hd); lia]).
  assert (R : ramped (u_time u - m) u) by (split; [lia|replace (u_time u - (u_time u - m)) with m by lia; exact lg_ramp0]).
  destruct (aged_later _ _ _ A L) as (_ & A'). destruct (ramped_later _ _ _ R L) as (_ & R'). replace (u_time u' - (u_time u - m)) with (m + (u_time u' - u_time u)) in * by lia.
  constructor; try lia; try assumption.
  - destruct (later_frame _ _ L) as (-> & _). lia.
  - eapply same_lag; [apply same_later; exact L|assumption].
Qed.

(** ** A sample *)
Lemma keys_app C l1 : forall l2 u u', fui_keys C (l1 ++ l2) u u' -> exists v, fui_keys C l1 u v /\ fui_keys C l2 v u'.
Proof.
  induction l1 as [|k l1 IH]; cbn [app fui_keys]; intros l2 u u' H.
  - exists u. split; [apply later_refl|exact H].
  - destruct H as (u1 & H1 & H2). destruct (IH _ _ _ H2) as (v & K1 & K2). exists v. split; [exists u1; auto|exact K2].
Qed.
Lemma key_slow C u k u' s : aged s u -> ramped s u -> fui_key C u k u' -> aged s u' /\ ramped s u'.
Proof.
  intros A R H. destruct k as (b & q). destruct (is_iron b) eqn:Eb.
  - destruct b; try discriminate Eb. destruct H as (u1 & L1 & L2). destruct (iron_key_frame C u1 q) as (T & _ & M & G & P & _).
    pose proof (aged_later _ _ _ A L1) as A1. pose proof (ramped_later _ _ _ R L1) as R1.
    split; [eapply aged_later; [|exact L2]; eapply aged_ext; [exact A1|assumption..]|eapply ramped_later; [|exact L2]; eapply ramped_ext; [exact R1|assumption..]].
  - destruct (other_key C u b q u' Eb H) as (u1 & u2 & L1 & L2 & L3). destruct (restarted_frame u1) as (T1 & _ & _ & _ & M1 & P1).
    pose proof (aged_later _ _ _ A L1) as A1. pose proof (ramped_later _ _ _ R L1) as R1.
    assert (A2 : aged s (restarted u1)) by (unfold restarted; destruct (restarts _); [apply aged_zero; [apply A1|reflexivity]|exact A1]).
    assert (R2 : ramped s (restarted u1)) by (eapply ramped_ext; [exact R1|assumption..]). set (v := restarted u1) in *. clearbody v.
    pose proof (aged_later _ _ _ A2 L2) as A3. pose proof (ramped_later _ _ _ R2 L2) as R3.
    assert (A4 : aged s (full_act C u2 b q) /\ ramped s (full_act C u2 b q)).
    { destruct q; cbn [full_act]; [|destruct (release_frame C u2 b) as (T & _ & _ & _ & P & G)|auto].
      - destruct (press_frame u2 b) as (T & _ & _ & _ & M & G). split; [eapply aged_ext; [exact A3|assumption..]|]. split; [rewrite T; apply R3|]. rewrite T.
        destruct R3 as (Hs & R3). clear - Hs R3. set (g := u_time u2 - s) in *. assert (0 <= g) by lia. clearbody g.
        destruct u2 as [tm ct pn mn ag rm er ir id bo db cf]. cbn [u_ramp] in R3. destruct b, mn; cbn [ui_press ramp_start set_u_ramp set_u_dbg u_menu u_ramp ramp_lag]; first [exact R3|lia].
      - split; [|apply ramped_none; [rewrite T; apply R3|exact P]]. split; [rewrite T; apply A3|]. intros d Hd. rewrite T, G. destruct (mstate_eqb _ _) eqn:E; [|pose proof (limit_pos _ _ Hd); destruct A3; lia].
        apply mstate_eqb_ok in E. rewrite <- E in Hd. apply A3. exact Hd. }
    destruct A4 as (A4 & R4). split; [eapply aged_later; eassumption|eapply ramped_later; eassumption].
Qed.
Lemma keys_slow C l : forall u u' s, aged s u -> ramped s u -> fui_keys C l u u' -> aged s u' /\ ramped s u'.
Proof.
  induction l as [|k l IH]; cbn [fui_keys]; intros u u' s A R H.
  - split; [eapply aged_later; eassumption|eapply ramped_later; eassumption].
  - destruct H as (u1 & H1 & H2). destruct (key_slow C u k u1 s A R H1) as (A1 & R1). exact (IH _ _ _ A1 R1 H2).
Qed.
Lemma key_same C u b s u' : is_iron b = false -> fui_key C u (b, s) u' -> iron_same u u'.
Proof.
  intros Hb H. destruct (other_key C u b s u' Hb H) as (u1 & u2 & L1 & L2 & L3). destruct (restarted_frame u1) as (T1 & I1 & C1 & P1 & _). destruct (act_frame C u2 b s) as (T2 & I2 & C2 & P2).
  eapply same_trans; [apply same_later; exact L1|]. eapply same_trans; [apply (same_eq u1 (restarted u1)); assumption|]. eapply same_trans; [apply same_later; exact L2|].
  eapply same_trans; [apply (same_eq u2 (full_act C u2 b s)); assumption|]. apply same_later. exact L3.
Qed.
Lemma keys_same C b l : is_iron b = false -> forall u u', fui_keys C (map (fun s => (b, s)) l) u u' -> iron_same u u'.
Proof.
  intros Hb. induction l as [|s l IH]; cbn [map fui_keys]; intros u u' H; [apply same_later; exact H|].
  destruct H as (u1 & H1 & H2). eapply same_trans; [eapply key_same; eassumption|apply IH; exact H2].
Qed.
(** The iron key's own events *)
Definition press_at (C : conf) (t : Z) (u : ui) : Prop := t <= u_time u /\ forall n, u_iron u = Some n -> c_boost C && c_idle C = true /\ n < 1000 + (u_time u - t).
Lemma press_later C t u u' : press_at C t u -> later u u' -> press_at C t u'.
Proof.
  intros (H & K) L. destruct (same_later _ _ L) as (T & _ & _ & E). split; [lia|]. intros n Hn. rewrite E in Hn. destruct (u_iron u) as [i|]; [|discriminate Hn].
  apply Some_inj in Hn. destruct (K i eq_refl). split; [assumption|lia].
Qed.
Lemma iron_pos C u u' : (c_boost C && c_idle C = false -> u_iron u = None) -> fui_key C u (BUTTON_IRON, BSTATE_POSEDGE) u' -> press_at C (u_time u) u'.
Proof.
  intros Hn (u1 & L1 & L2). pose proof (later_time _ _ L1). eapply press_later; [|exact L2]. destruct (iron_key_frame C u1 BSTATE_POSEDGE) as (T & _). split; [lia|]. rewrite T. unfold ui_iron_key.
  destruct (c_boost C && c_idle C) eqn:E.
  - destruct (u_idle u1); uf; intros n X; [discriminate X|]. apply Some_inj in X. split; [reflexivity|lia].
  - destruct L1 as (k & _ & ->). specialize (Hn eq_refl). destruct (c_boost C), (c_idle C), (c_idletoggle C); uf; rewrite ?Hn; intros n X; discriminate X.
Qed.
Lemma iron_held C u u' : (c_boost C && c_idle C = false -> u_iron u = None) -> fui_key C u (BUTTON_IRON, BSTATE_PRESSED) u' -> press_at C (u_time u) u'.
Proof.
  intros Hn (u1 & L1 & L2). pose proof (later_time _ _ L1). eapply press_later; [|exact L2]. destruct (iron_key_frame C u1 BSTATE_PRESSED) as (T & _). split; [lia|]. rewrite T. unfold ui_iron_key.
  destruct (c_boost C && c_idle C) eqn:E.
  - destruct (u_iron u1) as [n|] eqn:En; [|intros n X; congruence]. destruct (1000 <=? n) eqn:Eq; uf; intros p X; [discriminate X|]. rewrite En in X. apply Some_inj in X. split; [reflexivity|lia].
  - destruct L1 as (k & _ & ->). specialize (Hn eq_refl). destruct (c_boost C), (c_idle C), (c_idletoggle C); uf; rewrite ?Hn; intros n X; discriminate X.
Qed.
Lemma iron_neg C u u' : (c_boost C && c_idle C = false -> u_iron u = None) -> fui_key C u (BUTTON_IRON, BSTATE_NEGEDGE) u' -> u_iron u' = None.
Proof.
  intros Hn (u1 & L1 & L2). assert (X : u_iron (ui_iron_key C u1 BSTATE_NEGEDGE) = None).
  { unfold ui_iron_key. destruct (c_boost C && c_idle C) eqn:E.
    - destruct (u_iron u1) as [n|] eqn:En; [reflexivity|exact En].
    - destruct L1 as (k & _ & ->). specialize (Hn eq_refl). destruct (c_boost C), (c_idle C), (c_idletoggle C); uf; rewrite ?Hn; reflexivity. }
  destruct L2 as (k & _ & ->). uf. rewrite X. reflexivity.
Qed.
Lemma sample_lag C u pins u' m b : lag C u m b -> fui_sample C u pins u' -> m + (u_time u' - u_time u) <= 25 -> u_time u' - u_time u <= 10 ->
  lag C u' (m + (u_time u' - u_time u)) (u_time u' - u_time u).
Proof.
  intros [lg_m0 lg_b0 lg_age0 lg_ramp0 lg_keys0 lg_iron0] (u1 & L1 & H) Hm Hb. pose proof (later_time _ _ L1) as T1. pose proof (same_later _ _ L1) as S1. destruct (later_frame _ _ L1) as (C1 & P1).
  assert (A : aged (u_time u - m) u) by (split; [lia|intros d Hd; specialize (lg_age0 d Hd); lia]).
  assert (R : ramped (u_time u - m) u) by (split; [lia|replace (u_time u - (u_time u - m)) with m by lia; exact lg_ramp0]).
  pose proof (aged_later _ _ _ A L1) as A1. pose proof (ramped_later _ _ _ R L1) as R1. pose proof (same_lag C _ _ S1 lg_iron0) as I1.
  destruct (sample_due u1) eqn:Hd; unfold sample_due in Hd.
  2:{ subst u'. destruct A1 as (_ & A1), R1 as (_ & R1). replace (u_time u1 - (u_time u - m)) with (m + (u_time u1 - u_time u)) in * by lia. constructor; try lia; assumption. }
  set (v := set_u_sample u1 (u_count u1 + 1) pins) in *. assert (Av : aged (u_time u - m) v) by (eapply aged_ext; [exact A1|reflexivity..]).
  assert (Rv : ramped (u_time u - m) v) by (eapply ramped_ext; [exact R1|reflexivity..]).
  destruct (keys_slow C _ _ _ _ Av Rv H) as ((T2 & A2) & (_ & R2)). replace (u_time u' - (u_time u - m)) with (m + (u_time u' - u_time u)) in * by lia.
  unfold key_events in H. cbn [all_keys flat_map] in H. rewrite app_nil_r in H.
  apply keys_app in H. destruct H as (v1 & K1 & H). apply keys_app in H. destruct H as (v2 & K2 & H). apply keys_app in H. destruct H as (v3 & K3 & K4).
  pose proof (same_trans _ _ _ (keys_same C BUTTON_SET _ eq_refl _ _ K1) (same_trans _ _ _ (keys_same C BUTTON_MINUS _ eq_refl _ _ K2) (keys_same C BUTTON_PLUS _ eq_refl _ _ K3))) as S3.
  destruct S3 as (T3 & C3 & P3 & E3). change (u_time v) with (u_time u1) in *. change (u_count v) with (u_count u1 + 1) in C3. change (u_pins v) with pins in P3. change (u_iron v) with (u_iron u1) in E3.
  assert (N3 : c_boost C && c_idle C = false -> u_iron v3 = None).
  { intros E. rewrite E3. destruct (u_iron u1) as [i|] eqn:Ei; [|reflexivity]. destruct (I1 i Ei). congruence. }
  assert (Q : u_time v3 <= u_time u' /\ u_count u' = u_count v3 /\ u_pins u' = u_pins v3 /\ (u_iron u' = None \/ (down pins BUTTON_IRON = true /\ press_at C (u_time v3) u'))).
  { assert (Dn : down (u_pins u1) BUTTON_IRON = false -> u_iron v3 = None).
    { intros E. rewrite E3. destruct (u_iron u1) as [i|] eqn:Ei; [|reflexivity]. destruct (I1 i Ei) as (_ & X & _). congruence. }
    revert K4. unfold key_event. destruct (down (u_pins u1) BUTTON_IRON) eqn:D1, (down pins BUTTON_IRON) eqn:D2; cbn [map fui_keys].
    - intros (w & K & L). destruct (key_step C _ _ _ K) as (X1 & _ & X3 & X4). destruct (same_later _ _ L) as (Y1 & Y2 & Y3 & _).
      split; [lia|]. split; [congruence|]. split; [congruence|]. right. split; [reflexivity|]. eapply press_later; [eapply iron_held; eassumption|exact L].
    - intros (w & K & L). destruct (key_step C _ _ _ K) as (X1 & _ & X3 & X4). destruct (same_later _ _ L) as (Y1 & Y2 & Y3 & Y4).
      split; [lia|]. split; [congruence|]. split; [congruence|]. left. rewrite Y4, (iron_neg C _ _ N3 K). reflexivity.
    - intros (w & K & L0). destruct (key_step C _ _ _ K) as (X1 & _ & X3 & X4). destruct L0 as (w2 & K' & L). destruct (key_step C _ _ _ K') as (Z1 & _ & Z3 & Z4). destruct (same_later _ _ L) as (Y1 & Y2 & Y3 & _).
      split; [lia|]. split; [congruence|]. split; [congruence|]. right. split; [reflexivity|].
      assert (Pw : press_at C (u_time w) w2).
      { eapply iron_held; [|exact K']. intros E. destruct (iron_pos C _ _ N3 K) as (_ & X). destruct (u_iron w) as [i|]; [|reflexivity]. destruct (X i eq_refl). congruence. }
      eapply press_later; [|exact L]. destruct Pw as (Pt & Pw). split; [lia|]. intros n Hn. destruct (Pw n Hn). split; [assumption|lia].
    - intros L. destruct (same_later _ _ L) as (Y1 & Y2 & Y3 & Y4). split; [lia|]. split; [congruence|]. split; [congruence|]. left. rewrite Y4, (Dn eq_refl). reflexivity. }
  destruct Q as (Q1 & Q2 & Q3 & Q4). constructor; try lia; try assumption.
  intros n Hn. destruct Q4 as [Q4|(Q4 & _ & Q5)]; [congruence|]. destruct (Q5 n Hn) as (Q6 & Q7). split; [exact Q6|]. split; [congruence|]. rewrite Q2, C3. lia.
Qed.
