(** * Interrupts inside the work functions, part 1: the points *)
From Coq Require Import ZArith List Bool Lia ZifyBool.
From Verif Require Import Base PBase MConf MUtil MFixpt MScale MRing MFilter MTimer MPid MPwm MTempMap MCurr MSens
  SpecNum SpecPid SpecSmall PNum PSmall PScale PPid SpecCurr PCurr MSettings SpecSettings PSettings PSysSet
  MSseg MDisplay MText MState MTemp MMeas MMenu MMain SpecDisplay PDisplay SpecSys PSys PSysMeas PSysMenu PSysDisp PSysBtn PSysStep PSysRun MFine.
Import ListNotations.
Open Scope Z_scope.
Ltac Zify.zify_post_hook ::= Z.div_mod_to_equations.

(** ** All outcomes *)
Definition fok {A} (m : F A) (Q : A -> Prop) : Prop := forall o, exists a o', m o = Some (a, o') /\ Q a.
Lemma fok_ret {A} (a : A) (Q : A -> Prop) : Q a -> fok (ret a) Q.
Proof. intros H o. exists a, o. split; [reflexivity|exact H]. Qed.
Lemma fok_lift {A} (m : option A) a (Q : A -> Prop) : m = Some a -> Q a -> fok (lift m) Q.
Proof. intros -> H o. exists a, o. split; [reflexivity|exact H]. Qed.
Lemma fok_bind {A B} (m : F A) (f : A -> F B) (Q : B -> Prop) : fok m (fun a => fok (f a) Q) -> fok (fbind m f) Q.
Proof.
  intros H o. destruct (H o) as (a & o' & E & K). destruct (K o') as (b & o2 & E2 & Hb).
  exists b, o2. split; [unfold fbind; rewrite E; exact E2|exact Hb].
Qed.
Lemma fok_mono {A} (m : F A) (P Q : A -> Prop) : fok m P -> (forall a, P a -> Q a) -> fok m Q.
Proof. intros H K o. destruct (H o) as (a & o' & E & Ha). exists a, o'. auto. Qed.
Lemma fok_seq {A B} (m : F A) (f : A -> F B) (P : A -> Prop) (Q : B -> Prop) :
  fok m P -> (forall a, P a -> fok (f a) Q) -> fok (fbind m f) Q.
Proof. intros H K. apply fok_bind. eapply fok_mono; [exact H|exact K]. Qed.
Lemma fok_step {A B} (m : option A) a (f : A -> F B) (Q : B -> Prop) : m = Some a -> fok (f a) Q -> fok (fbind (lift m) f) Q.
Proof. intros E H. apply fok_bind. eapply fok_lift; [exact E|exact H]. Qed.
Lemma fok_done {A B} (a : A) (f : A -> F B) (Q : B -> Prop) : fok (f a) Q -> fok (fbind (ret a) f) Q.
Proof. intros H. apply fok_bind. apply fok_ret. exact H. Qed.

(** ** What interrupts do *)
Definition mv (y : sys) (n : Z) (m : meas) (x : sst) : sys := set_y_set (set_y_meas (set_y_now y n) m) x.
Record mok (B : bnds) (C : conf) (y : sys) (n : Z) (m : meas) (x : sst) : Prop := mkMok {
  mo_now : is_u16 n;
  mo_meas : meas_inv C m (x_cache x);
  mo_set : set_inv C B x;
  mo_cache : x_cache x = x_cache (y_set y);
  mo_chans : m_chans m = m_chans (y_meas y);
  mo_chan : m_chan m = m_chan (y_meas y);
  mo_off : m_adc (y_meas y) = false -> m = y_meas y;
  mo_hand : handover (y_meas y) -> handover m;
  mo_req : x_request (y_set y) = true -> x_request x = true
}.
Record core (B : bnds) (C : conf) (y : sys) : Prop := mkCore {
  co_now : is_u16 (y_now y);
  co_meas : meas_inv C (y_meas y) (x_cache (y_set y));
  co_set : set_inv C B (y_set y)
}.
Lemma inv_core B C y : inv B C y -> core B C y.
Proof. intros I. constructor; apply I. Qed.
Lemma mv_id y : mv y (y_now y) (y_meas y) (y_set y) = y.
Proof. destruct y; reflexivity. Qed.
Lemma mok_id B C y : core B C y -> mok B C y (y_now y) (y_meas y) (y_set y).
Proof. intros []. constructor; auto. Qed.
Lemma mok_core B C y n m x : mok B C y n m x -> core B C (mv y n m x).
Proof. intros []. constructor; assumption. Qed.
Lemma mok_trans B C y n m x n' m' x' : mok B C y n m x -> mok B C (mv y n m x) n' m' x' -> mok B C y n' m' x'.
Proof.
  intros [] []. unfold mv in *. cbn in *. constructor; try assumption; try congruence; [|auto|auto].
  intros H. specialize (mo_off0 H). subst m. apply mo_off1. exact H.
Qed.
Lemma mok_ext B C y z n m x : y_meas z = y_meas y -> y_set z = y_set y -> mok B C y n m x -> mok B C z n m x.
Proof. intros E1 E2 []. constructor; rewrite ?E1, ?E2; assumption. Qed.
Lemma mv_inv B C y n m x : inv B C y -> mok B C y n m x -> inv B C (mv y n m x).
Proof. intros [] []. unfold mv. constructor; sy; try assumption; try (rewrite mo_cache0; assumption). Qed.
Lemma mv_vstep B C y n m x : mok B C y n m x -> vstep y (mv y n m x).
Proof. intros []. right. split; [reflexivity|]. unfold vis, mv. sy. rewrite mo_cache0. reflexivity. Qed.

Section Irq.
Variables (B : bnds) (C : conf).
Hypothesis HC : build_conf C.
Hypothesis HB : bok B.

Lemma fire_ok y i : core B C y -> exists n m x, fire C y i = Some (mv y n m x) /\ mok B C y n m x.
Proof.
  intros [N M S]. unfold fire. destruct (ev_okb C y (irq_event i)) eqn:O.
  2:{ eexists _, _, _. split; [rewrite mv_id; reflexivity|]. apply mok_id. constructor; assumption. }
  destruct i as [|raw| |]; cbn [irq_event step ev_okb] in *.
  - exists (timer_isr (y_now y)), (y_meas y), (y_set y). split; [destruct y; reflexivity|].
    constructor; auto. unfold timer_isr. apply u16_range.
  - apply andb_true_iff in O. destruct O as (O & O3). apply andb_true_iff in O. destruct O as (O1 & O2).
    exists (y_now y), (if m_adc (y_meas y) then y_meas (adc_isr y raw) else y_meas y), (y_set y).
    split; [destruct (m_adc (y_meas y)); destruct y; reflexivity|].
    destruct M as (M1 & M2 & M3 & M4).
    destruct (m_adc (y_meas y)) eqn:Ea; [|constructor; auto; unfold meas_inv; auto].
    unfold adc_isr. cbv zeta. sy. rewrite (u16_id (m_count (y_meas y) + 1)) by lia. unfold u32. rewrite Z.mod_small by lia.
    set (mm := if timer_expired _ _ then _ else _).
    assert (Em : m_chans mm = m_chans (y_meas y) /\ m_chan mm = m_chan (y_meas y) /\ m_count mm = m_count (y_meas y) + 1 /\ m_sum mm = m_sum (y_meas y) + raw /\
                 (handover (y_meas y) -> handover mm)).
    { unfold mm, handover. destruct (timer_expired _ _); sy; repeat split; try reflexivity; try lia; intuition congruence. }
    destruct Em as (E1 & E2 & E3 & E4 & E5).
    constructor; try assumption; [|reflexivity|congruence|auto]. unfold meas_inv. rewrite E1, E2, E3, E4. split; [exact M1|]. lia.
  - destruct (x_eerie (y_set y)) eqn:Ee; [|eexists _, _, _; split; [rewrite mv_id; reflexivity|apply mok_id; constructor; assumption]].
    destruct (x_busy (y_set y)) eqn:Eb; [eexists _, _, _; split; [rewrite mv_id; reflexivity|apply mok_id; constructor; assumption]|].
    destruct (set_ready C HC B (y_set y) S (proj2 HB) Ee Eb) as (x' & E & Sx & Ec & Er & _). rewrite E. cbn [bind].
    exists (y_now y), (y_meas y), x'. split; [destruct y; reflexivity|]. constructor; auto; [rewrite Ec; exact M|congruence].
  - assert (Ec : x_cache (ee_prog_done (y_set y)) = x_cache (y_set y)) by (unfold ee_prog_done; destruct (x_busy (y_set y)) as [[? ?]|]; reflexivity).
    exists (y_now y), (y_meas y), (ee_prog_done (y_set y)). split; [destruct y; reflexivity|].
    constructor; auto; [rewrite Ec; exact M|apply (set_done C HC); exact S|].
    intros Rq. unfold ee_prog_done. destruct (x_busy (y_set y)) as [[? ?]|]; exact Rq.
Qed.
Lemma fires_ok l : forall y, core B C y -> exists n m x, fires C y l = Some (mv y n m x) /\ mok B C y n m x.
Proof.
  induction l as [|i l IH]; intros y K; cbn [fires].
  - eexists _, _, _. split; [rewrite mv_id; reflexivity|apply mok_id; exact K].
  - destruct (fire_ok y i K) as (n & m & x & E & O). rewrite E. cbn [bind].
    destruct (IH _ (mok_core _ _ _ _ _ _ O)) as (n' & m' & x' & E' & O'). exists n', m', x'. split; [exact E'|]. eapply mok_trans; eassumption.
Qed.
Lemma fok_pt y (Q : sys -> Prop) : core B C y -> (forall n m x, mok B C y n m x -> Q (mv y n m x)) -> fok (pt C y) Q.
Proof.
  intros K H o. unfold pt. destruct o as [|l r].
  - exists y, []. split; [reflexivity|]. rewrite <- (mv_id y). apply H. apply mok_id. exact K.
  - destruct (fires_ok l y K) as (n & m & x & E & O). rewrite E. cbn [bind]. eexists _, _. split; [reflexivity|]. apply H. exact O.
Qed.
Lemma fok_point {A} y (f : sys -> F A) (Q : A -> Prop) : core B C y -> (forall n m x, mok B C y n m x -> fok (f (mv y n m x)) Q) -> fok (fbind (pt C y) f) Q.
Proof. intros K H. apply fok_bind. apply fok_pt; assumption. Qed.

(** ** Changes of the settings *)
(** The state with the changed settings [s] at the point of store_settings ... *)
Definition put_req (y : sys) (s : settings) : sys := set_y_set (put_settings y s) (set_x_request (y_set (put_settings y s)) true).
(** ... and the state before the change in which the interrupts have already happened. *)
Definition back (y : sys) (n : Z) (m : meas) (x : sst) : sys := mv y n m (set_x_cache x (x_cache (y_set y))).
Lemma set_put x s : set_inv C B x -> rng B C s -> s_serial s = s_serial (x_cache x) -> set_inv C B (set_x_request (set_x_cache x s) true).
Proof.
  intros S R Es. assert (Rr : rng relaxed C s) by (eapply rng_le; [apply HB|exact R]).
  exact (set_modify C B 0 _ s _ S R Rr Es (store_eq _ _)).
Qed.
Lemma put_core y s : inv B C y -> rng B C s -> s_serial s = s_serial (get_settings y) -> s_adj s = s_adj (get_settings y) -> core B C (put_req y s).
Proof.
  intros I R Es Ea. constructor; [apply I| |].
  - destruct (i_meas _ _ _ I) as (M1 & M2). unfold put_req, put_settings, meas_inv in *. sy. unfold get_settings in *. rewrite Ea. auto.
  - unfold put_req, put_settings. sy. apply set_put; [apply I|exact R|exact Es].
Qed.
Lemma put_back y s n m x : inv B C y -> s_serial s = s_serial (get_settings y) -> s_adj s = s_adj (get_settings y) ->
  mok B C (put_req y s) n m x ->
  inv B C (back y n m x) /\ mok B C y n m (set_x_cache x (x_cache (y_set y))) /\ put_settings (back y n m x) s = mv (put_req y s) n m x.
Proof.
  intros I Es Ea O. assert (K : mok B C y n m (set_x_cache x (x_cache (y_set y)))).
  { destruct O as [O1 O2 O3 O4 O5 O6 O7 O8 O9]. unfold put_req, put_settings, get_settings in *. sy in O4. sy in O5. sy in O6. sy in O7. sy in O8. sy in O9.
    specialize (O9 eq_refl). constructor; try assumption; sy.
    - unfold meas_inv in *. rewrite O4, Ea in O2. exact O2.
    - pose proof (set_put x (x_cache (y_set y)) O3 (proj1 (proj2 (i_set _ _ _ I)))) as K. rewrite O4 in K. specialize (K (eq_sym Es)).
      destruct x; sy in O9; subst; exact K.
    - reflexivity.
    - auto. }
  split; [apply mv_inv; assumption|]. split; [exact K|].
  destruct O as [_ _ _ O4 _ _ _ _ O9]. unfold put_req, put_settings, back, mv in *. sy in O4. sy in O9. specialize (O9 eq_refl). sy. destruct x as [x1 x2 x3 x4 x5 x6 x7 x8]. sy in O4. sy in O9. subst x3 x2. reflexivity.
Qed.
End Irq.
