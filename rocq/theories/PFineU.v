(** * The user interface with interrupts inside the work functions, part 1: counting the ticks *)
From Coq Require Import ZArith List Bool Lia ZifyBool.
From Verif Require Import Base PBase MConf MUtil MFixpt MScale MRing MFilter MTimer MPid MPwm MTempMap MCurr MSens
  SpecNum SpecPid SpecSmall PNum PSmall PScale PPid SpecCurr PCurr MSettings SpecSettings PSettings PSysSet
  MSseg MDisplay MText MState MTemp MMeas MMenu MMain SpecDisplay PDisplay SpecSys SpecRun SpecUI PSys PSysMeas PSysMenu PSysDisp PSysBtn PSysStep PSysRun
  PSysCC PSysSafe PSysUI PSysUI2 MFine SpecFine SpecFineLive SpecFineUI PFine.
Import ListNotations.
Open Scope Z_scope.
Ltac Zify.zify_post_hook ::= Z.div_mod_to_equations.

(** ** Ticks *)
Definition tl (l : list irq) : Z := Z.of_nat (length (filter is_tick l)).
Lemma tl_nonneg l : 0 <= tl l.
Proof. unfold tl. lia. Qed.
Lemma tl_app a b : tl (a ++ b) = tl a + tl b.
Proof. unfold tl. rewrite filter_app, app_length. lia. Qed.
Lemma ticks_cons l o : ticks_in (l :: o) = tl l + ticks_in o.
Proof. unfold ticks_in. cbn [concat]. apply tl_app. Qed.
Lemma ticks_nonneg o : 0 <= ticks_in o.
Proof. unfold ticks_in. lia. Qed.

Section Irq.
Variables (B : bnds) (C : conf).
Hypothesis HC : build_conf C.
Hypothesis HB : bok B.
Local Notation mok := (mok B C).

Lemma fire_now y i y' : is_u16 (y_now y) -> fire C y i = Some y' -> y_now y' = u16 (y_now y + if is_tick i then 1 else 0).
Proof.
  intros N. unfold fire. destruct (ev_okb C y (irq_event i)) eqn:O.
  2:{ intros E. apply Some_inj in E. subst y'. destruct i; try discriminate O; cbn [is_tick]; rewrite u16_id by (unfold is_u16 in N; lia); lia. }
  assert (K : u16 (y_now y + 0) = y_now y) by (rewrite u16_id by (unfold is_u16 in N; lia); lia).
  destruct i as [|raw| |]; cbn [irq_event step is_tick]; rewrite ?K.
  - intros E. apply Some_inj in E. subst y'. reflexivity.
  - intros E. apply Some_inj in E. subst y'. destruct (m_adc _); reflexivity.
  - destruct (x_eerie (y_set y)); [|intros E; apply Some_inj in E; subst; reflexivity].
    destruct (x_busy (y_set y)); [intros E; apply Some_inj in E; subst; reflexivity|].
    destruct (ee_ready_isr C (y_set y)) as [x|]; [|discriminate]. cbn [bind]. intros E. apply Some_inj in E. subst. reflexivity.
  - intros E. apply Some_inj in E. subst. reflexivity.
Qed.
Lemma fires_now l : forall y y', core B C y -> fires C y l = Some y' -> y_now y' = u16 (y_now y + tl l).
Proof.
  induction l as [|i l IH]; intros y y' K E; cbn [fires] in E.
  - apply Some_inj in E. subst. pose proof (co_now _ _ _ K) as N. unfold is_u16 in N. change (tl []) with 0. rewrite u16_id; lia.
  - apply bind_inv in E. destruct E as (y1 & E1 & E2). pose proof (fire_now _ _ _ (co_now _ _ _ K) E1) as N1.
    destruct (fire_ok B C HC HB y i K) as (n & m & x & E3 & O). rewrite E1 in E3. apply Some_inj in E3. subst y1.
    rewrite (IH _ _ (mok_core _ _ _ _ _ _ O) E2), N1, u16_shift. f_equal. unfold tl. cbn [filter]. destruct (is_tick i); cbn [length]; lia.
Qed.

(** ** Outcomes with a budget [N] of ticks *)
Definition bd {A} (N : Z) (m : F A) (Q : A -> Z -> Prop) : Prop :=
  forall o a o', ticks_in o <= N -> m o = Some (a, o') -> exists k, 0 <= k /\ ticks_in o = k + ticks_in o' /\ Q a (N - k).
Lemma bd_ret {A} N (a : A) (Q : A -> Z -> Prop) : Q a N -> bd N (ret a) Q.
Proof. intros H o b o' L E. unfold ret in E. injection E as <- <-. exists 0. replace (N - 0) with N by lia. split; [lia|]. split; [lia|exact H]. Qed.
Lemma bd_lift {A} N (m : option A) (Q : A -> Z -> Prop) : (forall a, m = Some a -> Q a N) -> bd N (lift m) Q.
Proof.
  intros H o b o' L E. unfold lift in E. destruct m as [a|]; [|discriminate E]. cbn [bind] in E. injection E as <- <-.
  exists 0. replace (N - 0) with N by lia. split; [lia|]. split; [lia|]. apply H. reflexivity.
Qed.
Lemma bd_bind {A D} N (m : F A) (f : A -> F D) (Q : D -> Z -> Prop) : bd N m (fun a N' => bd N' (f a) Q) -> bd N (fbind m f) Q.
Proof.
  intros H o b o' L E. unfold fbind in E. destruct (m o) as [[a o1]|] eqn:E1; [|discriminate E].
  destruct (H o a o1 L E1) as (k & K1 & K2 & K3). destruct (K3 o1 b o' ltac:(lia) E) as (j & J1 & J2 & J3).
  exists (k + j). split; [lia|]. split; [lia|]. replace (N - (k + j)) with (N - k - j) by lia. exact J3.
Qed.
Lemma bd_seq {A D} N (m : F A) (f : A -> F D) (P : A -> Z -> Prop) (Q : D -> Z -> Prop) :
  bd N m P -> (forall a N', P a N' -> bd N' (f a) Q) -> bd N (fbind m f) Q.
Proof.
  intros H K. apply bd_bind. intros o a o' L E. destruct (H o a o' L E) as (k & K1 & K2 & K3). exists k. auto.
Qed.
Lemma bd_mono {A} N (m : F A) (P Q : A -> Z -> Prop) : bd N m P -> (forall a N', P a N' -> Q a N') -> bd N m Q.
Proof. intros H K o a o' L E. destruct (H o a o' L E) as (k & K1 & K2 & K3). exists k. auto. Qed.
Lemma bd_step {A D} N (m : option A) (f : A -> F D) (Q : D -> Z -> Prop) : (forall a, m = Some a -> bd N (f a) Q) -> bd N (fbind (lift m) f) Q.
Proof. intros H. apply bd_bind. apply bd_lift. exact H. Qed.
Lemma bd_done {A D} N (a : A) (f : A -> F D) (Q : D -> Z -> Prop) : bd N (f a) Q -> bd N (fbind (ret a) f) Q.
Proof. intros H. apply bd_bind. apply bd_ret. exact H. Qed.
Lemma bd_and {A} N (m : F A) (P : A -> Prop) (Q : A -> Z -> Prop) : fok m P -> bd N m Q -> bd N m (fun a N' => P a /\ Q a N').
Proof.
  intros H K o a o' L E. destruct (K o a o' L E) as (k & K1 & K2 & K3). exists k. split; [exact K1|]. split; [exact K2|]. split; [|exact K3].
  destruct (H o) as (b & o2 & E2 & Hb). rewrite E in E2. injection E2 as <- <-. exact Hb.
Qed.
Lemma bd_pt N y (Q : sys -> Z -> Prop) : core B C y ->
  (forall k n m x, 0 <= k <= N -> mok y n m x -> n = u16 (y_now y + k) -> Q (mv y n m x) (N - k)) -> bd N (pt C y) Q.
Proof.
  intros K H o y' o' L E. unfold pt in E. destruct o as [|l r].
  - injection E as <- <-. exists 0. split; [lia|]. split; [reflexivity|]. rewrite <- (mv_id y). apply H; [|apply mok_id; exact K|].
    + pose proof (ticks_nonneg []). change (ticks_in []) with 0 in *. lia.
    + destruct K as [N0 _ _]. unfold is_u16 in N0. rewrite u16_id; lia.
  - apply bind_inv in E. destruct E as (y1 & E1 & E2). injection E2 as <- <-. rewrite ticks_cons in *. exists (tl l). pose proof (tl_nonneg l). pose proof (ticks_nonneg r).
    split; [lia|]. split; [reflexivity|]. destruct (fires_ok B C HC HB l y K) as (n & m & x & E3 & O). pose proof (fires_now l y y1 K E1) as En.
    rewrite E1 in E3. apply Some_inj in E3. subst y1. apply H; [lia|exact O|exact En].
Qed.
Lemma bd_point {A} N y (f : sys -> F A) (Q : A -> Z -> Prop) : core B C y ->
  (forall k n m x, 0 <= k <= N -> mok y n m x -> n = u16 (y_now y + k) -> bd (N - k) (f (mv y n m x)) Q) -> bd N (fbind (pt C y) f) Q.
Proof. intros K H. apply bd_bind. apply bd_pt; assumption. Qed.
End Irq.

(** ** The relation of PSysUI2 while time passes *)
Ltac uf := cbn [ui_wait set_u_menu set_u_age set_u_ramp set_u_err set_u_iron set_u_idle set_u_boost set_u_dbg set_u_cfg set_u_sample
  u_time u_count u_pins u_menu u_age u_ramp u_err u_iron u_idle u_boost u_dbg u_cfg].
Lemma wait0 u : ui_wait 0 u = u.
Proof.
  destruct u as [a b c d e r g i]. unfold ui_wait. uf. f_equal; try lia.
  - destruct r; cbv beta iota; f_equal; try reflexivity; lia.
  - destruct i; cbv beta iota; f_equal; try reflexivity; lia.
Qed.
Lemma wait_wait j k u : ui_wait j (ui_wait k u) = ui_wait (k + j) u.
Proof.
  destruct u as [a b c d e r g i]. unfold ui_wait. uf. f_equal; try lia.
  - destruct r; cbv beta iota; f_equal; try reflexivity; lia.
  - destruct i; cbv beta iota; f_equal; try reflexivity; lia.
Qed.
Lemma later_refl u : later u u.
Proof. exists 0. split; [lia|]. symmetry. apply wait0. Qed.
Lemma later_wait k u : 0 <= k -> later u (ui_wait k u).
Proof. intros H. exists k. auto. Qed.
Lemma later_trans a b c : later a b -> later b c -> later a c.
Proof. intros (k & K & ->) (j & J & ->). exists (k + j). split; [lia|]. apply wait_wait. Qed.
Lemma ramp_wait time n r k : 0 <= k -> ramp_rel time n r ->
  ramp_rel (time + k) n match r with RNone => RNone | RWait up i => RWait up (i + k) | RRun up i j => RRun up (i + k) j end.
Proof.
  intros Hk. destruct r as [|up i|up i j]; cbn [ramp_rel]; auto.
  - intros (A & D & E). replace (time + k - (i + k)) with (time - i) by lia. repeat split; try assumption; lia.
  - intros (A & D & E & G & H). replace (time + k - (i + k)) with (time - i) by lia. repeat split; try assumption; lia.
Qed.
Lemma iron_wait C time t o i k : 0 <= k -> iron_rel C time t o i -> iron_rel C (time + k) t match o with Some n => Some (n + k) | None => None end i.
Proof.
  intros Hk. destruct o as [n|]; cbn [iron_rel]; auto. intros (A & D & E & G). replace (time + k - (n + k)) with (time - n) by lia. repeat split; try assumption; try apply G; lia.
Qed.
Lemma wait_rel B C y u n m x k : ui_rel C y u -> mok B C y n m x -> 0 <= k -> n = u16 (y_now y + k) -> ui_rel C (mv y n m x) (ui_wait k u).
Proof.
  intros [] O Hk En. constructor; unfold mv; uf; sy; try assumption.
  - rewrite (mo_cache _ _ _ _ _ _ O). assumption.
  - destruct uv_now as (T & Tn). split; [lia|]. rewrite En, Tn, u16_shift. reflexivity.
  - destruct uv_btn as (X1 & X2 & X3). split; [exact X1|]. split; [lia|exact X3].
  - destruct uv_age as (X1 & X2). split; [lia|]. intros d Hd. rewrite (X2 d Hd). f_equal. lia.
  - apply ramp_wait; assumption.
  - apply iron_wait; assumption.
Qed.
