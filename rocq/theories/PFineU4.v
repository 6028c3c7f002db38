(** * The user interface with interrupts inside the work functions, part 4: the keys *)
From Coq Require Import ZArith List Bool Lia ZifyBool.
From Verif Require Import Base PBase MConf MUtil MFixpt MScale MRing MFilter MTimer MPid MPwm MTempMap MCurr MSens
  SpecNum SpecPid SpecSmall PNum PSmall PScale PPid SpecCurr PCurr MSettings SpecSettings PSettings PSysSet
  MSseg MDisplay MText MState MTemp MMeas MMenu MMain SpecDisplay PDisplay SpecSys SpecRun SpecUI PSys PSysMeas PSysMenu PSysDisp PSysBtn PSysStep PSysRun
  PSysCC PSysSafe MFine SpecFine SpecFineLive SpecFineUI PFine PFine2 PFine3 PFine4 PSysUI PSysUI2 PFineU PFineU2 PFineU3.
Import ListNotations.
Open Scope Z_scope.
Ltac Zify.zify_post_hook ::= Z.div_mod_to_equations.

(** ** Delays and actions *)
Lemma wait_stop k u : ui_wait k (set_u_ramp u RNone) = set_u_ramp (ui_wait k u) RNone.
Proof. reflexivity. Qed.
Lemma wait_cfg k u c : ui_wait k (set_u_cfg u c) = set_u_cfg (ui_wait k u) c.
Proof. reflexivity. Qed.
Lemma enter_stop u s r : set_u_ramp (ui_enter u s) r = ui_enter (set_u_ramp u r) s.
Proof. rewrite !ui_enter_eq. reflexivity. Qed.
Lemma later_stop a b : later a b -> later (set_u_ramp a RNone) (set_u_ramp b RNone).
Proof. intros (k & K & ->). exists k. split; [exact K|reflexivity]. Qed.
Lemma later_time a b : later a b -> u_time a <= u_time b.
Proof. intros (k & K & ->). uf. lia. Qed.
Lemma later_menu a b : later a b -> u_menu b = u_menu a.
Proof. intros (k & K & ->). reflexivity. Qed.

Section Keys.
Variable C : conf.
Hypothesis HC : build_conf C.
Local Notation B := relaxed.
Local Notation HB := bok_relaxed.
Local Notation mok := (mok B C).
Local Notation inv := (inv B C).
Local Notation core := (core B C).
Local Notation fine := (fine B C).

(** Afterwards the automaton is in a state satisfying [P], the ticks consumed having passed. *)
Definition to (N : Z) (u : ui) (P : ui -> Prop) (y' : sys) (N' : Z) : Prop :=
  exists u', P u' /\ u_time u' = u_time u + (N - N') /\ ui_rel C y' u'.

Lemma menu_swap y u n' r : ui_rel C y u -> n_state n' = n_state (y_menu y) -> n_timeout n' = n_timeout (y_menu y) -> n_err n' = n_err (y_menu y) ->
  ramp_rel (u_time u) n' r -> ui_rel C (set_y_menu y n') (set_u_ramp u r).
Proof.
  intros [Q1 Q2 Q3 Q4 Q5 Q6 Q7 Q8 Q9 Q10 Q11 Q12] E1 E2 E3 R. constructor; uf; sy; try assumption; try congruence.
  destruct Q10 as (X1 & X2). split; [exact X1|]. rewrite E2. exact X2.
Qed.
Lemma stop_rel y u : ui_rel C y u -> ui_rel C (stop_ramping y) (set_u_ramp u RNone).
Proof. intros R. unfold stop_ramping. apply menu_swap; [exact R|reflexivity|reflexivity|reflexivity|reflexivity]. Qed.
Lemma upd_rel y u b : ui_rel C y u -> ui_rel C (set_y_menu y (set_n_upd (y_menu y) b)) u.
Proof.
  intros R. replace u with (set_u_ramp u (u_ramp u)) by (destruct u; reflexivity). apply menu_swap; [exact R|reflexivity|reflexivity|reflexivity|].
  eapply ramp_rel_fields; [|apply (uv_ramp _ _ _ R)]. reflexivity.
Qed.

(** ** Starting a ramp *)
Lemma start_bd N y u up pre h : core y -> ui_rel C y u ->
  bd N (start_ramping_f C y up pre h) (to N u (fun u' => exists u1, later u u1 /\ later (set_u_ramp u1 (if pre then RWait up 0 else RRun up 0 0)) u')).
Proof.
  intros K R. unfold start_ramping_f. destruct pre.
  - apply bd_bind. apply (bd_point B C HC HB); [destruct K; constructor; assumption|]. intros k n m x Hk O En.
    assert (O' : mok y n m x) by (eapply mok_ext; [| |exact O]; reflexivity).
    apply bd_step. intros t Et. rewrite arm_ok in Et by (unfold RAMP_PRE_TIMEOUT_MS; lia). apply Some_inj in Et. subst t. apply bd_ret.
    apply (bd_point B C HC HB); [destruct (mok_core _ _ _ _ _ _ O'); constructor; assumption|]. intros j n' m' x' Hj O2 En'.
    apply bd_ret. exists (ui_wait j (set_u_ramp (ui_wait k u) (RWait up 0))). split; [exists (ui_wait k u); split; apply later_wait; lia|]. split; [uf; lia|].
    assert (O3 : mok y n' m' x') by (eapply mok_trans; [exact O'|eapply mok_ext; [| |exact O2]; reflexivity]).
    assert (En2 : n' = u16 (y_now y + (k + j))).
    { rewrite En'. unfold mv. sy. rewrite En. unfold mv; sy. rewrite u16_shift. f_equal. lia. }
    pose proof (wait_rel B C y u n' m' x' (k + j) R O3 ltac:(lia) En2) as R3.
    match goal with |- ui_rel C ?z _ => replace z with (set_y_menu (mv y n' m' x') (y_menu z)) by reflexivity end.
    replace (ui_wait j (set_u_ramp (ui_wait k u) (RWait up 0))) with (set_u_ramp (ui_wait (k + j) u) (RWait up j)).
    + apply menu_swap; [exact R3|reflexivity|reflexivity|reflexivity|]. uf. cbn [ramp_rel]. destruct (uv_now _ _ _ R) as (_ & T).
      unfold mv, dir. sy. split; [destruct up; reflexivity|]. split; [|lia]. rewrite En. unfold mv. sy. rewrite T, (u16_shift (u_time u)), u16_shift. unfold RAMP_PRE_TIMEOUT_MS. f_equal. lia.
    + rewrite <- wait_wait. reflexivity.
  - apply bd_done. apply (bd_point B C HC HB); [destruct K; constructor; assumption|]. intros k n m x Hk O En.
    apply bd_ret. exists (set_u_ramp (ui_wait k u) (RRun up 0 0)). split; [exists (ui_wait k u); split; [apply later_wait; lia|apply later_refl]|]. split; [uf; lia|].
    assert (O' : mok y n m x) by (eapply mok_ext; [| |exact O]; reflexivity).
    assert (En2 : n = u16 (y_now y + k)) by (rewrite En; unfold mv; sy; reflexivity).
    pose proof (wait_rel B C y u n m x k R O' ltac:(lia) En2) as R3.
    match goal with |- ui_rel C ?z _ => replace z with (set_y_menu (mv y n m x) (y_menu z)) by reflexivity end.
    apply menu_swap; [exact R3|reflexivity|reflexivity|reflexivity|]. uf. cbn [ramp_rel]. destruct (uv_now _ _ _ R) as (_ & T).
    unfold mv, dir, timer_set_now, RAMP_START_PERIOD_MS. sy. split; [destruct up; reflexivity|]. split; [rewrite En2, T, u16_shift; f_equal; cbn; lia|]. split; [reflexivity|]. cbn. lia.
Qed.
(** ** Changing the settings *)
Lemma presets_store_bd N y u s a c : inv y -> ui_rel C y u -> rng B C s -> s_serial s = s_serial (get_settings y) -> s_adj s = s_adj (get_settings y) ->
  zget (s_preset s) (s_active s) = Some a -> same_settings s c ->
  bd N (presets_store_f C (put_settings y s)) (fun y' N' => exists k, 0 <= k /\ N' = N - k /\ ui_rel C y' (set_u_cfg (ui_wait k u) c)).
Proof.
  intros I R Rs Es Ea E Hc. eapply bd_mono; [eapply bd_and; [eapply presets_store_fine; [exact HC|exact HB|exact I|exact Rs|exact Es|exact Ea|exact E]|]|].
  - apply (sl_bd _ vis) with (g := fun a => a) (y := y); [apply (co_now _ _ _ (inv_core _ _ _ I))|]. eapply sl_eq; [apply presets_store_sl|]. split; reflexivity.
  - intros y' N' ((y2 & Nr & E2) & k & K1 & K2 & K3 & K4). exists k. split; [exact K1|]. split; [exact K2|]. apply (vis_rel C y); [exact R|exact K4|exact K1|exact K3|].
    rewrite (presets_store_eq C y2 s a E) in E2. apply Some_inj in E2. subst y'. exact Hc.
Qed.
Lemma cycle_bd N y u (up : bool) : inv y -> ui_rel C y u ->
  bd N (if up then presets_next_f C y else presets_prev_f C y)
    (fun y' N' => exists k, 0 <= k /\ N' = N - k /\ ui_rel C y' (set_u_cfg (ui_wait k u) (set_s_active (u_cfg u) (if up then cycle_up 5 (s_active (u_cfg u)) else cycle_down 5 (s_active (u_cfg u)))))).
Proof.
  intros I R. destruct (i_set _ _ _ I) as (_ & Rg & _). assert (R' := Rg). destruct R' as (_ & _ & _ & Hac & _).
  pose proof (same_active _ _ (uv_cfg _ _ _ R)) as Ha. unfold presets_next_f, presets_prev_f, NR_PRESETS. cbv zeta. unfold get_settings.
  rewrite ring_next_eq, ring_prev_eq by lia. change (6 - 1) with 5.
  assert (Hs : forall i, same_settings (set_s_active (x_cache (y_set y)) i) (set_s_active (u_cfg u) i)).
  { intros i. pose proof (uv_cfg _ _ _ R) as S. apply (proj1 (same_ex _ _)) in S. rewrite S. reflexivity. }
  destruct up.
  - assert (Hi : 0 <= (if s_active (x_cache (y_set y)) =? 5 then 0 else s_active (x_cache (y_set y)) + 1) <= 5) by (destruct (_ =? _) eqn:F; lia).
    pose proof (rng_active _ _ _ _ Rg Hi) as R2. destruct (rng_preset_get _ _ _ R2) as (a & E & _).
    eapply presets_store_bd; [exact I|exact R|exact R2|reflexivity|reflexivity|exact E|]. unfold cycle_up. rewrite Ha. apply Hs.
  - assert (Hi : 0 <= (if s_active (x_cache (y_set y)) =? 0 then 5 else s_active (x_cache (y_set y)) - 1) <= 5) by (destruct (_ =? _) eqn:F; lia).
    pose proof (rng_active _ _ _ _ Rg Hi) as R2. destruct (rng_preset_get _ _ _ R2) as (a & E & _).
    eapply presets_store_bd; [exact I|exact R|exact R2|reflexivity|reflexivity|exact E|]. unfold cycle_down. rewrite Ha. apply Hs.
Qed.
End Keys.
