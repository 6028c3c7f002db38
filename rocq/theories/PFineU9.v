(** * The user interface with interrupts inside the work functions, part 9: every history is one of the automaton *)
From Coq Require Import ZArith List Bool Lia ZifyBool.
From Verif Require Import Base PBase MConf MUtil MFixpt MScale MRing MFilter MTimer MPid MPwm MTempMap MCurr MSens
  SpecNum SpecPid SpecSmall PNum PSmall PScale PPid SpecCurr PCurr MSettings SpecSettings PSettings PSysSet
  MSseg MDisplay MText MState MTemp MMeas MMenu MMain SpecDisplay PDisplay SpecSys SpecRun SpecUI PSys PSysMeas PSysMenu PSysDisp PSysBtn PSysStep PSysRun
  PSysCC PSysSafe MFine SpecFine SpecFineLive SpecFineUI PFine PFine2 PFine3 PFine4 PFine8 Trace PFineEx PSysUI PSysUI2 PSysUI3 PSysUI6 PSysUI7 PFineT3
  PFineU PFineU2 PFineU3 PFineU4 PFineU5 PFineU6 PFineU7 PFineU8.
Import ListNotations.
Open Scope Z_scope.
Ltac Zify.zify_post_hook ::= Z.div_mod_to_equations.

Section Main.
Variable C : conf.
Hypothesis HC : build_conf C.

Lemma ticks_nil : ticks_in [] = 0.
Proof. reflexivity. Qed.
(** One event *)
Lemma event_ok y u e o y' m b : sinv4 relaxed C y -> ui_rel C y u -> lag C u m b -> ev_ok C y e -> is_power e = false -> fwork C y e o = Some (y', []) ->
  since_menu m e (ticks_in o) <= 25 -> since_keys b e (ticks_in o) <= 10 ->
  exists u', fui_next C u (sensor_error y) e u' /\ u_time u' = u_time u + ticks_of e + ticks_in o /\ ui_rel C y' u' /\
    lag C u' (since_menu m e (ticks_in o)) (since_keys b e (ticks_in o)).
Proof.
  intros S4 R L O P E Hm Hb. pose proof S4 as [I Ro H _]. pose proof (ticks_nonneg o) as Ht. destruct (plain e) eqn:Pl.
  - destruct (fwork_plain C y e o y' Pl E) as (-> & Es). rewrite ticks_nil in *.
    assert (Rn : in_time u e -> ui_rel C y' (ui_next C u (sensor_error y) e)) by (intros Hi; eapply next_rel; eassumption).
    destruct e; try discriminate Pl; try discriminate P; cbn [since_menu since_keys ticks_of fui_next ui_next in_time] in *; specialize (Rn Logic.I).
    1:{ exists (ui_wait 1 u). split; [reflexivity|]. split; [uf; lia|]. split; [exact Rn|].
      pose proof (later_lag C u (ui_wait 1 u) m b L (later_wait 1 u ltac:(lia))) as X. revert X. uf. replace (u_time u + 1 - u_time u) with 1 by lia.
      intros X. replace (m + 1 + 0) with (m + 1) by lia. replace (b + 1 + 0) with (b + 1) by lia. apply X; lia. }
    all: exists u; rewrite !Z.add_0_r; auto.
  - destruct e; try discriminate Pl; cbn [since_menu since_keys ticks_of fui_next fwork] in *.
    + (* measurement *)
      assert (U : is_u16 (y_now y)) by (destruct (uv_now _ _ _ R) as (_ & ->); apply u16_range). destruct (measure_sl C y U o y' [] E) as (k & K1 & K2 & K3 & K4 & K5).
      exists (ui_wait k u). rewrite ticks_nil in K2. split; [apply later_wait; exact K1|]. split; [uf; lia|]. split; [eapply visc_rel; eassumption|].
      pose proof (later_lag C u (ui_wait k u) m b L (later_wait k u K1)) as X. revert X. uf. replace (u_time u + k - u_time u) with (ticks_in o) by lia. replace (m + 0 + ticks_in o) with (m + ticks_in o) in * by lia. replace (b + 0 + ticks_in o) with (b + ticks_in o) in * by lia.
      intros X. apply X; lia.
    + (* menu *)
      assert (Bd : bd (ticks_in o) (menu_work_f C y) (to C (ticks_in o) u (fui_poll C u (sensor_error y)))); [apply (poll_bd C HC); try assumption; try lia|destruct (Bd o y' [] (Z.le_refl _) E) as (k & K1 & K2 & u' & K3 & K4 & K5)].
      * intros d Hd. pose proof (lg_age _ _ _ _ L d Hd). pose proof (limit_pos _ _ Hd). pose proof (lg_m _ _ _ _ L). lia.
      * pose proof (lg_ramp _ _ _ _ L) as X. pose proof (lg_m _ _ _ _ L). destruct (u_ramp u) as [|up n|up n [|q]]; cbn [ramp_lag step_time] in *; lia || exact Logic.I.
      * exists u'. rewrite ticks_nil in K2. split; [exact K3|]. split; [lia|]. split; [exact K5|].
        pose proof (poll_lag C u (sensor_error y) u' m b (rel_allowed C y u I R) L K3) as X. replace (u_time u' - u_time u) with (ticks_in o) in X by lia. replace (b + 0 + ticks_in o) with (b + ticks_in o) in * by lia. apply X; lia.
    + (* keys *)
      assert (Bd : bd (ticks_in o) (buttons_work_f C y pinb) (to C (ticks_in o) u (fui_sample C u pinb))); [apply (sample_bd C HC); try assumption; try lia|destruct (Bd o y' [] (Z.le_refl _) E) as (k & K1 & K2 & u' & K3 & K4 & K5)].
      * pose proof (lg_keys _ _ _ _ L). pose proof (lg_b _ _ _ _ L). lia.
      * intros n Hn. destruct (lg_iron _ _ _ _ L n Hn) as (_ & _ & X). pose proof (lg_keys _ _ _ _ L). pose proof (lg_b _ _ _ _ L). lia.
      * exists u'. rewrite ticks_nil in K2. split; [exact K3|]. split; [lia|]. split; [exact K5|].
        pose proof (sample_lag C u pinb u' m b L K3) as X. replace (u_time u' - u_time u) with (ticks_in o) in X by lia. replace (m + 0 + ticks_in o) with (m + ticks_in o) in * by lia. apply X; lia.
Qed.
Lemma boot_rel pinb y : is_u8 pinb -> boot C (factory_ee C) pinb = Some y -> ui_rel C y (ui_start C pinb (x_cache (y_set y))).
Proof. intros Hp E. apply (ui_reach C y _ HC). apply ui_boot; assumption. Qed.
Lemma power_rel y v pinb y' : freach C y -> fnext C y (EPower v pinb) y' -> ui_rel C y' (ui_start C pinb (x_cache (y_set y'))).
Proof.
  intros R (O & o & E). rewrite fstep_plain in E by reflexivity. pose proof (freach_s4 C y HC R) as [I _ _ _]. cbn [step ev_ok] in *.
  destruct (set_power C HC relaxed (y_set y) v (i_set _ _ _ I) (proj1 O) (proj2 (proj2 O))) as (x & Ex & Sx & _).
  destruct (boot_s4 relaxed C _ x pinb bok_relaxed Ex Sx) as (y1 & E1 & _ & k & a & p & Ey & Ep).
  rewrite E in E1. apply Some_inj in E1. subst y1 p y'. apply start_rel. apply O.
Qed.
Lemma fine_ui_all h m b : fprompt C h m b -> freach C (last_state h) /\ exists u, explained C h u /\ ui_rel C (last_state h) u /\ lag C u m b.
Proof.
  induction 1 as [pinb y Hp E|y v pinb y' R N|h m b e o y' P (R & u & X & Rl & L) O Pw E Hm Hb]; cbn [last_state].
  - split; [exact (freach_boot C pinb y Hp E)|]. pose proof (boot_rel pinb y Hp E) as Rl. eexists. split; [constructor; apply rel_shows; exact Rl|]. split; [exact Rl|apply lag_start].
  - split; [exact (freach_step C y _ y' R N)|]. pose proof (power_rel y v pinb y' R N) as Rl. eexists. split; [constructor; apply rel_shows; exact Rl|]. split; [exact Rl|apply lag_start].
  - assert (N : fnext C (last_state h) e y') by (split; [exact O|exists o; eapply fwork_fstep; exact E]).
    split; [exact (freach_step C _ e y' R N)|].
    destruct (event_ok _ u e o y' m b (freach_s4 C _ HC R) Rl L O Pw E Hm Hb) as (u' & K1 & K2 & K3 & K4).
    exists u'. split; [|auto]. econstructor; [exact X|exact K1|exact K2|apply rel_shows; exact K3].
Qed.
Lemma fine_ui_explained h m b : fprompt C h m b -> exists u, explained C h u.
Proof. intros P. destruct (fine_ui_all h m b P) as (_ & u & X & _). exists u. exact X. Qed.
Lemma fine_ui_punctual h m b : fprompt C h m b -> exists u, explained C h u /\ punctual m b u /\ 0 <= m <= 25 /\ 0 <= b <= 10.
Proof.
  intros P. destruct (fine_ui_all h m b P) as (_ & u & X & _ & [L1 L2 L3 L4 L5 L6]). exists u. split; [exact X|]. split; [|split; assumption].
  split; [exact L3|]. split; [destruct (u_ramp u) as [|up n|up n [|k]]; cbn [ramp_lag step_time] in *; lia || exact Logic.I|]. split; [exact L5|].
  intros n Hn. destruct (L6 n Hn) as (_ & _ & X6). lia.
Qed.
End Main.

(** ** Without time inside an event, the automaton of SpecUI *)
Lemma later_now a b : later a b -> u_time b <= u_time a -> b = a.
Proof. intros (k & Hk & ->). uf. intros H. replace k with 0 by lia. apply wait0. Qed.
Lemma enter_time u x : u_time (ui_enter u x) = u_time u.
Proof. rewrite ui_enter_eq. reflexivity. Qed.
Lemma limit_now C u u' : fui_limit C u u' -> u_time u <= u_time u' /\ (u_time u' <= u_time u -> u' = ui_limit C u).
Proof.
  intros (u1 & L1 & H). pose proof (later_time _ _ L1). destruct (menu_limit (u_menu u1)) as [d|] eqn:Ed.
  2:{ subst u'. split; [lia|]. intros T. pose proof (later_now _ _ L1 T). subst u1. unfold ui_limit. rewrite Ed. reflexivity. }
  destruct (d <=? u_age u1) eqn:Ea.
  2:{ subst u'. split; [lia|]. intros T. pose proof (later_now _ _ L1 T). subst u1. unfold ui_limit. rewrite Ed, Ea. reflexivity. }
  destruct H as (u2 & L2 & ->). pose proof (later_time _ _ L2). change (u_time (set_u_ramp ?a RNone)) with (u_time a). rewrite enter_time. split; [lia|]. intros T.
  pose proof (later_now _ _ L2 ltac:(lia)). subst u2. pose proof (later_now _ _ L1 ltac:(lia)). subst u1. unfold ui_limit. rewrite Ed, Ea. reflexivity.
Qed.
Lemma ramp_now u u' : fui_ramp u u' -> u_time u <= u_time u' /\ (u_time u' <= u_time u -> u' = ui_ramp u).
Proof.
  intros (u1 & L1 & H). pose proof (later_time _ _ L1). destruct (u_ramp u1) as [|up n|up n k] eqn:Er.
  - subst u'. split; [lia|]. intros T. pose proof (later_now _ _ L1 T). subst u1. unfold ui_ramp. rewrite Er. reflexivity.
  - destruct (1000 <=? n) eqn:En.
    + destruct H as (u2 & L2 & ->). pose proof (later_time _ _ L2). uf. split; [lia|]. intros T. pose proof (later_now _ _ L2 ltac:(lia)). subst u2. pose proof (later_now _ _ L1 ltac:(lia)). subst u1.
      unfold ui_ramp. rewrite Er, En. reflexivity.
    + subst u'. split; [lia|]. intros T. pose proof (later_now _ _ L1 T). subst u1. unfold ui_ramp. rewrite Er, En. reflexivity.
  - destruct (step_time k <=? n) eqn:En.
    + destruct H as (u2 & L2 & ->). pose proof (later_time _ _ L2) as T2. revert T2. uf. intros T2. split; [destruct (shows_preset _); rewrite ?enter_time; lia|]. intros T.
      assert (T' : u_time u2 <= u_time u) by (destruct (shows_preset _); rewrite ?enter_time in T; exact T). pose proof (later_now _ _ L2 ltac:(uf; lia)). subst u2. pose proof (later_now _ _ L1 ltac:(lia)). subst u1.
      unfold ui_ramp. rewrite Er, En. reflexivity.
    + subst u'. split; [lia|]. intros T. pose proof (later_now _ _ L1 T). subst u1. unfold ui_ramp. rewrite Er, En. reflexivity.
Qed.
Lemma poll_now C u e u' : fui_poll C u e u' -> u_time u' <= u_time u -> u' = ui_poll C u e.
Proof.
  intros (u1 & u2 & u3 & H1 & L2 & H3 & L4) T. destruct (limit_now _ _ _ H1) as (T1 & E1). destruct (ramp_now _ _ H3) as (T3 & E3). pose proof (later_time _ _ L2). pose proof (later_time _ _ L4).
  destruct (error_frame u2 e) as (Te & _). pose proof (later_now _ _ L4 ltac:(lia)). subst u'. pose proof (later_now _ _ L2 ltac:(lia)). subst u2. rewrite E3 by lia. rewrite E1 by lia. reflexivity.
Qed.
Lemma key_now C u k u' : fui_key C u k u' -> u_time u <= u_time u' /\ (u_time u' <= u_time u -> u' = ui_key C u k).
Proof.
  intros H. split; [apply (key_step C u k u' H)|]. intros T. destruct k as (b & s). destruct (is_iron b) eqn:Eb.
  - destruct b; try discriminate Eb. destruct H as (u1 & L1 & L2). destruct (iron_key_frame C u1 s) as (T1 & _). pose proof (later_time _ _ L1). pose proof (later_time _ _ L2).
    pose proof (later_now _ _ L2 ltac:(lia)). subst u'. pose proof (later_now _ _ L1 ltac:(lia)). subst u1. reflexivity.
  - destruct (other_key C u b s u' Eb H) as (u1 & u2 & L1 & L2 & L3). destruct (restarted_frame u1) as (T1 & _). destruct (act_frame C u2 b s) as (T2 & _).
    pose proof (later_time _ _ L1). pose proof (later_time _ _ L2). pose proof (later_time _ _ L3).
    pose proof (later_now _ _ L3 ltac:(lia)). subst u'. pose proof (later_now _ _ L2 ltac:(lia)). subst u2. pose proof (later_now _ _ L1 ltac:(lia)). subst u1.
    destruct b; try discriminate Eb; destruct s; reflexivity.
Qed.
Lemma keys_now C l : forall u u', fui_keys C l u u' -> u_time u <= u_time u' /\ (u_time u' <= u_time u -> u' = fold_left (ui_key C) l u).
Proof.
  induction l as [|k l IH]; cbn [fui_keys fold_left]; intros u u' H.
  - split; [apply later_time; exact H|]. intros T. apply later_now; assumption.
  - destruct H as (u1 & H1 & H2). destruct (key_now C u k u1 H1) as (T1 & E1). destruct (IH u1 u' H2) as (T2 & E2). split; [lia|]. intros T. rewrite E2 by lia. rewrite E1 by lia. reflexivity.
Qed.
Lemma sample_now C u pins u' : fui_sample C u pins u' -> u_time u' <= u_time u -> u' = ui_sample C u pins.
Proof.
  intros (u1 & L1 & H) T. pose proof (later_time _ _ L1). destruct (sample_due u1) eqn:Ed.
  - destruct (keys_now C _ _ _ H) as (T2 & E2). revert T2 E2. uf. intros T2 E2. rewrite E2 by lia. pose proof (later_now _ _ L1 ltac:(lia)). subst u1. unfold ui_sample. rewrite Ed. reflexivity.
  - subst u'. pose proof (later_now _ _ L1 T). subst u1. unfold ui_sample. rewrite Ed. reflexivity.
Qed.
Lemma fine_ui_atomic C u err e u' : fui_next C u err e u' -> u_time u' = u_time u + ticks_of e -> u' = ui_next C u err e.
Proof.
  intros H T. destruct e; cbn [fui_next ui_next ticks_of] in *; try exact H.
  - apply later_now; [exact H|lia].
  - apply poll_now; [exact H|lia].
  - apply sample_now; [exact H|lia].
Qed.
Lemma limit_zero C u : fui_limit C u (ui_limit C u).
Proof.
  exists u. split; [apply later_refl|]. unfold ui_limit. destruct (menu_limit _); [|reflexivity]. destruct (_ <=? _); [|reflexivity]. exists u. split; [apply later_refl|reflexivity].
Qed.
Lemma ramp_zero u : fui_ramp u (ui_ramp u).
Proof.
  exists u. split; [apply later_refl|]. unfold ui_ramp. destruct (u_ramp u); [reflexivity| |].
  - destruct (_ <=? _); [|reflexivity]. exists u. split; [apply later_refl|reflexivity].
  - destruct (_ <=? _); [|reflexivity]. eexists. split; [apply later_refl|reflexivity].
Qed.
Lemma key_zero C u k : fui_key C u k (ui_key C u k).
Proof.
  destruct k as (b & s). destruct b; cbn [fui_key].
  1,2,3: exists u, (if restarts (u_menu u) then set_u_age u 0 else u); split; [apply later_refl|]; split; [apply later_refl|]; destruct s; apply later_refl.
  exists u. split; apply later_refl.
Qed.
Lemma keys_zero C l : forall u, fui_keys C l u (fold_left (ui_key C) l u).
Proof. induction l as [|k l IH]; cbn [fui_keys fold_left]; intros u; [apply later_refl|]. exists (ui_key C u k). split; [apply key_zero|apply IH]. Qed.
Lemma fine_ui_includes C u err e : fui_next C u err e (ui_next C u err e).
Proof.
  destruct e; cbn [fui_next ui_next]; try reflexivity.
  - apply later_refl.
  - exists (ui_limit C u), (ui_limit C u), (ui_poll C u err). split; [apply limit_zero|]. split; [apply later_refl|]. split; [apply ramp_zero|apply later_refl].
  - exists u. split; [apply later_refl|]. unfold ui_sample. destruct (sample_due u); [apply keys_zero|reflexivity].
Qed.

(** ** Concrete histories *)
Fixpoint hrun (C : conf) (h : hist) (m b : Z) (l : list (event * plan)) : option (hist * Z * Z) :=
  match l with
  | [] => Some (h, m, b)
  | (e, o) :: r =>
    if ev_okb C (last_state h) e && negb (is_power e) && (since_menu m e (ticks_in o) <=? 25) && (since_keys b e (ticks_in o) <=? 10) then
      match fwork C (last_state h) e o with
      | Some (y', []) => hrun C (HNext h e o y') (since_menu m e (ticks_in o)) (since_keys b e (ticks_in o)) r
      | _ => None
      end
    else None
  end.
Lemma hrun_ok C l : forall h m b h' m' b', fprompt C h m b -> hrun C h m b l = Some (h', m', b') -> fprompt C h' m' b'.
Proof.
  induction l as [|(e, o) l IH]; cbn [hrun]; intros h m b h' m' b' P E; [injection E as <- <- <-; exact P|].
  destruct (_ && _) eqn:G; [|discriminate E]. repeat (apply andb_true_iff in G; destruct G as (G & ?)). destruct (fwork C (last_state h) e o) as [(y', [|])|] eqn:W; try discriminate E.
  eapply IH; [|exact E]. apply fpm_step; [exact P|apply ev_okb_ok; exact G|destruct (is_power e); [discriminate|reflexivity]|exact W|lia|lia].
Qed.
Definition hstart (C : conf) (l : list (event * plan)) : option (hist * Z * Z) :=
  match boot C (factory_ee C) NO_KEYS with Some y => hrun C (HStart NO_KEYS y) 0 0 l | None => None end.
Lemma hstart_ok C l h m b : hstart C l = Some (h, m, b) -> fprompt C h m b.
Proof.
  unfold hstart. destruct (boot C (factory_ee C) NO_KEYS) as [y|] eqn:E; [|discriminate]. intros H. eapply hrun_ok; [|exact H]. apply fpm_boot; [unfold is_u8, NO_KEYS; lia|exact E].
Qed.
(** PLUS is pressed for 10 ms; timer interrupts happen inside both samples and inside the polls of the menu. *)
Definition tap : list (event * plan) :=
  [(EMenu, []); (EButtons PLUS_KEY, [[]; [ITick; IReady]]); (EMenu, [[ITick]])] ++ plainly (ticks 5) ++
  [(EButtons PLUS_KEY, [[ITick]])] ++ plainly (ticks 3) ++ [(EButtons NO_KEYS, [[ITick]; [ITick]]); (EMenu, [[ITick]])].
Lemma fine_ui_tap : exists h m b, fprompt conf_m88p h m b /\ n_state (y_menu (last_state h)) = MENU_SELPRESET /\ y_now (last_state h) = 14.
Proof.
  destruct (hstart conf_m88p tap) as [((h, m), b)|] eqn:E; [|exfalso; revert E; vm_compute; discriminate].
  exists h, m, b. split; [apply (hstart_ok conf_m88p tap); exact E|].
  assert (X : match hstart conf_m88p tap with Some (h, _, _) => mstate_eqb (n_state (y_menu (last_state h))) MENU_SELPRESET && (y_now (last_state h) =? 14) | None => false end = true) by (vm_compute; reflexivity).
  rewrite E in X. apply andb_true_iff in X. destruct X as (X1 & X2). split; [apply mstate_eqb_ok; exact X1|lia].
Qed.
