(** * The main loop on hardware of known speed: environment assumptions, progress, reaction times *)
From Coq Require Import ZArith List Bool Lia ZifyBool.
From Verif Require Import Base PBase MConf MUtil MFixpt MScale MRing MFilter MTimer MPid MPwm MTempMap MCurr MSens
  MSettings SpecSettings PSettings PSysSet
  MSseg MDisplay MText MState MTemp MMeas MMenu MMain SpecDisplay SpecSys SpecRun SpecUI SpecLive SpecLoop PSys PSysRun PSysSafe PSysWin PSysProp PLive PStore.
Import ListNotations.
Open Scope Z_scope.
Ltac Zify.zify_post_hook ::= Z.div_mod_to_equations.

(** ** Effect of an event on the settings storage *)
Lemma init_shape C ee x : settings_init C ee = Some x ->
  x_request x = false /\ x_eerie x = false /\ x_busy x = None /\ x_ee x = ee /\ x_offset x = 0.
Proof. unfold settings_init. intros H. inv1 H. cbv zeta in H. inv1 H. repeat split. Qed.
Lemma booted_set C x k a p : y_set (booted C x k a p) = x.
Proof. reflexivity. Qed.
Lemma boot_set C y pinb : build_conf C -> boot C (factory_ee C) pinb = Some y -> settings_init C (factory_ee C) = Some (y_set y).
Proof.
  intros HC E. destruct (set_factory C HC) as (x & Ex & Sx & _).
  destruct (boot_s4 strict C _ x pinb bok_strict Ex Sx) as (y1 & E1 & _ & k & a & p & Ey & _).
  rewrite E in E1. apply Some_inj in E1. subst y1. rewrite Ey, booted_set. exact Ex.
Qed.
Lemma power_set C y v pinb y' : build_conf C -> reach C y -> ev_ok C y (EPower v pinb) -> step C y (EPower v pinb) = Some y' ->
  settings_init C (ee_after_crash (y_set y) v) = Some (y_set y').
Proof.
  intros HC R O E. pose proof (reach_s4 C y HC R) as [I _ _ _]. cbn [step ev_ok] in *.
  destruct (set_power C HC relaxed (y_set y) v (i_set _ _ _ I) (proj1 O) (proj2 (proj2 O))) as (x & Ex & Sx & _).
  destruct (boot_s4 relaxed C _ x pinb bok_relaxed Ex Sx) as (y1 & E1 & _ & k & a & p & Ey & _).
  rewrite E in E1. apply Some_inj in E1. subst y1. rewrite Ey, booted_set. exact Ex.
Qed.

Definition opens (C : conf) (y : sys) (e : event) : bool :=
  match e with ESettings => x_request (y_set y) && timer_expired (y_now y) (x_timer (y_set y)) | _ => false end.
Inductive set_kind (C : conf) (y : sys) (e : event) (y' : sys) : Prop :=
  | sk_same : y_set y' = y_set y -> e <> EReady \/ waiting y = false -> opens C y e = false -> set_kind C y e y'
  | sk_store s : (e = EMenu \/ exists pins, e = EButtons pins) -> y_set y' = stored y s -> set_kind C y e y'
  | sk_start : e = ESettings -> opens C y e = true -> y_set y' = settings_work C (y_now y) (y_set y) -> set_kind C y e y'
  | sk_ready d : e = EReady -> waiting y = true -> ee_ready_isr C (y_set y) = Some (y_set y') ->
      zget (settings_bytes (x_cache (y_set y))) (x_offset (y_set y)) = Some d ->
      x_offset (y_set y') = u8 (x_offset (y_set y) + 1) -> x_eerie (y_set y') = (if 64 <=? u8 (x_offset (y_set y) + 1) then false else true) ->
      x_request (y_set y') = x_request (y_set y) -> x_timer (y_set y') = x_timer (y_set y) -> set_kind C y e y'
  | sk_done : e = EDone -> busy y = true -> y_set y' = ee_prog_done (y_set y) -> set_kind C y e y'.
Definition now_ok (y : sys) (e : event) (y' : sys) : Prop := y_now y' = u16 (y_now y + ticks_of e).
Lemma step_set C y e y' : is_u16 (y_now y) -> is_power e = false -> step C y e = Some y' -> now_ok y e y' /\ set_kind C y e y'.
Proof.
  intros U P E. assert (N0 : y_now y = u16 (y_now y + 0)) by (unfold u16, is_u16 in *; lia).
  unfold now_ok. destruct e; cbn [step ticks_of] in *; try discriminate P.
  - inv1 E. split; [reflexivity|]. apply sk_same; [reflexivity|left; discriminate|reflexivity].
  - inv1 E. unfold adc_isr. destruct (m_adc (y_meas y)); (split; [|apply sk_same; [|left; discriminate|reflexivity]]); cbv zeta; try (sy; exact N0); try reflexivity.
  - destruct (x_eerie (y_set y)) eqn:Ee.
    + destruct (x_busy (y_set y)) eqn:Eb.
      * inv1 E. split; [exact N0|]. apply sk_same; [reflexivity|right; unfold waiting, busy; rewrite Eb; apply andb_false_r|reflexivity].
      * inv1 E. inv1 E. split; [sy; exact N0|]. assert (Wt : waiting y = true) by (unfold waiting, busy; rewrite Eb, Ee; reflexivity).
        assert (Ei := H). unfold ee_ready_isr in H. cbv zeta in H. destruct (_ && _); [|discriminate H]. inv1 H. inv1 H.
        eapply sk_ready; [reflexivity|exact Wt|sy; exact Ei|eassumption|..]; sy; unfold SIZEOF_SETTINGS; destruct (ee_read_byte _ _ _ =? _), (64 <=? _); sx; try reflexivity; exact Ee.
    + inv1 E. split; [exact N0|]. apply sk_same; [reflexivity|right; unfold waiting; rewrite Ee; reflexivity|reflexivity].
  - inv1 E. split; [sy; exact N0|]. destruct (busy y) eqn:Eb.
    + apply sk_done; [reflexivity|exact Eb|reflexivity].
    + apply sk_same; [|left; discriminate|reflexivity]. sy. unfold busy in Eb. unfold ee_prog_done. destruct (x_busy (y_set y)); [discriminate Eb|reflexivity].
  - apply measure_same in E. destruct E as (A & B). split; [rewrite A; exact N0|]. apply sk_same; [exact B|left; discriminate|reflexivity].
  - apply menu_kept in E. destruct E as ((A & B) & _). split; [rewrite A; exact N0|]. destruct B as [B|(s & B)]; [apply sk_same; [exact B|left; discriminate|reflexivity]|].
    eapply sk_store; [left; reflexivity|exact B].
  - apply display_same in E. destruct E as (A & B). split; [rewrite A; exact N0|]. apply sk_same; [exact B|left; discriminate|reflexivity].
  - apply buttons_kept in E. destruct E as ((A & B) & _). split; [rewrite A; exact N0|]. destruct B as [B|(s & B)]; [apply sk_same; [exact B|left; discriminate|reflexivity]|].
    eapply sk_store; [right; eexists; reflexivity|exact B].
  - inv1 E. split; [sy; exact N0|]. destruct (opens C y ESettings) eqn:Eo.
    + apply sk_start; [reflexivity|exact Eo|reflexivity].
    + apply sk_same; [|left; discriminate|exact Eo]. unfold sys_settings_work. sy. cbn [opens] in Eo. unfold settings_work. destruct (x_request _); [|reflexivity]. cbn [andb] in Eo. rewrite Eo. reflexivity.
Qed.
Lemma u16_tick a b : u16 (u16 a + b) = u16 (a + b).
Proof. unfold u16. lia. Qed.

Section Loop.
Variables (S : speed) (lo hi : Z) (C : conf).
Hypothesis HC : build_conf C.
Hypothesis HS : speed_ok S.
Let HL : limits_ok (limits_of S). Proof. exact (proj1 HS). Qed.
Let P := h_prog S.
Let Q := h_irq S.

(** [s]: ms since the running store began, [a]: ms since the last request. *)
Record clocks (y : sys) (pg iq s a : Z) : Prop := mkClocks {
  c_pg : 0 <= pg <= P; c_iq : 0 <= iq <= Q; c_s : 0 <= s; c_a : 0 <= a;
  c_eerie : x_eerie (y_set y) = true -> 0 <= x_offset (y_set y) < 64;
  c_busyo : busy y = true -> 1 <= x_offset (y_set y) <= 64;
  c_busy : busy y = true -> s + P <= x_offset (y_set y) * (P + Q) + pg;
  c_wait : waiting y = true -> s <= x_offset (y_set y) * (P + Q) + iq;
  c_req : x_request (y_set y) = true -> x_timer (y_set y) = u16 (y_now y - a + 1000);
  c_later : x_request (y_set y) = true -> quiet (y_set y) = false -> a <= s
}.
Lemma quiet_cases y : quiet (y_set y) = negb (busy y) && negb (waiting y).
Proof. unfold quiet, waiting, busy. destruct (x_eerie _), (x_busy _); reflexivity. Qed.
Lemma quiet_off y : quiet (y_set y) = true -> x_eerie (y_set y) = false /\ busy y = false.
Proof. unfold quiet, busy. destruct (x_eerie _), (x_busy _); cbn; auto; discriminate. Qed.
Lemma mul_step o k n : 0 <= k -> o <= n -> o * k <= n * k.
Proof. intros. apply Z.mul_le_mono_nonneg_r; assumption. Qed.
Lemma clocks_store y pg iq s a : clocks y pg iq s a -> quiet (y_set y) = false -> s <= store_ms S.
Proof.
  intros K Hq. rewrite quiet_cases in Hq. destruct HS as (_ & P0 & Q0 & _). unfold store_ms. fold P Q in P0, Q0 |- *.
  pose proof (c_pg _ _ _ _ _ K). pose proof (c_iq _ _ _ _ _ K).
  destruct (busy y) eqn:Eb.
  - pose proof (c_busy _ _ _ _ _ K Eb). pose proof (c_busyo _ _ _ _ _ K Eb) as B. pose proof (mul_step (x_offset (y_set y)) (P + Q) 64 ltac:(lia) ltac:(lia)). lia.
  - destruct (waiting y) eqn:Ew; [|discriminate Hq]. pose proof (c_wait _ _ _ _ _ K Ew).
    assert (Ee : x_eerie (y_set y) = true) by (unfold waiting in Ew; apply andb_true_iff in Ew; apply Ew).
    pose proof (c_eerie _ _ _ _ _ K Ee). pose proof (mul_step (x_offset (y_set y)) (P + Q) 63 ltac:(lia) ltac:(lia)). lia.
Qed.
(** The request can only expire when the store before it has ended. *)
Lemma clocks_expired y pg iq s a : is_u16 (y_now y) -> clocks y pg iq s a -> ev_ok C y ESettings.
Proof.
  intros U K. cbn [ev_ok]. intros Rq Ex. destruct (quiet (y_set y)) eqn:Hq; [reflexivity|exfalso].
  pose proof (clocks_store _ _ _ _ _ K Hq). pose proof (c_later _ _ _ _ _ K Rq Hq). rewrite (c_req _ _ _ _ _ K Rq) in Ex.
  pose proof (expired_min (y_now y) a U (c_a _ _ _ _ _ K) Ex). destruct HS as (_ & _ & _ & X). lia.
Qed.
Lemma init_clocks y ee s a : settings_init C ee = Some (y_set y) -> 0 <= s -> 0 <= a -> clocks y 0 0 s a.
Proof.
  intros E Hs Ha. apply init_shape in E. destruct E as (A1 & A2 & A3 & _). destruct HS as (_ & P0 & Q0 & _). fold P Q in P0, Q0.
  unfold busy, waiting. constructor; unfold busy, waiting; rewrite ?A1, ?A2, ?A3; try lia; discriminate.
Qed.
Definition prog_after (y y' : sys) (e : event) (pg : Z) : Z := if busy y && busy y' then pg + ticks_of e else 0.
Definition irq_after (y y' : sys) (e : event) (iq : Z) : Z :=
  if waiting y && waiting y' && match e with EReady => false | _ => true end then iq + ticks_of e else 0.
Definition store_after (y y' : sys) (e : event) (s : Z) : Z := if quiet (y_set y) then 0 else s + ticks_of e.
Definition req_after (C : conf) (y y' : sys) (e : event) (a : Z) : Z :=
  match e with ETick => a + 1 | EMenu | EButtons _ => if x_timer (y_set y') =? u16 (y_now y' + 1000) then 0 else a | _ => a end.
Lemma clocks_step y pg iq s a e y' : is_u16 (y_now y) -> clocks y pg iq s a -> is_power e = false -> step C y e = Some y' ->
  (e = ETick -> (busy y = true -> pg < P) /\ (waiting y = true -> iq < Q)) ->
  clocks y' (prog_after y y' e pg) (irq_after y y' e iq) (store_after y y' e s) (req_after C y y' e a).
Proof.
  intros U K Pw E T. destruct (step_set C y e y' U Pw E) as (N & Kd). unfold now_ok in N.
  pose proof (clocks_expired _ _ _ _ _ U K) as X. cbn [ev_ok] in X. pose proof (clocks_store _ _ _ _ _ K) as St.
  destruct K as [K1 K2 K3 K4 K5 K5' K6 K7 K8 K9]. destruct HS as (_ & P0 & Q0 & _). fold P Q in P0, Q0.
  unfold prog_after, irq_after, store_after, req_after.
  assert (T0 : 0 <= ticks_of e <= 1) by (destruct e; cbn; lia).
  destruct Kd as [Es Ne Eo|s' He Es|He Eo Es|d He Wt Ei Ez Eof Eee Erq Etm|He Eb Es].
  - (* unchanged *)
    assert (Bs : busy y' = busy y) by (unfold busy; rewrite Es; reflexivity). assert (Ws : waiting y' = waiting y) by (unfold waiting; rewrite Bs, Es; reflexivity).
    rewrite Es in *. rewrite Bs, Ws, !andb_diag.
    assert (G1 : 0 <= (if busy y then pg + ticks_of e else 0) <= P) by (destruct (busy y) eqn:B; [|lia]; destruct e; cbn [ticks_of]; try lia; destruct (T eq_refl) as (T1 & _); specialize (T1 eq_refl); lia).
    assert (G2 : 0 <= (if waiting y && match e with EReady => false | _ => true end then iq + ticks_of e else 0) <= Q).
    { destruct (waiting y) eqn:B; [|cbn; lia]. destruct e; cbn [ticks_of andb]; try lia; destruct (T eq_refl) as (_ & T1); specialize (T1 eq_refl); lia. }
    assert (G3 : 0 <= req_after C y y' e a) by (unfold req_after; destruct e; try lia; destruct (_ =? _); lia).
    constructor; rewrite ?Bs, ?Ws, ?Es; try assumption.
    + destruct (quiet _); lia.
    + unfold req_after in G3. rewrite Es in G3. exact G3.
    + intros B. specialize (K6 B). rewrite quiet_cases, B in *. cbn [negb andb]. lia.
    + intros B. specialize (K7 B). rewrite quiet_cases, B in *. rewrite andb_false_r. destruct Ne as [Ne|Ne]; [|congruence]. destruct e; try congruence; cbn [andb]; lia.
    + intros Rq. specialize (K8 Rq). rewrite N. destruct e; cbn [ticks_of] in *; try (rewrite K8; f_equal; clear - U; unfold is_u16, u16 in *; lia).
      * rewrite K8. clear. unfold u16. lia.
      * destruct (_ =? _) eqn:Q1; [|rewrite K8; clear - U; unfold is_u16, u16 in *; lia]. apply Z.eqb_eq in Q1. rewrite Q1. f_equal. lia.
      * destruct (_ =? _) eqn:Q1; [|rewrite K8; clear - U; unfold is_u16, u16 in *; lia]. apply Z.eqb_eq in Q1. rewrite Q1. f_equal. lia.
    + intros Rq Hq. specialize (K9 Rq Hq). rewrite Hq. destruct e; cbn [ticks_of] in *; try lia; destruct (_ =? _); lia.
  - (* a request *)
    assert (Bs : busy y' = busy y) by (unfold busy; rewrite Es; reflexivity). assert (Ws : waiting y' = waiting y) by (unfold waiting; rewrite Bs, Es; reflexivity).
    assert (Et : ticks_of e = 0) by (destruct He as [->|(pins & ->)]; reflexivity). rewrite Et, Z.add_0_r in N. rewrite Et.
    assert (Er : e <> EReady) by (destruct He as [->|(pins & ->)]; discriminate).
    assert (En : y_now y' = y_now y) by (rewrite N; unfold u16, is_u16 in *; lia).
    assert (Ea : req_after C y y' e a = 0).
    { unfold req_after. rewrite Es, En. destruct He as [->|(pins & ->)]; cbn; rewrite Z.eqb_refl; reflexivity. }
    unfold req_after in Ea. rewrite Ea.
    assert (Q1 : quiet (y_set y') = quiet (y_set y)) by (rewrite Es; reflexivity).
    constructor; rewrite ?Bs, ?Ws, ?En; rewrite ?Es; cbn [stored set_x_timer set_x_request set_x_cache x_eerie x_offset x_request x_timer x_busy]; try assumption; try lia.
    + destruct (busy y); cbn [andb]; lia.
    + destruct (waiting y); cbn [andb]; destruct e; try congruence; lia.
    + destruct (quiet _); lia.
    + intros B. specialize (K6 B). rewrite quiet_cases, B. cbn. lia.
    + intros B. specialize (K7 B). rewrite quiet_cases, B, andb_false_r. cbn [andb]. destruct e; try congruence; lia.
    + intros _. f_equal. lia.
    + intros _ Hq. destruct (quiet (y_set y)); lia.
  - (* a store begins *)
    subst e. cbn [opens ticks_of] in *. apply andb_true_iff in Eo. destruct Eo as (Rq & Ex). specialize (X Rq Ex). destruct (quiet_off _ X) as (Q1 & Q2).
    assert (R' : x_request (y_set y') = false /\ x_offset (y_set y') = 0 /\ x_busy (y_set y') = x_busy (y_set y) /\ x_eerie (y_set y') = true).
    { rewrite Es. unfold settings_work. rewrite Rq, Ex. cbn [negb]. destruct (c_eering C); sx; auto. }
    destruct R' as (R1 & R2 & R3 & R4). assert (Bs : busy y' = false) by (unfold busy; rewrite R3; exact Q2). assert (Ws : waiting y' = true) by (unfold waiting; rewrite Bs, R4; reflexivity).
    rewrite Bs, Ws, X, andb_false_r. assert (W0 : waiting y = false) by (unfold waiting; rewrite Q1; reflexivity). rewrite W0. cbn [andb].
    constructor; rewrite ?Bs, ?Ws, ?R1, ?R2; try lia; try discriminate.
  - (* the interrupt *)
    subst e. assert (Bf : busy y = false) by (unfold waiting in Wt; apply andb_true_iff in Wt; destruct (busy y); [discriminate (proj2 Wt)|reflexivity]).
    assert (Ee : x_eerie (y_set y) = true) by (unfold waiting in Wt; apply andb_true_iff in Wt; apply Wt). specialize (K5 Ee). specialize (K7 Wt).
    rewrite andb_false_r. rewrite Bf. cbn [andb ticks_of]. assert (Eu : u8 (x_offset (y_set y) + 1) = x_offset (y_set y) + 1) by (apply u8_id; lia). rewrite Eu in *.
    assert (Qf : quiet (y_set y) = false) by (rewrite quiet_cases, Wt, andb_false_r; reflexivity). rewrite Qf. rewrite Z.add_0_r.
    assert (En : y_now y' = y_now y) by (rewrite N; cbn [ticks_of]; unfold u16, is_u16 in *; lia).
    constructor; rewrite ?Eof, ?Erq, ?Etm, ?Eee, ?En; try assumption; try lia.
    destruct (64 <=? _) eqn:F; [discriminate|lia].
  - (* a byte is programmed *)
    subst e. cbn [ticks_of] in *. assert (Qf : quiet (y_set y) = false) by (rewrite quiet_cases, Eb; reflexivity). rewrite Qf, Z.add_0_r.
    assert (En : y_now y' = y_now y) by (rewrite N; unfold u16, is_u16 in *; lia).
    assert (Bs : busy y' = false) by (unfold busy, ee_prog_done in *; rewrite Es; destruct (x_busy (y_set y)) as [(?, ?)|] eqn:B; [reflexivity|rewrite B; reflexivity]).
    assert (W0 : waiting y = false) by (unfold waiting; rewrite Eb; apply andb_false_r). rewrite W0, Bs, andb_false_r. cbn [andb].
    assert (F : x_request (y_set y') = x_request (y_set y) /\ x_timer (y_set y') = x_timer (y_set y) /\ x_offset (y_set y') = x_offset (y_set y) /\ x_eerie (y_set y') = x_eerie (y_set y)).
    { rewrite Es. unfold ee_prog_done. destruct (x_busy (y_set y)) as [(?, ?)|]; auto. }
    destruct F as (F1 & F2 & F3 & F4). specialize (K6 Eb).
    constructor; rewrite ?F1, ?F2, ?F3, ?F4, ?En, ?Bs; try assumption; try lia; try discriminate; auto.
Qed.

(** ** The invariant: environment assumptions and progress *)
Record linv (t : station) (s a : Z) : Prop := mkLinv {
  li_core : core (limits_of S) C (st_y t) (st_w t);
  li_conv : 0 < v_conv (st_w t) -> v_sample (st_w t) = 0;
  li_clocks : clocks (st_y t) (st_prog t) (st_irq t) s a
}.
Lemma reach_u16 y : reach C y -> is_u16 (y_now y).
Proof. intros R. apply (i_now _ _ _ (s4_inv _ _ _ (reach_s4 C y HC R))). Qed.
Lemma linv_ev t s a e : linv t s a -> may S C t e -> ev_ok C (st_y t) e /\ (is_power e = false -> on_time (limits_of S) C (st_y t) (st_w t) e).
Proof.
  intros I (D & M). pose proof (reach_u16 _ (k_reach _ _ _ _ (li_core _ _ _ I))) as U.
  destruct e; cbn [may is_power ev_ok on_time] in *; try (split; [exact Logic.I|intros _; exact Logic.I]).
  - split; [exact Logic.I|]. intros _. apply M.
  - destruct (core_ev _ C HL _ _ (EAdc raw) (li_core _ _ _ I) M) as (O & _). split; [exact O|]. intros _. exact M.
  - split; [exact M|intros _; exact M].
  - pose proof (clocks_expired _ _ _ _ _ U (li_clocks _ _ _ I)) as X. split; [exact X|intros _; exact X].
  - destruct M as (M1 & M2 & M3). split; [|discriminate]. split; [exact M1|]. split; [exact M2|]. intros E. specialize (M3 E). unfold busy in M3. destruct (x_busy _); [discriminate M3|reflexivity].
Qed.
Lemma linv_start y pinb ee : reach C y -> fresh C y -> window_age C y 0 -> settings_init C ee = Some (y_set y) -> linv (start C y pinb) 0 0.
Proof.
  intros R F W E. constructor; cbn [start st_y st_w st_prog st_irq].
  - apply core_boot; assumption || exact HL.
  - cbn. lia.
  - eapply init_clocks; [exact E|lia|lia].
Qed.
Lemma conv_step y w e y' : (0 < v_conv w -> v_sample w = 0) -> 0 < v_conv (watch_step lo hi y w e y') -> v_sample (watch_step lo hi y w e y') = 0.
Proof.
  intros K. destruct e; cbn [watch_step watch_state v_conv v_sample watch_tick]; try exact K.
  - lia.
  - unfold watch_adc. destruct (m_adc (y_meas y)); [reflexivity|exact K].
  - unfold watch_poll. destruct (m_avail (y_meas y)); [destruct (m_chan (y_meas y) =? 1); reflexivity|exact K].
Qed.
Lemma linv_step t s a e y' : linv t s a -> may S C t e -> is_power e = false -> step C (st_y t) e = Some y' ->
  linv (advance lo hi C t e y') (store_after (st_y t) y' e s) (req_after C (st_y t) y' e a).
Proof.
  intros I M Pw E. destruct (linv_ev _ _ _ _ I M) as (O & Ot). specialize (Ot Pw). pose proof (k_reach _ _ _ _ (li_core _ _ _ I)) as R.
  pose proof (core_step _ lo hi C HC HL _ _ e y' (li_core _ _ _ I) Ot E) as K.
  assert (Cl : clocks y' (prog_after (st_y t) y' e (st_prog t)) (irq_after (st_y t) y' e (st_irq t)) (store_after (st_y t) y' e s) (req_after C (st_y t) y' e a)).
  { apply clocks_step; [apply reach_u16; exact R|apply (li_clocks _ _ _ I)|exact Pw|exact E|]. intros ->. destruct M as (_ & _ & M). exact M. }
  assert (Ad : advance lo hi C t e y' = mkStation y' (place_after (st_at t) e) (watch_step lo hi (st_y t) (st_w t) e y') (ui_next C (st_u t) (sensor_error (st_y t)) e)
    (prog_after (st_y t) y' e (st_prog t)) (irq_after (st_y t) y' e (st_irq t)) (match e with EButtons pins => if adjust_keys pins then 0 else st_hands t | _ => st_hands t + ticks_of e end))
    by (destruct e; try reflexivity; discriminate Pw).
  rewrite Ad. constructor; cbn [st_y st_w st_prog st_irq].
  - unfold watch_step. apply state_core. exact K.
  - apply conv_step. apply (li_conv _ _ _ I).
  - exact Cl.
Qed.
Lemma start_linv ok t e y' s a : loop S lo hi C ok t -> linv t s a -> may S C t e -> is_power e = true -> step C (st_y t) e = Some y' ->
  linv (advance lo hi C t e y') 0 0.
Proof.
  intros _ I M Pw E. destruct (linv_ev _ _ _ _ I M) as (O & _). pose proof (k_reach _ _ _ _ (li_core _ _ _ I)) as R. destruct e; try discriminate Pw.
  assert (R' : reach C y') by (econstructor; eassumption). cbn [advance]. eapply linv_start.
  - exact R'.
  - exact (power_fresh C _ v pinb y' HC R O E).
  - exact (wa_power C _ v pinb y' R O E).
  - exact (power_set C _ v pinb y' HC R O E).
Qed.
Lemma loop_linv ok t : loop S lo hi C ok t -> exists s a, linv t s a.
Proof.
  intros D. induction D as [pinb y Hp E|t e y' D (s & a & I) M E Ok].
  - exists 0, 0. eapply linv_start; [econstructor; eassumption|eapply boot_fresh; eassumption|econstructor; eassumption|eapply boot_set; eassumption].
  - destruct (is_power e) eqn:Pw.
    + exists 0, 0. eapply start_linv; eassumption.
    + eexists _, _. apply linv_step; eassumption.
Qed.

(** ** C72 *)
Lemma loop_environment ok t : loop S lo hi C ok t -> reach C (st_y t) /\ (forall e, may S C t e -> ev_ok C (st_y t) e).
Proof.
  intros D. destruct (loop_linv ok t D) as (s & a & I). split; [apply (k_reach _ _ _ _ (li_core _ _ _ I))|].
  intros e M. apply (linv_ev _ _ _ _ I M).
Qed.
Lemma loop_defined ok t e : loop S lo hi C ok t -> may S C t e -> exists y', step C (st_y t) e = Some y'.
Proof.
  intros D M. destruct (loop_environment ok t D) as (R & O). destruct (step_ok relaxed C (st_y t) e HC bok_relaxed (reach_s4 C _ HC R) (O e M)) as (y' & E & _). eauto.
Qed.
Lemma loop_served t : loop S lo hi C adj_99 t -> served (limits_of S) lo hi C (st_y t) (st_w t).
Proof.
  intros D. induction D as [pinb y Hp E|t e y' D IH M E Ok].
  - cbn [start st_y st_w]. econstructor; eassumption.
  - destruct (loop_linv _ t D) as (s & a & I). destruct (linv_ev _ _ _ _ I M) as (O & Ot). pose proof (k_reach _ _ _ _ (li_core _ _ _ I)) as R.
    destruct (is_power e) eqn:Pw.
    + destruct e; try discriminate Pw. cbn [advance start st_y st_w]. eapply srv_power; try eassumption. apply Ok. reflexivity.
    + specialize (Ot eq_refl). assert (Ad : st_y (advance lo hi C t e y') = y' /\ st_w (advance lo hi C t e y') = watch_step lo hi (st_y t) (st_w t) e y')
        by (destruct e; try (split; reflexivity); discriminate Pw).
      destruct Ad as (-> & ->). eapply srv_step; eassumption.
Qed.
End Loop.
