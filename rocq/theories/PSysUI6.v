(** * Properties of keys, menus and ramps, part 4 *)
From Coq Require Import ZArith List Bool Lia ZifyBool.
From Verif Require Import Base PBase MConf MUtil MFixpt MScale MRing MFilter MTimer MPid MPwm MTempMap MCurr MSens
  SpecNum SpecPid SpecSmall PNum PSmall PScale PPid SpecCurr PCurr MSettings SpecSettings PSettings PSysSet
  MSseg MDisplay MText MState MTemp MMeas MMenu MMain SpecDisplay SpecSys SpecRun SpecUI PSys PSysMeas PSysMenu PSysDisp PSysBtn
  PSysStep PSysRun PSysCC PSysSafe PSysUI PSysUI2 PSysUI3 PSysUI4 PSysUI5.
Import ListNotations.
Open Scope Z_scope.
Ltac Zify.zify_post_hook ::= Z.div_mod_to_equations.

(** ** A key held down *)
Definition adj_key (up : bool) : button := if up then BUTTON_PLUS else BUTTON_MINUS.
Lemma adj_iron up : is_iron (adj_key up) = false.
Proof. destruct up; reflexivity. Qed.
Lemma kp_kh C k y0 n m y u : key_prompt C k y0 n m y u -> key_held C k y0 n y u.
Proof. induction 1; [eapply kh_press; eassumption|eapply kh_on; eassumption]. Qed.
(** The state of the automaton while the key is held. *)
Definition hold_menu (s0 : mstate) (j : nat) : mstate := if shows_preset s0 && (0 <? Z.of_nat j) then MENU_CHGPRESET else s0.
Definition waiting (y0 : sys) (up : bool) (n : Z) (u : ui) : Prop :=
  waits (n_state (y_menu y0)) = true /\ u_ramp u = RWait up n /\ u_menu u = n_state (y_menu y0) /\ same_settings (u_cfg u) (x_cache (y_set y0)).
Definition stepping (y0 : sys) (up : bool) (n n1 : Z) (j : nat) (u : ui) : Prop :=
  u_ramp u = RRun up (n - n1) j /\ (if waits (n_state (y_menu y0)) then 1000 <= n1 else n1 = 0) /\ n1 <= n /\
  same_settings (u_cfg u) (iter_step j (n_state (y_menu y0)) (t_boost (y_ct y0)) up (x_cache (y_set y0))) /\
  (forall i, j = S i -> step_time i <= n - n1) /\ u_menu u = hold_menu (n_state (y_menu y0)) j.
Definition held_state (C : conf) (y0 : sys) (up : bool) (n : Z) (y : sys) (u : ui) : Prop :=
  ui_run C y u /\ 0 <= n /\ (forall b, b <> adj_key up -> down (u_pins u) b = false) /\ down (u_pins u) (adj_key up) = true /\ u_boost u = t_boost (y_ct y0) /\
  (waiting y0 up n u \/ exists n1 j, stepping y0 up n n1 j u).
Lemma key_ramp_adj up : key_ramp (adj_key up) BSTATE_POSEDGE = Some up.
Proof. destruct up; reflexivity. Qed.
Lemma press_state C y u pins y' up : build_conf C -> sampled C y u pins y' -> only_key (adj_key up) (u_pins u) pins -> down (u_pins u) (adj_key up) = false ->
  down pins (adj_key up) = true -> has_item (n_state (y_menu y)) = true -> held_state C y up 0 y' (ui_sample C u pins).
Proof.
  intros HC S Ho D1 D2 Hi. pose proof (sampled_run C y u pins y' S) as R'. split; [exact R'|]. split; [lia|]. destruct S as (R & Hp & Ht & Hd & E).
  destruct (sample_pins C u pins Hd) as (-> & _). split; [intros b Hb; apply (Ho b Hb)|]. split; [exact D2|].
  destruct (run_rel C y u HC R) as (_ & _ & _ & Rl). rewrite (only_sample C (adj_key up) u pins Hd Ho). unfold key_event. rewrite D1, D2. unfold kfold. cbn [map fold_left].
  rewrite !key_eq by apply adj_iron. set (v := set_u_sample u (u_count u + 1) pins).
  pose proof (uv_menu _ _ _ Rl) as M. pose proof (uv_cfg _ _ _ Rl) as Q. pose proof (uv_boost _ _ _ Rl) as B.
  unfold waiting, stepping. rewrite held_ramp.
  set (w := key_state C v (adj_key up) BSTATE_POSEDGE). set (w' := key_state C w (adj_key up) BSTATE_PRESSED).
  assert (W1 : u_menu w' = u_menu u) by reflexivity.
  assert (W2 : u_cfg w' = u_cfg u) by (unfold w', w, key_state; uf; destruct up; reflexivity).
  assert (W3 : u_boost w' = u_boost u) by (unfold w', w, key_state; uf; cbn [is_neg]; rewrite !eqb_reflx; reflexivity).
  assert (W4 : u_ramp w = match rampable (u_menu u) with Some (pre, _) => if pre then RWait up 0 else RRun up 0 0 | None => u_ramp u end).
  { unfold w, key_state. uf. cbn [is_neg]. rewrite key_ramp_adj. reflexivity. }
  rewrite W1, W2, W3, W4, M. split; [congruence|]. rewrite M in Hi. apply same_sym in Q.
  assert (K : waits (u_menu u) = true /\ rampable (u_menu u) <> None /\ (forall a b, rampable (u_menu u) = Some (a, b) -> a = true) \/
              waits (u_menu u) = false /\ rampable (u_menu u) <> None /\ (forall a b, rampable (u_menu u) = Some (a, b) -> a = false)).
  { destruct (u_menu u); try discriminate Hi; [left|left|right..]; (split; [reflexivity|]); (split; [discriminate|]); intros a b X; injection X as <- <-; reflexivity. }
  destruct (rampable (u_menu u)) as [(pre, h)|]; [|destruct K as [(_ & K & _)|(_ & K & _)]; congruence].
  destruct K as [(K & _ & P)|(K & _ & P)]; rewrite (P pre h eq_refl).
  - left. auto.
  - right. exists 0, 0%nat. rewrite K. cbn [iter_step Nat.iter]. repeat (split; [reflexivity || exact Q || lia|]). unfold hold_menu. rewrite andb_false_r. reflexivity.
Qed.
Lemma item_hold s0 j m up x : item_step (hold_menu s0 j) m up x = item_step s0 m up x.
Proof. unfold hold_menu. destruct (shows_preset s0 && _) eqn:E; [|reflexivity]. apply andb_prop in E. destruct E as (E & _). destruct s0; try discriminate E; reflexivity. Qed.
Lemma hold_step s0 j : (if shows_preset (hold_menu s0 j) then MENU_CHGPRESET else hold_menu s0 j) = hold_menu s0 (S j).
Proof.
  unfold hold_menu. replace (0 <? Z.of_nat (S j)) with true by lia. rewrite andb_true_r. destruct (shows_preset s0) eqn:E; cbn [andb]; [|rewrite E; reflexivity].
  destruct (0 <? Z.of_nat j); [reflexivity|rewrite E; reflexivity].
Qed.
Lemma hold_preset_not_adj s0 j : shows_preset (hold_menu s0 j) = true -> adjusting (hold_menu s0 j) = false.
Proof. destruct (hold_menu s0 j); intros X; try discriminate X; reflexivity. Qed.
Lemma held_same C u pins k : is_iron k = false -> down (u_pins u) k = true -> down pins k = true -> only_key k (u_pins u) pins ->
  let u' := ui_sample C u pins in
  u_ramp u' = u_ramp u /\ u_menu u' = u_menu u /\ u_cfg u' = u_cfg u /\ u_boost u' = u_boost u /\
  (sample_due u = true -> u_pins u' = pins) /\ (sample_due u = false -> u_pins u' = u_pins u).
Proof.
  intros Hk D1 D2 Ho. cbv zeta. destruct (sample_due u) eqn:Hd.
  - rewrite (proj1 (sample_pins C u pins Hd)). rewrite (only_sample C k u pins Hd Ho). unfold key_event. rewrite D1, D2. unfold kfold. cbn [map fold_left]. rewrite key_eq by exact Hk. rewrite held_ramp.
    split; [reflexivity|]. split; [reflexivity|]. split; [unfold key_state; uf; destruct k; reflexivity|]. split; [unfold key_state; uf; cbn [is_neg]; rewrite eqb_reflx; reflexivity|].
    split; [reflexivity|discriminate].
  - unfold ui_sample. rewrite Hd. repeat split. discriminate.
Qed.
Lemma poll_step C y0 up n u e : (forall d, menu_limit (u_menu u) = Some d -> u_age u < d) -> u_err u = e -> u_boost u = t_boost (y_ct y0) ->
  (waiting y0 up n u -> if 1000 <=? n then stepping y0 up n n 0 (ui_poll C u e) else waiting y0 up n (ui_poll C u e)) /\
  (forall n1 j, stepping y0 up n n1 j u -> stepping y0 up n n1 (if step_time j <=? n - n1 then S j else j) (ui_poll C u e)).
Proof.
  intros Ha He Hb. rewrite (poll_eq C u e Ha He). split.
  - intros (W & Er & Em & Ec). unfold ui_ramp. rewrite Er. destruct (1000 <=? n) eqn:En.
    + unfold stepping. cbn [set_u_ramp]. uf. rewrite W, Z.sub_diag. split; [reflexivity|]. split; [lia|]. split; [lia|]. split; [exact Ec|]. split; [discriminate|].
      unfold hold_menu. rewrite andb_false_r. exact Em.
    + repeat split; assumption.
  - intros n1 j (Er & W & Hn & Ec & Hj & Em). destruct (ramp_cases u) as [(up' & n' & k & P1 & P2 & P3 & P4 & P5)|(P1 & P2 & _ & P4 & P5)].
    + rewrite Er in P1. injection P1 as <- <- <-. replace (step_time j <=? n - n1) with true by lia. unfold stepping. rewrite P3, P4, P5, Em, Hb, hold_step, item_hold.
      split; [reflexivity|]. split; [exact W|]. split; [exact Hn|]. split; [|split; [intros i X; injection X as <-; exact P2|reflexivity]].
      unfold iter_step. cbn [Nat.iter nat_rect]. apply item_cong. exact Ec.
    + specialize (P5 up (n - n1) j Er). replace (step_time j <=? n - n1) with false by lia. unfold stepping. rewrite P1, P2, P4, Er. repeat split; assumption.
Qed.
Lemma tick_step y0 up n u : (waiting y0 up n u -> waiting y0 up (n + 1) (ui_tick u)) /\ (forall n1 j, stepping y0 up n n1 j u -> stepping y0 up (n + 1) n1 j (ui_tick u)).
Proof.
  unfold waiting, stepping, ui_tick. uf. split.
  - intros (W & -> & Em & Ec). auto.
  - intros n1 j (-> & W & Hn & Ec & Hj & Em). replace (n - n1 + 1) with (n + 1 - n1) by ring. split; [reflexivity|]. split; [exact W|]. split; [lia|]. split; [exact Ec|]. split; [|exact Em].
    intros i X. specialize (Hj i X). lia.
Qed.
(** One event while the key is held. *)
Lemma held_next C y0 up n y u e y' : build_conf C -> held_state C y0 up n y u -> ev_ok C y e -> in_time u e -> is_power e = false ->
  (forall pins, e = EButtons pins -> only_key (adj_key up) pins pins /\ down pins (adj_key up) = true) ->
  (e = EMenu -> sensor_error y = n_err (y_menu y) /\ forall d, menu_limit (n_state (y_menu y)) = Some d -> u_age u < d) -> step C y e = Some y' ->
  let u' := ui_next C u (sensor_error y) e in
  ui_run C y' u' /\ (forall b, b <> adj_key up -> down (u_pins u') b = false) /\ down (u_pins u') (adj_key up) = true /\ u_boost u' = t_boost (y_ct y0) /\
  match e with
  | EMenu => (waiting y0 up n u -> if 1000 <=? n then stepping y0 up n n 0 u' else waiting y0 up n u') /\
             (forall n1 j, stepping y0 up n n1 j u -> stepping y0 up n n1 (if step_time j <=? n - n1 then S j else j) u')
  | _ => (waiting y0 up n u -> waiting y0 up (n + ticks_of e) u') /\ (forall n1 j, stepping y0 up n n1 j u -> stepping y0 up (n + ticks_of e) n1 j u')
  end.
Proof.
  intros HC (R & Hn & Ho & Dk & Hb & _) O Ht P Hk Hm E. cbv zeta. split; [apply (next_run C y u e y'); assumption|].
  destruct (run_rel C y u HC R) as (_ & I & _ & Rl). destruct e; cbn [ui_next ticks_of]; rewrite ?Z.add_0_r;
    try (split; [exact Ho|]; split; [exact Dk|]; split; [exact Hb|]; split; [intros X; exact X|intros a b X; exact X]).
  - split; [exact Ho|]. split; [exact Dk|]. split; [exact Hb|]. apply tick_step.
  - destruct (Hm eq_refl) as (He & Ha). rewrite (uv_err _ _ _ Rl) in He. rewrite (uv_menu _ _ _ Rl) in Ha.
    destruct (poll_clock C u (sensor_error y)) as (_ & _ & -> & _). split; [exact Ho|]. split; [exact Dk|].
    pose proof (poll_trip C u (sensor_error y) (rel_allowed C y u I Rl)) as T. split; [injection T as _ _ ->; exact Hb|]. apply poll_step; auto.
  - destruct (Hk _ eq_refl) as (Hk1 & Hk2).
    destruct (held_same C u pinb (adj_key up) (adj_iron up) Dk Hk2) as (S1 & S2 & S3 & S4 & S5 & S6); [intros b X; split; [apply Ho; exact X|apply (Hk1 b X)]|].
    assert (X : (forall b, b <> adj_key up -> down (u_pins (ui_sample C u pinb)) b = false) /\ down (u_pins (ui_sample C u pinb)) (adj_key up) = true).
    { destruct (sample_due u) eqn:Hd; [rewrite (S5 eq_refl)|rewrite (S6 eq_refl)]; split; auto. intros b X. apply (Hk1 b X). }
    split; [apply X|]. split; [apply X|]. split; [congruence|]. unfold waiting, stepping. rewrite S1, S2, S3. split; [intros Z; exact Z|intros a b Z; exact Z].
Qed.
Lemma held_ok C y0 up n y u : build_conf C -> has_item (n_state (y_menu y0)) = true -> key_held C (adj_key up) y0 n y u -> held_state C y0 up n y u.
Proof.
  intros HC Hi H. induction H as [y u pins y' S Ho D1 D2|y0 n y u e y' H IH O Ht P Hk Hm E].
  - eapply press_state; eassumption.
  - specialize (IH Hi). destruct (held_next C y0 up n y u e y' HC IH O Ht P Hk Hm E) as (N1 & N2 & N3 & N4 & N5). destruct IH as (_ & Hn & _ & _ & _ & D).
    split; [exact N1|]. split; [destruct e; cbn [ticks_of]; lia|]. split; [exact N2|]. split; [exact N3|]. split; [exact N4|].
    assert (X : forall e', match e' with EMenu => False | _ => True end -> e = e' -> waiting y0 up (n + ticks_of e) (ui_next C u (sensor_error y) e) \/ (exists n1 j, stepping y0 up (n + ticks_of e) n1 j (ui_next C u (sensor_error y) e))).
    { intros e' X <-. destruct e; try contradiction X; destruct N5 as (N5 & N6); (destruct D as [D|(n1 & j & D)]; [left; apply N5; exact D|right; exists n1, j; apply N6; exact D]). }
    destruct e; try (eapply X; [|reflexivity]; exact Logic.I). cbn [ticks_of]. rewrite Z.add_0_r. destruct N5 as (N5 & N6). destruct D as [D|(n1 & j & D)].
    + specialize (N5 D). destruct (1000 <=? n); [right; exists n, 0%nat; exact N5|left; exact N5].
    + right. exists n1, (if step_time j <=? n - n1 then S j else j). apply N6. exact D.
Qed.
(** C39, C42, C43: what the user sees *)
Lemma hold_shows C y0 up n y u : build_conf C -> has_item (n_state (y_menu y0)) = true -> key_held C (adj_key up) y0 n y u ->
  let s0 := n_state (y_menu y0) in
  (waits s0 = true /\ ramp_phase (n_ramp (y_menu y)) = Some (true, up) /\ n_state (y_menu y) = s0 /\ same_settings (x_cache (y_set y)) (x_cache (y_set y0))) \/
  exists n1 j, (if waits s0 then 1000 <= n1 else n1 = 0) /\ n1 <= n /\ ramp_phase (n_ramp (y_menu y)) = Some (false, up) /\
    (forall i, j = S i -> step_time i <= n - n1) /\
    same_settings (x_cache (y_set y)) (iter_step j s0 (t_boost (y_ct y0)) up (x_cache (y_set y0))) /\
    n_state (y_menu y) = if shows_preset s0 && (0 <? Z.of_nat j) then MENU_CHGPRESET else s0.
Proof.
  intros HC Hi H. cbv zeta. destruct (held_ok C y0 up n y u HC Hi H) as (R & Hn & _ & _ & _ & D). destruct (ui_refines C y u HC R) as (S1 & _ & _ & _ & _ & S6 & S7). rewrite S1, S7.
  destruct D as [(W & Er & Em & Ec)|(n1 & j & Er & W & Hn1 & Ec & Hj & Em)]; rewrite Er, Em.
  - left. split; [exact W|]. split; [reflexivity|]. split; [reflexivity|]. eapply same_trans; [exact S6|exact Ec].
  - right. exists n1, j. split; [exact W|]. split; [exact Hn1|]. split; [reflexivity|]. split; [exact Hj|]. split; [eapply same_trans; [exact S6|exact Ec]|]. reflexivity.
Qed.
(** Before one second nothing happens in the menus that wait. *)
Lemma hold_short C y0 up n y u : build_conf C -> waits (n_state (y_menu y0)) = true -> key_held C (adj_key up) y0 n y u -> n < 1000 ->
  n_state (y_menu y) = n_state (y_menu y0) /\ same_settings (x_cache (y_set y)) (x_cache (y_set y0)).
Proof.
  intros HC W H Hn. assert (Hi : has_item (n_state (y_menu y0)) = true) by (destruct (n_state (y_menu y0)); try discriminate W; reflexivity).
  destruct (hold_shows C y0 up n y u HC Hi H) as [(_ & _ & X & Y)|(n1 & j & X & Y & _)]; [auto|]. rewrite W in X. lia.
Qed.
Lemma step_gap j : step_time j + 25 <= step_time (S j).
Proof. destruct j as [|[|[|[|j]]]]; cbn [step_time]; lia. Qed.
(** Two polls after one second lead to the change of the preset. *)
Lemma step0 j : (if step_time j <=? 0 then S j else j) <> 0%nat.
Proof. destruct j; [|destruct (_ <=? _)]; discriminate. Qed.
Lemma hold_long C y0 up n y u y1 y2 : build_conf C -> waits (n_state (y_menu y0)) = true -> key_held C (adj_key up) y0 n y u -> 1000 <= n ->
  sensor_error y = n_err (y_menu y) -> sensor_error y1 = n_err (y_menu y1) -> u_age u < 3000 -> in_time u EMenu ->
  step C y EMenu = Some y1 -> step C y1 EMenu = Some y2 -> n_state (y_menu y2) = MENU_CHGPRESET.
Proof.
  intros HC W H Hn He He1 Ha Ht E1 E2. assert (Hi : has_item (n_state (y_menu y0)) = true) by (destruct (n_state (y_menu y0)); try discriminate W; reflexivity).
  assert (Sp : shows_preset (n_state (y_menu y0)) = true) by (destruct (n_state (y_menu y0)); try discriminate W; reflexivity).
  pose proof (held_ok C y0 up n y u HC Hi H) as Hs. pose proof Hs as (R & _ & _ & _ & Hb & D). destruct (run_rel C y u HC R) as (_ & I & _ & Rl).
  pose proof (next_run C y u EMenu y1 R Logic.I Ht eq_refl E1) as R1. cbn [ui_next] in R1. destruct (run_rel C _ _ HC R1) as (_ & _ & _ & Rl1).
  rewrite (uv_err _ _ _ Rl) in He. symmetry in He. rewrite (uv_err _ _ _ Rl1) in He1. symmetry in He1.
  assert (Hl : forall d, menu_limit (u_menu u) = Some d -> u_age u < d).
  { assert (M : u_menu u = MENU_CHGPRESET \/ u_menu u = n_state (y_menu y0)).
    { destruct D as [(_ & _ & X & _)|(n1 & j & _ & _ & _ & _ & _ & X)]; rewrite X; [auto|]. unfold hold_menu. destruct (_ && _); auto. }
    intros d Ed. destruct M as [M|M]; rewrite M in Ed; [cbn in Ed; injection Ed as <-; exact Ha|]. destruct (n_state (y_menu y0)); try discriminate W; try discriminate Ed. injection Ed as <-. exact Ha. }
  assert (D1 : exists n1 j, stepping y0 up n n1 j (ui_poll C u (sensor_error y))).
  { destruct (poll_step C y0 up n u (sensor_error y) Hl He Hb) as (P1 & P2). destruct D as [D|(n1 & j & D)]; [exists n, 0%nat; specialize (P1 D); replace (1000 <=? n) with true in P1 by lia; exact P1|].
    eexists _, _. apply P2. exact D. }
  set (u1 := ui_poll C u (sensor_error y)) in *.
  assert (Hb1 : u_boost u1 = t_boost (y_ct y0)). { pose proof (poll_trip C u (sensor_error y) (rel_allowed C y u I Rl)) as T. injection T as _ _ T. unfold u1. congruence. }
  assert (Ha1 : u_age u1 < 3000 /\ (u_menu u1 = MENU_CHGPRESET \/ u_menu u1 = n_state (y_menu y0))).
  { split.
    - assert (A := age_clock C y u EMenu y1 HC R Logic.I Ht eq_refl E1). cbn [ui_next ticks_of menu_touched] in A. fold u1 in A. destruct (negb _); [lia|]. rewrite andb_false_r in A. lia.
    - destruct D1 as (n1 & j & _ & _ & _ & _ & _ & X). rewrite X. unfold hold_menu. destruct (_ && _); auto. }
  assert (Hl1 : forall d, menu_limit (u_menu u1) = Some d -> u_age u1 < d).
  { destruct Ha1 as (A & M). intros d Ed. destruct M as [M|M]; rewrite M in Ed; [cbn in Ed; injection Ed as <-; exact A|]. destruct (n_state (y_menu y0)); try discriminate W; try discriminate Ed. injection Ed as <-. exact A. }
  destruct D1 as (n1 & j & D1). assert (Ht1 : in_time u1 EMenu).
  { split; [intros d Ed; specialize (Hl1 d Ed); destruct Ha1; lia|]. pose proof D1 as (Er & _). rewrite Er.
    unfold u1 in Er. rewrite (poll_eq C u (sensor_error y) Hl He) in Er. destruct Ht as (_ & Ht). destruct (ramp_cases u) as [(up' & n' & k & P1 & P2 & P3 & _)|(_ & _ & _ & P4 & _)].
    - rewrite P3 in Er. injection Er as <- <- <-. rewrite P1 in Ht. pose proof (step_gap k). lia.
    - rewrite P4 in Er. destruct (u_ramp u) as [|a b|a b c]; [discriminate Er| |].
      + destruct (1000 <=? b); [|discriminate Er]. injection Er as -> <- <-. cbn. lia.
      + injection Er as -> -> ->. exact Ht. }
  pose proof (next_run C y1 u1 EMenu y2 R1 Logic.I Ht1 eq_refl E2) as R2. cbn [ui_next] in R2. destruct (run_rel C _ _ HC R2) as (_ & _ & _ & Rl2).
  rewrite (uv_menu _ _ _ Rl2). destruct (poll_step C y0 up n u1 (sensor_error y1) Hl1 He1 Hb1) as (_ & P). specialize (P n1 j D1). destruct P as (_ & _ & _ & _ & _ & ->).
  unfold hold_menu. rewrite Sp. cbn [andb]. destruct (0 <? _) eqn:Z; [reflexivity|]. exfalso. destruct D1 as (_ & _ & Hn1 & _). destruct j; [replace (step_time 0 <=? n - n1) with true in Z by (cbn; lia)|]; [discriminate Z|]. destruct (_ <=? _); discriminate Z.
Qed.
(** ** C43: the pace of a ramp *)
Lemma pace_ok C y0 up n m y u : build_conf C -> has_item (n_state (y_menu y0)) = true -> key_prompt C (adj_key up) y0 n m y u ->
  0 <= m <= 25 /\
  (waiting y0 up n u /\ n < 1000 + m \/
   exists n1 j, stepping y0 up n n1 j u /\ n1 < 1025 /\ match j with 0%nat => n - n1 <= m | S _ => n - n1 < step_time j + m end).
Proof.
  intros HC Hi H. induction H as [y u pins y' m S Ho D1 D2 Hm|y0 n m y u e y' H IH O Ht P Hk Hm Hc E].
  - split; [exact Hm|]. destruct (press_state C y u pins y' up HC S Ho D1 D2 Hi) as (_ & _ & _ & _ & _ & D). destruct D as [D|(n1 & j & D)]; [left; split; [exact D|lia]|].
    right. exists n1, j. split; [exact D|]. destruct D as (_ & W & Hn & _ & Hj & _). assert (n1 = 0) by (destruct (waits _); lia). subst n1. split; [lia|].
    destruct j as [|i]; [lia|]. pose proof (step_gap i). assert (0 <= step_time i) by (destruct i as [|[|[|[|i]]]]; cbn [step_time]; lia). lia.
  - specialize (IH Hi). destruct IH as (Hm0 & D). pose proof (held_ok C y0 up n y u HC Hi (kp_kh _ _ _ _ _ _ _ H)) as Hs.
    destruct (held_next C y0 up n y u e y' HC Hs O Ht P Hk Hm E) as (_ & _ & _ & _ & N5).
    destruct e; cbn [ui_next ticks_of] in *; rewrite ?Z.add_0_r in *; try (split; [exact Hm0|exact D]).
    + specialize (Hc eq_refl). split; [lia|]. destruct N5 as (N5 & N6). destruct D as [(D & Hn)|(n1 & j & D & Hn1 & Hp)]; [left; split; [apply N5; exact D|lia]|].
      right. exists n1, j. split; [apply N6; exact D|]. split; [exact Hn1|]. destruct j; lia.
    + split; [lia|]. destruct N5 as (N5 & N6). destruct D as [(D & Hn)|(n1 & j & D & Hn1 & Hp)].
      * specialize (N5 D). destruct (1000 <=? n) eqn:En; [right; exists n, 0%nat; split; [exact N5|]; lia|left; split; [exact N5|lia]].
      * specialize (N6 n1 j D). right. exists n1, (if step_time j <=? n - n1 then S j else j). split; [exact N6|]. split; [exact Hn1|]. destruct D as (_ & _ & Hn & _).
        destruct (step_time j <=? n - n1) eqn:Es; [|destruct j; [cbn in Es; lia|lia]]. pose proof (step_gap j). destruct j; [cbn [step_time] in *; lia|lia].
    + split; [exact Hm0|]. destruct N5 as (N5 & N6). destruct D as [(D & Hn)|(n1 & j & D & Hn1 & Hp)]; [left; split; [apply N5; exact D|exact Hn]|].
      right. exists n1, j. split; [apply N6; exact D|]. auto.
Qed.
Lemma pace_shows C y0 up n m y u : build_conf C -> has_item (n_state (y_menu y0)) = true -> key_prompt C (adj_key up) y0 n m y u ->
  let s0 := n_state (y_menu y0) in
  (waits s0 = true /\ n < 1000 + m /\ n_state (y_menu y) = s0 /\ same_settings (x_cache (y_set y)) (x_cache (y_set y0))) \/
  exists n1 j, (if waits s0 then 1000 <= n1 < 1025 else n1 = 0) /\ n1 <= n /\
    match j with 0%nat => n - n1 <= m | S i => step_time i <= n - n1 < step_time j + m end /\
    same_settings (x_cache (y_set y)) (iter_step j s0 (t_boost (y_ct y0)) up (x_cache (y_set y0))).
Proof.
  intros HC Hi H. cbv zeta. destruct (held_ok C y0 up n y u HC Hi (kp_kh _ _ _ _ _ _ _ H)) as (R & _ & _ & _ & _ & _). destruct (ui_refines C y u HC R) as (S1 & _ & _ & _ & _ & S6 & _).
  destruct (pace_ok C y0 up n m y u HC Hi H) as (Hm & [((W & _ & Em & Ec) & Hn)|(n1 & j & (_ & W & Hn & Ec & Hj & _) & Hn1 & Hp)]).
  - left. split; [exact W|]. split; [exact Hn|]. split; [congruence|]. eapply same_trans; [exact S6|exact Ec].
  - right. exists n1, j. split; [destruct (waits _); lia|]. split; [exact Hn|]. split; [destruct j as [|i]; [exact Hp|specialize (Hj i eq_refl); lia]|]. eapply same_trans; [exact S6|exact Ec].
Qed.
