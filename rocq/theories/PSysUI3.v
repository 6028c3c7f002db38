(** * Properties of keys, menus and ramps *)
From Coq Require Import ZArith List Bool Lia ZifyBool.
From Verif Require Import Base PBase MConf MUtil MFixpt MScale MRing MFilter MTimer MPid MPwm MTempMap MCurr MSens
  SpecNum SpecPid SpecSmall PNum PSmall PScale PPid SpecCurr PCurr MSettings SpecSettings PSettings PSysSet
  MSseg MDisplay MText MState MTemp MMeas MMenu MMain SpecDisplay SpecSys SpecRun SpecUI PSys PSysMeas PSysMenu PSysDisp PSysBtn
  PSysStep PSysRun PSysCC PSysSafe PSysUI PSysUI2.
Import ListNotations.
Open Scope Z_scope.
Ltac Zify.zify_post_hook ::= Z.div_mod_to_equations.
Ltac uf := cbn [u_menu u_dbg u_time u_count u_pins u_age u_ramp u_err u_iron u_idle u_boost u_cfg].

(** ** The automaton: one sample *)
Definition kfold (C : conf) (b : button) (l : list bstate) (u : ui) : ui := fold_left (ui_key C) (map (fun s => (b, s)) l) u.
Lemma fold_events C p q u : fold_left (ui_key C) (key_events p q) u =
  kfold C BUTTON_IRON (key_event p q BUTTON_IRON) (kfold C BUTTON_PLUS (key_event p q BUTTON_PLUS)
    (kfold C BUTTON_MINUS (key_event p q BUTTON_MINUS) (kfold C BUTTON_SET (key_event p q BUTTON_SET) u))).
Proof. unfold key_events, all_keys, kfold. cbn [flat_map]. rewrite !fold_left_app. reflexivity. Qed.
Definition same_clock (u u' : ui) : Prop :=
  u_time u' = u_time u /\ u_count u' = u_count u /\ u_pins u' = u_pins u /\ u_err u' = u_err u.
Definition trip (u : ui) := (u_iron u, u_idle u, u_boost u).
Lemma key_clock C u k : same_clock u (ui_key C u k).
Proof.
  destruct k as (b, bs). destruct (is_iron b) eqn:Hb.
  - destruct b; try discriminate Hb. cbn [ui_key]. unfold ui_iron_key.
    destruct (c_boost C), (c_idle C), bs, (u_idle u), (u_iron u) as [m|], (c_idletoggle C); cbn [andb]; try destruct (1000 <=? m); repeat split.
  - rewrite key_eq by exact Hb. repeat split.
Qed.
Lemma fold_clock C l : forall u, same_clock u (fold_left (ui_key C) l u).
Proof.
  induction l as [|k l IH]; intros u; cbn [fold_left]; [repeat split|]. destruct (IH (ui_key C u k)) as (A1 & A2 & A3 & A4).
  destruct (key_clock C u k) as (B1 & B2 & B3 & B4). unfold same_clock. repeat split; congruence.
Qed.
Lemma menu_only C u b bs : is_iron b = false -> b <> BUTTON_SET ->
  trip (ui_key C u (b, bs)) = trip u /\ adjusting (u_menu (ui_key C u (b, bs))) = adjusting (u_menu u).
Proof.
  intros Hb Hs. rewrite key_eq by exact Hb. unfold key_state, trip. uf. replace (is_set b) with false by (destruct b; [congruence|reflexivity..]).
  assert (A : adjusting (if is_neg bs then match u_menu u with MENU_CURTEMP => MENU_SELPRESET | _ => u_menu u end else u_menu u) = adjusting (u_menu u)).
  { destruct (is_neg bs); [|reflexivity]. destruct (u_menu u); reflexivity. }
  rewrite A, eqb_reflx. split; reflexivity.
Qed.
Lemma kfold_trip C b l : is_iron b = false -> b <> BUTTON_SET -> forall u, trip (kfold C b l u) = trip u.
Proof.
  intros Hb Hs. unfold kfold. induction l as [|s l IH]; intros u; cbn [map fold_left]; [reflexivity|].
  rewrite IH. apply menu_only; assumption.
Qed.
Definition iron3 (C : conf) (t : option Z * bool * Z) (s : bstate) : option Z * bool * Z :=
  let '(ir, id, bo) := t in
  if c_boost C && c_idle C then
    match s with
    | BSTATE_POSEDGE => if id then (None, false, bo) else (Some 0, id, bo)
    | BSTATE_PRESSED => match ir with Some n => if 1000 <=? n then (None, true, bo) else t | None => t end
    | BSTATE_NEGEDGE => match ir with Some _ => (None, id, cycle_up 2 bo) | None => t end
    end
  else if c_boost C then match s with BSTATE_POSEDGE => (ir, id, cycle_up 2 bo) | _ => t end
  else if c_idle C then
    match s with
    | BSTATE_POSEDGE => (ir, if c_idletoggle C then negb id else true, bo)
    | BSTATE_NEGEDGE => if c_idletoggle C then t else (ir, false, bo)
    | BSTATE_PRESSED => t
    end
  else t.
Lemma iron_trip C u s : trip (ui_key C u (BUTTON_IRON, s)) = iron3 C (trip u) s /\ u_menu (ui_key C u (BUTTON_IRON, s)) = u_menu u /\
  u_cfg (ui_key C u (BUTTON_IRON, s)) = u_cfg u /\ u_ramp (ui_key C u (BUTTON_IRON, s)) = u_ramp u /\ u_dbg (ui_key C u (BUTTON_IRON, s)) = u_dbg u /\
  u_age (ui_key C u (BUTTON_IRON, s)) = u_age u.
Proof.
  cbn [ui_key]. unfold ui_iron_key, iron3, trip.
  destruct (c_boost C), (c_idle C), s, (u_idle u) eqn:?, (u_iron u) as [m|] eqn:?, (c_idletoggle C); cbn [andb]; try destruct (1000 <=? m); uf;
    cbn [set_u_iron set_u_idle set_u_boost u_menu u_dbg u_time u_count u_pins u_age u_ramp u_err u_iron u_idle u_boost u_cfg negb]; repeat split; congruence.
Qed.
Lemma kfold_iron C l : forall u, trip (kfold C BUTTON_IRON l u) = fold_left (iron3 C) l (trip u) /\ u_menu (kfold C BUTTON_IRON l u) = u_menu u /\
  u_cfg (kfold C BUTTON_IRON l u) = u_cfg u /\ u_ramp (kfold C BUTTON_IRON l u) = u_ramp u /\ u_dbg (kfold C BUTTON_IRON l u) = u_dbg u /\
  u_age (kfold C BUTTON_IRON l u) = u_age u.
Proof.
  unfold kfold. induction l as [|s l IH]; intros u; cbn [map fold_left]; [repeat split|].
  destruct (IH (ui_key C u (BUTTON_IRON, s))) as (A1 & A2 & A3 & A4 & A5 & A6). destruct (iron_trip C u s) as (B1 & B2 & B3 & B4 & B5 & B6). rewrite A1, A2, A3, A4, A5, A6, B1. repeat split; assumption.
Qed.
Lemma key_event_up p q b : down p b = false -> down q b = false -> key_event p q b = [].
Proof. intros E1 E2. unfold key_event. rewrite E1, E2. reflexivity. Qed.
Lemma sample_trip C u q : sample_due u = true -> down (u_pins u) BUTTON_SET = false -> down q BUTTON_SET = false ->
  trip (ui_sample C u q) = fold_left (iron3 C) (key_event (u_pins u) q BUTTON_IRON) (trip u).
Proof.
  intros Hd H1 H2. unfold ui_sample. rewrite Hd, fold_events. rewrite (key_event_up _ _ _ H1 H2).
  rewrite (proj1 (kfold_iron C _ _)). rewrite !kfold_trip by (reflexivity || discriminate). reflexivity.
Qed.
Lemma sample_pins C u q : sample_due u = true -> u_pins (ui_sample C u q) = q /\ u_time (ui_sample C u q) = u_time u /\ u_count (ui_sample C u q) = u_count u + 1 /\
  u_err (ui_sample C u q) = u_err u.
Proof.
  intros Hd. unfold ui_sample. rewrite Hd. destruct (fold_clock C (key_events (u_pins u) q) (set_u_sample u (u_count u + 1) q)) as (-> & -> & -> & ->). repeat split.
Qed.

(** ** The automaton: polls *)
Lemma rel_allowed C y u : inv relaxed C y -> ui_rel C y u -> allowed C (u_menu u) = true.
Proof. intros I R. rewrite <- (uv_menu _ _ _ R). apply (i_menu _ _ _ I). Qed.
Lemma run_rel C y u : build_conf C -> ui_run C y u -> reach C y /\ inv relaxed C y /\ ramp_ok (y_menu y) /\ ui_rel C y u.
Proof.
  intros HC R. destruct (ui_reach C y u HC R) as (Rc & Rl). destruct (reach_s4 C y HC Rc) as [I Ro _ _]. auto.
Qed.
Lemma expired_adjusting C s d : allowed C s = true -> menu_limit s = Some d -> adjusting (menu_expired C s) = adjusting s.
Proof.
  intros A E. unfold menu_expired. assert (X : adjusting (menu_after C s) = adjusting s \/ s = MENU_IDLETEMP).
  { destruct s; cbn in E; try discriminate E; auto; left; rewrite <- (next_after C _ A); unfold next_menu_state; cbn in A; rewrite ?A; reflexivity. }
  destruct s; try (destruct X as [X|X]; [exact X|discriminate X]). reflexivity.
Qed.
Lemma limit_trip C u : allowed C (u_menu u) = true -> trip (ui_limit C u) = trip u.
Proof.
  intros A. unfold ui_limit. destruct (menu_limit (u_menu u)) as [d|] eqn:E; [|reflexivity]. destruct (d <=? u_age u); [|reflexivity].
  rewrite ui_enter_eq. unfold trip. cbn [set_u_ramp]. uf. rewrite (expired_adjusting C _ d A E), eqb_reflx. reflexivity.
Qed.
Lemma error_trip u e : trip (ui_error u e) = trip u /\ u_menu (ui_error u e) = u_menu u /\ u_cfg (ui_error u e) = u_cfg u.
Proof. unfold ui_error. destruct (_ =? _); repeat split. Qed.
Lemma ramp_trip u : trip (ui_ramp u) = trip u.
Proof.
  unfold ui_ramp. destruct (u_ramp u) as [|up n|up n k]; [reflexivity| |].
  - destruct (1000 <=? n); reflexivity.
  - destruct (step_time k <=? n); [|reflexivity]. destruct (shows_preset (u_menu u)) eqn:E; [|reflexivity]. rewrite ui_enter_eq. unfold trip, set_u_ramp, set_u_cfg. uf.
    replace (adjusting (u_menu u)) with false by (destruct (u_menu u); try discriminate E; reflexivity). reflexivity.
Qed.
Lemma poll_trip C u e : allowed C (u_menu u) = true -> trip (ui_poll C u e) = trip u.
Proof. intros A. unfold ui_poll. rewrite ramp_trip, (proj1 (error_trip _ _)). apply limit_trip. exact A. Qed.
Lemma ramp_clock u : same_clock u (ui_ramp u).
Proof.
  unfold ui_ramp. destruct (u_ramp u) as [|up n|up n k]; [repeat split| |].
  - destruct (1000 <=? n); repeat split.
  - destruct (step_time k <=? n); [|repeat split]. destruct (shows_preset (u_menu u)); [|repeat split]. rewrite ui_enter_eq. repeat split.
Qed.
Lemma poll_clock C u e : u_time (ui_poll C u e) = u_time u /\ u_count (ui_poll C u e) = u_count u /\ u_pins (ui_poll C u e) = u_pins u /\ u_err (ui_poll C u e) = e.
Proof.
  unfold ui_poll. destruct (ramp_clock (ui_error (ui_limit C u) e)) as (-> & -> & -> & ->).
  assert (L : same_clock u (ui_limit C u)).
  { unfold ui_limit. destruct (menu_limit _); [|repeat split]. destruct (_ <=? _); [|repeat split]. rewrite ui_enter_eq. repeat split. }
  destruct L as (L1 & L2 & L3 & L4). unfold ui_error. destruct (e =? u_err (ui_limit C u)) eqn:E; uf; cbn [set_u_ramp set_u_err u_time u_count u_pins u_err]; repeat split; try assumption. lia.
Qed.

(** ** C37 *)
Lemma shown C y u : ui_rel C y u -> t_idle (y_ct y) = u_idle u /\ t_boost (y_ct y) = u_boost u.
Proof. intros []. auto. Qed.
Lemma iron_inv C y0 n y u : build_conf C -> c_boost C && c_idle C = true -> iron_held C y0 n y u ->
  ui_run C y u /\ 0 <= n /\ down (u_pins u) BUTTON_IRON = true /\ down (u_pins u) BUTTON_SET = false /\
  (if t_idle (y_ct y0) then trip u = (None, false, t_boost (y_ct y0))
   else trip u = (Some n, false, t_boost (y_ct y0)) \/ trip u = (None, true, t_boost (y_ct y0)) /\ 1000 <= n).
Proof.
  intros HC Hc R. induction R as [y u pins y' R Hp Ht Hd H1 H2 H3 H4 E|y0 n y u e y' R (IH1 & IH2 & IH3 & IH4 & IH5) O Ht P Hk E].
  - assert (R' : ui_run C y' (ui_sample C u pins)).
    { change (ui_sample C u pins) with (ui_next C u (sensor_error y) (EButtons pins)). apply (ui_step C y u _ y'); auto. }
    split; [exact R'|]. split; [lia|]. destruct (sample_pins C u pins Hd) as (-> & _). split; [exact H2|]. split; [exact H4|].
    rewrite (sample_trip C u pins Hd H3 H4). unfold key_event. rewrite H1, H2. destruct (run_rel C y u HC R) as (_ & _ & _ & Rl). destruct (shown C y u Rl) as (-> & ->).
    cbn [fold_left]. unfold iron3, trip. rewrite Hc. destruct (u_idle u); auto.
  - assert (R' : ui_run C y' (ui_next C u (sensor_error y) e)) by (apply (ui_step C y u e y'); auto).
    split; [exact R'|]. destruct (run_rel C y u HC IH1) as (_ & I & _ & Rl).
    assert (Ot : forall v, u_pins v = u_pins u -> trip v = trip u -> ticks_of e = 0 ->
      0 <= n + ticks_of e /\ down (u_pins v) BUTTON_IRON = true /\ down (u_pins v) BUTTON_SET = false /\
      (if t_idle (y_ct y0) then trip v = (None, false, t_boost (y_ct y0))
       else trip v = (Some (n + ticks_of e), false, t_boost (y_ct y0)) \/ trip v = (None, true, t_boost (y_ct y0)) /\ 1000 <= n + ticks_of e)).
    { intros v -> -> ->. rewrite Z.add_0_r. auto. }
    destruct e; cbn [ui_next] in *; try (apply Ot; reflexivity).
    + cbn [ticks_of]. split; [lia|]. split; [exact IH3|]. split; [exact IH4|]. unfold trip, ui_tick in *. uf. destruct (t_idle (y_ct y0)).
      * injection IH5 as -> -> ->. reflexivity.
      * destruct IH5 as [X|(X & Hn)]; injection X as -> -> ->; [left; reflexivity|right; split; [reflexivity|lia]].
    + destruct (poll_clock C u (sensor_error y)) as (_ & _ & Hp & _). apply Ot; [exact Hp|apply poll_trip; apply (rel_allowed C y u I Rl)|reflexivity].
    + destruct (Hk pinb eq_refl) as (K1 & K2). destruct (sample_due u) eqn:Hd.
      * destruct (sample_pins C u pinb Hd) as (-> & _). cbn [ticks_of]. split; [lia|]. split; [exact K1|]. split; [exact K2|].
        rewrite (sample_trip C u pinb Hd IH4 K2). unfold key_event. rewrite IH3, K1. cbn [fold_left]. rewrite Z.add_0_r.
        destruct (t_idle (y_ct y0)); [rewrite IH5; unfold iron3; rewrite Hc; reflexivity|].
        destruct IH5 as [X|(X & Hn)]; rewrite X; unfold iron3; rewrite Hc; [|right; auto]. destruct (1000 <=? n) eqn:En; [right; split; [reflexivity|lia]|left; reflexivity].
      * unfold ui_sample. rewrite Hd. apply Ot; reflexivity.
Qed.
Lemma iron_up_inv C y0 n y1 y2 : build_conf C -> c_boost C && c_idle C = true -> iron_up C y0 n y1 y2 ->
  exists u, ui_rel C y1 u /\ (if t_idle (y_ct y0) then trip u = (None, false, t_boost (y_ct y0))
   else trip u = (Some n, false, t_boost (y_ct y0)) \/ trip u = (None, true, t_boost (y_ct y0)) /\ 1000 <= n) /\
   exists u2, ui_rel C y2 u2 /\ trip u2 = iron3 C (trip u) BSTATE_NEGEDGE.
Proof.
  intros HC Hc (u & pins & R & Hp & Ht & Hd & H1 & H2 & E). destruct (iron_inv C y0 n y1 u HC Hc R) as (R1 & _ & D1 & D2 & T).
  exists u. destruct (run_rel C y1 u HC R1) as (_ & _ & _ & Rl). split; [exact Rl|]. split; [exact T|].
  exists (ui_sample C u pins). split.
  - apply run_rel; [exact HC|]. change (ui_sample C u pins) with (ui_next C u (sensor_error y1) (EButtons pins)). apply (ui_step C y1 u _ y2); auto.
  - rewrite (sample_trip C u pins Hd D2 H2). unfold key_event. rewrite D1, H1. reflexivity.
Qed.
Lemma iron_tap C y0 n y1 y2 : build_conf C -> c_boost C = true -> c_idle C = true -> t_idle (y_ct y0) = false -> iron_up C y0 n y1 y2 ->
  t_idle (y_ct y1) = false ->
  t_idle (y_ct y2) = false /\ t_boost (y_ct y2) = cycle_up 2 (t_boost (y_ct y0)).
Proof.
  intros HC Cb Ci Hi R H1. assert (Hc : c_boost C && c_idle C = true) by (rewrite Cb, Ci; reflexivity).
  destruct (iron_up_inv C y0 n y1 y2 HC Hc R) as (u & Rl & T & u2 & R2 & T2). rewrite Hi in T. destruct (shown C y1 u Rl) as (X1 & _). destruct (shown C y2 u2 R2) as (-> & ->).
  destruct T as [T|(T & _)]; [|exfalso; unfold trip in T; injection T as _ X _; congruence]. rewrite T in T2. unfold iron3 in T2. rewrite Hc in T2. unfold trip in T2. injection T2 as _ -> ->. auto.
Qed.
Lemma iron_short C y0 n y u : build_conf C -> c_boost C = true -> c_idle C = true -> t_idle (y_ct y0) = false -> iron_held C y0 n y u -> n < 1000 ->
  t_idle (y_ct y) = false /\ t_boost (y_ct y) = t_boost (y_ct y0).
Proof.
  intros HC Cb Ci Hi R Hn. assert (Hc : c_boost C && c_idle C = true) by (rewrite Cb, Ci; reflexivity).
  destruct (iron_inv C y0 n y u HC Hc R) as (R1 & _ & _ & _ & T). destruct (run_rel C y u HC R1) as (_ & _ & _ & Rl). destruct (shown C y u Rl) as (-> & ->). rewrite Hi in T.
  destruct T as [T|(T & X)]; [|lia]. unfold trip in T. injection T as _ -> ->. auto.
Qed.
Lemma iron_long C y0 n y u pins y' : build_conf C -> c_boost C = true -> c_idle C = true -> t_idle (y_ct y0) = false -> iron_held C y0 n y u -> 1000 <= n ->
  is_u8 pins -> in_time u (EButtons pins) -> sample_due u = true -> down pins BUTTON_IRON = true -> down pins BUTTON_SET = false -> step C y (EButtons pins) = Some y' ->
  t_idle (y_ct y') = true /\ t_boost (y_ct y') = t_boost (y_ct y0).
Proof.
  intros HC Cb Ci Hi R Hn Hp Ht Hd D1 D2 E. assert (Hc : c_boost C && c_idle C = true) by (rewrite Cb, Ci; reflexivity).
  destruct (iron_inv C y0 n y u HC Hc R) as (R1 & _ & D3 & D4 & T).
  assert (R' : ui_run C y' (ui_sample C u pins)).
  { change (ui_sample C u pins) with (ui_next C u (sensor_error y) (EButtons pins)). apply (ui_step C y u _ y'); auto. }
  destruct (run_rel C _ _ HC R') as (_ & _ & _ & Rl). destruct (shown C y' _ Rl) as (-> & ->). rewrite Hi in T.
  assert (T2 := sample_trip C u pins Hd D4 D2). unfold key_event in T2. rewrite D3, D1 in T2. cbn [fold_left] in T2.
  assert (Hx : (1000 <=? n) = true) by lia.
  destruct T as [T|(T & X)]; rewrite T in T2; unfold iron3 in T2; rewrite Hc, ?Hx in T2; unfold trip in T2; injection T2 as _ -> ->; auto.
Qed.
Lemma iron_idle_up C y0 n y1 y2 : build_conf C -> c_boost C = true -> c_idle C = true -> t_idle (y_ct y0) = false -> iron_up C y0 n y1 y2 ->
  t_idle (y_ct y1) = true -> t_idle (y_ct y2) = true /\ t_boost (y_ct y2) = t_boost (y_ct y0).
Proof.
  intros HC Cb Ci Hi R H1. assert (Hc : c_boost C && c_idle C = true) by (rewrite Cb, Ci; reflexivity).
  destruct (iron_up_inv C y0 n y1 y2 HC Hc R) as (u & Rl & T & u2 & R2 & T2). rewrite Hi in T. destruct (shown C y1 u Rl) as (X1 & _). destruct (shown C y2 u2 R2) as (-> & ->).
  destruct T as [T|(T & _)]; [exfalso; unfold trip in T; injection T as _ X _; congruence|]. rewrite T in T2. unfold iron3 in T2. rewrite Hc in T2. unfold trip in T2. injection T2 as _ -> ->. auto.
Qed.
Lemma iron_leave C y0 n y u : build_conf C -> c_boost C = true -> c_idle C = true -> t_idle (y_ct y0) = true -> iron_held C y0 n y u ->
  t_idle (y_ct y) = false /\ t_boost (y_ct y) = t_boost (y_ct y0).
Proof.
  intros HC Cb Ci Hi R. assert (Hc : c_boost C && c_idle C = true) by (rewrite Cb, Ci; reflexivity).
  destruct (iron_inv C y0 n y u HC Hc R) as (R1 & _ & _ & _ & T). destruct (run_rel C y u HC R1) as (_ & _ & _ & Rl). destruct (shown C y u Rl) as (-> & ->). rewrite Hi in T.
  unfold trip in T. injection T as _ -> ->. auto.
Qed.
Lemma iron_leave_up C y0 n y1 y2 : build_conf C -> c_boost C = true -> c_idle C = true -> t_idle (y_ct y0) = true -> iron_up C y0 n y1 y2 ->
  t_idle (y_ct y2) = false /\ t_boost (y_ct y2) = t_boost (y_ct y0).
Proof.
  intros HC Cb Ci Hi R. assert (Hc : c_boost C && c_idle C = true) by (rewrite Cb, Ci; reflexivity).
  destruct (iron_up_inv C y0 n y1 y2 HC Hc R) as (u & Rl & T & u2 & R2 & T2). rewrite Hi in T. destruct (shown C y2 u2 R2) as (-> & ->).
  rewrite T in T2. unfold iron3 in T2. rewrite Hc in T2. unfold trip in T2. injection T2 as _ -> ->. auto.
Qed.
(** The other builds. *)
Lemma iron_builds C y u pins y' : build_conf C -> c_boost C && c_idle C = false -> sampled C y u pins y' ->
  down (u_pins u) BUTTON_SET = false -> down pins BUTTON_SET = false ->
  let before := down (u_pins u) BUTTON_IRON in let now := down pins BUTTON_IRON in
  t_boost (y_ct y') = (if c_boost C && (negb before && now) then cycle_up 2 (t_boost (y_ct y)) else t_boost (y_ct y)) /\
  t_idle (y_ct y') = (if negb (c_idle C) then t_idle (y_ct y)
                      else if c_idletoggle C then xorb (t_idle (y_ct y)) (negb before && now)
                      else if Bool.eqb before now then t_idle (y_ct y) else now).
Proof.
  intros HC Hc (R & Hp & Ht & Hd & E) D1 D2. cbv zeta.
  assert (R' : ui_run C y' (ui_sample C u pins)).
  { change (ui_sample C u pins) with (ui_next C u (sensor_error y) (EButtons pins)). apply (ui_step C y u _ y'); auto. }
  destruct (run_rel C _ _ HC R') as (_ & _ & _ & Rl). destruct (shown C y' _ Rl) as (-> & ->). destruct (run_rel C _ _ HC R) as (_ & _ & _ & Rl0). destruct (shown C y _ Rl0) as (-> & ->).
  assert (T2 := sample_trip C u pins Hd D1 D2). unfold trip in T2.
  destruct (u_iron u), (u_idle u); unfold key_event, iron3 in T2; destruct (c_boost C), (c_idle C); try discriminate Hc; destruct (down (u_pins u) BUTTON_IRON), (down pins BUTTON_IRON), (c_idletoggle C);
    cbn [andb fold_left negb] in T2; injection T2 as _ -> ->; split; reflexivity.
Qed.
