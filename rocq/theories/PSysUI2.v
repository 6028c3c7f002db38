(** * The firmware follows the automaton of SpecUI, part 2 *)
From Coq Require Import ZArith List Bool Lia ZifyBool.
From Verif Require Import Base PBase MConf MUtil MFixpt MScale MRing MFilter MTimer MPid MPwm MTempMap MCurr MSens
  SpecNum SpecPid SpecSmall PNum PSmall PScale PPid SpecCurr PCurr MSettings SpecSettings PSettings PSysSet
  MSseg MDisplay MText MState MTemp MMeas MMenu MMain SpecDisplay SpecSys SpecRun SpecUI PSys PSysMeas PSysMenu PSysDisp PSysBtn
  PSysStep PSysRun PSysCC PSysSafe PSysUI.
Import ListNotations.
Open Scope Z_scope.
Ltac Zify.zify_post_hook ::= Z.div_mod_to_equations.

Definition step_period (k : nat) : Z := step_time (S k) - step_time k.
Definition ramp_rel (time : Z) (n : menu) (r : rphase) : Prop :=
  match r with
  | RNone => n_ramp n = RAMP_NONE
  | RWait up k => n_ramp n = dir up true /\ n_pretimer n = u16 (time - k + 1000) /\ 0 <= k
  | RRun up k j => n_ramp n = dir up false /\ n_rtimer n = u16 (time - k + step_time j) /\ n_period n = step_period j /\ 0 <= k /\ step_time j <= k + 400
  end.
Definition iron_rel (C : conf) (time : Z) (t : ct) (o : option Z) (idle : bool) : Prop :=
  match o with
  | None => t_bilet t = false
  | Some n => t_bilet t = true /\ t_bitimer t = u16 (time - n + 1000) /\ 0 <= n /\ idle = false /\ c_boost C && c_idle C = true
  end.
Record ui_rel (C : conf) (y : sys) (u : ui) : Prop := mkRel {
  uv_menu : n_state (y_menu y) = u_menu u;
  uv_err : n_err (y_menu y) = u_err u;
  uv_dbg : y_dbg y = u_dbg u;
  uv_idle : t_idle (y_ct y) = u_idle u;
  uv_boost : t_boost (y_ct y) = u_boost u;
  uv_boost0 : c_boost C = false -> u_boost u = 0;
  uv_cfg : same_settings (x_cache (y_set y)) (u_cfg u);
  uv_now : 0 <= u_time u /\ y_now y = u16 (u_time u);
  uv_btn : 0 <= u_count u /\ 10 * u_count u <= u_time u + 10 /\ b_timer (y_btn y) = u16 (10 * u_count u) /\
           b_prev (y_btn y) = buttons_get_raw (u_pins u) /\ is_u8 (u_pins u);
  uv_age : 0 <= u_age u /\ forall d, menu_limit (u_menu u) = Some d -> n_timeout (y_menu y) = u16 (u_time u - u_age u + d);
  uv_ramp : ramp_rel (u_time u) (y_menu y) (u_ramp u);
  uv_iron : iron_rel C (u_time u) (y_ct y) (u_iron u) (u_idle u)
}.
Lemma limit_tmo s : menu_limit s = tmo s.
Proof. destruct s; reflexivity. Qed.
Lemma u16_shift a b : u16 (u16 a + b) = u16 (a + b).
Proof. unfold u16. lia. Qed.
Lemma expired_at time t0 d : 0 <= d -> d - time + t0 <= 32768 -> time - t0 - d < 32768 ->
  timer_expired (u16 time) (u16 (t0 + d)) = (d <=? time - t0).
Proof.
  intros H1 H2 H3. change (u16 time) with (counter time). change (u16 (t0 + d)) with (counter (t0 + d)). rewrite timer_expired_eq.
  destruct (d <=? time - t0) eqn:E; lia.
Qed.

(** ** The iron key *)
Lemma iron_ok C y u bs y' : inv relaxed C y -> ui_rel C y u -> (forall n, u_iron u = Some n -> n < 30000) ->
  contrtemp_button_handler C y BUTTON_IRON bs = Some y' ->
  let u' := ui_iron_key C u bs in
  t_idle (y_ct y') = u_idle u' /\ t_boost (y_ct y') = u_boost u' /\ (c_boost C = false -> u_boost u' = 0) /\
  iron_rel C (u_time u) (y_ct y') (u_iron u') (u_idle u').
Proof.
  intros I R Hn E. cbv zeta. destruct R as [_ _ _ Ri Rb Rb0 _ (Rt & Rn) _ _ _ Rx].
  assert (Same : y' = y -> t_idle (y_ct y') = u_idle u /\ t_boost (y_ct y') = u_boost u /\ (c_boost C = false -> u_boost u = 0) /\
    iron_rel C (u_time u) (y_ct y') (u_iron u) (u_idle u)) by (intros ->; auto).
  unfold ui_iron_key, contrtemp_button_handler in *. destruct (c_boost C) eqn:Eb, (c_idle C) eqn:Ei; cbn [andb] in *.
  - (* boost and idle *)
    unfold button_boost_idle in E. cbn [is_iron negb] in E. cbv zeta in E.
    assert (Hm : forall z : sys, inv relaxed C z -> t_idle (y_ct z) = u_idle u -> t_boost (y_ct z) = u_boost u -> 
      (z' <- contrtemp_do_idle C z (negb (t_idle (y_ct y))) ;; Some (set_y_ct z' (set_t_bilet (y_ct z') false))) = Some y' ->
      t_idle (y_ct y') = negb (u_idle u) /\ t_boost (y_ct y') = u_boost u /\ t_bilet (y_ct y') = false).
    { intros z Iz Hz1 Hz2 Ez. destruct (idle_step_ok relaxed C z (negb (t_idle (y_ct y))) Iz) as (z' & E1 & _ & _ & X1 & X2 & _). rewrite E1 in Ez. cbn [bind] in Ez.
      apply Some_inj in Ez. subst y'. sy. rewrite X1, X2, Ri. auto. }
    destruct bs; cbn [is_pos is_held is_neg andb] in E.
    + unfold CONTRTEMP_BUTTON_BOOST_DELAY in E. rewrite arm_ok in E by lia. cbn [bind] in E. sy. revert E. sy. intros E.
      rewrite orb_false_r in E. rewrite Ri in E at 1. destruct (u_idle u) eqn:Eu.
      * rewrite <- Eu in Hm. destruct (Hm _ (inv_bi relaxed C y _ true I) ltac:(sy; congruence) ltac:(sy; congruence) E) as (A1 & A2 & A3).
        cbn [set_u_iron set_u_idle u_idle u_boost u_iron]. rewrite A1, A2, Eu. split; [reflexivity|]. split; [reflexivity|]. split; [discriminate|exact A3].
      * apply Some_inj in E. subst y'. cbn [set_u_iron u_idle u_boost u_iron]. sy. split; [congruence|]. split; [exact Rb|]. split; [discriminate|].
        unfold iron_rel. sy. split; [reflexivity|]. split; [rewrite Rn, u16_shift; f_equal; lia|]. split; [lia|]. split; [exact Eu|]. rewrite Eb, Ei. reflexivity.
    + cbn [bind] in E. rewrite orb_false_r in E. unfold iron_rel in Rx. destruct (u_iron u) as [n|] eqn:Ex.
      * destruct Rx as (X1 & X2 & X3 & X4 & X5). rewrite X1 in E. rewrite Ri in E at 1. rewrite X4 in E.
        destruct (boost_step_ok relaxed C y I Eb) as (z & E1 & _ & _ & Z1 & Z2 & _). rewrite E1 in E. cbn [bind] in E. apply Some_inj in E. subst y'.
        cbn [set_u_iron set_u_boost u_idle u_boost u_iron]. sy. rewrite Z1, Z2, Rb. split; [exact Ri|]. split; [reflexivity|]. split; [discriminate|reflexivity].
      * rewrite Rx in E. apply Some_inj in E. rewrite ?Ex. apply Same. congruence.
    + cbn [bind] in E. unfold iron_rel in Rx. destruct (u_iron u) as [n|] eqn:Ex.
      * destruct Rx as (X1 & X2 & X3 & X4 & X5). rewrite X1 in E. rewrite Ri in E at 1. rewrite X4 in E. cbn [orb] in E.
        rewrite Rn, X2 in E. specialize (Hn n eq_refl). rewrite expired_at in E by lia. replace (u_time u - (u_time u - n)) with n in E by lia.
        destruct (1000 <=? n) eqn:En.
        -- destruct (Hm y I Ri Rb E) as (A1 & A2 & A3). cbn [set_u_iron set_u_idle u_idle u_boost u_iron]. rewrite A1, A2, X4. split; [reflexivity|]. split; [reflexivity|].
           split; [discriminate|exact A3].
        -- apply Some_inj in E. rewrite ?Ex. apply Same. congruence.
      * rewrite Rx in E. apply Some_inj in E. rewrite ?Ex. apply Same. congruence.
  - (* boost *)
    unfold button_boost in E. cbn [is_iron negb] in E.
    assert (Hx : u_iron u = None) by (unfold iron_rel in Rx; destruct (u_iron u); [exfalso; destruct Rx as (_&_&_&_&X); rewrite Eb, Ei in X; discriminate X|reflexivity]).
    destruct bs; cbn [is_pos] in E; try (apply Same; congruence).
    destruct (boost_step_ok relaxed C y I Eb) as (z & E1 & _ & _ & Z1 & Z2 & Z3 & Z4). rewrite E1 in E. apply Some_inj in E. subst y'.
    cbn [set_u_boost u_idle u_boost u_iron]. rewrite Z1, Z2, Rb. split; [exact Ri|]. split; [reflexivity|]. split; [discriminate|]. rewrite Hx in *. unfold iron_rel in *. congruence.
  - (* idle *)
    unfold button_idle in E. cbn [is_iron negb] in E.
    assert (Hx : u_iron u = None) by (unfold iron_rel in Rx; destruct (u_iron u); [exfalso; destruct Rx as (_&_&_&_&X); rewrite Eb, Ei in X; discriminate X|reflexivity]).
    assert (Hm : forall v, (if negb (Bool.eqb v (t_idle (y_ct y))) then contrtemp_do_idle C y v else Some y) = Some y' ->
      t_idle (y_ct y') = v /\ t_boost (y_ct y') = u_boost u /\ t_bilet (y_ct y') = t_bilet (y_ct y)).
    { intros v Ev. destruct (Bool.eqb v (t_idle (y_ct y))) eqn:Eq; cbn [negb] in Ev.
      - apply Some_inj in Ev. subst y'. apply eqb_prop in Eq. auto.
      - destruct (idle_step_ok relaxed C y v I) as (z' & E1 & _ & _ & X1 & X2 & X3 & X4). rewrite E1 in Ev. apply Some_inj in Ev. subst y'. rewrite X1, X2, X4. auto. }
    unfold iron_rel in *. rewrite Hx in Rx. cbv zeta in E. destruct (Hm _ E) as (A1 & A2 & A3).
    destruct bs, (c_idletoggle C); cbn [is_pos is_neg] in *; cbn [set_u_idle u_idle u_boost u_iron]; rewrite ?Hx, ?A1, ?A2, ?A3, ?Ri; repeat split; auto.
  - apply Some_inj in E. apply Same. congruence.
Qed.

(** ** The other keys *)
Lemma ui_enter_eq u s : ui_enter u s =
  mkUi (u_time u) (u_count u) (u_pins u) s (if mstate_eqb (u_menu u) s then u_age u else 0) (u_ramp u) (u_err u) (u_iron u) (u_idle u)
       (if Bool.eqb (adjusting (u_menu u)) (adjusting s) then u_boost u else 0) (u_dbg u) (u_cfg u).
Proof.
  unfold ui_enter. destruct (mstate_eqb (u_menu u) s) eqn:E.
  - apply mstate_eqb_ok in E. subst s. rewrite eqb_reflx. destruct u; reflexivity.
  - destruct (Bool.eqb _ _); reflexivity.
Qed.
Lemma mstate_refl s : mstate_eqb s s = true.
Proof. apply mstate_eqb_ok. reflexivity. Qed.
Definition key_state (C : conf) (u : ui) (b : button) (bs : bstate) : ui :=
  let m := if is_neg bs then
    if is_set b then if u_dbg u then u_menu u else menu_after C (u_menu u)
    else match u_menu u with MENU_CURTEMP => MENU_SELPRESET | _ => u_menu u end
  else u_menu u in
  mkUi (u_time u) (u_count u) (u_pins u) m
    (if mstate_eqb (u_menu u) m then if timed (u_menu u) then 0 else u_age u else 0)
    (if is_neg bs then RNone
     else match rampable (u_menu u), key_ramp b bs with
          | Some (pre, _), Some up => if pre then RWait up 0 else RRun up 0 0
          | _, _ => u_ramp u end)
    (u_err u) (u_iron u) (u_idle u) (if Bool.eqb (adjusting (u_menu u)) (adjusting m) then u_boost u else 0)
    match u_menu u with
    | MENU_DEBUG => if is_pos bs then if is_plus b then true else if is_minus b then false else u_dbg u else u_dbg u
    | _ => u_dbg u end
    match b, bs, u_menu u with
    | BUTTON_PLUS, BSTATE_NEGEDGE, MENU_SELPRESET => set_s_active (u_cfg u) (cycle_up 5 (s_active (u_cfg u)))
    | BUTTON_MINUS, BSTATE_NEGEDGE, MENU_SELPRESET => set_s_active (u_cfg u) (cycle_down 5 (s_active (u_cfg u)))
    | _, _, _ => u_cfg u
    end.
Lemma key_eq C u b bs : is_iron b = false -> ui_key C u (b, bs) = key_state C u b bs.
Proof.
  intros Hb. destruct u as [tm ct pn mn ag rm er ir id bo db cf].
  destruct b; [| | |discriminate Hb]; clear Hb; destruct bs, mn; try reflexivity.
  all: destruct db; try reflexivity.
  all: cbn [ui_key u_menu restarts]; unfold ui_release; cbn [set_u_ramp set_u_age u_menu u_dbg u_time u_count u_pins u_age u_ramp u_err u_iron u_idle u_boost u_cfg];
    rewrite ui_enter_eq; unfold key_state; cbn [u_menu u_dbg u_time u_count u_pins u_age u_ramp u_err u_iron u_idle u_boost u_cfg is_neg is_set timed]; reflexivity.
Qed.
Lemma key_fields C u b bs : is_iron b = false -> allowed C (u_menu u) = true ->
  let u' := ui_key C u (b, bs) in
  u_menu u' = goto C (u_dbg u) (u_menu u) b bs /\ u_time u' = u_time u /\ u_count u' = u_count u /\ u_pins u' = u_pins u /\
  u_err u' = u_err u /\ u_iron u' = u_iron u /\ u_idle u' = u_idle u /\
  u_boost u' = (if Bool.eqb (adjusting (u_menu u)) (adjusting (u_menu u')) then u_boost u else 0) /\
  u_dbg u' = match u_menu u with
             | MENU_DEBUG => if is_pos bs then if is_plus b then true else if is_minus b then false else u_dbg u else u_dbg u
             | _ => u_dbg u end /\
  u_cfg u' = match b, bs, u_menu u with
             | BUTTON_PLUS, BSTATE_NEGEDGE, MENU_SELPRESET => set_s_active (u_cfg u) (cycle_up 5 (s_active (u_cfg u)))
             | BUTTON_MINUS, BSTATE_NEGEDGE, MENU_SELPRESET => set_s_active (u_cfg u) (cycle_down 5 (s_active (u_cfg u)))
             | _, _, _ => u_cfg u
             end /\
  u_age u' = (if mstate_eqb (u_menu u) (u_menu u') then if timed (u_menu u) then 0 else u_age u else 0) /\
  u_ramp u' = (if is_neg bs then RNone
               else match rampable (u_menu u), key_ramp b bs with
                    | Some (pre, _), Some up => if pre then RWait up 0 else RRun up 0 0
                    | _, _ => u_ramp u end).
Proof.
  intros Hb Ha. cbv zeta. rewrite key_eq by exact Hb. unfold key_state, goto. cbv zeta. rewrite Hb, (next_after C _ Ha).
  cbn [u_menu u_dbg u_time u_count u_pins u_age u_ramp u_err u_iron u_idle u_boost u_cfg]. repeat (split; [reflexivity|]). reflexivity.
Qed.
Lemma ramp_rel_fields time n n' r : ramp_fields n' = ramp_fields n -> ramp_rel time n r -> ramp_rel time n' r.
Proof. unfold ramp_fields. intros E. injection E as E1 E2 E3 E4 E5. unfold ramp_rel. rewrite E1, E2, E3, E5. auto. Qed.
Lemma same_active x c : same_settings x c -> s_active c = s_active x.
Proof. intros E. apply (proj1 (same_ex _ _)) in E. rewrite E. reflexivity. Qed.
Lemma key_ok C y u b bs y' : inv relaxed C y -> ramp_ok (y_menu y) -> ui_rel C y u -> (forall n, u_iron u = Some n -> n < 30000) ->
  call_button_handlers C y b bs = Some y' ->
  ui_rel C y' (ui_key C u (b, bs)) /\ (forall n, u_iron (ui_key C u (b, bs)) = Some n -> n < 30000).
Proof.
  intros I Ro R Hn E. destruct (handlers_ok relaxed C y b bs I Ro bok_relaxed) as (z & E1 & I' & _ & _ & Sd & Bt & K). rewrite E in E1. apply Some_inj in E1. subst z.
  destruct Sd as (Hnow & _). destruct (is_iron b) eqn:Hb.
  - destruct b; try discriminate Hb. destruct K as (Ec & F & (up & Fn) & _). cbn [ui_key].
    destruct (iron_ok C y u bs y' I R Hn Ec) as (A1 & A2 & A3 & A4). destruct R.
    assert (Fr : u_menu (ui_iron_key C u bs) = u_menu u /\ u_err (ui_iron_key C u bs) = u_err u /\ u_dbg (ui_iron_key C u bs) = u_dbg u /\ u_cfg (ui_iron_key C u bs) = u_cfg u /\
      u_time (ui_iron_key C u bs) = u_time u /\ u_count (ui_iron_key C u bs) = u_count u /\ u_pins (ui_iron_key C u bs) = u_pins u /\ u_age (ui_iron_key C u bs) = u_age u /\
      u_ramp (ui_iron_key C u bs) = u_ramp u /\ (u_iron (ui_iron_key C u bs) = u_iron u \/ u_iron (ui_iron_key C u bs) = None \/ u_iron (ui_iron_key C u bs) = Some 0)).
    { unfold ui_iron_key. destruct (c_boost C), (c_idle C), bs, (u_idle u), (u_iron u) as [m|] eqn:?, (c_idletoggle C); cbn [andb]; try destruct (1000 <=? m);
        cbn [set_u_iron set_u_idle set_u_boost u_menu u_time u_count u_pins u_age u_ramp u_err u_iron u_idle u_boost u_dbg u_cfg]; repeat (split; [reflexivity|]); auto. }
    destruct Fr as (F1 & F2 & F3 & F4 & F5 & F6 & F7 & F8 & F9 & F10). split.
    + assert (Fx : y_dbg y' = y_dbg y /\ y_set y' = y_set y /\ y_now y' = y_now y /\ y_btn y' = y_btn y) by (rewrite F; repeat split; reflexivity).
      destruct Fx as (X1 & X2 & X3 & X4).
      constructor; rewrite ?F1, ?F2, ?F3, ?F4, ?F5, ?F6, ?F7, ?F8, ?F9, ?X1, ?X2, ?X3, ?X4, ?Fn; try assumption. 
    + intros n En. destruct F10 as [X|[X|X]]; rewrite X in En; [exact (Hn n En)|discriminate|]. apply Some_inj in En. lia.
  - destruct K as (Em & P). destruct (handler_ct relaxed C y b bs y' I Ro bok_relaxed Hb Em) as (H1 & H2 & H3 & H4 & H5).
    pose proof (proj1 (i_menu _ _ _ I)) as Al. pose proof R as R0. destruct R0. rewrite uv_menu0 in *.
    destruct (key_fields C u b bs Hb Al) as (F1 & F2 & F3 & F4 & F5 & F6 & F7 & F8 & F9 & F10 & F11 & F12).
    destruct P as [P1 P2 P3 P4 P5 P6 P7 P8 P9]. rewrite uv_menu0, uv_dbg0 in *. rewrite <- F1 in P1. split; [|intros n; rewrite F6; apply Hn].
    constructor.
    + exact P1.
    + rewrite F5. destruct P8. congruence.
    + rewrite F9. exact P7.
    + rewrite F7. congruence.
    + rewrite F8, H5. unfold boost_after. rewrite P1, uv_boost1. destruct (Bool.eqb _ _); [reflexivity|]. destruct (c_boost C) eqn:?; [reflexivity|auto].
    + intros Hc. rewrite F8. rewrite (uv_boost2 Hc). destruct (Bool.eqb _ _); reflexivity.
    + rewrite F10. change (get_settings y' = pick (u_menu u) b bs (get_settings y)) in P2. unfold get_settings in P2. rewrite P2. apply pick_same; [assumption|].
      rewrite (same_active _ _ uv_cfg0). apply (i_set _ _ _ I).
    + rewrite F2, H4. assumption.
    + rewrite F2, F3, F4, Bt. assumption.
    + rewrite F2, F11. destruct uv_age0 as (G1 & G2). split; [destruct (mstate_eqb _ _); [destruct (timed _); lia|lia]|].
      intros d Hd. destruct (mstate_eqb (u_menu u) (u_menu (ui_key C u (b, bs)))) eqn:Eq.
      * apply mstate_eqb_ok in Eq. rewrite <- Eq in *. destruct (timed (u_menu u)) eqn:Et.
        -- rewrite (P4 Hb P1 eq_refl). destruct uv_now0 as (_ & ->). rewrite u16_shift. f_equal. destruct (u_menu u); try discriminate Et; cbn in Hd; injection Hd as <-; lia.
        -- rewrite (P5 eq_refl P1). apply G2. exact Hd.
      * assert (Hne : n_state (y_menu y') <> u_menu u) by (rewrite P1; intros X; rewrite X, mstate_refl in Eq; discriminate).
        rewrite (P6 d Hne) by (rewrite P1, <- limit_tmo; exact Hd). destruct uv_now0 as (_ & ->). rewrite u16_shift. f_equal. lia.
    + rewrite F2, F12. specialize (P3 Hb). unfold ramp_after in P3. rewrite uv_menu0 in P3. destruct (is_neg bs).
      * unfold ramp_fields in P3. injection P3 as P3 _ _ _ _. exact P3.
      * destruct (rampable (u_menu u)) as [(pre, h)|]; [|eapply ramp_rel_fields; eassumption]. destruct (key_ramp b bs) as [up|]; [|eapply ramp_rel_fields; eassumption].
        unfold ramp_fields in P3. injection P3 as Q1 Q2 Q3 Q4 Q5. destruct uv_now0 as (_ & Ut). destruct pre; unfold ramp_rel.
        -- rewrite Q1, Q3, Ut, u16_shift. repeat split; [f_equal; lia|lia].
        -- rewrite Q1, Q2, Q5, Ut. split; [reflexivity|]. split; [f_equal; cbn; lia|]. split; [reflexivity|]. split; [lia|cbn; lia].
    + rewrite F2, F6, F7. revert uv_iron0. unfold iron_rel. destruct (u_iron u); rewrite H1, ?H2; auto.
Qed.

(** ** Samples of the keys *)
Lemma calls_ok C : forall l y u y', inv relaxed C y -> ramp_ok (y_menu y) -> ui_rel C y u -> (forall n, u_iron u = Some n -> n < 30000) ->
  run_calls C y l = Some y' -> ui_rel C y' (fold_left (ui_key C) l u).
Proof.
  induction l as [|(b, bs) l IH]; intros y u y' I Ro R Hn E; cbn [run_calls fold_left] in *.
  - apply Some_inj in E. subst. exact R.
  - apply bind_inv in E. destruct E as (y1 & E1 & E). destruct (key_ok C y u b bs y1 I Ro R Hn E1) as (R1 & Hn1).
    destruct (handlers_ok relaxed C y b bs I Ro bok_relaxed) as (z & E2 & I1 & Ro1 & _). rewrite E1 in E2. apply Some_inj in E2. subst z.
    exact (IH y1 _ y' I1 Ro1 R1 Hn1 E).
Qed.
Lemma sample_ok C y u pins y' : inv relaxed C y -> ramp_ok (y_menu y) -> ui_rel C y u -> is_u8 pins -> in_time u (EButtons pins) ->
  buttons_work C y pins = Some y' -> ui_rel C y' (ui_sample C u pins).
Proof.
  intros I Ro R Hp (Ht & Hn) E. destruct (buttons_ok relaxed C y pins bok_relaxed I Ro) as (z & E1 & _ & _ & _ & _ & K). rewrite E in E1. apply Some_inj in E1. subst z.
  pose proof R as R0. destruct R0. destruct uv_now0 as (T0 & Tn). destruct uv_btn0 as (B1 & B2 & B3 & B4 & B5). rewrite Tn, B3 in K.
  replace (u16 (10 * u_count u)) with (u16 (10 * u_count u + 0)) in K by (f_equal; lia). rewrite expired_at in K by lia.
  unfold ui_sample, sample_due. replace (0 <=? u_time u - 10 * u_count u) with (10 * u_count u <=? u_time u) in K by lia.
  destruct (10 * u_count u <=? u_time u) eqn:Ed.
  - destruct K as (Eb & Er). rewrite B4, sample_events in Er by assumption.
    eapply calls_ok; [| | | |exact Er].
    + clear - I Eb. rewrite Eb. destruct I. constructor; sy; try assumption. apply raw_u8.
    + exact Ro.
    + rewrite Eb. constructor; cbn [set_u_sample u_menu u_dbg u_time u_count u_pins u_age u_ramp u_err u_iron u_idle u_boost u_cfg]; sy; try assumption; auto.
      split; [lia|]. split; [lia|]. split; [replace (u16 (10 * u_count u + 0)) with (u16 (10 * u_count u)) by (f_equal; lia); rewrite u16_shift; f_equal; lia|]. split; [reflexivity|exact Hp].
    + exact Hn.
  - subst y'. exact R.
Qed.

(** ** Polls of the menu *)
Lemma limit_ok C y u y' : inv relaxed C y -> ramp_ok (y_menu y) -> ui_rel C y u -> (forall d, menu_limit (u_menu u) = Some d -> u_age u < 30000) ->
  menu_timeouts C y = Some y' -> ui_rel C y' (ui_limit C u).
Proof.
  intros I Ro R Ha E. destruct (timeouts_ok relaxed C y I Ro) as (z & E1 & _ & _ & _ & (Sn & _) & T1 & T2 & _ & _ & T3 & T4 & T5 & _ & _ & K). rewrite E in E1. apply Some_inj in E1. subst z.
  pose proof R as R0. destruct R0. destruct uv_now0 as (T0 & Tn). destruct uv_age0 as (G1 & G2). unfold ui_limit. rewrite uv_menu0 in K. unfold has_timeout in K. rewrite <- limit_tmo in K.
  destruct (menu_limit (u_menu u)) as [d|] eqn:El; cbn [andb] in K; [|subst; exact R]. specialize (Ha d eq_refl). specialize (G2 d eq_refl).
  assert (Hd : 0 <= d <= 3000) by (clear - El; destruct (u_menu u); cbn in El; try discriminate; injection El as <-; lia).
  rewrite Tn, G2, expired_at in K by lia. replace (u_time u - (u_time u - u_age u)) with (u_age u) in K by lia.
  destruct (d <=? u_age u) eqn:Ed; [|subst; exact R]. destruct K as (K1 & K2 & K3).
  assert (Al : allowed C (u_menu u) = true) by (rewrite <- uv_menu0; apply (i_menu _ _ _ I)).
  assert (Eo : on_timeout C (u_menu u) = menu_expired C (u_menu u)).
  { unfold on_timeout, menu_expired. destruct (u_menu u); try reflexivity; apply next_after; exact Al. }
  rewrite Eo in *.
  assert (M : exists z, moved C y z (menu_expired C (u_menu u)) /\ y' = stop_ramping z).
  { assert (X : (y1 <- menu_set_state C y (menu_expired C (u_menu u)) ;; Some (stop_ramping y1)) = Some y').
    { rewrite <- E. unfold menu_timeouts. rewrite Tn, uv_menu0, G2, expired_at by lia. replace (u_time u - (u_time u - u_age u)) with (u_age u) by lia. rewrite Ed, <- Eo.
      unfold menu_set_next_state. rewrite uv_menu0. destruct (u_menu u); try discriminate El; reflexivity. }
    apply bind_inv in X. destruct X as (z & X1 & X2). exists z. apply Some_inj in X2. subst y'. split; [|reflexivity]. apply (moved_ok relaxed); [exact I| |exact X1].
    assert (Hdb : y_dbg y = false).
    { destruct (y_dbg y) eqn:Ey; [|reflexivity]. destruct (proj1 (i_dbg _ _ _ I) Ey) as (_ & X). rewrite uv_menu0 in X. rewrite X in El. discriminate El. }
    rewrite <- Eo. pose proof (next_can relaxed C y I Hdb) as N. rewrite uv_menu0 in N. destruct (u_menu u) eqn:Es; try exact N.
    unfold on_timeout. split; [reflexivity|]. split; [congruence|discriminate]. }
  destruct M as (z & (M1 & M2 & M3 & M4 & M5 & M6) & Ez). rewrite ui_enter_eq.
  assert (Bo : t_boost (y_ct z) = if Bool.eqb (adjusting (u_menu u)) (adjusting (menu_expired C (u_menu u))) then u_boost u else 0).
  { rewrite uv_menu0 in M6. destruct (mstate_eqb (u_menu u) (menu_expired C (u_menu u))) eqn:Eq.
    - apply mstate_eqb_ok in Eq. rewrite <- Eq, eqb_reflx, M6. exact uv_boost1.
    - destruct M6 as (_ & ->). rewrite uv_boost1. destruct (Bool.eqb _ _); [reflexivity|]. destruct (c_boost C); [reflexivity|apply uv_boost2; reflexivity]. }
  assert (X : y_ct y' = y_ct z) by (subst y'; reflexivity).
  constructor; cbn [set_u_ramp u_menu u_dbg u_time u_count u_pins u_age u_ramp u_err u_iron u_idle u_boost u_cfg].
  - exact K1.
  - rewrite T5. exact uv_err0.
  - rewrite T3. exact uv_dbg0.
  - rewrite T4. exact uv_idle0.
  - rewrite X. exact Bo.
  - intros Hc. rewrite (uv_boost2 Hc). destruct (Bool.eqb (adjusting (u_menu u)) _); reflexivity.
  - rewrite T2. exact uv_cfg0.
  - rewrite Sn. auto.
  - rewrite T1. auto.
  - split; [destruct (mstate_eqb (u_menu u) _); lia|]. intros d' Hd'. rewrite K1, <- limit_tmo in K3. rewrite (K3 d' Hd'), u16_shift.
    destruct (mstate_eqb (u_menu u) (menu_expired C (u_menu u))) eqn:Eq; [|f_equal; lia]. exfalso. apply mstate_eqb_ok in Eq. rewrite <- Eo in Eq. clear - Eq El Al.
    destruct (u_menu u); cbn in Eq, El, Al; try discriminate; rewrite ?Al in Eq; discriminate Eq.
  - exact K2.
  - rewrite X. clear - M1 M2 uv_iron0. unfold iron_rel in *. destruct (u_iron u); rewrite M1, ?M2; auto.
Qed.
Lemma error_ok C y u : inv relaxed C y -> ui_rel C y u -> ui_rel C (menu_errors y) (ui_error u (sensor_error y)).
Proof.
  intros I R. rewrite (errors_eq relaxed C y I). change (sensor_error y) with (errcode y). unfold ui_error. pose proof R as R0. destruct R0. rewrite uv_err0.
  destruct (errcode y =? u_err u); [exact R|].
  constructor; cbn [set_u_ramp set_u_err u_menu u_dbg u_time u_count u_pins u_age u_ramp u_err u_iron u_idle u_boost u_cfg]; sy; auto.
  reflexivity.
Qed.
Lemma heat_ok C y u : inv relaxed C y -> ramp_ok (y_menu y) -> ui_rel C y u -> ui_rel C (menu_heating y) u.
Proof.
  intros I Ro R. destruct (heating_ok relaxed C y I Ro) as (_ & _ & _ & _ & _ & v & -> & _). destruct R. constructor; sy; auto.
Qed.
Lemma period_half k : step_period (S k) = half (step_period k).
Proof.
  do 3 (destruct k as [|k]; [reflexivity|]).
  assert (P : forall j, step_period (S (S (S j))) = if (j =? 0)%nat then 50 else 25).
  { intros [|j]; [reflexivity|]. unfold step_period. change (Nat.eqb (S j) 0) with false.
    change (step_time (S (S (S (S (S j)))))) with (750 + 25 * Z.of_nat (S j)). change (step_time (S (S (S (S j))))) with (750 + 25 * Z.of_nat j). clear. lia. }
  rewrite !P. destruct k; reflexivity.
Qed.

Lemma ramp_moved C y up y' h : inv relaxed C y -> n_handler (y_menu y) = Some h -> ramp_of_menu h (n_state (y_menu y)) ->
  timer_expired (y_now y) (n_rtimer (y_menu y)) = true -> ramp_step C y up = Some y' ->
  keptc y y' /\ n_timeout (y_menu y') = if mstate_eqb (n_state (y_menu y)) (n_state (y_menu y')) then n_timeout (y_menu y) else u16 (y_now y + 3000).
Proof.
  intros I Eh Hm Et E. unfold ramp_step in E. rewrite Et, Eh in E. apply bind_inv in E. destruct E as (y1 & E1 & E). cbv zeta in E.
  apply bind_inv in E. destruct E as (t & _ & E).
  assert (F : keptc y1 y' /\ n_timeout (y_menu y') = n_timeout (y_menu y1) /\ n_state (y_menu y') = n_state (y_menu y1)).
  { apply Some_inj in E. subst y'. unfold keptc, menu_request_display_update. destruct (RAMP_MIN_PERIOD_MS <? _); sy; repeat split. }
  destruct F as (F1 & F2 & F3). rewrite F2, F3.
  assert (G : keptc y y1 /\ n_timeout (y_menu y1) = if mstate_eqb (n_state (y_menu y)) (n_state (y_menu y1)) then n_timeout (y_menu y) else u16 (y_now y + 3000)).
  2: { destruct G as (G1 & G2). split; [eapply keptc_trans; eassumption|exact G2]. }
  assert (Hk : kept y y1 -> keptc y y1 /\ n_timeout (y_menu y1) = if mstate_eqb (n_state (y_menu y)) (n_state (y_menu y1)) then n_timeout (y_menu y) else u16 (y_now y + 3000)).
  { intros K. split; [apply kept_c; exact K|]. destruct K as (_ & _ & _ & _ & _ & K1 & K2 & _). rewrite K1, mstate_refl. exact K2. }
  destruct h; [|apply Hk; refine (kept_ramp C y _ up y1 _ E1); discriminate ..]. clear Hk F1 F2 F3 E.
  cbn [call_ramp_handler bind] in E1. unfold settemp_ramp_handler in E1. apply bind_inv in E1. destruct E1 as (a & Ea & E1). apply bind_inv in E1. destruct E1 as (v & Ev & E1).
  apply bind_inv in E1. destruct E1 as (z & Ez & E1).
  assert (Hd : y_dbg y = false).
  { destruct (y_dbg y) eqn:Ed; [|reflexivity]. destruct (proj1 (i_dbg _ _ _ I) Ed) as (_ & X). rewrite X in Hm. destruct Hm as [|[|]]; discriminate. }
  assert (Ha : adjusting (n_state (y_menu y)) = false) by (destruct Hm as [->|[->| ->]]; reflexivity).
  assert (Hv : 0 <= v <= 30720).
  { destruct (i_set _ _ _ I) as (_ & R & _). destruct (rng_preset_get relaxed C _ R) as (a' & E' & Ba). cbn in Ba. unfold presets_get_active_value in Ea. unfold get_settings in Ea. rewrite E' in Ea. apply Some_inj in Ea. subst a'.
    change CONTRTEMP_NEGLIM with 0 in Ev. change CONTRTEMP_POSLIM with 30720 in Ev. rewrite do_ramp_temp_eq in Ev by lia. apply Some_inj in Ev. subst v. clear. lia. }
  destruct (presets_set_ok relaxed C y v I bok_relaxed Hv) as (z' & l & _ & Ez' & Iz & Fz). rewrite Ez in Ez'. apply Some_inj in Ez'. subst z'.
  assert (Kz : kept y z).
  { unfold presets_set_active_value in Ez. cbv zeta in Ez. apply bind_inv in Ez. destruct Ez as (l' & _ & Ez). eapply kept_trans; [apply kept_put|eapply kept_presets; exact Ez]. }
  assert (Dz : y_dbg z = y_dbg y) by (rewrite Fz; reflexivity).
  destruct Kz as (K1 & K2 & K3 & K4 & K5 & K6 & K7 & K8).
  assert (M : moved C z y1 MENU_CHGPRESET).
  { apply (moved_ok relaxed); [exact Iz| |exact E1]. split; [reflexivity|]. split; [congruence|]. intros _. rewrite K6. exact Ha. }
  destruct M as (M1 & M2 & M3 & M4 & M5 & M6). rewrite M5. rewrite K6 in M6. destruct (mstate_eqb (n_state (y_menu y)) MENU_CHGPRESET).
  - subst y1. unfold keptc. repeat split; assumption.
  - destruct M6 as (M6 & M7). rewrite Ha in M7. cbn [adjusting Bool.eqb] in M7. split; [unfold keptc; repeat split; congruence|]. rewrite (M6 3000 eq_refl). congruence.
Qed.
Lemma ramp_ui_ok C y u y' : inv relaxed C y -> ramp_ok (y_menu y) -> ui_rel C y u ->
  match u_ramp u with RNone => True | RWait _ n => n < 30000 | RRun _ n k => n - step_time k < 30000 end ->
  menu_ramping C y = Some y' -> ui_rel C y' (ui_ramp u).
Proof.
  intros I Ro R Hn E. destruct (ramping_ok relaxed C y I Ro bok_relaxed) as (z & E1 & _ & _ & _ & (Sn & _) & B1 & _ & _ & D1 & K). rewrite E in E1. apply Some_inj in E1. subst z.
  pose proof R as R0. destruct R0. destruct uv_now0 as (T0 & Tn). unfold ui_ramp. destruct (u_ramp u) as [|up n|up n k] eqn:Er; cbn [ramp_rel] in uv_ramp0.
  - rewrite uv_ramp0 in K. cbn [running waiting] in K. subst. exact R.
  - destruct uv_ramp0 as (X1 & X2 & X3). rewrite X1 in K. replace (running (dir up true)) with (@None bool) in K by (destruct up; reflexivity).
    replace (waiting (dir up true)) with (Some up) in K by (destruct up; reflexivity). rewrite X2, Tn, expired_at in K by lia.
    replace (u_time u - (u_time u - n)) with n in K by lia. destruct (1000 <=? n); [|subst; exact R]. subst y'.
    constructor; cbn [set_u_ramp u_menu u_dbg u_time u_count u_pins u_age u_ramp u_err u_iron u_idle u_boost u_cfg]; unfold ramped; sy; auto.
    unfold ramp_rel; sy. split; [reflexivity|]. split; [rewrite Tn; f_equal; cbn; lia|]. split; [reflexivity|]. split; [lia|cbn; lia].
  - destruct uv_ramp0 as (X1 & X2 & X3 & X4). rewrite X1 in K. replace (running (dir up false)) with (Some up) in K by (destruct up; reflexivity).
    assert (Hs : 0 <= step_time k /\ step_time k <= step_time (S k)) by (clear; do 4 (destruct k as [|k]; [cbn; lia|]); cbn [step_time]; lia).
    destruct X4 as (X4 & X5). rewrite X2, Tn, expired_at in K by lia.
    replace (u_time u - (u_time u - n)) with n in K by lia. destruct (step_time k <=? n) eqn:Ek; [|subst; exact R].
    destruct K as [(h & Eh & St & Ns) P1 P2 (Q1 & Q2 & Q3 & Q4 & Q5 & Q6)].
    assert (Hm : ramp_of_menu h (n_state (y_menu y))).
    { destruct Ro as [Ro|(h' & Eh' & Hm)]; [rewrite Ro in X1; destruct up; discriminate X1|]. congruence. }
    assert (Ms : ramp_step C y up = Some y') by (rewrite <- E; unfold menu_ramping; rewrite X1; destruct up; reflexivity).
    assert (Te : timer_expired (y_now y) (n_rtimer (y_menu y)) = true) by (rewrite X2, Tn, expired_at by lia; replace (u_time u - (u_time u - n)) with n by lia; exact Ek).
    destruct (ramp_moved C y up y' h I Eh Hm Te Ms) as ((K1 & K2 & K3 & K4 & K5) & K6). rewrite uv_menu0 in *.
    set (u2 := set_u_ramp (set_u_cfg u (item_step (u_menu u) (u_boost u) up (u_cfg u))) (RRun up n (S k))).
    assert (Sh : (if shows_preset (u_menu u) then ui_enter u2 MENU_CHGPRESET else u2) =
      mkUi (u_time u) (u_count u) (u_pins u) (n_state (y_menu y')) (if mstate_eqb (u_menu u) (n_state (y_menu y')) then u_age u else 0)
        (RRun up n (S k)) (u_err u) (u_iron u) (u_idle u) (u_boost u) (u_dbg u) (item_step (u_menu u) (u_boost u) up (u_cfg u))).
    { rewrite Ns. unfold u2. destruct h; cbn [ramp_of_menu] in Hm.
      - rewrite ui_enter_eq. cbn [set_u_cfg set_u_ramp u_menu u_dbg u_time u_count u_pins u_age u_ramp u_err u_iron u_idle u_boost u_cfg].
        destruct Hm as [Hm|[Hm|Hm]]; rewrite Hm; reflexivity.
      - rewrite mstate_refl. replace (shows_preset (u_menu u)) with false by (rewrite Hm; reflexivity). reflexivity.
      - rewrite mstate_refl. replace (shows_preset (u_menu u)) with false by (rewrite Hm; reflexivity). reflexivity.
      - rewrite mstate_refl. replace (shows_preset (u_menu u)) with false by (rewrite Hm; reflexivity). reflexivity.
      - rewrite mstate_refl. replace (shows_preset (u_menu u)) with false by (rewrite Hm; reflexivity). reflexivity.
      - rewrite mstate_refl. replace (shows_preset (u_menu u)) with false by (rewrite Hm; reflexivity). reflexivity. }
    rewrite Sh. clear Sh u2. destruct uv_age0 as (G1 & G2).
    constructor; cbn [u_menu u_dbg u_time u_count u_pins u_age u_ramp u_err u_iron u_idle u_boost u_cfg].
    + reflexivity.
    + congruence.
    + congruence.
    + congruence.
    + congruence.
    + assumption.
    + eapply item_same; [exact uv_cfg0|exact Hm|]. unfold get_settings in St. unfold bm in St. rewrite uv_boost1 in St. destruct (c_boost C) eqn:Ec; [exact St|]. rewrite uv_boost2 by reflexivity. exact St.
    + split; [lia|congruence].
    + rewrite B1. assumption.
    + split; [destruct (mstate_eqb (u_menu u) _); lia|]. intros d Hd. rewrite K6. destruct (mstate_eqb (u_menu u) (n_state (y_menu y'))) eqn:Eq.
      * apply mstate_eqb_ok in Eq. apply G2. congruence.
      * rewrite Ns in *. destruct h; cbn [ramp_of_menu] in Hm; try (exfalso; rewrite mstate_refl in Eq; discriminate Eq). cbn in Hd. injection Hd as <-. rewrite Tn, u16_shift. f_equal. lia.
    + unfold ramp_rel. rewrite Q1, P1, P2, X1, X2, X3. split; [reflexivity|]. split; [rewrite u16_shift; f_equal; unfold step_period; lia|]. split; [symmetry; apply period_half|]. split; [lia|].
      assert (step_time (S k) <= step_time k + 400) by (clear; do 4 (destruct k as [|k]; [cbn; lia|]); cbn [step_time]; lia). lia.
    + revert uv_iron0. unfold iron_rel. destruct (u_iron u); rewrite K1, ?K2; auto.
Qed.
Lemma side_error y y' : side_frame y y' -> sensor_error y' = sensor_error y.
Proof.
  intros (_ & _ & _ & _ & E & _ & [(X & _)|(X & _)]); unfold sensor_error; rewrite E, X; [reflexivity|].
  unfold contrcurr_set_setpoint, cc_set_pid. reflexivity.
Qed.
Lemma poll_ok C y u y' : inv relaxed C y -> ramp_ok (y_menu y) -> ui_rel C y u -> in_time u EMenu -> menu_work C y = Some y' ->
  ui_rel C y' (ui_poll C u (sensor_error y)).
Proof.
  intros I Ro R (Ha & Hr) E. destruct (menu_work_ok relaxed C y bok_relaxed I Ro) as (y1 & y2 & y3 & z & E0 & _ & _ & _ & _ & _ & E1 & I1 & R1 & E2 & I2 & R2 & E3 & _ & _ & ds & Ez).
  rewrite E in E0. apply Some_inj in E0. subst z. pose proof (limit_ok C y u y1 I Ro R Ha E1) as L1.
  destruct (timeouts_ok relaxed C y I Ro) as (z & Ez1 & _ & _ & _ & Sd & _). rewrite E1 in Ez1. apply Some_inj in Ez1. subst z.
  destruct (errors_ok relaxed C y1 I1 R1) as (Ie & Re & _).
  pose proof (heat_ok C _ _ Ie Re (error_ok C y1 _ I1 L1)) as L2. rewrite (side_error _ _ Sd), <- E2 in L2.
  assert (L3 : ui_rel C y3 (ui_ramp (ui_error (ui_limit C u) (sensor_error y)))).
  { apply (ramp_ui_ok C y2 _ y3 I2 R2 L2); [|exact E3]. assert (X : u_ramp (ui_limit C u) = u_ramp u \/ u_ramp (ui_limit C u) = RNone).
    { unfold ui_limit. destruct (menu_limit _); [|auto]. destruct (_ <=? _); [|auto]. right. reflexivity. }
    unfold ui_error. destruct (_ =? _); [|exact Logic.I]. destruct X as [->| ->]; [exact Hr|exact Logic.I]. }
  rewrite Ez. destruct L3. constructor; sy; assumption.
Qed.
Lemma same_serial x c v : same_settings x c -> same_settings (set_s_serial x v) c.
Proof. intros E. exact E. Qed.
Lemma next_rel C y u e y' : build_conf C -> sinv4 relaxed C y -> ui_rel C y u -> ev_ok C y e -> in_time u e -> is_power e = false ->
  step C y e = Some y' -> ui_rel C y' (ui_next C u (sensor_error y) e).
Proof.
  intros HC [I Ro H _] R O Ht P E. destruct e; cbn [step ui_next ev_ok] in *.
  - (* tick *)
    apply Some_inj in E. subst y'. destruct R. constructor; cbn [ui_tick u_menu u_dbg u_time u_count u_pins u_age u_ramp u_err u_iron u_idle u_boost u_cfg]; unfold sys_tick, timer_isr; sy; try assumption.
    + destruct uv_now0 as (T0 & ->). split; [lia|]. rewrite u16_shift. reflexivity.
    + clear - uv_btn0. intuition lia.
    + destruct uv_age0 as (G1 & G2). split; [lia|]. intros d Hd. rewrite (G2 d Hd). f_equal. lia.
    + destruct (u_ramp u); cbn [ramp_rel] in *; [assumption| |]; intuition (try lia); replace (u_time u + 1 - (n + 1)) with (u_time u - n) by lia; assumption.
    + destruct (u_iron u) as [n|]; cbn [iron_rel] in *; [|assumption]. replace (u_time u + 1 - (n + 1)) with (u_time u - n) by lia. intuition lia.
  - (* adc *)
    apply Some_inj in E. subst y'. destruct (m_adc (y_meas y)) eqn:Ea; [|exact R].
    destruct (adc_isr_ok relaxed C y raw I H Ea (proj1 O) (proj2 O)) as (_ & _ & _ & _ & _ & E & _). rewrite E. destruct R. constructor; sy; assumption.
  - (* ready *)
    destruct (x_eerie (y_set y)) eqn:Ee; [|apply Some_inj in E; subst; exact R]. destruct (x_busy (y_set y)) eqn:Eb; [apply Some_inj in E; subst; exact R|].
    destruct (set_ready C HC relaxed (y_set y) (i_set _ _ _ I) (proj2 bok_relaxed) Ee Eb) as (x' & E1 & _ & Ec & _). rewrite E1 in E. apply Some_inj in E. subst y'.
    destruct R. constructor; sy; rewrite ?Ec; assumption.
  - (* done *)
    apply Some_inj in E. subst y'.
    assert (Ec : x_cache (ee_prog_done (y_set y)) = x_cache (y_set y)) by (unfold ee_prog_done; destruct (x_busy (y_set y)) as [[? ?]|]; reflexivity).
    destruct R. constructor; sy; rewrite ?Ec; assumption.
  - (* measure *)
    destruct (m_avail (y_meas y)) eqn:Ea.
    2: { rewrite (measure_idle relaxed C y I Ea) in E. apply Some_inj in E. subst. exact R. }
    destruct (i_meas _ _ _ I) as ((c0 & c1 & Ech & _) & _).
    destruct (measure_work_ok relaxed C y c0 c1 I bok_relaxed H Ea Ech) as (z & raw & E1 & _ & (F1&F2&F3&F4&F5&F6&(b&F7)&(G1&G2&G3&G4&G5&G6&G7)) & _). rewrite E in E1. apply Some_inj in E1. subst z.
    destruct R. constructor; rewrite ?F1, ?F2, ?F3, ?F6, ?F7, ?G2, ?G3; sy; try assumption.
    revert uv_iron0. unfold iron_rel. rewrite G4, G5. auto.
  - exact (poll_ok C y u y' I Ro R Ht E).
  - (* display *)
    unfold sys_display_work in E. destruct (work_ok (y_now y) (y_hw y) (y_disp y) (i_disp _ _ _ I) (i_io _ _ _ I)) as (h' & d' & E1 & _). rewrite E1 in E. cbn [bind] in E.
    apply Some_inj in E. subst y'. destruct R. constructor; sy; assumption.
  - exact (sample_ok C y u pinb y' I Ro R O Ht E).
  - (* settings *)
    apply Some_inj in E. subst y'. unfold sys_settings_work. destruct (work_serial C (y_now y) (y_set y)) as (v & Ec).
    destruct R. constructor; sy; rewrite ?Ec; assumption.
  - discriminate P.
Qed.
Lemma start_rel C x k a pinb : is_u8 pinb ->
  ui_rel C (booted C x k a (c_debug C && button_is_pressed pinb BUTTON_SET)) (ui_start C pinb (x_cache x)).
Proof.
  intros Hp. unfold ui_start, booted. replace (button_is_pressed pinb BUTTON_SET) with (down pinb BUTTON_SET) by (symmetry; apply raw_bits; exact Hp).
  set (p := c_debug C && down pinb BUTTON_SET). clearbody p.
  constructor; cbn [u_menu u_dbg u_time u_count u_pins u_age u_ramp u_err u_iron u_idle u_boost u_cfg]; sy; try reflexivity.
  - split; [lia|reflexivity].
  - split; [lia|]. split; [lia|]. split; [reflexivity|]. split; [reflexivity|unfold is_u8; lia].
  - split; [lia|]. destruct p; discriminate.
Qed.
Lemma ui_reach C y u : build_conf C -> ui_run C y u -> reach C y /\ ui_rel C y u.
Proof.
  intros HC R. induction R as [pinb y Hp E|y v pinb y' R O E|y u e y' R IH O Ht P E].
  - split; [exact (reach_boot C pinb y Hp E)|].
    destruct (set_factory C HC) as (x & Ex & Sx & _). destruct (boot_s4 strict C _ x pinb bok_strict Ex Sx) as (y1 & E1 & _ & k & a & p & Ey & Ep).
    rewrite E in E1. apply Some_inj in E1. subst y1 p y. apply start_rel. exact Hp.
  - split; [exact (reach_step C y _ y' R O E)|]. pose proof (reach_s4 C y HC R) as [I _ _ _]. cbn [step ev_ok] in *.
    destruct (set_power C HC relaxed (y_set y) v (i_set _ _ _ I) (proj1 O) (proj2 (proj2 O))) as (x & Ex & Sx & _).
    destruct (boot_s4 relaxed C _ x pinb bok_relaxed Ex Sx) as (y1 & E1 & _ & k & a & p & Ey & Ep).
    rewrite E in E1. apply Some_inj in E1. subst y1 p y'. apply start_rel. apply O.
  - destruct IH as (Rc & Rl). split; [exact (reach_step C y e y' Rc O E)|]. exact (next_rel C y u e y' HC (reach_s4 C y HC Rc) Rl O Ht P E).
Qed.
Lemma rel_shows C y u : ui_rel C y u -> shows C y u.
Proof.
  intros []. unfold shows. repeat (split; [assumption|]). split; [intros _; assumption|]. split; [assumption|].
  destruct (u_ramp u) as [|[] n|[] n k]; cbn [ramp_rel rphase_of] in *; [rewrite uv_ramp0; reflexivity|..]; destruct uv_ramp0 as (-> & _); reflexivity.
Qed.
Lemma ui_refines C y u : build_conf C -> ui_run C y u -> shows C y u.
Proof. intros HC R. apply rel_shows. apply ui_reach; assumption. Qed.
