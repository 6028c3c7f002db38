(** * The pins between two writes (C102) *)
From Coq Require Import ZArith List Bool Lia ZifyBool.
From Verif Require Import Base PBase MConf MTimer MPid MCurr MSettings SpecSettings MSseg MDisplay MState MTemp MMeas MMenu MMain SpecDisplay SpecSys SpecEye
  PDisplay PSys PSysDisp PSysRun PSysSafe PEye PSettingsEx MPins MUart SpecUart PUart SpecPins.
Import ListNotations.
Open Scope Z_scope.
Ltac Zify.zify_post_hook ::= Z.div_mod_to_equations.

(** ** Power-up *)
Definition all_dark (h : hw) : bool := forallb (fun i => negb (driven h i)) [0; 1; 2; 3].
Definition calmb (h : hw) : bool :=
  all_dark h && (negb (high (h_ddrb h) 1) || high (h_portb h) 1) && forallb (fun b => negb (high (h_ddrb h) b)) [0; 2; 3; 4] &&
  forallb (fun b => negb (high (h_ddrc h) b)) [1; 2] && (negb (h_tx h) || negb (high (h_ddrd h) 1)).
Lemma all_dark_ok h : all_dark h = true -> dark h.
Proof.
  unfold all_dark. cbn [forallb]. rewrite !andb_true_iff, !negb_true_iff. intros (A & B & D & E & _) i Hi.
  assert (K : i = 0 \/ i = 1 \/ i = 2 \/ i = 3) by lia. destruct K as [-> | [-> | [-> | ->]]]; assumption.
Qed.
Lemma calmb_ok h : calmb h = true -> calm_pins h.
Proof.
  unfold calmb. rewrite !andb_true_iff. intros ((((A & B) & D) & E) & F). split; [apply all_dark_ok; exact A|].
  split. { intros K. rewrite K in B. exact B. }
  rewrite forallb_forall in D, E. split. { intros b Hb. apply negb_true_iff. apply D; exact Hb. }
  split. { intros b Hb. apply negb_true_iff. apply E; exact Hb. }
  intros K. rewrite K in F. apply negb_true_iff. exact F.
Qed.
Definition conf_with (d : bool) (C : conf) : Prop := c_debug C = d.
(** The writes depend on two bits only. *)
Definition bw (dbg p : bool) : option (list hw) :=
  let l0 := buttons_init_writes hw_reset in
  let h0 := last l0 hw_reset in
  '(l1, d) <- (if dbg then
                 '(l, d) <- ('(l, d) <- display_enable_writes 0 (set_h_tx h0 false) disp_zero true ;; Some (l ++ [set_h_tx (last l (set_h_tx h0 false)) false], d)) ;;
                 Some (set_h_tx h0 false :: l, d)
               else Some ([], disp_zero)) ;;
  let h1 := last l1 h0 in
  '(l2, d) <- display_enable_writes 0 h1 d true ;;
  let h2 := last l2 h1 in
  let l3 := pwmcurr_init_writes h2 in
  let h3 := last l3 h2 in
  '(l4, d) <- (if dbg && p then '(l, d) <- display_enable_writes 0 h3 d false ;; Some (l ++ [set_h_tx (last l h3) true], d) else Some ([], d)) ;;
  let h4 := last l4 h3 in
  Some (l0 ++ l1 ++ l2 ++ l3 ++ l4 ++ unused_pins_init_writes h4).
Lemma bw_eq C pinb : boot_writes C pinb = bw (c_debug C) (button_is_pressed pinb BUTTON_SET).
Proof.
  unfold boot_writes, bw, debug_enable_writes. destruct (c_debug C); cbn [andb negb]; [|reflexivity].
  destruct (button_is_pressed pinb BUTTON_SET); reflexivity.
Qed.
Definition bw_check (dbg p : bool) : bool :=
  match bw dbg p with
  | Some l => forallb calmb l && (if hw_dec (last l hw_reset) (fst (hd2 (dbg && p))) then true else false)
  | None => false
  end.
Lemma bw_ok dbg p : exists l, bw dbg p = Some l /\ Forall calm_pins l /\ last l hw_reset = fst (hd2 (dbg && p)).
Proof.
  assert (K : bw_check dbg p = true) by (destruct dbg, p; vm_compute; reflexivity).
  unfold bw_check in K. destruct (bw dbg p) as [l|]; [|discriminate K]. apply andb_true_iff in K. destruct K as (A & B). exists l.
  split; [reflexivity|]. split.
  - apply Forall_forall. intros h Hh. rewrite forallb_forall in A. apply calmb_ok. apply A; exact Hh.
  - destruct (hw_dec _ _) as [E|E]; [exact E|discriminate B].
Qed.
Lemma boot_shape C ee pinb y : boot C ee pinb = Some y -> exists x k a, settings_init C ee = Some x /\ zget (s_k (x_cache x)) 0 = Some k /\
  zget (s_preset (x_cache x)) (s_active (x_cache x)) = Some a.
Proof.
  unfold boot. cbv zeta. intros H.
  destruct (if c_debug C then _ else _) as [y1|]; cbn [bind] in H; [|discriminate H].
  destruct (settings_init C ee) as [x|]; cbn [bind] in H; [|discriminate H]. exists x.
  destruct (display_init _ _ _) as [[h d]|]; cbn [bind] in H; [|discriminate H].
  destruct (meastemp_init C _) as [y2|] eqn:E2; cbn [bind] in H; [|discriminate H].
  assert (S2 : x_cache (y_set y2) = x_cache x).
  { unfold meastemp_init, measure_adjust_set, measure_init, meascurr_init in E2. destruct (c_adj C); [|apply Some_inj in E2; subst y2; reflexivity].
    cbv zeta in E2.
    repeat match type of E2 with
           | bind ?m _ = Some _ => destruct m; cbn [bind] in E2; [|discriminate E2]
           end. apply Some_inj in E2. subst y2. reflexivity. }
  destruct (contrcurr_init _ _) as [c|]; cbn [bind] in H; [|discriminate H].
  destruct (contrtemp_init C _) as [y3|] eqn:E3; cbn [bind] in H; [|discriminate H]. clear H.
  unfold contrtemp_init, presets_get_active_value, get_settings in E3. cbv zeta in E3.
  change (y_set (set_y_cc y2 c)) with (y_set y2) in E3. rewrite S2 in E3.
  destruct (zget (s_k (x_cache x)) 0) as [k|]; cbn [bind] in E3; [|discriminate E3].
  destruct (zget (s_preset (x_cache x)) (s_active (x_cache x))) as [a|]; cbn [bind] in E3; [|discriminate E3].
  exists k, a. auto.
Qed.
Lemma pins_boot C ee pinb y : boot C ee pinb = Some y -> exists l, boot_writes C pinb = Some l /\ last l hw_reset = y_hw y /\ Forall calm_pins l.
Proof.
  intros H. destruct (boot_shape _ _ _ _ H) as (x & k & a & E1 & E2 & E3). pose proof (boot_eq C ee x k a pinb E1 E2 E3) as E.
  rewrite H in E. apply Some_inj in E. subst y. destruct (bw_ok (c_debug C) (button_is_pressed pinb BUTTON_SET)) as (l & F1 & F2 & F3).
  exists l. rewrite bw_eq. split; [exact F1|]. split; [exact F3|exact F2].
Qed.

(** ** The display on and off *)
Lemma glow_all h h1 : h_ddrd h1 = 255 -> h_portd h1 = 0 -> (forall i, driven h1 i = driven h i) -> forall i sg, 0 <= i <= 3 -> glows h1 i sg = driven h i.
Proof.
  intros A B D i sg Hi. unfold glows. rewrite A, B, D.
  assert (K : high 255 (seg_pin i sg) = true /\ high 0 (seg_pin i sg) = false).
  { assert (J : i = 0 \/ i = 1 \/ i = 2 \/ i = 3) by lia. destruct J as [-> | [-> | [-> | ->]]]; destruct sg; split; reflexivity. }
  destruct K as (-> & ->). cbn [negb]. rewrite !andb_true_r. reflexivity.
Qed.
Definition no_light (h : hw) : bool := (h_ddrd h =? 0) || all_dark h.
Lemma no_light_ok h : no_light h = true -> lightless h.
Proof.
  unfold no_light. rewrite orb_true_iff. intros [H|H] i sg Hi; unfold glows.
  - apply Z.eqb_eq in H. rewrite H. assert (K : high 0 (seg_pin i sg) = false) by (unfold high; apply Z.testbit_0_l). rewrite K, andb_false_r. reflexivity.
  - rewrite (all_dark_ok h H i Hi). reflexivity.
Qed.
Lemma light_forall l : forallb no_light l = true -> Forall lightless l.
Proof. intros H. apply Forall_forall. intros h Hh. rewrite forallb_forall in H. apply no_light_ok. apply H; exact Hh. Qed.
Lemma switch_writes now h d en : disp_inv d -> io_ok h d -> en <> d_enabled d ->
  exists l h' d', display_enable_writes now h d en = Some (l, d') /\ display_enable now h d en = Some (h', d') /\ last l h = h' /\ lightless h' /\
    if en then Forall lightless l
    else Forall (fun h' => h_tx h' = h_tx h) l /\ h_ddrd h' = 0 /\ exists h1 r, l = h1 :: r /\ Forall lightless r /\ forall i sg, 0 <= i <= 3 -> glows h1 i sg = driven h i.
Proof.
  intros D Io Hne. unfold display_enable, display_enable_writes.
  assert (Ee : Bool.eqb en (d_enabled d) = false) by (destruct en, (d_enabled d); cbn; congruence). rewrite Ee.
  destruct D as (Hm & g0 & g1 & g2 & g3 & Ed & (A1&A2&A3) & (B1&B2&B3) & (C1&C2&C3) & (D1&D2&D3) & F0 & F1 & F3).
  destruct d as [den dds dm dt]. cbn [d_enabled d_digits d_mux d_timer] in *. subst dds.
  destruct g0 as [[i0 s0 m0] f0 o0], g1 as [[i1 s1 m1] f1 o1], g2 as [[i2 s2 m2] f2 o2], g3 as [[i3 s3 m3] f3 o3].
  cbn [g_sseg dd_iomap dd_mask dd_set g_dpforce] in *. subst. destruct h as [pb db pc dc pd ddd tx].
  unfold io_ok in Io. cbn [d_enabled h_portb h_ddrb h_portc h_ddrc h_portd h_ddrd d_mux] in Io.
  destruct en, den; try congruence.
  - destruct Io as (-> & -> & -> & -> & -> & ->). eexists _, _, _. split; [lazy; reflexivity|]. split; [lazy; reflexivity|].
    split; [reflexivity|]. split; [apply no_light_ok; vm_compute; reflexivity|]. apply light_forall. reflexivity.
  - destruct Io as (-> & -> & -> & Hd & Hp).
    cbv beta iota zeta delta [set_d_enabled exit_digits sseg_exit exit_digits_writes sseg_exit_writes bind d_digits g_sseg dd_iomap im_segport im_muxport im_muxmask dd_mask
        get_port set_port get_ddr set_ddr set_h_portb set_h_portc set_h_portd set_h_ddrb set_h_ddrc set_h_ddrd
        h_portb h_portc h_portd h_ddrb h_ddrc h_ddrd h_tx d_mux d_timer last app].
    rewrite !clr8_all.
    destruct Hp as [(-> & ->)|[(_ & -> & ->)|[(_ & -> & ->)|[(_ & -> & ->)|(_ & -> & ->)]]]];
      (eexists _, _, _; split; [reflexivity|]; split; [reflexivity|]; split; [reflexivity|]; split; [apply no_light_ok; vm_compute; reflexivity|];
       split; [repeat constructor|]; split; [reflexivity|]; eexists _, _; split; [reflexivity|]; split; [apply light_forall; vm_compute; reflexivity|];
       apply glow_all; [reflexivity|reflexivity|intros i; reflexivity]).
Qed.
Lemma pins_switch C y en : build_conf C -> reach C y -> c_debug C = true -> en <> y_dbg y ->
  exists l d' y', debug_enable_writes C (y_now y) (y_hw y) (y_disp y) en = Some (l, d') /\ debug_enable C y en = Some y' /\
    y_disp y' = d' /\ last l (y_hw y) = y_hw y' /\
    if en then Forall unshared l /\ exists h1 r, l = h1 :: r /\ Forall lightless r /\ forall i sg, 0 <= i <= 3 -> glows h1 i sg = driven (y_hw y) i
    else Forall lightless l.
Proof.
  intros HC R Hd Hne. destruct (reach_dinv C y HC R) as (D1 & D2 & D3 & D4).
  assert (Hn : negb en <> d_enabled (y_disp y)) by (rewrite D3; destruct en, (y_dbg y); cbn; congruence).
  destruct (switch_writes (y_now y) (y_hw y) (y_disp y) (negb en) D1 D2 Hn) as (l & h' & d' & E1 & E2 & E3 & E4 & E5).
  unfold debug_enable_writes, debug_enable. rewrite Hd, E1. cbn [bind].
  eexists _, _, _. split; [reflexivity|]. change (y_disp (set_y_dbg y en)) with (y_disp y). change (y_hw (set_y_dbg y en)) with (y_hw y). change (y_now (set_y_dbg y en)) with (y_now y).
  rewrite E2. cbn [bind]. split; [reflexivity|]. split; [reflexivity|]. split; [rewrite last_last, E3; reflexivity|].
  assert (T : Forall lightless [set_h_tx (last l (y_hw y)) en]).
  { rewrite E3. constructor; [|constructor]. intros i sg Hi. exact (E4 i sg Hi). }
  destruct en; cbn [negb] in E5.
  - destruct E5 as (X1 & X2 & h1 & r & -> & F1 & F2). split.
    { apply Forall_app. split.
      - eapply Forall_impl; [|exact X1]. intros h Eh Et. cbv beta in Eh. rewrite Eh, D4 in Et. congruence.
      - constructor; [|constructor]. intros _. rewrite E3. cbn [set_h_tx h_ddrd]. rewrite X2. reflexivity. }
    exists h1, (r ++ [set_h_tx (last (h1 :: r) (y_hw y)) true]). split; [reflexivity|]. split; [|exact F2].
    apply Forall_app. split; [exact F1|exact T].
  - apply Forall_app. split; [exact E5|exact T].
Qed.

(** ** The transmitter *)
Lemma uart_pending w ls b : uart_run w ls b -> 0 <= pending w <= 18304.
Proof.
  intros H. destruct (run_good w ls b H) as ((U & _) & _). unfold uinv in U. unfold pending. destruct (w_buf w); lia.
Qed.
Lemma uart_silent w ls b d : uart_run w ls b -> pending w <= d -> w_wire (pass d w) = b /\ w_shift (pass d w) <= w_now (pass d w).
Proof.
  intros H Hd. pose proof (uart_pending w ls b H) as P. assert (R : uart_run (pass d w) ls (b ++ [])).
  { exact (ur_step w ls b (ACode d) (pass d w) [] H ltac:(cbn; lia) eq_refl eq_refl). }
  rewrite app_nil_r in R. destruct (uart_wire _ _ _ R) as (rest & E & L & Z).
  assert (S : w_shift (pass d w) <= w_now (pass d w)).
  { destruct (run_good w ls b H) as ((U & _) & _). unfold uinv in U. unfold pending in Hd. unfold pass. cbv zeta.
    destruct (w_buf w) as [x|]; [destruct (w_shift w <=? w_now w + d) eqn:E1|]; cbn [w_shift w_now]; try rewrite frame_eq; lia. }
  split; [|exact S]. rewrite (Z S), app_nil_r in E. symmetry. exact E.
Qed.

(** ** Cases *)
Definition late_line : action := ALine 10 [20; 20; 20; 20] 50 (Some (MDebug.fw_name MDebug.Tr)) None (Some [53]).
Lemma case_pending : exists w ls b, uart_run w ls b /\ len ls = 1 /\ 2 * 8064 < pending w.
Proof.
  assert (Ty : Forall timely [late_line]) by (repeat constructor; cbn; lia).
  let x := eval vm_compute in (play [late_line] (world0, [], [])) in
  match x with Some (?w, ?ls, ?b) => exists w, ls, b end.
  split; [eapply play_run; [exact Ty|exact ur_boot|vm_compute; reflexivity]|]. split; reflexivity.
Qed.
Definition lit_case (C : conf) : option sys := y <- boot C (factory_ee C) 255 ;; step C y EDisplay.
Definition lit_check (o : option sys) (C : conf) : bool :=
  match o with
  | Some y => negb (y_dbg y) && driven (y_hw y) 1 && negb (glows (y_hw y) 1 SA)
  | None => false
  end.
Lemma lit_check_inv o C : lit_check o C = true -> exists y, o = Some y /\ y_dbg y = false /\ driven (y_hw y) 1 = true /\ glows (y_hw y) 1 SA = false.
Proof.
  destruct o as [y|]; [|discriminate]. cbn [lit_check]. rewrite !andb_true_iff, !negb_true_iff. intros ((A & B) & D). exists y. auto.
Qed.
Lemma lit_reach C y : lit_case C = Some y -> reach C y.
Proof.
  unfold lit_case. intros E. destruct (boot C (factory_ee C) 255) as [y0|] eqn:E0; [|discriminate E]. cbn [bind] in E.
  eapply (reach_step _ _ EDisplay); [|exact I|exact E]. eapply reach_boot; [|exact E0]. unfold is_u8. lia.
Qed.
Lemma lit_facts : lit_check (lit_case conf_m328p) conf_m328p = true.
Proof. vm_compute. reflexivity. Qed.
Lemma case_lit : exists y, reach conf_m328p y /\ y_dbg y = false /\ driven (y_hw y) 1 = true /\ glows (y_hw y) 1 SA = false.
Proof. destruct (lit_check_inv _ _ lit_facts) as (y & E & A). exists y. split; [exact (lit_reach _ _ E)|exact A]. Qed.
Lemma case_flash : exists y l d' h, reach conf_m328p y /\ debug_enable_writes conf_m328p (y_now y) (y_hw y) (y_disp y) true = Some (l, d') /\
  In h l /\ glows (y_hw y) 1 SA = false /\ glows h 1 SA = true.
Proof.
  destruct case_lit as (y & R & A & B & D).
  destruct (pins_switch conf_m328p y true build_m328p R eq_refl) as (l & d' & y' & E & _ & _ & _ & _ & h1 & r & -> & _ & G); [rewrite A; discriminate|].
  exists y, (h1 :: r), d', h1. split; [exact R|]. split; [exact E|]. split; [left; reflexivity|]. split; [exact D|]. rewrite G by lia. exact B.
Qed.
