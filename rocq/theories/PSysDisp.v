(** * Invariant of the running firmware, part 4: display *)
From Coq Require Import ZArith List Bool Lia ZifyBool.
From Verif Require Import Base PBase MConf MUtil MFixpt MScale MRing MFilter MTimer MPid MPwm MTempMap MCurr MSens
  SpecNum SpecPid SpecSmall PNum PSmall PScale PPid SpecCurr PCurr MSettings SpecSettings PSettings PSysSet
  MSseg MDisplay MText MState MTemp MMeas MMenu MMain SpecDisplay PDisplay SpecSys PSys PSysMeas PSysMenu.
Import ListNotations.
Open Scope Z_scope.
Ltac Zify.zify_post_hook ::= Z.div_mod_to_equations.

(** ** Port registers *)
Lemma clr8_all p : clr8 p 255 = 0.
Proof. unfold clr8. change (u8 (Z.lnot 255)) with 0. rewrite Z.land_0_r. reflexivity. Qed.
Lemma seg_value p s : is_u8 s -> or8 (clr8 p 255) (u8 (Z.land (u8 (Z.lnot s)) 255)) = 255 - s.
Proof.
  unfold is_u8. intros H. rewrite clr8_all. unfold or8. rewrite Z.lor_0_l. change 255 with (Z.ones 8) at 1. rewrite Z.land_ones by lia.
  change (2 ^ 8) with 256. unfold u8, Z.lnot, Z.pred. lia.
Qed.

Lemma enable_ok now h d en : disp_inv d -> io_ok h d ->
  exists h' d', display_enable now h d en = Some (h', d') /\ disp_inv d' /\ io_ok h' d' /\ d_enabled d' = en /\
    h_tx h' = h_tx h /\ (en = d_enabled d -> h' = h /\ d' = d) /\ (en = false -> d_digits d' = d_digits d).
Proof.
  intros D Io. unfold display_enable. destruct (Bool.eqb en (d_enabled d)) eqn:Ee.
  - apply eqb_prop in Ee. exists h, d. split; [reflexivity|]. split; [exact D|]. split; [exact Io|]. auto.
  - assert (Hne : en <> d_enabled d) by (intros X; subst en; rewrite eqb_reflx in Ee; discriminate).
    destruct D as (Hm & g0 & g1 & g2 & g3 & Ed & (A1&A2&A3) & (B1&B2&B3) & (C1&C2&C3) & (D1&D2&D3) & F0 & F1 & F3).
    destruct d as [den dds dm dt]. cbn [d_enabled d_digits d_mux d_timer] in *. subst dds.
    destruct g0 as [[i0 s0 m0] f0 o0], g1 as [[i1 s1 m1] f1 o1], g2 as [[i2 s2 m2] f2 o2], g3 as [[i3 s3 m3] f3 o3].
    cbn [g_sseg dd_iomap dd_mask dd_set g_dpforce] in *. subst. destruct h as [pb db pc dc pd ddd tx].
    unfold io_ok in Io. cbn [d_enabled h_portb h_ddrb h_portc h_ddrc h_portd h_ddrd d_mux] in Io.
    destruct en, den; try congruence.
    + destruct Io as (-> & -> & -> & -> & -> & ->). eexists _, _. split; [lazy; reflexivity|].
      split. { split; [exact Hm|]. eexists _, _, _, _. split; [reflexivity|]. unfold dd_ok, is_u8. cbn. repeat split; lia. }
      unfold io_ok, is_u8. cbn [d_enabled h_portb h_ddrb h_portc h_ddrc h_portd h_ddrd d_mux h_tx].
      split; [repeat (split; [first [reflexivity|lia]|]); left; split; reflexivity|]. repeat split; try discriminate.
    + destruct Io as (-> & -> & -> & Hd & Hp).
      cbv beta iota zeta delta [set_d_enabled exit_digits sseg_exit bind d_digits g_sseg dd_iomap im_segport im_muxport im_muxmask dd_mask
        get_port set_port get_ddr set_ddr set_h_portb set_h_portc set_h_portd set_h_ddrb set_h_ddrc set_h_ddrd
        h_portb h_portc h_portd h_ddrb h_ddrc h_ddrd h_tx d_mux d_timer].
      rewrite !clr8_all.
      match goal with |- exists h' d', Some (?x, ?z) = _ /\ _ => exists x, z end. split; [reflexivity|].
      split. { split; [exact Hm|]. eexists _, _, _, _. split; [reflexivity|]. unfold dd_ok. cbn [g_sseg dd_iomap dd_mask dd_set g_dpforce].
               repeat (split; [split; [reflexivity|split; [reflexivity|assumption]]|]). repeat split. }
      unfold io_ok. cbn [d_enabled h_portb h_ddrb h_portc h_ddrc h_portd h_ddrd d_mux h_tx].
      split; [|split; [reflexivity|split; [reflexivity|split; [discriminate|reflexivity]]]].
      destruct Hp as [(-> & ->)|[(_ & -> & ->)|[(_ & -> & ->)|[(_ & -> & ->)|(_ & -> & ->)]]]]; repeat (split; [vm_compute; reflexivity|]); vm_compute; reflexivity.
Qed.

Lemma zget4 {A} (a b c d : A) : zget [a; b; c; d] 0 = Some a /\ zget [a; b; c; d] 1 = Some b /\ zget [a; b; c; d] 2 = Some c /\ zget [a; b; c; d] 3 = Some d.
Proof. repeat split. Qed.
(** The multiplexer: when due, exactly the next digit is switched on, with its own segments. *)
Lemma work_ok now h d : disp_inv d -> io_ok h d ->
  exists h' d', display_work now h d = Some (h', d') /\ disp_inv d' /\ io_ok h' d' /\ d_enabled d' = d_enabled d /\
    h_tx h' = h_tx h /\ d_digits d' = d_digits d /\
    (if d_enabled d && timer_expired now (d_timer d)
     then d_mux d' = (d_mux d + 1) mod 4 /\ d_timer d' = u16 (d_timer d + 1) /\
          (exists g, zget (d_digits d) (d_mux d') = Some g /\ h_portd h' = 255 - dd_set (g_sseg g)) /\
          h_portc h' = nth (Z.to_nat (d_mux d')) [9; 17; 33; 1] 0 /\ h_portb h' = nth (Z.to_nat (d_mux d')) [127; 127; 127; 255] 0
     else h' = h /\ d' = d).
Proof.
  intros D Io. unfold display_work, display_writes. destruct (d_enabled d) eqn:Ee; cbn [negb andb].
  2: { exists h, d. split; [reflexivity|]. split; [exact D|]. split; [exact Io|]. auto. }
  destruct (timer_expired now (d_timer d)); cbn [negb].
  2: { exists h, d. split; [reflexivity|]. split; [exact D|]. split; [exact Io|]. auto. }
  unfold DISPLAY_MUX_PERIOD_MS. rewrite add_ok by lia. cbn [bind].
  destruct D as (Hm & g0 & g1 & g2 & g3 & Ed & (A1&A2&A3) & (B1&B2&B3) & (C1&C2&C3) & (D1&D2&D3) & F0 & F1 & F3).
  destruct d as [den dds dm dt]. cbn [d_enabled d_digits d_mux d_timer set_d_timer set_d_mux] in *. subst dds den.
  destruct g0 as [[i0 s0 m0] f0 o0], g1 as [[i1 s1 m1] f1 o1], g2 as [[i2 s2 m2] f2 o2], g3 as [[i3 s3 m3] f3 o3].
  cbn [g_sseg dd_iomap dd_mask dd_set g_dpforce] in *. subst. destruct h as [pb db pc dc pd ddd tx].
  unfold io_ok in Io. cbn [d_enabled h_portb h_ddrb h_portc h_ddrc h_portd h_ddrd d_mux] in Io. destruct Io as (-> & -> & -> & Hd & Hp).
  change (DISPLAY_NR_DIGITS - 1) with 3.
  assert (Hmm : dm = 0 \/ dm = 1 \/ dm = 2 \/ dm = 3) by lia.
  destruct Hmm as [->|[->|[->| ->]]];
    [change (ring_next 0 3) with 1|change (ring_next 1 3) with 2|change (ring_next 2 3) with 3|change (ring_next 3 3) with 0];
    rewrite ?(proj1 (zget4 _ _ _ _)), ?(proj1 (proj2 (zget4 _ _ _ _))), ?(proj1 (proj2 (proj2 (zget4 _ _ _ _)))), ?(proj2 (proj2 (proj2 (zget4 _ _ _ _))));
    cbv beta iota zeta delta [sseg_multiplex mux_write segment_write bind last g_sseg dd_iomap im_segport im_muxport im_muxmask im_muxpol im_segpol dd_mask dd_set
        get_port set_port set_h_portb set_h_portc set_h_portd h_portb h_portc h_portd h_ddrb h_ddrc h_ddrd h_tx];
    rewrite seg_value by assumption; eexists _, _; (split; [reflexivity|]);
    (split; [split; [cbn; lia|]; eexists _, _, _, _; split; [reflexivity|]; unfold dd_ok; cbn; repeat split; assumption || (unfold is_u8 in *; lia)|]);
    unfold io_ok; cbn [d_enabled h_portb h_ddrb h_portc h_ddrc h_portd h_ddrd d_mux h_tx d_digits d_timer];
    destruct Hp as [(-> & ->)|[(Q & -> & ->)|[(Q & -> & ->)|[(Q & -> & ->)|(Q & -> & ->)]]]]; try discriminate Q;
    (split; [do 3 (split; [reflexivity|]); split; [unfold is_u8 in *; lia|]; lazy; tauto|]);
    do 5 (split; [reflexivity|]); (split; [eexists; split; reflexivity|split; reflexivity]).
Qed.

(** ** Texts *)
Definition ch (c : Z) : Prop := 1 <= c <= 127.
Lemma digits_ch l : Forall is_digit l -> Forall ch l.
Proof. apply Forall_impl. unfold is_digit, ch. intros; lia. Qed.
Lemma right_ch w n l : right_aligned w n l -> Forall ch l.
Proof.
  intros (pad & sg & ds & -> & _ & Hp & -> & (_ & Hd & _)). apply Forall_app. split; [|apply Forall_app; split; [|apply digits_ch; exact Hd]].
  - eapply Forall_impl; [|exact Hp]. unfold ch. intros; subst; lia.
  - destruct (n <? 0); repeat constructor; unfold ch; lia.
Qed.
Lemma zero_ch w n l : zero_filled w n l -> Forall ch l.
Proof. intros (_ & H & _). apply digits_ch; exact H. Qed.

Lemma temp_ok temp sym : -100000 <= temp <= 100000 -> (length sym <= 2)%nat -> Forall ch sym ->
  exists s rest, menu_put_temp disp_buf temp sym = Some (map Some (s ++ [0]) ++ rest) /\ temp_text temp sym s /\ Forall ch s.
Proof.
  intros H L F. destruct (put_temp_ok temp sym) as (n & l & rest & N & R & E & _); [lia|exact L|].
  exists (l ++ sym), rest. split; [rewrite E, <- app_assoc; reflexivity|]. split; [exists n, l; auto|].
  apply Forall_app. split; [eapply right_ch; eassumption|exact F].
Qed.
Lemma gain2_ok v : 0 <= v <= 8388607 ->
  exists s, menu_put_fixpt disp_buf v 2 = Some (map Some (s ++ [0]) ++ []) /\ gain2_text v s /\ Forall ch s.
Proof.
  intros H. destruct (put_fixpt2_ok v H) as (i & f & l1 & l2 & -> & Hf & R & Zf & E). exists (l1 ++ [46] ++ l2).
  split; [rewrite E, app_nil_r, <- !app_assoc; reflexivity|]. split; [exists f, l1, l2; auto|].
  apply Forall_app. split; [eapply right_ch; eassumption|]. apply Forall_app. split; [repeat constructor; unfold ch; lia|eapply zero_ch; eassumption].
Qed.
Lemma gain3_ok v : 0 <= v <= 8388607 ->
  exists s, menu_put_fixpt disp_buf v 3 = Some (map Some (s ++ [0]) ++ []) /\ gain3_text v s /\ Forall ch s.
Proof.
  intros H. destruct (put_fixpt3_ok v H) as (i & f & l1 & l2 & -> & Hf & R & Zf & E). exists (l1 ++ [46] ++ l2).
  split; [rewrite E, app_nil_r, <- !app_assoc; reflexivity|]. split; [exists f, l1, l2; auto|].
  apply Forall_app. split; [eapply right_ch; eassumption|]. apply Forall_app. split; [repeat constructor; unfold ch; lia|eapply zero_ch; eassumption].
Qed.
Lemma zget_nth {A} (l : list A) i v d : zget l i = Some v -> nth (Z.to_nat i) l d = v.
Proof. unfold zget. destruct (i <? 0); [discriminate|]. intros H. apply nth_error_nth. exact H. Qed.

Ltac chs := repeat constructor; unfold ch; lia.
Lemma menu_text_ok B C y : inv B C y -> bok B ->
  exists s rest sh, menu_text C y = Some (map Some (s ++ [0]) ++ rest, sh) /\ Forall ch s /\
    picture C y s (if sh then n_heating (y_menu y) else false).
Proof.
  intros I (HB1 & HB2). destruct (i_menu _ _ _ I) as (Al & _ & Er). destruct (i_set _ _ _ I) as (_ & R0 & _). pose proof (rng_le _ _ C _ HB2 R0) as R.
  destruct (i_ct _ _ _ I) as (_ & _ & _ & _ & _ & _ & Tf).
  destruct (rng_preset_get relaxed C _ R) as (a & Ea & Ba). cbn in Ba.
  destruct (rng_gain_get relaxed C _ (bm C (y_ct y)) R (bm_valid B C y I)) as (k & Ek & Gk).
  assert (Uk : used_gains C y = k) by (unfold used_gains; apply zget_nth; exact Ek).
  assert (Ba' : 0 <= s_active (x_cache (y_set y)) <= 5 /\ 0 <= s_idle (x_cache (y_set y)) <= 32767 /\ -100000 <= s_adj (x_cache (y_set y)) <= 100000).
  { destruct R as (_ & Bi & _ & Bact & Badj & _). cbn in Bi, Badj. lia. }
  unfold gain_rng in Gk. cbn in Gk.
  unfold menu_text, picture. cbv zeta. rewrite Uk. destruct (n_state (y_menu y)) eqn:Es; cbn [allowed] in Al; rewrite ?Al; cbn [negb].
  - destruct (n_err (y_menu y) =? 0) eqn:En; cbn [negb].
    + destruct (temp_ok (t_feedback (y_ct y)) (mode_symbol C (y_ct y))) as (s & rest & E & T & F); [lia| | |].
      { unfold mode_symbol. repeat match goal with |- context [if ?c then _ else _] => destruct c end; cbn; lia. }
      { unfold mode_symbol. repeat match goal with |- context [if ?c then _ else _] => destruct c end; chs. }
      exists s, rest, true. split; [|split; [exact F|split; [exact T|reflexivity]]].
      assert (Sm : (if contrtemp_is_idle C y then STR_L_DOT else if c_boost C && (contrtemp_get_boost_mode C y =? 1) then STR_B_DOT
        else if c_boost C && (contrtemp_get_boost_mode C y =? 2) then STR_8_DOT else STR_C_DOT) = mode_symbol C (y_ct y)).
      { rewrite is_idle_eq. unfold mode_symbol, contrtemp_get_boost_mode. destruct (c_boost C); reflexivity. }
      rewrite Sm, E. reflexivity.
    + assert (Hv : n_err (y_menu y) = 1 \/ n_err (y_menu y) = 2 \/ n_err (y_menu y) = 3) by lia.
      exists [69; 114; 114; 48 + n_err (y_menu y)], [None], false. split; [destruct Hv as [->|[->| ->]]; reflexivity|].
      split; [repeat constructor; unfold ch; lia|]. split; reflexivity.
  - destruct (temp_ok a [49 + s_active (x_cache (y_set y)); 46]) as (s & rest & E & T & F); [lia|cbn; lia|chs|].
    exists s, rest, true. unfold presets_get_active_value, presets_get_active_index, get_settings. rewrite Ea. cbn [bind]. rewrite u8_id by lia.
    rewrite E. split; [reflexivity|]. split; [exact F|]. rewrite (zget_nth _ _ _ 0 Ea). split; [exact T|reflexivity].
  - destruct (temp_ok a [49 + s_active (x_cache (y_set y)); 46]) as (s & rest & E & T & F); [lia|cbn; lia|chs|].
    exists s, rest, true. unfold presets_get_active_value, presets_get_active_index, get_settings. rewrite Ea. cbn [bind]. rewrite u8_id by lia.
    rewrite E. split; [reflexivity|]. split; [exact F|]. rewrite (zget_nth _ _ _ 0 Ea). split; [exact T|reflexivity].
  - destruct (temp_ok (s_idle (x_cache (y_set y))) STR_L) as (s & rest & E & T & F); [lia|cbn; lia|chs|].
    exists s, rest, true. unfold get_settings. rewrite E. split; [reflexivity|]. split; [exact F|]. split; [exact T|reflexivity].
  - exists [68; 66; 71], [None; None], true. split; [reflexivity|]. split; [chs|]. split; reflexivity.
  - exists [65; 68; 74; 67; 46], [], false. split; [reflexivity|]. split; [chs|]. split; reflexivity.
  - destruct (i_meas _ _ _ I) as ((c0 & c1 & Ech & A0 & A1) & _). rewrite Al in A1.
    destruct (temp_ok (s_adj (x_cache (y_set y))) STR_C_DOT) as (s & rest & E & T & F); [lia|cbn; lia|chs|].
    exists s, rest, false. unfold meastemp_adjust_get, measure_adjust_get, MEAS_CHAN_TEMP. rewrite Al, Ech. change (zget [c0; c1] 1) with (Some c1).
    cbn [bind]. rewrite A1, E. split; [reflexivity|]. split; [exact F|]. split; [exact T|reflexivity].
  - exists [32; 80], [None; None; None], false. split; [reflexivity|]. split; [chs|]. split; reflexivity.
  - destruct (gain2_ok (kp k)) as (s & E & T & F); [lia|]. exists s, [], false.
    change (contrtemp_get_boost_mode C y) with (bm C (y_ct y)). unfold get_settings. rewrite Ek. cbn [bind]. rewrite E. split; [reflexivity|]. split; [exact F|]. split; [exact T|reflexivity].
  - exists [32; 73], [None; None; None], false. split; [reflexivity|]. split; [chs|]. split; reflexivity.
  - destruct (gain3_ok (ki k)) as (s & E & T & F); [lia|]. exists s, [], false.
    change (contrtemp_get_boost_mode C y) with (bm C (y_ct y)). unfold get_settings. rewrite Ek. cbn [bind]. rewrite E. split; [reflexivity|]. split; [exact F|]. split; [exact T|reflexivity].
  - exists [32; 68], [None; None; None], false. split; [reflexivity|]. split; [chs|]. split; reflexivity.
  - destruct (gain2_ok (kd k)) as (s & E & T & F); [lia|]. exists s, [], false.
    change (contrtemp_get_boost_mode C y) with (bm C (y_ct y)). unfold get_settings. rewrite Ek. cbn [bind]. rewrite E. split; [reflexivity|]. split; [exact F|]. split; [exact T|reflexivity].
Qed.

(** Drawing the picture: only the digits change. *)
Lemma update_display_ok B C y : inv B C y -> bok B ->
  exists ds s lamp, menu_update_display C y = Some (set_y_disp y (set_d_digits (y_disp y) ds)) /\
    inv B C (set_y_disp y (set_d_digits (y_disp y) ds)) /\ picture C y s lamp /\ drawn ds s lamp.
Proof.
  intros I HB. destruct (menu_text_ok B C y I HB) as (s & rest & sh & E & F & P). set (lamp := if sh then n_heating (y_menu y) else false) in *.
  destruct (i_disp _ _ _ I) as (Hm & g0 & g1 & g2 & g3 & Ed & A & B' & C' & D' & F0 & F1 & F3).
  unfold menu_update_display. rewrite E. cbn [bind]. fold lamp. unfold display_force_dp. rewrite Ed. change (zget [g0; g1; g2; g3] 2) with (Some g2). cbn [bind].
  change (zupd [g0; g1; g2; g3] 2 ?z) with (Some [g0; g1; z; g3]). cbn [bind].
  set (g2' := set_g_dpon (set_g_dpforce g2 true) lamp). set (d1 := set_d_digits (y_disp y) [g0; g1; g2'; g3]).
  destruct A as (A1&A2&A3), B' as (B1&B2&B3), C' as (C1&C2&C3), D' as (D1&D2&D3).
  destruct (display_show_ok d1 s rest) as (d' & E' & X1 & X2 & X3 & X4 & X5).
  { unfold wired, d1. cbn [d_digits set_d_digits map]. unfold g2'. cbn [g_sseg set_g_dpon set_g_dpforce]. rewrite A1, B1, C1, D1. reflexivity. }
  { exact F. }
  assert (Ed' : d' = set_d_digits (y_disp y) (d_digits d')).
  { clear - X1 X2 X3. destruct d' as [e ds m t]. unfold d1 in *. cbn [d_enabled d_mux d_timer d_digits set_d_digits] in *.
    unfold set_d_digits. rewrite X1, X2, X3. reflexivity. }
  destruct (X5 0%nat g0 eq_refl) as (v0 & N0 & H0). destruct (X5 1%nat g1 eq_refl) as (v1 & N1 & H1).
  destruct (X5 2%nat g2' eq_refl) as (v2 & N2 & H2). destruct (X5 3%nat g3 eq_refl) as (v3 & N3 & H3). clear X5.
  assert (El : d_digits d' = [set_g_sseg g0 (set_dd_set (g_sseg g0) v0); set_g_sseg g1 (set_dd_set (g_sseg g1) v1);
                              set_g_sseg g2' (set_dd_set (g_sseg g2') v2); set_g_sseg g3 (set_dd_set (g_sseg g3) v3)]).
  { destruct (d_digits d') as [|a [|b [|c [|e [|? ?]]]]]; cbn in X4; try discriminate X4. cbn [nth_error] in N0, N1, N2, N3.
    apply Some_inj in N0, N1, N2, N3. rewrite N0, N1, N2, N3. reflexivity. }
  assert (U : is_u8 v0 /\ is_u8 v1 /\ is_u8 v2 /\ is_u8 v3).
  { repeat match goal with H : let '(_, _) := ?g in _ |- _ => destruct g; destruct H as (H & _) end. auto. }
  exists (d_digits d'), s, lamp. rewrite E'. cbn [bind]. rewrite <- Ed'. split; [reflexivity|]. split; [|split; [exact P|]].
  - destruct I as [? ? ? ? ? ? ? ? ? ? ? ? Io Db]. constructor; sy; try assumption.
    + split; [rewrite X2; exact Hm|]. rewrite El. eexists _, _, _, _. split; [reflexivity|]. unfold dd_ok, g2'. cbn.
      destruct U as (?&?&?&?). do 4 (split; [split; [assumption|split; assumption]|]). auto.
    + unfold io_ok in *. rewrite X1, X2. exact Io.
    + unfold dbg_inv in *. rewrite X1. exact Db.
  - split; [rewrite El; reflexivity|]. rewrite El. intros i g Hg.
    destruct i as [|[|[|[|i]]]]; cbn in Hg; [| | | |destruct i; discriminate]; apply Some_inj in Hg; subst g; cbn [g_sseg dd_set set_g_sseg set_dd_set Nat.eqb].
    + rewrite F0 in H0. unfold glyph_at in *. destruct (nth_error _ _) as [[? ?]|]; exact H0.
    + rewrite F1 in H1. unfold glyph_at in *. destruct (nth_error _ _) as [[? ?]|]; exact H1.
    + exact H2.
    + rewrite F3 in H3. unfold glyph_at in *. destruct (nth_error _ _) as [[? ?]|]; exact H3.
Qed.

(** ** Debug mode *)
Lemma debug_enable_ok B C y en : inv B C y -> n_state (y_menu y) = MENU_DEBUG -> c_debug C = true ->
  exists y', debug_enable C y en = Some y' /\ inv B C y' /\ side_frame y y' /\
    y_menu y' = y_menu y /\ y_btn y' = y_btn y /\ y_set y' = y_set y /\ y_dbg y' = en /\ y_ct y' = y_ct y /\ y_meas y' = y_meas y /\
    y_cc y' = y_cc y /\ (en = true -> d_digits (y_disp y') = d_digits (y_disp y)).
Proof.
  intros I Hs Hc. destruct (enable_ok (y_now y) (y_hw y) (y_disp y) (negb en) (i_disp _ _ _ I) (i_io _ _ _ I)) as (h' & d' & E & D & Io & X1 & X2 & X3 & X4).
  unfold debug_enable. rewrite Hc. sy. rewrite E. sy. eexists. split; [reflexivity|].
  split. { destruct I as [? ? ? ? ? ? ? ? ? ? ? ? ? ?]. constructor; sy; try assumption.
           unfold dbg_inv. split; [auto|]. split; [exact X1|reflexivity]. }
  split. { unfold side_frame. sy. repeat (split; [reflexivity|]). split; [apply meas_side_refl|].
           repeat (split; [reflexivity|]). left; repeat split; reflexivity. }
  sy. repeat (split; [reflexivity|]). intros ->. apply X4. reflexivity.
Qed.
