(** * Proofs about the settings access of the simulator *)
From Coq Require Import ZArith List Bool Lia ZifyBool String.
From Verif Require Import Base PBase MConf MUtil MFixpt MScale MRing MFilter MTimer MPid MPwm MTempMap MCurr MSens
  SpecNum SpecPid SpecSmall PNum PSmall PScale PPid SpecCurr PCurr MSettings SpecSettings PSettings PSysSet
  MSseg MDisplay MText MState MTemp MMeas MMenu MMain SpecDisplay SpecSys PSys PDisplay PSysMeas PSysMenu PSysDisp PSysBtn PSysStep PSysRun MSim MSimSet SpecSimSet PSim3.
Import ListNotations.
Open Scope Z_scope.
Ltac Zify.zify_post_hook ::= Z.div_mod_to_equations.

(** The invariant without the clause about the display: a write of the idle temperature is not shown at once. *)
Record sinv3 (C : conf) (y : sys) : Prop := mkS3 { s3_inv : inv strict C y; s3_ramp : ramp_ok (y_menu y); s3_hand : handover (y_meas y) }.

Lemma step3_ok C y e : build_conf C -> sinv3 C y -> ev_ok C y e -> is_power e = false -> exists y', step C y e = Some y' /\ sinv3 C y'.
Proof.
  intros HC [I Ro H] O P. pose proof bok_strict as HB. destruct e; cbn [step is_power ev_ok] in *; try discriminate P; clear P.
  - eexists. split; [reflexivity|]. constructor; [|exact Ro|exact H]. destruct I. constructor; sy; try assumption. unfold sys_tick, timer_isr. sy. apply u16_range.
  - eexists. split; [reflexivity|]. destruct (m_adc (y_meas y)) eqn:Ea; [|constructor; assumption].
    destruct (adc_isr_ok strict C y raw I H Ea (proj1 O) (proj2 O)) as (I' & H' & _ & _ & _ & E & _).
    constructor; [exact I'|rewrite E; exact Ro|exact H'].
  - destruct (x_eerie (y_set y)) eqn:Ee; [|exists y; split; [reflexivity|constructor; assumption]].
    destruct (x_busy (y_set y)) eqn:Eb; [exists y; split; [reflexivity|constructor; assumption]|].
    destruct (set_ready C HC strict (y_set y) (i_set _ _ _ I) (proj2 HB) Ee Eb) as (x' & E & Sx & Ec & _). rewrite E. cbn [bind].
    eexists. split; [reflexivity|]. constructor; [apply set_step; assumption|exact Ro|exact H].
  - eexists. split; [reflexivity|].
    assert (Ec : x_cache (ee_prog_done (y_set y)) = x_cache (y_set y)) by (unfold ee_prog_done; destruct (x_busy (y_set y)) as [[? ?]|]; reflexivity).
    constructor; [apply set_step; [exact I|apply (set_done C HC); apply (i_set _ _ _ I)|exact Ec]|exact Ro|exact H].
  - destruct (m_avail (y_meas y)) eqn:Ea.
    2: { exists y. split; [eapply measure_idle; eassumption|constructor; assumption]. }
    destruct (i_meas _ _ _ I) as ((c0 & c1 & Ech & _) & M2 & _).
    destruct (measure_work_ok strict C y c0 c1 I HB H Ea Ech) as (y' & raw & E & I' & F & H' & _).
    exists y'. split; [exact E|]. destruct F as (F1&F2&F3&F4&F5&F6&(b&F7)&F8). constructor; [exact I'|rewrite F7; exact Ro|exact H'].
  - destruct (menu_work_ok strict C y HB I Ro) as (y1 & y2 & y3 & y' & E & I' & R' & F & _).
    exists y'. split; [exact E|]. constructor; [exact I'|exact R'|eapply side_handover; eassumption].
  - unfold sys_display_work. destruct (work_ok (y_now y) (y_hw y) (y_disp y) (i_disp _ _ _ I) (i_io _ _ _ I)) as (h' & d' & E & D & Io & X1 & X2 & X3 & _).
    rewrite E. cbn [bind]. eexists. split; [reflexivity|]. constructor; [|exact Ro|exact H].
    destruct I as [? ? ? ? ? ? ? ? ? ? ? ? ? (J1 & J2 & J3)]. constructor; sy; try assumption. unfold dbg_inv. split; [exact J1|]. split; congruence.
  - destruct (buttons_ok strict C y pinb HB I Ro) as (y' & E & I' & R' & V & F & _). exists y'. split; [exact E|].
    constructor; [exact I'|exact R'|eapply side_handover; eassumption].
  - eexists. split; [reflexivity|]. unfold sys_settings_work. destruct (work_serial C (y_now y) (y_set y)) as (v & Ec).
    pose proof (set_work C HC strict (y_now y) (y_set y) (i_set _ _ _ I) O) as Sx. set (x := settings_work C (y_now y) (y_set y)) in *. clearbody x.
    constructor; [|exact Ro|exact H]. destruct I. constructor; sy; rewrite ?Ec; try assumption.
Qed.

(** ** Evaluation of the name comparisons *)
Ltac names := unfold setting_access, access_any, k_members, SETTINGS_ACCESS; cbn [String.eqb Ascii.eqb Bool.eqb bind].

Lemma store_put y s : sys_store (put_settings y s) = Some (kresettled y s).
Proof. unfold sys_store, put_settings. sy. rewrite store_eq. reflexivity. Qed.

(** ** Gains *)
Lemma kput_ok C y l : inv strict C y -> c_boost C = true -> rng strict C (set_s_k (get_settings y) l) ->
  exists k, contrtemp_update_pid_config C (kresettled y (set_s_k (get_settings y) l)) = Some (boosted C (kresettled y (set_s_k (get_settings y) l)) (bm C (y_ct y)) k) /\
    inv strict C (boosted C (kresettled y (set_s_k (get_settings y) l)) (bm C (y_ct y)) k).
Proof.
  intros I Hb R2. pose proof (bm_valid strict C y I) as Hm. destruct (rng_gain_get strict C _ _ R2 Hm) as (k & E2 & G).
  exists k. unfold contrtemp_update_pid_config. change (contrtemp_get_boost_mode C ?z) with (bm C (y_ct z)). unfold kresettled. sy. unfold get_settings in *.
  erewrite set_boost_eq by (unfold get_settings, stored; sy; exact E2). split; [reflexivity|].
  unfold boosted, stored. cbv zeta. 
  destruct I as [? ? ? (G1&G2&G3&G4&G5&G6&G7) L M ? ? ? ? S ? ? ?]. rewrite Hb. constructor; sy; try assumption.
  - unfold ct_inv, bm in *. rewrite Hb in *. sy. sy in E2. split; [exact E2|]. split; [exact G2|]. split; [exact G3|]. split; [lia|]. split; [lia|]. split; [exact G6|exact G7].
  - eapply (set_modify C strict (y_now y) (y_set y) _); [exact S|exact R2|eapply rng_le; [apply strict_relaxed|exact R2]|reflexivity|]. apply store_eq.
Qed.

Definition written (C : conf) (y : sys) (name : string) (l : slot) (v : Z) : Prop :=
  exists y', setting_access C y name v true = Some (y', v, true) /\ sinv3 C y' /\ holds (get_settings y') l = Some v /\
    (forall l', l' <> l -> holds (get_settings y') l' = holds (get_settings y) l') /\
    x_request (y_set y') = true /\ x_timer (y_set y') = u16 (y_now y + 1000) /\ rest_same y y'.

Lemma kdone C y l : sinv3 C y -> c_boost C = true -> rng strict C (set_s_k (get_settings y) l) ->
  exists y', contrtemp_update_pid_config C (kresettled y (set_s_k (get_settings y) l)) = Some y' /\ sinv3 C y' /\
    get_settings y' = set_s_k (get_settings y) l /\ x_request (y_set y') = true /\ x_timer (y_set y') = u16 (y_now y + 1000) /\ rest_same y y'.
Proof.
  intros [I Ro H] Hb R. destruct (kput_ok C y l I Hb R) as (k & E & I'). eexists. split; [exact E|]. split; [constructor; [exact I'| |]|].
  - exact Ro.
  - exact H.
  - unfold boosted, kresettled, stored, get_settings, rest_same. rewrite Hb. unfold bm. rewrite Hb. sy. repeat split; try reflexivity. destruct (y_meas y); reflexivity.
Qed.

Lemma kwritten C y name l v ks : sinv3 C y -> c_boost C = true -> rng strict C (set_s_k (get_settings y) ks) ->
  setting_access C y name v true = (y <- contrtemp_update_pid_config C (kresettled y (set_s_k (get_settings y) ks)) ;; Some (y, v, true)) ->
  holds (set_s_k (get_settings y) ks) l = Some v ->
  (forall l', l' <> l -> holds (set_s_k (get_settings y) ks) l' = holds (get_settings y) l') -> written C y name l v.
Proof.
  intros S Hb R E H1 H2. destruct (kdone C y ks S Hb R) as (y' & E' & S' & Es & X1 & X2 & X3). exists y'. rewrite E, E'. cbn [bind]. split; [reflexivity|].
  split; [exact S'|]. rewrite Es. auto.
Qed.
Lemma gains_get C y : c_boost C = true -> sinv3 C y -> exists k1 k2 k3, s_k (get_settings y) = [k1; k2; k3] /\ gain_rng strict true k1 /\ gain_rng strict true k2 /\ gain_rng strict true k3 /\
  forall q1 q2 q3, gain_rng strict true q1 -> gain_rng strict true q2 -> gain_rng strict true q3 -> rng strict C (set_s_k (get_settings y) [q1; q2; q3]).
Proof.
  intros Hb S. destruct (i_set _ _ _ (s3_inv _ _ S)) as (_ & ((k1 & k2 & k3 & Ek & G1 & G2 & G3) & R') & _). fold (get_settings y) in *. rewrite Hb in *.
  exists k1, k2, k3. repeat (split; [assumption|]). intros. split; [eexists _, _, _; split; [reflexivity|]; rewrite Hb; auto|exact R'].
Qed.
Ltac kwrite :=
  match goal with |- sim_conf ?C -> sinv3 ?C ?y -> _ => 
    let Hc := fresh in let Hs := fresh in let L := fresh in let Hb := fresh in let Ek := fresh in let G1 := fresh in let G2 := fresh in let G3 := fresh in let K := fresh in
    intros Hc Hs L; pose proof (proj1 (proj2 Hc)) as Hb; destruct (gains_get C y Hb Hs) as (? & ? & ? & Ek & G1 & G2 & G3 & K); cbn [legal] in L;
    eapply kwritten; [exact Hs|exact Hb| | | |];
    [|names; cbn [m_put m_kp m_ki m_kd m_div k_member]; rewrite Ek; unfold zget, zupd; try change (Z.to_nat 1) with 1%nat; try change (Z.to_nat 2) with 2%nat;
      cbn [zget zupd Z.ltb Z.compare Z.to_nat Pos.to_nat Pos.iter_op Init.Nat.add nth_error upd_nat bind]; rewrite s24_id by (unfold is_s24; lia); rewrite store_put; cbn [bind]; reflexivity| |];
    [apply K; try assumption; unfold gain_rng in *; cbn in *; lia|reflexivity|
     intros [i|i|i|i| |i| | |i|] N; cbn [holds set_s_k s_k s_idle s_preset s_active s_adj s_reserved s_serial]; try reflexivity;
     rewrite Ek; destruct i as [|[|[|i]]]; cbn; try reflexivity; congruence]
  end.
Lemma w_kp0 C y v : sim_conf C -> sinv3 C y -> legal (SKp 0) v -> written C y "temp_k[0].kp" (SKp 0) v. Proof. kwrite. Qed.
Lemma w_ki0 C y v : sim_conf C -> sinv3 C y -> legal (SKi 0) v -> written C y "temp_k[0].ki" (SKi 0) v. Proof. kwrite. Qed.
Lemma w_kd0 C y v : sim_conf C -> sinv3 C y -> legal (SKd 0) v -> written C y "temp_k[0].kd" (SKd 0) v. Proof. kwrite. Qed.
Lemma w_div0 C y v : sim_conf C -> sinv3 C y -> legal (SDiv 0) v -> written C y "temp_k[0].d_decay_div" (SDiv 0) v. Proof. kwrite. Qed.
Lemma w_kp1 C y v : sim_conf C -> sinv3 C y -> legal (SKp 1) v -> written C y "temp_k[1].kp" (SKp 1) v. Proof. kwrite. Qed.
Lemma w_ki1 C y v : sim_conf C -> sinv3 C y -> legal (SKi 1) v -> written C y "temp_k[1].ki" (SKi 1) v. Proof. kwrite. Qed.
Lemma w_kd1 C y v : sim_conf C -> sinv3 C y -> legal (SKd 1) v -> written C y "temp_k[1].kd" (SKd 1) v. Proof. kwrite. Qed.
Lemma w_div1 C y v : sim_conf C -> sinv3 C y -> legal (SDiv 1) v -> written C y "temp_k[1].d_decay_div" (SDiv 1) v. Proof. kwrite. Qed.
Lemma w_kp2 C y v : sim_conf C -> sinv3 C y -> legal (SKp 2) v -> written C y "temp_k[2].kp" (SKp 2) v. Proof. kwrite. Qed.
Lemma w_ki2 C y v : sim_conf C -> sinv3 C y -> legal (SKi 2) v -> written C y "temp_k[2].ki" (SKi 2) v. Proof. kwrite. Qed.
Lemma w_kd2 C y v : sim_conf C -> sinv3 C y -> legal (SKd 2) v -> written C y "temp_k[2].kd" (SKd 2) v. Proof. kwrite. Qed.
Lemma w_div2 C y v : sim_conf C -> sinv3 C y -> legal (SDiv 2) v -> written C y "temp_k[2].d_decay_div" (SDiv 2) v. Proof. kwrite. Qed.

(** ** Set-points *)
Lemma rest_resettled C y s a b : rest_same y (set_y_menu (resettled C y s a) (set_n_upd (y_menu y) b)).
Proof. unfold rest_same, resettled. sy. repeat split; try reflexivity. destruct (y_meas y); reflexivity. Qed.
Lemma menu_id y : set_n_upd (y_menu y) (n_upd (y_menu y)) = y_menu y.
Proof. destruct (y_menu y); reflexivity. Qed.
Lemma w_idle C y v : sim_conf C -> sinv3 C y -> legal SIdle v -> written C y "temp_idle_setpoint" SIdle v.
Proof.
  intros (_ & _ & Hi & _) [I Ro H] L. cbn [legal] in L. destruct (i_set _ _ _ I) as (_ & R & _). fold (get_settings y) in R.
  pose proof (rng_idle _ _ _ v R ltac:(cbn; lia)) as R2. destruct (rng_preset_get _ _ _ R2) as (a & E & _).
  assert (Es : set_s_idle (set_s_idle (get_settings y) v) v = set_s_idle (get_settings y) v) by reflexivity.
  exists (resettled C y (set_s_idle (get_settings y) v) a). split.
  - names. cbn [m_put m_idle bind]. rewrite s24_id by (unfold is_s24; lia). rewrite store_put. cbn [bind].
    unfold contrtemp_set_idle_setpoint. rewrite Hi. cbv zeta. change (get_settings (kresettled y ?s)) with s. sy. rewrite Es.
    unfold put_settings. erewrite update_setpoint_eq by (unfold get_settings at 1 2; sy; exact E). unfold sys_store. sy. rewrite store_eq. reflexivity.
  - split; [constructor; [apply (resettled_ok strict C y _ a I bok_strict R2); auto|exact Ro|exact H]|]. change (get_settings (resettled C y ?s a)) with s.
    split; [reflexivity|]. split; [intros [i|i|i|i| |i| | |i|] N; cbn; try reflexivity; congruence|]. split; [reflexivity|]. split; [reflexivity|].
    generalize (rest_resettled C y (set_s_idle (get_settings y) v) a (n_upd (y_menu y))). rewrite menu_id. destruct y; exact (fun x => x).
Qed.
Lemma presets_done C y s a : sinv3 C y -> rng strict C s -> s_serial s = s_serial (get_settings y) -> s_k s = s_k (get_settings y) -> s_adj s = s_adj (get_settings y) ->
  zget (s_preset s) (s_active s) = Some a -> let y' := set_y_menu (resettled C y s a) (set_n_upd (y_menu y) true) in
  (z <- contrtemp_update_setpoint C (kresettled y s) ;; Some (menu_request_display_update z)) = Some y' /\ sinv3 C y' /\ get_settings y' = s /\
  x_request (y_set y') = true /\ x_timer (y_set y') = u16 (y_now y + 1000) /\ rest_same y y'.
Proof.
  intros [I Ro H] R Es Ek Ea E. cbv zeta. split; [|split; [|split; [reflexivity|split; [reflexivity|split; [reflexivity|apply rest_resettled]]]]].
  - erewrite update_setpoint_eq by exact E. reflexivity.
  - constructor; [|exact Ro|exact H]. apply (inv_upd strict C (resettled C y s a)). apply (resettled_ok strict C y _ a I bok_strict R); assumption.
Qed.
Lemma bind_pair (A B : Type) (m : option A) (f : A -> A) (v : Z) : (z <- m ;; Some (f z, v, true)) = (y' <- (z <- m ;; Some (f z)) ;; Some (y', v, true)).
Proof. destruct m; reflexivity. Qed.
Lemma preset_frame s w l : (exists a b c d e f, s_preset s = [a; b; c; d; e; f]) -> 0 <= s_active s <= 5 -> zupd (s_preset s) (s_active s) w = Some l ->
  holds (set_s_preset s l) (SPreset (Z.to_nat (s_active s))) = Some w /\
  forall l', l' <> SPreset (Z.to_nat (s_active s)) -> holds (set_s_preset s l) l' = holds s l'.
Proof.
  intros (a & b & c & d & e & f & Ep) Ha E. rewrite Ep in E. cbn [holds set_s_preset s_preset].
  assert (D : s_active s = 0 \/ s_active s = 1 \/ s_active s = 2 \/ s_active s = 3 \/ s_active s = 4 \/ s_active s = 5) by lia.
  destruct D as [D|[D|[D|[D|[D|D]]]]]; rewrite D in *; cbn in E; apply Some_inj in E; subst l; (split; [reflexivity|]);
    intros [i|i|i|i| |i| | |i|] N; try reflexivity; cbn [holds set_s_preset s_preset]; rewrite Ep;
    destruct i as [|[|[|[|[|[|i]]]]]]; try reflexivity; exfalso; apply N; reflexivity.
Qed.
Lemma w_preset C y v : sim_conf C -> sinv3 C y -> legal (SPreset (Z.to_nat (s_active (get_settings y)))) v ->
  written C y "temp_setpoint" (SPreset (Z.to_nat (s_active (get_settings y)))) v.
Proof.
  intros _ S L. cbn [legal] in L. destruct (i_set _ _ _ (s3_inv _ _ S)) as (_ & R & _). fold (get_settings y) in R.
  destruct (rng_preset_set _ _ _ v R ltac:(cbn; lia)) as (l & E1 & R2 & E2).
  assert (P : exists a b c d e f, s_preset (get_settings y) = [a; b; c; d; e; f]) by (destruct R as (_ & _ & (a & b & c & d & e & f & Ep & _) & _); eauto 9).
  destruct (preset_frame _ v l P ltac:(apply R) E1) as (F1 & F2).
  destruct (presets_done C y (set_s_preset (get_settings y) l) v S R2 eq_refl eq_refl eq_refl E2) as (D1 & D2 & D3 & D4 & D5 & D6).
  eexists. split; [|split; [exact D2|]; rewrite D3; auto].
  names. cbn [m_put m_preset bind]. rewrite s24_id by (unfold is_s24; lia). rewrite E1. cbn [bind]. rewrite store_put. cbn [bind].
  rewrite bind_pair, D1 by exact Z. reflexivity.
Qed.
Lemma w_active C y v : sim_conf C -> sinv3 C y -> legal SActive v -> written C y "temp_setpoint_active" SActive v.
Proof.
  intros _ S L. cbn [legal] in L. destruct (i_set _ _ _ (s3_inv _ _ S)) as (_ & R & _). fold (get_settings y) in R.
  pose proof (rng_active _ _ _ v R L) as R2. destruct (rng_preset_get _ _ _ R2) as (a & E2 & _).
  destruct (presets_done C y (set_s_active (get_settings y) v) a S R2 eq_refl eq_refl eq_refl E2) as (D1 & D2 & D3 & D4 & D5 & D6).
  eexists. split; [|split; [exact D2|]; rewrite D3; split; [reflexivity|]; split; [intros [i|i|i|i| |i| | |i|] N; cbn; try reflexivity; congruence|auto]].
  names. cbn [m_put m_active bind]. rewrite u8_id by lia. rewrite store_put. cbn [bind].
  rewrite bind_pair, D1 by exact Z. reflexivity.
Qed.

(** ** The adjustment *)
Lemma w_adj C y v : sim_conf C -> sinv3 C y -> legal SAdj v -> written C y "temp_adj" SAdj v.
Proof.
  intros (_ & _ & _ & Ha) [I Ro H] L. cbn [legal] in L. destruct (i_set _ _ _ I) as (_ & R & _).
  destruct (i_meas _ _ _ I) as ((c0 & c1 & Ech & A0 & A1) & M2 & M3 & M4). rewrite Ha in A1.
  eexists. split.
  { names. rewrite s24_id by (unfold is_s24; lia).
    unfold meastemp_adjust_set, measure_adjust_set, MEAS_CHAN_TEMP. rewrite Ha, Ech. change (zget [c0; c1] 1) with (Some c1). cbn [bind].
    change (zupd [c0; c1] 1 ?z) with (Some [c0; z]). cbn [bind]. unfold sys_store, put_settings. sy. rewrite store_eq. cbn [bind]. reflexivity. }
  unfold menu_request_display_update, get_settings. sy.
  assert (R2 : rng strict C (set_s_adj (x_cache (y_set y)) v)) by (apply rng_adj; [exact R|cbn; lia]).
  split; [|split; [reflexivity|split; [intros [i|i|i|i| |i| | |i|] N; cbn; try reflexivity; congruence|split; [reflexivity|split; [reflexivity|]]]]].
  - constructor; [|exact Ro|exact H].
    destruct I as [? ? ? (G1&G2&G3&G4&G5&G6&G7) L' ? ? ? ? ? S ? ? ?]. constructor; sy; try assumption.
    + unfold ct_inv in *. sy. repeat (split; [assumption|]). assumption.
    + unfold meas_inv. sy. split; [|split; [exact M2|split; assumption]]. eexists _, _. split; [reflexivity|]. rewrite Ha. split; [exact A0|reflexivity].
    + eapply (set_modify C strict (y_now y) (y_set y)); [exact S|exact R2|eapply rng_le; [exact strict_relaxed|exact R2]|reflexivity|apply store_eq].
  - unfold rest_same. sy. repeat split; try reflexivity. destruct (y_ct y); reflexivity.
Qed.

Lemma write_ok C y name l v : sim_conf C -> sinv3 C y -> refers (get_settings y) name l -> legal l v -> written C y name l v.
Proof.
  intros HC S R L. destruct R; try contradiction L;
    [apply w_kp0|apply w_ki0|apply w_kd0|apply w_div0|apply w_kp1|apply w_ki1|apply w_kd1|apply w_div1|apply w_kp2|apply w_ki2|apply w_kd2|apply w_div2
    |apply w_idle|apply w_preset|apply w_active|apply w_adj]; assumption.
Qed.

(** ** Reading *)
Definition readable (C : conf) (y : sys) (name : string) (l : slot) (w : Z) : Prop :=
  exists y' v, setting_access C y name w false = Some (y', v, true) /\ holds (get_settings y) l = Some v /\ get_settings y' = get_settings y /\
    sinv3 C y' /\ after_read l y y'.
Lemma k_refresh C y : sinv3 C y -> c_boost C = true -> exists y', contrtemp_update_pid_config C y = Some y' /\ sinv3 C y' /\ get_settings y' = get_settings y /\
  after_read (SKp 0) y y'.
Proof.
  intros [I Ro H] Hb. destruct (set_boost_ok strict C y (bm C (y_ct y)) I (bm_valid strict C y I)) as (k & E1 & E2 & I').
  exists (boosted C y (bm C (y_ct y)) k). split; [exact E2|]. split; [constructor; assumption|]. split; [reflexivity|].
  destruct (i_ct _ _ _ I) as (G & _). unfold get_settings in E1. rewrite G in E1. apply Some_inj in E1. subst k.
  unfold boosted, after_read. cbv zeta. rewrite Hb. unfold bm. rewrite Hb. sy. destruct (y_ct y) as [? ? ? ? ? ? p ? ?]. sy. destruct p; reflexivity.
Qed.
Ltac kread :=
  match goal with |- sim_conf ?C -> sinv3 ?C ?y -> _ =>
    let Hc := fresh in let Hs := fresh in let Hb := fresh in let Ek := fresh in let y' := fresh in let E := fresh in let X1 := fresh in let X2 := fresh in let X3 := fresh in
    intros Hc Hs; pose proof (proj1 (proj2 Hc)) as Hb; destruct (gains_get C y Hb Hs) as (? & ? & ? & Ek & _);
    destruct (k_refresh C y Hs Hb) as (y' & E & X1 & X2 & X3); exists y'; eexists; split;
    [names; cbn [m_get m_kp m_ki m_kd m_div k_member]; rewrite Ek; unfold zget; try change (Z.to_nat 1) with 1%nat; try change (Z.to_nat 2) with 2%nat;
     cbn [Z.ltb Z.compare Z.to_nat nth_error bind]; rewrite E; reflexivity|];
    split; [cbn [holds]; rewrite Ek; reflexivity|]; split; [exact X2|]; split; [exact X1|exact X3]
  end.
Lemma r_kp0_ok C y w : sim_conf C -> sinv3 C y -> readable C y "temp_k[0].kp" (SKp 0) w. Proof. kread. Qed.
Lemma r_ki0_ok C y w : sim_conf C -> sinv3 C y -> readable C y "temp_k[0].ki" (SKi 0) w. Proof. kread. Qed.
Lemma r_kd0_ok C y w : sim_conf C -> sinv3 C y -> readable C y "temp_k[0].kd" (SKd 0) w. Proof. kread. Qed.
Lemma r_div0_ok C y w : sim_conf C -> sinv3 C y -> readable C y "temp_k[0].d_decay_div" (SDiv 0) w. Proof. kread. Qed.
Lemma r_kp1_ok C y w : sim_conf C -> sinv3 C y -> readable C y "temp_k[1].kp" (SKp 1) w. Proof. kread. Qed.
Lemma r_ki1_ok C y w : sim_conf C -> sinv3 C y -> readable C y "temp_k[1].ki" (SKi 1) w. Proof. kread. Qed.
Lemma r_kd1_ok C y w : sim_conf C -> sinv3 C y -> readable C y "temp_k[1].kd" (SKd 1) w. Proof. kread. Qed.
Lemma r_div1_ok C y w : sim_conf C -> sinv3 C y -> readable C y "temp_k[1].d_decay_div" (SDiv 1) w. Proof. kread. Qed.
Lemma r_kp2_ok C y w : sim_conf C -> sinv3 C y -> readable C y "temp_k[2].kp" (SKp 2) w. Proof. kread. Qed.
Lemma r_ki2_ok C y w : sim_conf C -> sinv3 C y -> readable C y "temp_k[2].ki" (SKi 2) w. Proof. kread. Qed.
Lemma r_kd2_ok C y w : sim_conf C -> sinv3 C y -> readable C y "temp_k[2].kd" (SKd 2) w. Proof. kread. Qed.
Lemma r_div2_ok C y w : sim_conf C -> sinv3 C y -> readable C y "temp_k[2].d_decay_div" (SDiv 2) w. Proof. kread. Qed.

Lemma r_idle_ok C y w : sim_conf C -> sinv3 C y -> readable C y "temp_idle_setpoint" SIdle w.
Proof.
  intros (_ & _ & Hi & _) [I Ro H]. destruct (i_set _ _ _ I) as (_ & R & _). fold (get_settings y) in R.
  destruct (rng_preset_get _ _ _ R) as (a & E & _).
  assert (Es : set_s_idle (get_settings y) (s_idle (get_settings y)) = get_settings y) by (destruct (get_settings y); reflexivity).
  exists (resettled C y (get_settings y) a), (s_idle (get_settings y)). split.
  - names. cbn [m_get m_idle bind]. unfold contrtemp_set_idle_setpoint. rewrite Hi. cbv zeta. rewrite Es.
    unfold put_settings. erewrite update_setpoint_eq by (unfold get_settings at 1 2; sy; exact E). unfold sys_store. sy. rewrite store_eq. reflexivity.
  - split; [reflexivity|]. split; [reflexivity|]. split; [constructor; [apply (resettled_ok strict C y _ a I bok_strict R); auto|exact Ro|exact H]|].
    destruct (i_ct _ _ _ I) as (_ & _ & _ & _ & _ & (a' & E' & Ew) & _). unfold get_settings in *. rewrite E in E'. apply Some_inj in E'. subst a'.
    cbn [after_read]. unfold resettled, stored, wanted. sy. rewrite <- Ew. destruct y as [? ? ? c ? ? ? ? x ? ? ?]. sy. destruct c as [? ? ? ? ? ? p ? ?], x. sy. destruct p; reflexivity.
Qed.
Lemma setpoint_same C y : sinv3 C y -> contrtemp_update_setpoint C y = Some y.
Proof.
  intros [I _ _]. destruct (i_ct _ _ _ I) as (_ & _ & _ & _ & _ & (a & E & Ew) & _). fold (get_settings y) in E. erewrite update_setpoint_eq by exact E. f_equal.
  unfold wanted, get_settings. rewrite <- Ew. destruct y as [? ? ? c ? ? ? ? x ? ? ?]. sy. destruct c as [? ? ? ? ? ? p ? ?]. sy. destruct p; reflexivity.
Qed.
Lemma r_preset_ok C y w : sim_conf C -> sinv3 C y -> readable C y "temp_setpoint" (SPreset (Z.to_nat (s_active (get_settings y)))) w.
Proof.
  intros _ S. pose proof (setpoint_same C y S) as Eq. destruct S as [I Ro H]. destruct (i_set _ _ _ I) as (_ & R & _). fold (get_settings y) in R.
  destruct (rng_preset_get _ _ _ R) as (a & E & _). exists (menu_request_display_update y), a. split.
  - names. cbn [m_get m_preset bind]. rewrite E. cbn [bind]. rewrite Eq. reflexivity.
  - split; [|split; [reflexivity|split; [constructor; [apply inv_upd; exact I|exact Ro|exact H]|reflexivity]]].
    cbn [holds]. unfold zget in E. destruct (_ <? 0); [discriminate E|exact E].
Qed.
Lemma r_active_ok C y w : sim_conf C -> sinv3 C y -> readable C y "temp_setpoint_active" SActive w.
Proof.
  intros _ S. pose proof (setpoint_same C y S) as Eq. destruct S as [I Ro H]. exists (menu_request_display_update y), (s_active (get_settings y)). split.
  - names. cbn [m_get m_active bind]. rewrite Eq. reflexivity.
  - split; [reflexivity|split; [reflexivity|split; [constructor; [apply inv_upd; exact I|exact Ro|exact H]|reflexivity]]].
Qed.
Lemma r_adj_ok C y w : sim_conf C -> sinv3 C y -> readable C y "temp_adj" SAdj w.
Proof.
  intros (_ & _ & _ & Ha) S. assert (S' := S). destruct S' as [I _ _]. destruct (i_meas _ _ _ I) as ((c0 & c1 & Ech & A0 & A1) & _). rewrite Ha in A1.
  exists y, (s_adj (get_settings y)). split; [|split; [reflexivity|split; [reflexivity|split; [exact S|reflexivity]]]].
  names. unfold meastemp_adjust_get, measure_adjust_get, MEAS_CHAN_TEMP. rewrite Ha, Ech. change (zget [c0; c1] 1) with (Some c1). cbn [bind]. rewrite A1. reflexivity.
Qed.
Lemma r_serial_ok C y w : sim_conf C -> sinv3 C y -> readable C y "serial" SSerial w.
Proof. intros _ S. exists y, (s_serial (get_settings y)). split; [reflexivity|]. split; [reflexivity|split; [reflexivity|split; [exact S|reflexivity]]]. Qed.
Lemma read_ok C y name l w : sim_conf C -> sinv3 C y -> refers (get_settings y) name l -> readable C y name l w.
Proof.
  intros HC S R. destruct R;
    [apply r_kp0_ok|apply r_ki0_ok|apply r_kd0_ok|apply r_div0_ok|apply r_kp1_ok|apply r_ki1_ok|apply r_kd1_ok|apply r_div1_ok|apply r_kp2_ok|apply r_ki2_ok|apply r_kd2_ok|apply r_div2_ok
    |apply r_idle_ok|apply r_preset_ok|apply r_active_ok|apply r_adj_ok|apply r_serial_ok]; assumption.
Qed.
(** ** Names that are not in the list *)
Lemma unknown_ok C y name v w : (forall l, ~ refers (get_settings y) name l) -> setting_access C y name v w = Some (y, v, false).
Proof.
  intros N. assert (F : forall n l, refers (get_settings y) n l -> String.eqb name n = false).
  { intros n l R. destruct (String.eqb_spec name n); [subst; exfalso; exact (N l R)|reflexivity]. }
  unfold setting_access, access_any, k_members, SETTINGS_ACCESS.
  repeat (match goal with |- context [String.eqb name ?n] => rewrite (F n _ ltac:(constructor)); cbn [bind] end). reflexivity.
Qed.
Lemma known_dec s name : (exists l, refers s name l) \/ (forall l, ~ refers s name l).
Proof.
  destruct (in_dec string_dec name (List.app (map snd k_members) ["temp_idle_setpoint"; "temp_setpoint"; "temp_setpoint_active"; "temp_adj"; "serial"]%string)) as [H|H].
  - left. cbn in H. repeat (destruct H as [<-|H]; [eexists; constructor|]). contradiction H.
  - right. intros l R. apply H. destruct R; cbn; tauto.
Qed.

(** ** Runs *)
Lemma sim_inv3 C y : sim_conf C -> sim_reach C y -> sinv3 C y.
Proof.
  intros HC R. induction R as [pinb y Hp E|y e y' R IH O P E|y name v y' r ok R IH E|y name l v y' r ok R IH N L E].
  - destruct (set_factory C (proj1 HC)) as (x & Ex & Sx & _). destruct (boot_s4 strict C _ x pinb bok_strict Ex Sx) as (y1 & E1 & [S1 S2 S3 _] & _).
    rewrite E in E1. apply Some_inj in E1. subst y1. constructor; assumption.
  - destruct (step3_ok C y e (proj1 HC) IH O P) as (y1 & E1 & S1). rewrite E in E1. apply Some_inj in E1. subst y1. exact S1.
  - destruct (known_dec (get_settings y) name) as [(l & K)|K].
    + destruct (read_ok C y name l v HC IH K) as (y1 & v1 & E1 & _ & _ & S1 & _). rewrite E in E1. inversion E1. subst. exact S1.
    + rewrite (unknown_ok C y name v false K) in E. inversion E. subst. exact IH.
  - destruct (write_ok C y name l v HC IH N L) as (y1 & E1 & S1 & _). rewrite E in E1. inversion E1. subst. exact S1.
Qed.
Lemma access_write C y name l v : sim_conf C -> sim_reach C y -> refers (get_settings y) name l -> legal l v ->
  exists y', setting_access C y name v true = Some (y', v, true) /\ holds (get_settings y') l = Some v /\
    (forall l', l' <> l -> holds (get_settings y') l' = holds (get_settings y) l') /\
    x_request (y_set y') = true /\ x_timer (y_set y') = u16 (y_now y + 1000) /\ rest_same y y'.
Proof.
  intros HC R N L. destruct (write_ok C y name l v HC (sim_inv3 C y HC R) N L) as (y' & E & _ & X). exists y'. split; [exact E|exact X].
Qed.
Lemma access_read C y name l w : sim_conf C -> sim_reach C y -> refers (get_settings y) name l ->
  exists y' v, setting_access C y name w false = Some (y', v, true) /\ holds (get_settings y) l = Some v /\ get_settings y' = get_settings y /\ after_read l y y'.
Proof.
  intros HC R N. destruct (read_ok C y name l w HC (sim_inv3 C y HC R) N) as (y' & v & E & X1 & X2 & _ & X3). exists y', v. auto.
Qed.
Lemma access_defined C y : sim_conf C -> sim_reach C y ->
  (forall e, ev_ok C y e -> is_power e = false -> step C y e <> None) /\ (forall name v, setting_access C y name v false <> None).
Proof.
  intros HC R. pose proof (sim_inv3 C y HC R) as S. split.
  - intros e O P. destruct (step3_ok C y e (proj1 HC) S O P) as (y' & E & _). congruence.
  - intros name v. destruct (known_dec (get_settings y) name) as [(l & K)|K].
    + destruct (read_ok C y name l v HC S K) as (y1 & v1 & E1 & _). congruence.
    + rewrite (unknown_ok C y name v false K). discriminate.
Qed.
Lemma zget_nth (A : Type) (l : list A) i a : zget l i = Some a -> nth_error l (Z.to_nat i) = Some a.
Proof. unfold zget. destruct (i <? 0); [discriminate|exact (fun x => x)]. Qed.
Lemma access_in_force C y : sim_conf C -> sim_reach C y -> in_force y.
Proof.
  intros HC R. pose proof (sim_inv3 C y HC R) as [I _ _]. destruct HC as (_ & Hb & Hi & _).
  destruct (i_ct _ _ _ I) as (G & _ & _ & _ & _ & (a & E & Ew) & _). unfold bm in G. rewrite Hb in G. split; [apply zget_nth; exact G|].
  exists a. split; [apply zget_nth; exact E|]. rewrite Ew, Hi. unfold get_settings. cbn [andb]. destruct (t_idle (y_ct y)); cbn [andb]; [|reflexivity].
  destruct (Z.ltb_spec (s_idle (x_cache (y_set y))) a); lia.
Qed.
Lemma gui_ok C y n d : sim_conf C -> sim_reach C y -> 0 < d -> 0 <= n <= 480 * d -> exists y' t, gui_update_values C y n d = Some y' /\ sim_reach C y' /\
  0 <= t <= 480 * 64 /\ 2 * Z.abs (64 * n - d * t) <= d /\ s_active (get_settings y') = 0 /\ nth_error (s_preset (get_settings y')) 0 = Some t /\
  p_setpoint (t_pid (y_ct y')) = if t_idle (y_ct y) then Z.min (s_idle (get_settings y)) t else t.
Proof.
  intros HC R Hd Hn. destruct (access_write C y _ _ 0 HC R (r_active _) ltac:(cbn; lia)) as (y1 & E1 & H1 & F1 & _ & _ & X1).
  assert (R1 : sim_reach C y1) by (eapply sr_write; [exact R|apply r_active| |exact E1]; cbn; lia).
  destruct (to_fixpt_near n d Hd) as (N1 & N2). remember (float_to_fixpt n d) as t eqn:Et.
  assert (Ht : 0 <= t <= 480 * 64) by (clear - Hd Hn N1; nia).
  destruct (access_write C y1 _ _ t HC R1 (r_preset _) Ht) as (y2 & E2 & H2 & F2 & _ & _ & X2).
  assert (R2 : sim_reach C y2) by (eapply sr_write; [exact R1|apply r_preset|exact Ht|exact E2]).
  cbn [holds] in H1, H2. apply Some_inj in H1. rewrite H1 in H2, F2. change (Z.to_nat 0) with 0%nat in *.
  assert (A2 : s_active (get_settings y2) = 0) by (generalize (F2 SActive ltac:(discriminate)); cbn [holds]; intros Q; apply Some_inj in Q; congruence).
  exists y2, t. split; [unfold gui_update_values; rewrite E1; cbn [bind negb]; rewrite <- Et, E2; reflexivity|].
  split; [exact R2|]. split; [exact Ht|]. split; [exact N1|]. split; [exact A2|]. split; [exact H2|].
  destruct (access_in_force C y2 HC R2) as (_ & a & Ea & ->). rewrite A2 in Ea. change (Z.to_nat 0) with 0%nat in Ea. rewrite H2 in Ea. apply Some_inj in Ea. subst a.
  destruct X1 as (_ & _ & _ & C1 & _). destruct X2 as (_ & _ & _ & C2 & _). rewrite C2. sy. rewrite C1. sy.
  replace (s_idle (get_settings y2)) with (s_idle (get_settings y)); [reflexivity|].
  generalize (F2 SIdle ltac:(discriminate)) (F1 SIdle ltac:(discriminate)). cbn [holds]. intros Q1 Q2. apply Some_inj in Q1, Q2. congruence.
Qed.
