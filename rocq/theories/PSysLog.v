(** * Plausibility timeout: C34 *)
From Coq Require Import ZArith List Bool Lia ZifyBool.
From Verif Require Import Base PBase MConf MUtil MFixpt MScale MRing MFilter MTimer MPid MPwm MTempMap MCurr MSens
  SpecNum SpecPid SpecSmall PNum PSmall PScale PPid SpecCurr PCurr MSettings SpecSettings PSettings PSysSet
  MSseg MDisplay MText MState MTemp MMeas MMenu MMain SpecDisplay SpecSys SpecRun PSys PSysMeas PSysMenu PSysDisp PSysBtn
  PSysStep PSysRun PSysCC PSysSafe PSysWin.
Import ListNotations.
Open Scope Z_scope.
Ltac Zify.zify_post_hook ::= Z.div_mod_to_equations.

(** The time of the oldest result of the newest run of implausible results. *)
Definition bad (lo hi v : Z) : bool := negb ((lo <=? v) && (v <=? hi)).
Fixpoint since (lo hi : Z) (h : list (Z * Z)) : option Z :=
  match h with
  | [] => None
  | (t, v) :: r => if bad lo hi v then Some (match since lo hi r with Some t0 => t0 | None => t end) else None
  end.
Fixpoint desc (T : Z) (h : list (Z * Z)) : Prop :=
  match h with [] => True | (t, _) :: r => t <= T /\ desc t r end.
Definition flags_ok (lo hi : Z) (h : list (Z * Z)) (f : bool * bool * Z) : Prop :=
  match h, since lo hi h with
  | (t, _) :: _, Some t0 => f = (3000 <=? t - t0, true, u16 (t0 + 3000))
  | _, _ => fst f = (false, false)
  end.
Lemma since_le lo hi h : forall T t0, desc T h -> since lo hi h = Some t0 -> t0 <= T.
Proof.
  induction h as [|(t, v) r IH]; intros T t0 D S; cbn [since] in S; [discriminate S|]. destruct D as (D1 & D2).
  destruct (bad lo hi v); [|discriminate S]. apply Some_inj in S. destruct (since lo hi r) as [u|] eqn:U; subst t0; [|lia].
  specialize (IH t u D2 eq_refl). lia.
Qed.
Lemma desc_le a b h : a <= b -> desc a h -> desc b h.
Proof. destruct h as [|(t, v) r]; cbn; [auto|]. intros L (D1 & D2). split; [lia|exact D2]. Qed.
Lemma flags_checked lo hi cfg T h ch ch' v v' p : mc_plaus_neg cfg = lo -> mc_plaus_pos cfg = hi ->
  checked cfg (u16 T) ch ch' v v' p -> desc T h -> gaps_ok ((T, v) :: h) -> flags_ok lo hi h (chflags ch) ->
  flags_ok lo hi ((T, v) :: h) (chflags ch').
Proof.
  intros <- <- (_ & _ & E & _) D G F. unfold flags_ok. cbn [since]. unfold bad. destruct ((_ <=? v) && _); cbn [negb].
  - subst ch'. reflexivity.
  - cbv zeta in E. subst ch'. unfold chflags. cbn [ch_timeout ch_running ch_timer].
    unfold flags_ok in F. destruct h as [|(t, w) r].
    + cbn [since] in *. unfold chflags in F. cbn in F. injection F as -> ->. cbn [orb]. f_equal; [f_equal|].
      * change (timer_expired (counter T) (u16 (counter T + 3000)) = (3000 <=? T - T)). replace (u16 (counter T + 3000)) with (counter (T + 3000)) by (unfold u16, counter; clear; lia).
        rewrite timer_expired_eq. clear. lia.
      * unfold u16. clear. lia.
    + cbn [desc gaps_ok] in D, G. destruct D as (D1 & D2), G as (G1 & G2). destruct (since _ _ ((t, w) :: r)) as [t0|] eqn:S.
      * unfold chflags in F. injection F as -> -> ->. f_equal. f_equal.
        assert (L : t0 <= t) by (eapply since_le; [|exact S]; cbn [desc]; split; [lia|exact D2]).
        change (u16 T) with (counter T). change (u16 (t0 + 3000)) with (counter (t0 + 3000)). rewrite timer_expired_eq. clear - L D1 G1. lia.
      * unfold chflags in F. cbn in F. injection F as -> ->. cbn [orb]. f_equal; [f_equal|].
        -- change (timer_expired (counter T) (u16 (counter T + 3000)) = (3000 <=? T - T)). replace (u16 (counter T + 3000)) with (counter (T + 3000)) by (unfold u16, counter; clear; lia).
           rewrite timer_expired_eq. clear. lia.
        -- unfold u16. clear. lia.
Qed.
Lemma since_app lo hi h1 t0 v0 h2 : forall T, desc T (h1 ++ (t0, v0) :: h2) ->
  Forall (fun x => snd x < lo \/ hi < snd x) (h1 ++ [(t0, v0)]) -> exists u, since lo hi (h1 ++ (t0, v0) :: h2) = Some u /\ u <= t0.
Proof.
  induction h1 as [|(t, v) r IH]; intros T D F; cbn [app since] in *.
  - inversion F; subst. cbn [snd] in *. replace (bad lo hi v0) with true by (unfold bad; lia). eexists. split; [reflexivity|].
    destruct (since lo hi h2) as [u|] eqn:U; [|lia]. destruct D as (_ & D). eapply since_le; eassumption.
  - inversion F; subst. cbn [snd] in *. replace (bad lo hi v) with true by (unfold bad; lia). destruct D as (_ & D).
    destruct (IH t D ltac:(assumption)) as (u & U & L). rewrite U. exists u. auto.
Qed.
Lemma since_split lo hi h : forall t0, since lo hi h = Some t0 -> exists h1 v0 h2, h = h1 ++ (t0, v0) :: h2 /\
  Forall (fun x => snd x < lo \/ hi < snd x) (h1 ++ [(t0, v0)]).
Proof.
  induction h as [|(t, v) r IH]; intros t0 S; cbn [since] in S; [discriminate S|].
  destruct (bad lo hi v) eqn:Bv; [|discriminate S]. assert (K : v < lo \/ hi < v) by (unfold bad in Bv; lia).
  apply Some_inj in S. destruct (since lo hi r) as [u|] eqn:U.
  - subst t0. destruct (IH u eq_refl) as (h1 & v0 & h2 & -> & F). exists ((t, v) :: h1), v0, h2. split; [reflexivity|]. constructor; [exact K|exact F].
  - subst t0. exists [], v, r. split; [reflexivity|]. constructor; [exact K|constructor].
Qed.
Lemma flags_timed_out lo hi T h f : desc T h -> flags_ok lo hi h f -> (fst (fst f) = true <-> timed_out lo hi h).
Proof.
  intros D F. unfold flags_ok in F. split.
  - intros E. destruct h as [|(t, v) r]; [rewrite F in E; discriminate E|]. destruct (since lo hi ((t, v) :: r)) as [t0|] eqn:S; [|rewrite F in E; discriminate E].
    rewrite F in E. cbn [fst] in E. destruct (since_split _ _ _ _ S) as (h1 & v0 & h2 & Eh & Fh). exists h1, t0, v0, h2, t, v, r. repeat split; try assumption. lia.
  - intros (h1 & t0 & v0 & h2 & t & v & r & E1 & E2 & L & Fh). rewrite E1 in D.
    destruct (since_app lo hi h1 t0 v0 h2 T D Fh) as (u & U & Lu). rewrite <- E1, E2 in U. rewrite E2, U in F. rewrite F. cbn [fst]. lia.
Qed.
Lemma gaps_tail x h : gaps_ok (x :: h) -> gaps_ok h.
Proof. destruct x as (t, v). destruct h as [|(t', v') r]; [reflexivity|]. intros (_ & G). exact G. Qed.

(** The measurement flags of a channel after an event that handles no result of it. *)
Lemma fresh_flags C y : fresh C y -> y_now y = 0 /\ t_emerg (y_ct y) = false /\ cc_emerg (y_cc y) = 0 /\ u_init (y_mc y) = false /\
  exists c0 c1, m_chans (y_meas y) = [c0; c1] /\ chflags c0 = (false, false, 0) /\ chflags c1 = (false, false, 0).
Proof.
  intros (x & k & a & p & -> & _). unfold booted, meas1, cc2. cbn [y_now y_ct y_cc y_meas t_emerg m_chans y_mc u_init]. do 2 (split; [reflexivity|]).
  split; [vm_compute; reflexivity|]. split; [reflexivity|]. eexists _, _. split; [reflexivity|]. split; reflexivity.
Qed.
Lemma calm_flags C y e y' c0 c1 : build_conf C -> reach C y -> ev_ok C y e -> is_power e = false -> pending y e = false -> step C y e = Some y' ->
  m_chans (y_meas y) = [c0; c1] ->
  exists c0' c1', m_chans (y_meas y') = [c0'; c1'] /\ chflags c0' = chflags c0 /\ chflags c1' = chflags c1 /\
    t_emerg (y_ct y') = t_emerg (y_ct y) /\ cc_emerg (y_cc y') = cc_emerg (y_cc y) /\ y_mc y' = y_mc y /\
    y_now y' = match e with ETick => u16 (y_now y + 1) | _ => y_now y end.
Proof.
  intros HC R O P Pn E Ec. destruct (step_calm relaxed C y e y' HC bok_relaxed (reach_s4 C y HC R) O P Pn E) as (A0 & A1 & _ & _ & A2 & A3 & _ & A4).
  destruct (i_meas _ _ _ (s4_inv _ _ _ (reach_s4 C y' HC (reach_step C y e y' R O E)))) as ((d0 & d1 & Ed & _) & _).
  rewrite Ed, Ec in A2. cbn [map] in A2. exists d0, d1. split; [exact Ed|]. injection A2 as ? ? ? ? ? ?. split; [unfold chflags; congruence|]. split; [unfold chflags; congruence|].
  split; [exact A3|]. split; [|split; [exact A1|exact A0]]. destruct A4 as [(-> & _)|(-> & _)]; reflexivity.
Qed.
Definition TCFG (C : conf) := meastemp_config (c_smd C).
Lemma temp_log_inv C y T h : build_conf C -> temp_log C y T h -> reach C y /\ y_now y = u16 T /\ desc T h /\
  exists c0 c1, m_chans (y_meas y) = [c0; c1] /\ t_emerg (y_ct y) = ch_timeout c1 /\ (gaps_ok h -> flags_ok (-1280) 32000 h (chflags c1)).
Proof.
  intros HC D. induction D as [pinb y Hp E|y v pinb y' R O E|y T h y' D IH E|y T h v y' D IH X E Tv|y T h e y' D IH O E P NT N].
  - destruct (fresh_flags C y (boot_fresh C pinb y HC E)) as (A1 & A2 & _ & _ & c0 & c1 & A3 & _ & A4).
    split; [econstructor; eassumption|]. split; [exact A1|]. split; [exact Logic.I|]. exists c0, c1. split; [exact A3|].
    unfold chflags in *. injection A4 as F1 F2 F3. split; [congruence|]. intros _. unfold flags_ok. cbn. congruence.
  - destruct (fresh_flags C y' (power_fresh C y v pinb y' HC R O E)) as (A1 & A2 & _ & _ & c0 & c1 & A3 & _ & A4).
    split; [econstructor; eassumption|]. split; [exact A1|]. split; [exact Logic.I|]. exists c0, c1. split; [exact A3|].
    unfold chflags in *. injection A4 as F1 F2 F3. split; [congruence|]. intros _. unfold flags_ok. cbn. congruence.
  - destruct IH as (R & Q1 & Q2 & c0 & c1 & Q3 & Q4 & Q5).
    destruct (calm_flags C y ETick y' c0 c1 HC R Logic.I eq_refl eq_refl E Q3) as (d0 & d1 & B1 & _ & B2 & B3 & _ & _ & B5).
    split; [exact (reach_step C y ETick y' R Logic.I E)|]. split; [rewrite B5, Q1; unfold u16; clear; lia|]. split; [eapply desc_le; [|exact Q2]; lia|].
    exists d0, d1. split; [exact B1|]. rewrite B2. split; [|exact Q5]. unfold chflags in B2. congruence.
  - destruct IH as (R & Q1 & Q2 & c0 & c1 & Q3 & Q4 & Q5). destruct X as (_ & X2 & X3). pose proof (reach_s4 C y HC R) as S4.
    destruct (step_pending relaxed C y EMeasure y' HC bok_relaxed S4 X2 E) as (e0 & e1 & raw & Ech & Er & _ & F & _ & _ & _ & _ & Ht & _).
    rewrite Q3 in Ech. injection Ech as <- <-. destruct F as (Fn & _).
    destruct (Ht X3) as (c1' & w & v' & p & B1 & _ & Ck & (_ & _ & _ & M1 & _) & Tw).
    rewrite (raw_mean _ _ _ _ S4 X2 Er) in Tw. pose proof (temp_code_unique _ _ _ _ _ Tv Tw) as <-.
    split; [exact (reach_step C y EMeasure y' R Logic.I E)|]. split; [congruence|]. split; [cbn [desc]; split; [lia|exact Q2]|].
    exists c0, c1'. split; [exact B1|]. split.
    + rewrite M1. destruct Ck as (_ & _ & Ec & Ep). destruct (ch_timeout c1') eqn:Et; [rewrite Ep; reflexivity|].
      destruct ((_ <=? v) && _); rewrite Ep; [reflexivity|]. rewrite Q4. rewrite Ec in Et. cbn [ch_timeout] in Et. apply orb_false_iff in Et. apply Et.
    + intros G. rewrite Q1 in Ck. eapply (flags_checked (-1280) 32000 (TCFG C) T h c1 c1' v v' p); try eassumption; [reflexivity|reflexivity|].
      apply Q5. eapply gaps_tail; exact G.
  - destruct IH as (R & Q1 & Q2 & c0 & c1 & Q3 & Q4 & Q5). split; [econstructor; eassumption|].
    destruct (pending y e) eqn:Pn.
    + destruct (step_pending relaxed C y e y' HC bok_relaxed (reach_s4 C y HC R) Pn E) as (e0 & e1 & raw & Ech & Er & _ & F & _ & _ & _ & _ & _ & Hc).
      rewrite Q3 in Ech. injection Ech as <- <-. destruct F as (Fn & _).
      destruct (pending_cases _ _ _ _ (s4_inv _ _ _ (reach_s4 C y HC R)) Pn) as [(X1 & X2 & X3)|X]; [|destruct (N X)].
      destruct (Hc X3) as (c0' & v & v' & p & B1 & _ & (M1 & _) & _). split; [congruence|]. split; [exact Q2|]. exists c0', c1.
      split; [exact B1|]. rewrite M1. split; [exact Q4|exact Q5].
    + destruct (calm_flags C y e y' c0 c1 HC R O P Pn E Q3) as (d0 & d1 & B1 & _ & B2 & B3 & _ & _ & B5).
      split; [rewrite B5; destruct e; congruence|]. split; [exact Q2|]. exists d0, d1. split; [exact B1|]. rewrite B2. split; [|exact Q5]. unfold chflags in B2. congruence.
Qed.
Lemma sys_temp_timeout C y T h : build_conf C -> temp_log C y T h -> gaps_ok h ->
  (t_emerg (y_ct y) = true <-> timed_out (-20 * 64) (500 * 64) h).
Proof.
  intros HC D G. destruct (temp_log_inv C y T h HC D) as (_ & _ & Q2 & c0 & c1 & _ & Q4 & Q5).
  rewrite Q4. exact (flags_timed_out (-1280) 32000 T h (chflags c1) Q2 (Q5 G)).
Qed.

(** The current channel: the filter state and the flags. *)
Lemma lp_step u raw f : 0 <= raw <= 1023 -> (match f with None => u_init u = false | Some b => u_init u = true /\ u_filter u = b /\ 0 <= b <= 16368 end) ->
  forall y, y_mc y = u -> snd (meascurr_filter_handler y raw) = lp_code f raw /\ u_filter (y_mc (fst (meascurr_filter_handler y raw))) = lp_acc f raw /\ 0 <= lp_acc f raw <= 16368.
Proof.
  intros Br F y <-. unfold meascurr_filter_handler, lp_code, lp_acc. destruct f as [b|].
  - destruct F as (-> & -> & Bb). unfold lp_filter_u16_run. change MEASCURR_FILTER_SHIFT with 4. rewrite !Z.shiftr_div_pow2 by lia. change (2 ^ 4) with 16.
    assert (B1 : 0 <= b - b / 16 <= 15345) by (clear - Bb; lia). replace (u24 (b - b / 16)) with (b - b / 16) by (unfold u24; rewrite Z.mod_small by (clear - B1; lia); reflexivity).
    set (q := b - b / 16) in *. replace (u24 (q + raw)) with (q + raw) by (unfold u24; rewrite Z.mod_small by (clear - B1 Br; lia); reflexivity).
    assert (B2 : 0 <= (q + raw) / 16 <= 1023) by (clear - B1 Br; lia). cbn [fst snd]. sy. unfold cmin. change MEASURE_MAX_RESULT with 1023.
    replace ((q + raw) / 16 <? 65535) with true by (clear - B2; lia). rewrite u16_id by (clear - B2; lia). split; [|split; [reflexivity|clear - B1 Br; lia]].
    destruct (_ <? 1023) eqn:L; clear - L B2; lia.
  - rewrite F. unfold lp_filter_u16_set. cbn [fst snd]. sy. change MEASURE_MAX_RESULT with 1023. split; [|split; [unfold u24; lia|lia]]. destruct (raw <? 1023) eqn:L; lia.
Qed.
Lemma bit0_ops f : 0 <= f <= 3 -> Z.testbit (Z.lor f 1) 0 = true /\ Z.testbit (Z.land f (u8 (Z.lnot 1))) 0 = false.
Proof. intros H. assert (f = 0 \/ f = 1 \/ f = 2 \/ f = 3) as D by lia. repeat destruct D as [->|D]; try subst f; cbv; split; reflexivity. Qed.
Lemma curr_log_inv C y T f h : build_conf C -> curr_log C y T f h -> reach C y /\ y_now y = u16 T /\ desc T h /\
  (match f with None => u_init (y_mc y) = false | Some b => u_init (y_mc y) = true /\ u_filter (y_mc y) = b /\ 0 <= b <= 16368 end) /\
  exists c0 c1, m_chans (y_meas y) = [c0; c1] /\ Z.testbit (cc_emerg (y_cc y)) 0 = ch_timeout c0 /\ (gaps_ok h -> flags_ok 0 3200 h (chflags c0)).
Proof.
  intros HC D. induction D as [pinb y Hp E|y v pinb y' R O E|y T f h y' D IH E|y T f h v y' D IH X E Tv|y T f h e y' D IH O E P NT N].
  - destruct (fresh_flags C y (boot_fresh C pinb y HC E)) as (A1 & _ & A2 & A5 & c0 & c1 & A3 & A4 & _).
    split; [econstructor; eassumption|]. split; [exact A1|]. split; [exact Logic.I|]. split; [exact A5|]. exists c0, c1. split; [exact A3|].
    unfold chflags in *. injection A4 as F1 F2 F3. split; [rewrite A2, F1; reflexivity|]. intros _. unfold flags_ok. cbn. congruence.
  - destruct (fresh_flags C y' (power_fresh C y v pinb y' HC R O E)) as (A1 & _ & A2 & A5 & c0 & c1 & A3 & A4 & _).
    split; [econstructor; eassumption|]. split; [exact A1|]. split; [exact Logic.I|]. split; [exact A5|]. exists c0, c1. split; [exact A3|].
    unfold chflags in *. injection A4 as F1 F2 F3. split; [rewrite A2, F1; reflexivity|]. intros _. unfold flags_ok. cbn. congruence.
  - destruct IH as (R & Q1 & Q2 & Qf & c0 & c1 & Q3 & Q4 & Q5).
    destruct (calm_flags C y ETick y' c0 c1 HC R Logic.I eq_refl eq_refl E Q3) as (d0 & d1 & B1 & B2 & _ & _ & B3 & B4 & B5).
    split; [exact (reach_step C y ETick y' R Logic.I E)|]. split; [rewrite B5, Q1; unfold u16; clear; lia|]. split; [eapply desc_le; [|exact Q2]; lia|].
    rewrite B4. split; [exact Qf|]. exists d0, d1. split; [exact B1|]. rewrite B2. split; [|exact Q5]. unfold chflags in B2. congruence.
  - destruct IH as (R & Q1 & Q2 & Qf & c0 & c1 & Q3 & Q4 & Q5). destruct X as (_ & X2 & X3). pose proof (reach_s4 C y HC R) as S4.
    destruct (step_pending relaxed C y EMeasure y' HC bok_relaxed S4 X2 E) as (e0 & e1 & raw & Ech & Er & Br & F & _ & _ & _ & _ & _ & Hc).
    rewrite Q3 in Ech. injection Ech as <- <-. destruct F as (Fn & _).
    destruct (Hc X3) as (c0' & w & v' & p & B1 & Ck & (_ & _ & _ & _ & _ & M1 & _) & Tw & Ff & Fi).
    destruct (lp_step _ _ f Br Qf y eq_refl) as (L1 & L2 & L3). rewrite L1 in Tw. rewrite L2 in Ff.
    rewrite (raw_mean _ _ _ _ S4 X2 Er) in *. pose proof (curr_code_unique _ _ _ Tv Tw) as <-.
    split; [exact (reach_step C y EMeasure y' R Logic.I E)|]. split; [congruence|]. split; [cbn [desc]; split; [lia|exact Q2]|].
    split; [auto|]. exists c0', c1. split; [exact B1|]. split.
    + rewrite M1. change EMERG_UNPLAUS_FEEDBACK with 1. destruct (i_cc _ _ _ (s4_inv _ _ _ S4)) as (_ & _ & If & _). destruct (bit0_ops _ If) as (Z1 & Z2).
      destruct Ck as (_ & _ & Ec & Ep). destruct (ch_timeout c0') eqn:Et; [rewrite Ep; exact Z1|].
      destruct ((_ <=? v) && _); rewrite Ep; [exact Z2|]. rewrite Q4. rewrite Ec in Et. cbn [ch_timeout] in Et. apply orb_false_iff in Et. apply Et.
    + intros G. rewrite Q1 in Ck. eapply (flags_checked 0 3200 meascurr_config T h c0 c0' v v' p); try eassumption; [reflexivity|reflexivity|].
      apply Q5. eapply gaps_tail; exact G.
  - destruct IH as (R & Q1 & Q2 & Qf & c0 & c1 & Q3 & Q4 & Q5). split; [econstructor; eassumption|].
    destruct (pending y e) eqn:Pn.
    + destruct (step_pending relaxed C y e y' HC bok_relaxed (reach_s4 C y HC R) Pn E) as (e0 & e1 & raw & Ech & Er & _ & F & _ & _ & _ & _ & Ht & _).
      rewrite Q3 in Ech. injection Ech as <- <-. destruct F as (Fn & _).
      destruct (pending_cases _ _ _ _ (s4_inv _ _ _ (reach_s4 C y HC R)) Pn) as [X|(X1 & X2 & X3)]; [destruct (N X)|].
      destruct (Ht X3) as (c1' & v & v' & p & B1 & B4 & _ & (_ & _ & _ & _ & _ & _ & _ & (ops & _ & _ & _ & M1) & _) & _).
      split; [congruence|]. split; [exact Q2|]. rewrite B4. split; [exact Qf|]. exists c0, c1'.
      split; [exact B1|]. rewrite M1. split; [exact Q4|exact Q5].
    + destruct (calm_flags C y e y' c0 c1 HC R O P Pn E Q3) as (d0 & d1 & B1 & B2 & _ & _ & B3 & B4 & B5).
      split; [rewrite B5; destruct e; congruence|]. split; [exact Q2|]. rewrite B4. split; [exact Qf|].
      exists d0, d1. split; [exact B1|]. rewrite B2. split; [|exact Q5]. unfold chflags in B2. congruence.
Qed.
Lemma sys_curr_timeout C y T f h : build_conf C -> curr_log C y T f h -> gaps_ok h ->
  (Z.testbit (cc_emerg (y_cc y)) 0 = true <-> timed_out 0 (5 * 640) h).
Proof.
  intros HC D G. destruct (curr_log_inv C y T f h HC D) as (_ & _ & Q2 & _ & c0 & c1 & _ & Q4 & Q5).
  rewrite Q4. exact (flags_timed_out 0 3200 T h (chflags c0) Q2 (Q5 G)).
Qed.
(** The values the controllers work with. *)
Lemma sys_feedback_range C y : build_conf C -> reach C y ->
  -20 * 64 <= t_feedback (y_ct y) <= 500 * 64 /\ -20 * 64 <= y_mt y <= 500 * 64 /\ 0 <= u_prev (y_mc y) <= 5 * 640.
Proof.
  intros HC R. pose proof (s4_inv _ _ _ (reach_s4 C y HC R)) as I. destruct (i_ct _ _ _ I) as (_ & _ & _ & _ & _ & _ & B).
  pose proof (i_mt _ _ _ I) as B2. destruct (i_mc _ _ _ I) as (B3 & _). split; [exact B|]. split; [exact B2|exact B3].
Qed.
