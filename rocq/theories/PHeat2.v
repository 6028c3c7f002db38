(** * The heater pin of the running firmware *)
From Coq Require Import ZArith List Bool Lia ZifyBool.
From Verif Require Import Base PBase MConf MTimer MPid MPwm MCurr MSettings SpecSettings MState MTemp MMeas MMenu MMain SpecSys SpecRun SpecUI SpecLive SpecLoop
  PCurr PSys PSysRun PLive3 PLoop PLoop2 PLoop3 TraceLoop PLoopEx MFine SpecFine PFine8 PFineEx MHeat SpecHeat PHeat.
Import ListNotations.
Open Scope Z_scope.

(** ** Any execution *)
Lemma ocr_range C y : build_conf C -> freach C y -> 0 <= cc_ocr (y_cc y) <= 8191.
Proof.
  intros HC R. destruct (i_cc _ _ _ (s4_inv _ _ _ (freach_s4 C y HC R))) as (I & _).
  destruct I as (_ & _ & _ & O). exact O.
Qed.
Section Fine.
Variable C : conf.
Hypothesis HC : build_conf C.
Lemma ffirst_R x : ffirst C x -> freach C x.
Proof. intros (p & P & B). exact (freach_boot C p x P B). Qed.
Lemma fnext_R x e x' : freach C x -> fnext C x e x' -> freach C x'.
Proof. apply freach_step. Qed.
Definition fheat {Q : Prop} (L : (forall x, ffirst C x -> freach C x) -> (forall x e x', freach C x -> fnext C x e x' -> freach C x') ->
  (forall x, freach C x -> 0 <= cc_ocr (y_cc x) <= 8191) -> Q) : Q := L ffirst_R fnext_R (fun x => ocr_range C x HC).
Lemma fwired_all y h u l : fwired C y h u l -> freach C y /\ Forall (fun s => freach C (fst s)) l.
Proof. intros W. destruct (fheat (fun a b c => wired_ok _ _ _ _ a b c _ _ _ _ W)). auto. Qed.
Lemma lately_and (P Q : sys -> Prop) n y h u l : fwired C y h u l -> (forall x, freach C x -> P x -> Q x) -> lately n P l -> lately n Q l.
Proof.
  intros W H (L & F). split; [exact L|]. destruct (fwired_all _ _ _ _ W) as (_ & A). rewrite Forall_forall in *.
  intros s I. apply H; [apply A; eapply ztake_In; exact I|apply F; exact I].
Qed.
Lemma pin_off y h u l : fwired C y h u l -> lately PERIOD pwm_off l -> w_pin h = true.
Proof. intros W L. exact (fheat (fun a b c => heat_off _ _ _ _ a b c _ _ _ _ W L)). Qed.
Lemma pin_emerg y h u l : fwired C y h u l -> lately PERIOD (fun y => cc_emerg (y_cc y) <> 0) l -> w_pin h = true.
Proof. intros W L. apply (pin_off _ _ _ _ W). revert L. apply (lately_and _ _ _ _ _ _ _ W). intros x R. exact (f_emerg_off C x HC R). Qed.
Lemma pin_hot y h u l : fwired C y h u l -> lately PERIOD (ftoo_hot C) l -> w_pin h = true.
Proof. intros W L. apply (pin_off _ _ _ _ W). revert L. apply (lately_and _ _ _ _ _ _ _ W). intros x _. exact (f_too_hot C x HC). Qed.
Lemma pin_duty y h u l a b : fwired C y h u l -> 0 < b -> 0 <= a -> lately (2 * PERIOD) (fun y => duty_at_most y a b) l ->
  b * on_units PERIOD l <= a * PERIOD.
Proof. intros W B A L. exact (fheat (fun a1 b1 c1 => heat_duty _ _ _ _ a1 b1 c1 _ _ _ _ _ _ W B A L)). Qed.
Lemma pin_exact y h u l v : fwired C y h u l -> lately (2 * PERIOD) (fun y => cc_ocr (y_cc y) = v) l -> on_units PERIOD l = 4 * (8191 - v).
Proof. intros W L. exact (fheat (fun a b c => heat_exact _ _ _ _ a b c _ _ _ _ _ W L)). Qed.
Lemma pin_cold y h u l : fwired C y h u l -> lately (2 * PERIOD) (fcold C) l -> 5 * on_units PERIOD l <= 2 * PERIOD.
Proof.
  intros W L. apply (pin_duty _ _ _ _ _ _ W); [lia|lia|]. revert L. apply (lately_and _ _ _ _ _ _ _ W). intros x _. exact (f_cold C x HC).
Qed.
Lemma pin_dead y h u l : fwired C y h u l -> lately (2 * PERIOD) (fdead C) l -> 10 * on_units PERIOD l <= PERIOD.
Proof.
  intros W L. rewrite <- (Z.mul_1_l PERIOD) at 2. apply (pin_duty _ _ _ _ _ _ W); [lia|lia|]. revert L. apply (lately_and _ _ _ _ _ _ _ W).
  intros x R D. exact (proj2 (f_dead C x HC D)).
Qed.
End Fine.

(** ** The timer alone *)
Fixpoint units (n : nat) (o : Z) (h : t1) : t1 :=
  match n with O => h | S n => units n o (t1_unit o h) end.
Definition sane (h : t1) : Prop := 0 <= w_pre h <= 3 /\ 0 <= w_tcnt h <= 8191.
(** In a period with compare value [o] *)
Definition settled (o : Z) (h : t1) : Prop := sane h /\ w_cmp h = o /\ w_pin h = (pos h <=? 4 * o + 3).
Lemma unit_sane o h : sane h -> sane (t1_unit o h) /\ pos (t1_unit o h) = (pos h + 1) mod 32768.
Proof.
  intros (P & T). destruct (Z.eq_dec (pos h) 32767) as [E|E].
  - rewrite unit_bottom by (unfold pos in E; lia). rewrite E. split; [split; cbn; lia|reflexivity].
  - destruct (unit_next o h P T) as (Q & _ & P' & T' & _); [unfold pos in *; lia|]. rewrite Q. split; [split; assumption|unfold pos in *; lia].
Qed.
Lemma unit_settled o h : 0 <= o -> settled o h -> settled o (t1_unit o h).
Proof.
  intros O (S & M & N). destruct (unit_sane o h S) as (S' & _). split; [exact S'|]. destruct S as (P & T).
  destruct (Z.eq_dec (pos h) 32767) as [E|E].
  - rewrite unit_bottom by (unfold pos in E; lia). unfold pos. cbn [w_cmp w_pin w_tcnt w_pre]. split; [reflexivity|lia].
  - destruct (unit_next o h P T) as (Q & M' & _ & _ & N'); [unfold pos in *; lia|]. rewrite M', N', N, Q, M. split; [reflexivity|].
    destruct (pos h =? 4 * o + 3) eqn:E1; lia.
Qed.
Lemma units_sane n o : forall h, sane h -> sane (units n o h) /\ pos (units n o h) = (pos h + Z.of_nat n) mod 32768.
Proof.
  induction n as [|n IH]; intros h S; cbn [units].
  - split; [exact S|]. destruct S. unfold pos in *. lia.
  - destruct (unit_sane o h S) as (S1 & P1). destruct (IH _ S1) as (S2 & P2). split; [exact S2|]. rewrite P2, P1. lia.
Qed.
Lemma units_settled n o : 0 <= o -> forall h, settled o h -> settled o (units n o h).
Proof. intros O. induction n as [|n IH]; intros h S; cbn [units]; [exact S|]. apply IH, unit_settled; assumption. Qed.
Lemma units_settle n o : 0 <= o -> forall h, sane h -> 32768 <= pos h + Z.of_nat n -> settled o (units n o h).
Proof.
  intros O. induction n as [|n IH]; intros h S H; cbn [units].
  - destruct S. unfold pos in *. lia.
  - destruct (Z.eq_dec (pos h) 32767) as [E|E].
    + apply units_settled; [exact O|]. rewrite unit_bottom by (destruct S; unfold pos in E; lia).
      split; [split; cbn; lia|]. unfold pos. cbn [w_cmp w_pin w_tcnt w_pre]. split; [reflexivity|lia].
    + destruct (unit_sane o h S) as (S1 & P1). apply IH; [exact S1|]. rewrite P1. destruct S. unfold pos in *. lia.
Qed.
Lemma units_app m n o : forall h, units (m + n) o h = units n o (units m o h).
Proof. induction m as [|m IH]; intros h; cbn [Nat.add units]; [reflexivity|apply IH]. Qed.

(** ** Every execution of the firmware can be wired, with the timer at any position *)
Section Phase.
Context {X : Type} (ini : X -> Prop) (nx : X -> event -> X -> Prop) (ocr : X -> Z).
Notation wired := (wired ini nx ocr).
Inductive runs : X -> Prop :=
  | runs_ini x : ini x -> runs x
  | runs_nx x e x' : runs x -> nx x e x' -> runs x'.
(** Time up to the next tick *)
Lemma wait_tick x x' : nx x ETick x' -> forall n h u l, wired x h u l -> u = 125 - Z.of_nat n ->
  exists l', wired x' (units (S n) (ocr x) h) 0 l'.
Proof.
  intros N. induction n as [|n IH]; intros h u l W U.
  - eexists. refine (wi_tick _ _ _ _ _ _ _ _ W _ N). unfold UNITS_PER_TICK. lia.
  - apply (IH (t1_unit (ocr x) h) (u + 1) ((x, w_pin (t1_unit (ocr x) h)) :: l)); [|lia].
    apply wi_unit; [exact W|unfold UNITS_PER_TICK; lia].
Qed.
Lemma phase x : runs x -> forall q, 0 <= q < 32768 -> exists h l, wired x h 0 l /\ sane h /\ pos h = q.
Proof.
  assert (I : forall q, 0 <= q < 32768 -> t1_started (mkT1 (q mod 4) (q / 4) 8191 true) /\ sane (mkT1 (q mod 4) (q / 4) 8191 true) /\ pos (mkT1 (q mod 4) (q / 4) 8191 true) = q).
  { intros q Q. unfold t1_started, sane, pos, PWMCURR_MAX_DUTY. cbn [w_pre w_tcnt w_cmp]. lia. }
  induction 1 as [x E|x e x' R IH N]; intros q Q.
  - destruct (I q Q) as (A & B & D). eexists _, []. split; [|split; [exact B|exact D]]. apply wi_boot; [exact E|exact A|unfold UNITS_PER_TICK; lia].
  - destruct (is_power e) eqn:P.
    { destruct (IH q Q) as (h & l & W & _). destruct (I q Q) as (A & B & D). eexists _, []. split; [|split; [exact B|exact D]].
      eapply wi_power; [exact W|exact N|exact P|exact A|unfold UNITS_PER_TICK; lia]. }
    assert (K : e = ETick \/ e <> ETick) by (destruct e; (left; reflexivity) || (right; discriminate)). destruct K as [->|K].
    + destruct (IH ((q - 126) mod 32768)) as (h & l & W & S & E); [lia|]. destruct (wait_tick x x' N 125 h 0 l W) as (l' & W'); [reflexivity|].
      destruct (units_sane 126 (ocr x) h S) as (S' & E'). eexists _, l'. split; [exact W'|]. split; [exact S'|]. rewrite E', E. lia.
    + destruct (IH q Q) as (h & l & W & S & E). exists h, l. split; [|split; assumption]. eapply wi_event; eassumption.
Qed.
(** Nothing but ticks *)
Lemma idle_ticks (Q : X -> Prop) o : (forall x, Q x -> ocr x = o /\ exists x', nx x ETick x' /\ Q x') ->
  forall n x h u l, wired x h u l -> Q x -> 0 <= u < 126 ->
  exists x' u' l', wired x' (units n o h) u' (l' ++ l) /\ Q x' /\ 0 <= u' < 126 /\ zlen l' = Z.of_nat n /\ Forall (fun s => Q (fst s)) l'.
Proof.
  intros T. induction n as [|n IH]; intros x h u l W QX U.
  - exists x, u, []. split; [exact W|]. split; [exact QX|]. split; [exact U|]. split; [reflexivity|constructor].
  - destruct (T x QX) as (O & x1 & N & Q1).
    assert (K : exists x' u', wired x' (t1_unit o h) u' ((x, w_pin (t1_unit o h)) :: l) /\ Q x' /\ 0 <= u' < 126).
    { rewrite <- O. destruct (Z.eq_dec u 125) as [E|E].
      - exists x1, 0. split; [|split; [exact Q1|lia]]. refine (wi_tick _ _ _ _ _ _ _ _ W _ N). unfold UNITS_PER_TICK. lia.
      - exists x, (u + 1). split; [|split; [exact QX|lia]]. apply wi_unit; [exact W|unfold UNITS_PER_TICK; lia]. }
    destruct K as (x' & u' & W' & Q' & U'). destruct (IH _ _ _ _ W' Q' U') as (x2 & u2 & l2 & W2 & Q2 & U2 & Z2 & F2).
    exists x2, u2, (l2 ++ [(x, w_pin (t1_unit o h))]). cbn [units]. rewrite <- app_assoc. split; [exact W2|]. split; [exact Q2|]. split; [exact U2|].
    rewrite zlen_app, zlen_cons, zlen_nil. split; [lia|]. apply Forall_app. split; [exact F2|]. constructor; [exact QX|constructor].
Qed.
End Phase.
Lemma freach_runs C y : freach C y -> runs (ffirst C) (fnext C) y.
Proof. induction 1 as [p y P B|y e y' R IH N]; [apply runs_ini; exists p; auto|eapply runs_nx; eassumption]. Qed.
Lemma loop_runs S lo hi C ok t : loop S lo hi C ok t -> runs (lfirst C) (lnext S lo hi C ok) t.
Proof.
  induction 1 as [p y P B|t e y' D IH M E O]; [apply runs_ini; exists p, y; auto|].
  eapply runs_nx; [exact IH|]. split; [exact M|]. exists y'. auto.
Qed.

(** ** The main loop *)
Section Loop.
Variables (S : speed) (lo hi : Z) (C : conf).
Hypothesis HC : build_conf C.
Hypothesis HS : speed_ok S.
Section Any.
Variable ok : settings -> Prop.
Lemma lfirst_R t : lfirst C t -> loop S lo hi C ok t.
Proof. intros (p & y & P & B & ->). apply loop_boot; assumption. Qed.
Lemma lnext_R t e t' : loop S lo hi C ok t -> lnext S lo hi C ok t e t' -> loop S lo hi C ok t'.
Proof. intros D (M & y' & E & O & ->). apply loop_step; assumption. Qed.
Lemma loop_ocr t : loop S lo hi C ok t -> 0 <= cc_ocr (y_cc (st_y t)) <= 8191.
Proof. intros D. apply (ocr_range C); [exact HC|]. apply f_includes. apply (loop_environment S lo hi C HC HS ok t D). Qed.
Lemma lwired_ok t h u l : lwired S lo hi C ok t h u l -> loop S lo hi C ok t /\ 0 <= u < 126.
Proof. intros W. destruct (wired_ok _ _ _ _ lfirst_R lnext_R loop_ocr _ _ _ _ W). auto. Qed.
(** A stopwatch K (negative: not running) *)
Lemma since (K : station -> Z) (P : station -> Prop) :
  (forall t, lfirst C t -> K t < 0) ->
  (forall t e y', is_power e = true -> K (advance lo hi C t e y') < 0) ->
  (forall t e y', is_power e = false -> K (advance lo hi C t e y') < 0 \/ K (advance lo hi C t e y') <= K t + ticks_of e) ->
  (forall t, loop S lo hi C ok t -> 0 <= K t -> P t) ->
  forall t h u l, lwired S lo hi C ok t h u l -> 0 <= K t -> lately (126 * K t + u) P l.
Proof.
  intros K0 KP KE KK t h u l W.
  induction W as [x h u I T U|x h u l e x' W IH N NT NP|x h u l e x' h' u' W IH N PW T U|x h u l W IH U|x h u l x' W IH U N]; intros KN.
  - pose proof (K0 x I). lia.
  - destruct N as (M & y' & E & O & ->). destruct (KE x e y' NP) as [F|F]; [lia|].
    assert (T0 : ticks_of e = 0) by (destruct e; try reflexivity; congruence). rewrite T0 in F.
    apply (lately_weaken _ (126 * K x + u) _ P P); [lia|auto|apply IH; lia].
  - destruct N as (M & y' & E & O & ->). pose proof (KP x e y' PW). lia.
  - pose proof (IH KN) as (L & F). destruct (lwired_ok _ _ _ _ W) as (D & U0). split; [rewrite zlen_cons; lia|].
    cbn [ztake]. destruct (126 * K x + (u + 1) <=? 0) eqn:Q; [constructor|]. constructor; [apply KK; assumption|].
    replace (126 * K x + (u + 1) - 1) with (126 * K x + u) by lia. exact F.
  - destruct (lwired_ok _ _ _ _ W) as (D & U0). destruct N as (M & y' & E & O & ->). destruct (KE x ETick y' eq_refl) as [F|F]; [lia|].
    change (ticks_of ETick) with 1 in F. destruct (Z.le_gt_cases 0 (K x)) as [G|G].
    + pose proof (IH G) as (L & FF). unfold UNITS_PER_TICK in U.
      apply (lately_weaken _ (126 * K x + 126) _ P P); [lia|auto|]. split; [rewrite zlen_cons; lia|].
      cbn [ztake]. destruct (126 * K x + 126 <=? 0) eqn:Q; [constructor|]. constructor; [apply KK; assumption|].
      replace (126 * K x + 126 - 1) with (126 * K x + u) by lia. exact FF.
    + split; [rewrite zlen_cons; pose proof (zlen_nonneg _ l); lia|]. rewrite ztake_le by lia. constructor.
Qed.
End Any.

Definition K_hot (adj : Z) (t : station) : Z :=
  if s_adj (x_cache (y_set (st_y t))) =? adj then Z.min (v_steady (st_w t) - 1012) (v_calm (st_w t) - 660) else -1.
Definition K_dead (t : station) : Z := v_steady (st_w t) - 5331.
Lemma start_watch y p : st_w (start C y p) = watch_zero. Proof. reflexivity. Qed.
Lemma steady_step t e y' : is_power e = false -> v_steady (st_w (advance lo hi C t e y')) <= Z.max 0 (v_steady (st_w t) + ticks_of e).
Proof.
  destruct e; intros P; try discriminate P; cbn [advance st_w watch_step watch_state v_steady ticks_of watch_tick]; try lia.
  - unfold watch_adc. repeat match goal with |- context [if ?b then _ else _] => destruct b end; cbn [v_steady]; lia.
  - unfold watch_poll. repeat match goal with |- context [if ?b then _ else _] => destruct b end; cbn [v_steady]; lia.
Qed.
Lemma calm_step t e y' : is_power e = false ->
  v_calm (st_w (advance lo hi C t e y')) <= Z.max 0 (v_calm (st_w t) + ticks_of e) /\
  (s_adj (x_cache (y_set (st_y t))) <> s_adj (x_cache (y_set y')) -> v_calm (st_w (advance lo hi C t e y')) = 0).
Proof.
  intros P. assert (A : exists w0, v_calm (st_w (advance lo hi C t e y')) = v_calm (watch_state (st_y t) y' w0) /\ v_calm w0 = v_calm (st_w t) + ticks_of e).
  { destruct e; try discriminate P; cbn [advance st_w watch_step ticks_of]; eexists; (split; [reflexivity|]); try (cbn [watch_tick v_calm]; lia).
    - unfold watch_adc. destruct (m_adc _); cbn [v_calm]; lia.
    - unfold watch_poll. repeat match goal with |- context [if ?b then _ else _] => destruct b end; cbn [v_calm]; lia. }
  destruct A as (w0 & -> & E). unfold watch_state. cbn [v_calm]. rewrite E. split.
  - destruct (_ && _); lia.
  - intros N. replace (_ =? _) with false by lia. rewrite andb_false_r. reflexivity.
Qed.
Lemma advance_y t e y' : st_y (advance lo hi C t e y') = y'. Proof. destruct e; reflexivity. Qed.

Lemma wall_hot t h u l : guarded S -> lwired S lo hi C adj_99 t h u l ->
  (forall c v, lo <= c <= hi -> temp_of_code C (s_adj (x_cache (y_set (st_y t)))) c v -> 480 * 64 < v <= 500 * 64) ->
  1272 < v_steady (st_w t) -> 920 < v_calm (st_w t) -> w_pin h = true.
Proof.
  intros G W Hot V1 V2. set (adj := s_adj (x_cache (y_set (st_y t)))) in *.
  assert (L : lately (126 * K_hot adj t + u) (fun t => pwm_off (st_y t)) l).
  { apply (since adj_99 (K_hot adj) (fun t => pwm_off (st_y t))) with (h := h).
    - intros x (p & y & _ & _ & ->). unfold K_hot. rewrite start_watch. cbn [watch_zero v_steady v_calm]. destruct (_ =? _); lia.
    - intros x e y' P. destruct e; try discriminate P. unfold K_hot. cbn [advance]. rewrite start_watch. cbn [watch_zero v_steady v_calm]. destruct (_ =? _); lia.
    - intros x e y' P. unfold K_hot. rewrite advance_y. pose proof (steady_step x e y' P) as A. destruct (calm_step x e y' P) as (B & B').
      destruct (s_adj (x_cache (y_set y')) =? adj) eqn:E1; [|left; lia].
      destruct (s_adj (x_cache (y_set (st_y x))) =? adj) eqn:E2; [|left; rewrite B' by lia; lia]. destruct e; cbn [ticks_of] in *; lia.
    - intros x D K. unfold K_hot in K. destruct (s_adj (x_cache (y_set (st_y x))) =? adj) eqn:E; [|lia].
      apply (guarded_hot S lo hi C x HC G D); [|lia|lia]. intros c v Hc Tc. apply (Hot c v Hc). replace adj with (s_adj (x_cache (y_set (st_y x)))) by lia. exact Tc.
    - exact W.
    - unfold K_hot. fold adj. rewrite Z.eqb_refl. lia. }
  apply (heat_off _ _ _ _ (lfirst_R adj_99) (lnext_R adj_99) (loop_ocr adj_99) _ _ _ _ W).
  destruct (lwired_ok _ _ _ _ _ W) as (_ & U).
  revert L. apply lately_weaken; [|auto]. unfold K_hot, PERIOD. fold adj. rewrite Z.eqb_refl. lia.
Qed.
Lemma wall_dead t h u l : guarded S -> lwired S lo hi C adj_99 t h u l ->
  (forall adj c v, -99 * 64 <= adj <= 99 * 64 -> lo <= c <= hi -> temp_of_code C adj c v -> v < -20 * 64 \/ 500 * 64 < v) ->
  5851 < v_steady (st_w t) -> 10 * on_units PERIOD l <= PERIOD.
Proof.
  intros G W Hd V.
  assert (L : lately (126 * K_dead t + u) (fun t => duty_at_most (st_y t) 1 10) l).
  { apply (since adj_99 K_dead (fun t => duty_at_most (st_y t) 1 10)) with (h := h).
    - intros x (p & y & _ & _ & ->). unfold K_dead. rewrite start_watch. cbn [watch_zero v_steady]. lia.
    - intros x e y' P. destruct e; try discriminate P. unfold K_dead. cbn [advance]. rewrite start_watch. cbn [watch_zero v_steady]. lia.
    - intros x e y' P. unfold K_dead. pose proof (steady_step x e y' P) as A. destruct e; cbn [ticks_of] in *; lia.
    - intros x D K. unfold K_dead in K. apply (guarded_dead S lo hi C x HC G D Hd). lia.
    - exact W.
    - unfold K_dead. lia. }
  rewrite <- (Z.mul_1_l PERIOD) at 2. destruct (lwired_ok _ _ _ _ _ W) as (_ & U).
  apply (heat_duty _ _ _ _ (lfirst_R adj_99) (lnext_R adj_99) (loop_ocr adj_99) _ _ _ _ _ _ W); [lia|lia|].
  revert L. apply lately_weaken; [unfold K_dead, PERIOD; lia|auto].
Qed.
End Loop.
