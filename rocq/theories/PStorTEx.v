(** * The storage in time: progress and concrete executions *)
From Coq Require Import ZArith List Bool Lia ZifyBool.
From Verif Require Import Base PBase MConf MTimer MSettings SpecSettings MState MMain SpecSys SpecRun SpecUI Trace MFine SpecFine SpecStor SpecStorT PSettings PStor PStor3 PStor4 PStorT PSys PFine7 PLoop PSettingsEx.
Import ListNotations.
Open Scope Z_scope.

Definition le_stop (a b : stopwatch) : Prop :=
  0 <= k_prog a <= k_prog b /\ 0 <= k_irq a <= k_irq b /\ 0 <= k_work a <= k_work b /\ k_change b <= k_change a.
Definition wy (y : sys) : world := mkW (y_now y) (y_set y) (x_cache (y_set y)) None.
Definition stop_event (y : sys) (k : stopwatch) (e : event) (y' : sys) : stopwatch :=
  match e with
  | ETick => stop_after (wy y) k STick (wy y')
  | ESettings => stop_after (wy y) k SWork (wy y')
  | EReady => stop_after (wy y) k SReady (wy y')
  | EDone => stop_after (wy y) k SDone (wy y')
  | EMenu | EButtons _ => if x_request (y_set y') then mkStop (k_prog k) (k_irq k) (k_work k) 0 else k
  | _ => k
  end.
Definition tickb (D : deadlines) (y : sys) (k : stopwatch) (e : event) : bool :=
  match e with
  | ETick => (negb (writing (wy y)) || (k_prog k <? d_prog D)) && (negb (asking (wy y)) || (k_irq k <? d_irq D)) && (k_work k <? d_work D)
  | EPower _ _ => false
  | _ => true
  end.
Fixpoint tcheck (D : deadlines) (C : conf) (y : sys) (k : stopwatch) (l : list event) : option (sys * stopwatch) :=
  match l with
  | [] => Some (y, k)
  | e :: r => if ev_okb C y e && tickb D y k e then y' <- step C y e ;; tcheck D C y' (stop_event y k e y') r else None
  end.

Section E.
Variables (D : deadlines) (C : conf).
Hypothesis HC : ring_conf C.
Hypothesis HD : dead_ok D.

Lemma like w y : stored_as w y -> writing w = writing (wy y) /\ asking w = asking (wy y).
Proof. intros (A & _). unfold asking, writing. rewrite A. auto. Qed.
Lemma le_after w a b op w' : match op with SModify _ | SPower _ => False | _ => True end -> le_stop a b -> le_stop (stop_after w a op w') (stop_after w b op w').
Proof. intros N (A & B & E & F). destruct op; try contradiction; unfold stop_after, le_stop; cbn [k_prog k_irq k_work k_change tick_of];
  destruct (writing w && writing w'), (asking w && asking w'); cbn [andb]; lia. Qed.
Lemma after_like w y w' y' k op : stored_as w y -> stored_as w' y' -> stop_after w k op w' = stop_after (wy y) k op (wy y').
Proof. intros A B. destruct (like _ _ A) as (A1 & A2), (like _ _ B) as (B1 & B2). unfold stop_after. rewrite A1, A2, B1, B2. reflexivity. Qed.
Lemma serial_inner w ops w' : sreach C false w -> srun C w ops w' -> Forall inner ops -> s_serial (x_cache (w_x w')) = s_serial (x_cache (w_x w)).
Proof.
  intros R H. induction H as [w|w op w1 ops w2 Hb Hs _ IH]; intros F; [reflexivity|]. inversion F as [|? ? F1 F2]; subst.
  assert (R1 : sreach C false w1) by (eapply sreach_step; [exact R|exact Hb|discriminate|exact Hs]). rewrite (IH R1 F2).
  destruct (sreach_inv C HC _ _ R) as (_ & Wf & _). destruct op as [|f| | | |v]; cbn [sstep inner op_basic] in *; try contradiction.
  - injection Hs as <-. reflexivity.
  - unfold store_settings in Hs. destruct (timer_arm _ _) as [t|]; cbn [bind] in Hs; [|discriminate Hs]. injection Hs as <-. rewrite obs_x. exact (proj2 (Hb _ Wf)).
  - destruct (x_eerie (w_x w)); [|injection Hs as <-; reflexivity]. destruct (x_busy (w_x w)); [injection Hs as <-; reflexivity|].
    destruct (ee_ready_isr C (w_x w)) as [x1|] eqn:E1; cbn [bind] in Hs; [|discriminate Hs]. injection Hs as <-. rewrite obs_x. rewrite (proj1 (isr_cache C _ _ E1)). reflexivity.
  - injection Hs as <-. rewrite obs_x. unfold ee_prog_done. destruct (x_busy (w_x w)) as [[a b]|]; reflexivity.
Qed.
Lemma one_op w k op w' : in_time D w k op -> sstep C w op = Some w' -> trun D C w k [op] w' (stop_after w k op w').
Proof. intros A B. econstructor; [exact A|exact B|constructor]. Qed.
Lemma tcheck_step y w k j e y' : ftimed D C y w k -> le_stop k j -> ev_okb C y e = true -> tickb D y j e = true -> step C y e = Some y' ->
  exists w' k', ftimed D C y' w' k' /\ le_stop k' (stop_event y j e y').
Proof.
  intros T L O B E. destruct (ftimed_inv D C HC HD y w k T) as (R & Rw & H & s & K). apply ev_okb_ok in O.
  assert (Np : is_power e = false) by (destruct e; [reflexivity..|discriminate B]).
  assert (U : is_u16 (y_now y)) by (rewrite <- (proj2 H); exact (t_now _ _ _ _ K)).
  assert (Fs : fstep C y e [] = Some y') by (rewrite fstep_nil; exact E).
  assert (Go : forall ops w' k', trun D C w k ops w' k' -> ops_of e ops -> stored_as w' y' -> le_stop k' (stop_event y j e y') ->
            exists w' k', ftimed D C y' w' k' /\ le_stop k' (stop_event y j e y')).
  { intros ops w' k' A1 A2 A3 A4. exists w', k'. split; [|exact A4]. eapply ftimed_step; [exact T|intros _; exact O|exact Fs|exact A1|exact A2|exact A3]. }
  destruct (step_set C y e y' U Np E) as (N & Kd). unfold now_ok in N.
  assert (Nt : e <> ETick -> y_now y' = y_now y) by (intros; rewrite N; destruct e; try congruence; cbn [ticks_of]; rewrite Z.add_0_r; clear - U; unfold is_u16, u16 in *; lia).
  assert (One : forall op w', in_time D w k op -> sstep C w op = Some w' -> ops_of e [op] -> stored_as w' y' -> match op with SModify _ | SPower _ => False | _ => True end ->
            stop_event y j e y' = stop_after (wy y) j op (wy y') -> exists w' k', ftimed D C y' w' k' /\ le_stop k' (stop_event y j e y')).
  { intros op w' A1 A2 A3 A4 A5 A6. apply (Go [op] w' (stop_after w k op w')); [apply one_op; assumption|exact A3|exact A4|].
    rewrite A6, <- (after_like w y w' y' j op H A4). apply le_after; assumption. }
  destruct H as (Hx & Hn). assert (H : stored_as w y) by (split; assumption).
  assert (Not : y_set y' = y_set y -> e <> ETick -> e <> ESettings -> stop_event y j e y' = j \/ stop_event y j e y' = mkStop (k_prog j) (k_irq j) (k_work j) 0 -> exists w' k', ftimed D C y' w' k' /\ le_stop k' (stop_event y j e y')).
  { intros Es N1 N2 Sj. apply (Go [] w k); [constructor|destruct e; try constructor; try congruence; discriminate Np|split; [rewrite Es; exact Hx|rewrite (Nt N1); exact Hn]|].
    destruct L as (L1 & L2 & L3 & L4). pose proof (t_ch _ _ _ _ K). destruct Sj as [-> | ->]; [split; auto|]. unfold le_stop. cbn [k_prog k_irq k_work k_change]. lia. }
  destruct e as [|raw| | | | | |pinb| |v pinb]; try discriminate B.
  - (* tick *)
    cbn [step] in E. injection E as <-. eapply (One STick); [|reflexivity|repeat constructor|split; [exact Hx|cbn; rewrite Hn; reflexivity]|exact Logic.I|reflexivity].
    cbn [in_time tickb] in *. destruct (like _ _ H) as (-> & ->). destruct L as (L1 & L2 & L3 & _). destruct (writing (wy y)), (asking (wy y)); cbn [negb orb andb] in B; repeat split; intros; try discriminate; lia.
  - destruct Kd as [Es _ _|? [?|(?&?)] _|? _ _|? ? _ _ _ _ _ _ _|? _ _]; try discriminate. apply Not; [exact Es|discriminate..|left; reflexivity].
  - (* ready *)
    assert (X : exists w1, sstep C w SReady = Some w1 /\ stored_as w1 y').
    { cbn [sstep step] in *. rewrite Hx. destruct (x_eerie (y_set y)); [|injection E as <-; exists w; auto]. destruct (x_busy (y_set y)); [injection E as <-; exists w; auto|].
      destruct (ee_ready_isr C (y_set y)) as [x1|]; cbn [bind] in *; [|discriminate E]. injection E as <-. eexists. split; [reflexivity|]. split; [apply obs_x|rewrite obs_now; exact Hn]. }
    destruct X as (w1 & X1 & X2). apply (One SReady w1); [exact Logic.I|exact X1|repeat constructor|exact X2|exact Logic.I|reflexivity].
  - (* done *)
    cbn [step] in E. injection E as <-. eapply (One SDone); [exact Logic.I|reflexivity|repeat constructor| |exact Logic.I|reflexivity]. split; [rewrite obs_x, Hx; reflexivity|rewrite obs_now; exact Hn].
  - destruct Kd as [Es _ _|? [?|(?&?)] _|? _ _|? ? _ _ _ _ _ _ _|? _ _]; try discriminate. apply Not; [exact Es|discriminate..|left; reflexivity].
  - destruct Kd as [Es _ _|s0 _ Es|? _ _|? ? _ _ _ _ _ _ _|? _ _]; try discriminate; [apply Not; [exact Es|discriminate..|]; cbn [stop_event]; destruct (x_request (y_set y')); auto|].
    destruct (reach_event C HC y EMenu y' w R Rw H) as (ops & w1 & A1 & A2 & A3 & A4); [split; [exact O|exists []; exact Fs]|].
    assert (Sr := serial_inner w ops w1 Rw A1 A2). destruct (sreach_inv C HC _ _ A4) as (_ & Wf & _). rewrite (proj1 A3), Es in Wf, Sr. cbn in Wf, Sr.
    assert (M : exists w2, sstep C w (SModify (fun s1 => set_s_serial s0 (s_serial s1))) = Some w2 /\ stored_as w2 y').
    { cbn [sstep]. unfold store_settings. assert (Ta : timer_arm (w_now w) 1000 = Some (u16 (w_now w + 1000))) by reflexivity. rewrite Ta. cbn [bind]. eexists. split; [reflexivity|].
      split; [rewrite obs_x, Es; unfold stored; rewrite Hx, Hn; rewrite <- Hx, <- Sr; destruct s0; reflexivity|rewrite obs_now, (Nt ltac:(discriminate)); exact Hn]. }
    destruct M as (w2 & M1 & M2). apply (Go [SModify (fun s1 => set_s_serial s0 (s_serial s1))] w2 (stop_after w k (SModify (fun s1 => set_s_serial s0 (s_serial s1))) w2)).
    + apply one_op; [|exact M1]. cbn [in_time]. intros s1 W1. split; [|reflexivity]. apply wf_serial; [exact Wf|]. destruct W1 as (_ & _ & _ & _ & _ & _ & W1); exact W1.
    + repeat constructor.
    + exact M2.
    + cbn [stop_event]. rewrite Es. cbn [stored x_request set_x_timer set_x_request]. destruct L as (L1 & L2 & L3 & L4). unfold le_stop, stop_after. cbn [k_prog k_irq k_work k_change tick_of].
      destruct (writing w && writing w2), (asking w && asking w2); cbn [andb]; lia.
  - destruct Kd as [Es _ _|? [?|(?&?)] _|? _ _|? ? _ _ _ _ _ _ _|? _ _]; try discriminate. apply Not; [exact Es|discriminate..|left; reflexivity].
  - destruct Kd as [Es _ _|s0 _ Es|? _ _|? ? _ _ _ _ _ _ _|? _ _]; try discriminate; [apply Not; [exact Es|discriminate..|]; cbn [stop_event]; destruct (x_request (y_set y')); auto|].
    destruct (reach_event C HC y (EButtons pinb) y' w R Rw H) as (ops & w1 & A1 & A2 & A3 & A4); [split; [exact O|exists []; exact Fs]|].
    assert (Sr := serial_inner w ops w1 Rw A1 A2). destruct (sreach_inv C HC _ _ A4) as (_ & Wf & _). rewrite (proj1 A3), Es in Wf, Sr. cbn in Wf, Sr.
    assert (M : exists w2, sstep C w (SModify (fun s1 => set_s_serial s0 (s_serial s1))) = Some w2 /\ stored_as w2 y').
    { cbn [sstep]. unfold store_settings. assert (Ta : timer_arm (w_now w) 1000 = Some (u16 (w_now w + 1000))) by reflexivity. rewrite Ta. cbn [bind]. eexists. split; [reflexivity|].
      split; [rewrite obs_x, Es; unfold stored; rewrite Hx, Hn; rewrite <- Hx, <- Sr; destruct s0; reflexivity|rewrite obs_now, (Nt ltac:(discriminate)); exact Hn]. }
    destruct M as (w2 & M1 & M2). apply (Go [SModify (fun s1 => set_s_serial s0 (s_serial s1))] w2 (stop_after w k (SModify (fun s1 => set_s_serial s0 (s_serial s1))) w2)).
    + apply one_op; [|exact M1]. cbn [in_time]. intros s1 W1. split; [|reflexivity]. apply wf_serial; [exact Wf|]. destruct W1 as (_ & _ & _ & _ & _ & _ & W1); exact W1.
    + repeat constructor.
    + exact M2.
    + cbn [stop_event]. rewrite Es. cbn [stored x_request set_x_timer set_x_request]. destruct L as (L1 & L2 & L3 & L4). unfold le_stop, stop_after. cbn [k_prog k_irq k_work k_change tick_of].
      destruct (writing w && writing w2), (asking w && asking w2); cbn [andb]; lia.
  - (* settings_work *)
    cbn [step] in E. injection E as <-. eapply (One SWork); [exact Logic.I|reflexivity|reflexivity| |exact Logic.I|reflexivity].
    split; [rewrite obs_x, Hx, Hn; reflexivity|rewrite obs_now; exact Hn].
Qed.
Lemma tcheck_ok l : forall y w k j y' j', ftimed D C y w k -> le_stop k j -> tcheck D C y j l = Some (y', j') -> exists w' k', ftimed D C y' w' k' /\ le_stop k' j'.
Proof.
  induction l as [|e l IH]; intros y w k j y' j' T L E; cbn [tcheck] in E; [injection E as <- <-; eauto|].
  destruct (ev_okb C y e && tickb D y j e) eqn:B; [|discriminate E]. apply andb_true_iff in B. destruct (step C y e) as [y1|] eqn:E1; cbn [bind] in E; [|discriminate E].
  destruct (tcheck_step y w k j e y1 T L (proj1 B) (proj2 B) E1) as (w1 & k1 & T1 & L1). exact (IH _ _ _ _ _ _ T1 L1 E).
Qed.

(** ** Time can always go on *)
Lemma timed_progress w k : timed D C w k -> 1 <= d_prog D -> 1 <= d_irq D -> 1 <= d_work D ->
  exists w' k', trun D C w k [SWork; SDone; SReady] w' k' /\ in_time D w' k' STick /\ k_change k' = k_change k.
Proof.
  intros T P1 Q1 W1. destruct (timed_inv D C HC HD w k T) as (R & _). destruct HD as (P0 & Q0 & _ & W0).
  set (w1 := observe w (settings_work C (w_now w) (w_x w))). set (k1 := stop_after w k SWork w1).
  assert (S1 : sstep C w SWork = Some w1) by reflexivity.
  set (w2 := observe w1 (ee_prog_done (w_x w1))). set (k2 := stop_after w1 k1 SDone w2). assert (S2 : sstep C w1 SDone = Some w2) by reflexivity.
  assert (T2 : trun D C w k [SWork; SDone] w2 k2) by (econstructor; [exact Logic.I|exact S1|]; econstructor; [exact Logic.I|exact S2|constructor]).
  assert (R2 : sreach C false w2).
  { destruct T as (w0 & ops & E & H). destruct (trun_inv D C HC HD _ _ _ _ _ H) as (_ & A & B); [apply sreach_boot; exact E|exists 0; exact (boot_tinv D C HD _ E)|].
    exact (proj1 (proj2 (trun_inv D C HC HD _ _ _ _ _ T2 A B))). }
  assert (X : exists w3, sstep C w2 SReady = Some w3).
  { cbn [sstep]. destruct (x_eerie (w_x w2)) eqn:Ee; [|eauto]. destruct (x_busy (w_x w2)); [eauto|]. pose proof (sreach_inv C HC _ _ R2) as I. destruct (shape D C w2 I) as (Sh & _).
    specialize (Sh Ee). destruct I as (_ & Wf & c & [(A & _)|(i & _ & _ & A & Ch & _)]); [congruence|].
    assert (Ix : 0 <= x_index (w_x w2) < c_slots C) by (rewrite A; destruct Ch as (Ch & _); destruct (i =? c_slots C - 1) eqn:Ei; lia).
    rewrite (isr_eq C HC _ Wf Ix Sh). cbn [bind]. eexists. reflexivity. }
  destruct X as (w3 & S3). exists w3, (stop_after w2 k2 SReady w3). split; [|split; [|unfold k2, k1; cbn [stop_after k_change tick_of]; lia]].
  - econstructor; [exact Logic.I|exact S1|]. econstructor; [exact Logic.I|exact S2|]. econstructor; [exact Logic.I|exact S3|constructor].
  - assert (W2 : writing w2 = false). { unfold w2, writing. rewrite obs_x. unfold ee_prog_done. destruct (x_busy (w_x w1)) as [[a b]|] eqn:Eb; [reflexivity|rewrite Eb; reflexivity]. }
    cbn [in_time stop_after k_prog k_irq k_work k_change]. rewrite W2, andb_false_r. cbn [andb]. unfold k2, k1. cbn [stop_after k_work tick_of]. repeat split; intros; lia.
Qed.
End E.

(** The usual speeds: a byte takes at most 4 ms, the interrupt at most 1 ms, an iteration of the main loop at most 5 ms. *)
Definition usual : deadlines := mkDead 4 1 5.
Lemma usual_ok : dead_ok usual.
Proof. unfold dead_ok, usual. cbn. lia. Qed.
Definition beat : list event := [ETick; EDone; EReady; ESettings].
Definition keyed (n : nat) (pinb : Z) : list event := concat (repeat [ETick; EButtons pinb; EMenu; ESettings] n).
Definition edited : list event := keyed 20 SET_KEY ++ keyed 20 NO_KEYS ++ keyed 20 PLUS_KEY ++ keyed 20 NO_KEYS.
(** The idle temperature is raised; after 1325 ms without a change it is stored. *)
Lemma case107 : exists y w k, ftimed usual conf_m88p y w k /\ 1000 + d_work usual + 64 * (d_prog usual + d_irq usual) <= k_change k /\
  s_idle (x_cache (y_set y)) = 151 * 64 /\ s_idle (default_settings conf_m88p) = 150 * 64.
Proof.
  destruct (boot conf_m88p (factory_ee conf_m88p) NO_KEYS) as [y0|] eqn:E0; [|vm_compute in E0; discriminate E0].
  destruct (sboot conf_m88p) as [w0|] eqn:W0; [|vm_compute in W0; discriminate W0].
  assert (T0 : ftimed usual conf_m88p y0 w0 stop_zero) by (eapply ftimed_boot; [|exact E0|exact W0]; unfold is_u8, NO_KEYS; lia).
  assert (X : match boot conf_m88p (factory_ee conf_m88p) NO_KEYS with
    | Some y => match tcheck usual conf_m88p y stop_zero (edited ++ concat (repeat beat 1330)) with Some (y', j) => (1325 <=? k_change j) && (s_idle (x_cache (y_set y')) =? 9664) | None => false end
    | None => false end = true) by (vm_compute; reflexivity).
  rewrite E0 in X. destruct (tcheck usual conf_m88p y0 stop_zero _) as [[y' j]|] eqn:E1; [|discriminate X]. apply andb_true_iff in X. destruct X as (X1 & X2).
  destruct (tcheck_ok usual conf_m88p ring_m88p usual_ok _ y0 w0 stop_zero stop_zero y' j T0 ltac:(unfold le_stop; cbn; lia) E1) as (w' & k' & T' & L).
  exists y', w', k'. split; [exact T'|]. destruct L as (_ & _ & _ & L). cbn. split; [lia|]. split; [lia|reflexivity].
Qed.
(** A power failure 950 ms after the change loses it. *)
Lemma case107_early : exists y w k y', ftimed usual conf_m88p y w k /\ 950 <= k_change k /\ step conf_m88p y (EPower 255 NO_KEYS) = Some y' /\
  s_idle (x_cache (y_set y)) = 151 * 64 /\ s_idle (x_cache (y_set y')) = 150 * 64.
Proof.
  destruct (boot conf_m88p (factory_ee conf_m88p) NO_KEYS) as [y0|] eqn:E0; [|vm_compute in E0; discriminate E0].
  destruct (sboot conf_m88p) as [w0|] eqn:W0; [|vm_compute in W0; discriminate W0].
  assert (T0 : ftimed usual conf_m88p y0 w0 stop_zero) by (eapply ftimed_boot; [|exact E0|exact W0]; unfold is_u8, NO_KEYS; lia).
  assert (X : match boot conf_m88p (factory_ee conf_m88p) NO_KEYS with
    | Some y => match tcheck usual conf_m88p y stop_zero (edited ++ concat (repeat beat 950)) with
                | Some (y', j) => (950 <=? k_change j) && (s_idle (x_cache (y_set y')) =? 9664) &&
                                  match step conf_m88p y' (EPower 255 NO_KEYS) with Some y2 => s_idle (x_cache (y_set y2)) =? 9600 | None => false end
                | None => false end
    | None => false end = true) by (vm_compute; reflexivity).
  rewrite E0 in X. destruct (tcheck usual conf_m88p y0 stop_zero _) as [[y1 j]|] eqn:E1; [|discriminate X]. apply andb_true_iff in X. destruct X as (X1 & X2). apply andb_true_iff in X1. destruct X1 as (X1 & X3).
  destruct (tcheck_ok usual conf_m88p ring_m88p usual_ok _ y0 w0 stop_zero stop_zero y1 j T0 ltac:(unfold le_stop; cbn; lia) E1) as (w' & k' & T' & L).
  destruct (step conf_m88p y1 (EPower 255 NO_KEYS)) as [y2|] eqn:E2; [|discriminate X2].
  exists y1, w', k', y2. split; [exact T'|]. destruct L as (_ & _ & _ & L). split; [lia|]. split; [exact E2|]. lia.
Qed.
(** The properties, from the invariants *)
Lemma timed_saved D C w k : ring_conf C -> dead_ok D -> timed D C w k -> 1000 + d_work D + 64 * (d_prog D + d_irq D) <= k_change k ->
  quiet (w_x w) = true /\ x_request (w_x w) = false /\ forall v w', sstep C w (SPower v) = Some w' -> x_cache (w_x w') = x_cache (w_x w).
Proof.
  intros HC HD T B. destruct (timed_inv D C HC HD w k T) as (R & s & K). destruct (tinv_settled D C HD w k s (sreach_inv C HC _ _ R) K B) as (Q & Rq).
  split; [exact Q|]. split; [exact Rq|]. intros v w' E. cbn [sstep] in E. destruct (durable C HC false w R Q Rq) as (x' & A & F & _). apply quiet_iff in Q. unfold ee_after_crash in E. rewrite (proj2 Q), A in E.
  cbn [bind] in E. injection E as <-. exact F.
Qed.
Lemma timed_assumption D C w k : ring_conf C -> dead_ok D -> timed D C w k -> sreach C false w /\ op_basic C w SWork.
Proof. intros HC HD T. destruct (timed_inv D C HC HD w k T) as (R & s & K). split; [exact R|]. exact (work_free D C HD w k s (sreach_inv C HC _ _ R) K). Qed.
Lemma ftimed_reach D C y w k : ring_conf C -> dead_ok D -> ftimed D C y w k -> freach C y /\ stored_as w y /\ ev_ok C y ESettings.
Proof.
  intros HC HD T. destruct (ftimed_inv D C HC HD y w k T) as (R & Rw & H & s & K). split; [exact R|]. split; [exact H|].
  pose proof (work_free D C HD w k s (sreach_inv C HC _ _ Rw) K) as X. cbn [op_basic] in X. rewrite (proj1 H), (proj2 H) in X. exact X.
Qed.
Lemma ftimed_follow D C y w k e o y' : ring_conf C -> dead_ok D -> ftimed D C y w k -> (e <> ESettings -> ev_ok C y e) -> fstep C y e o = Some y' ->
  exists ops w', srun C w ops w' /\ ops_of e ops /\ stored_as w' y'.
Proof.
  intros HC HD T O E. destruct (ftimed_reach D C y w k HC HD T) as (R & H & X). destruct (ftimed_inv D C HC HD y w k T) as (_ & Rw & _).
  destruct (reach_event C HC y e y' w R Rw H) as (ops & w' & A & B & F & _); [split; [|exists o; exact E]; destruct e; try (apply O; discriminate); exact X|]. eauto.
Qed.
Lemma ftimed_saved D C y w k v pinb y' : ring_conf C -> dead_ok D -> ftimed D C y w k -> 1000 + d_work D + 64 * (d_prog D + d_irq D) <= k_change k ->
  fnext C y (EPower v pinb) y' -> x_cache (y_set y') = x_cache (y_set y).
Proof.
  intros HC HD T B N. destruct (ftimed_inv D C HC HD y w k T) as (R & Rw & H & s & K). destruct (tinv_settled D C HD w k s (sreach_inv C HC _ _ Rw) K B) as (Q & Rq).
  rewrite (proj1 H) in Q, Rq. exact (proj1 (stor_survive C HC y v pinb y' R Q Rq N)).
Qed.
