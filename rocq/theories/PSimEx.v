(** * Concrete executions of the firmware in the simulator *)
From Coq Require Import ZArith List Bool Lia.
From Verif Require Import Base PBase MConf MSettings SpecSettings MState MMain MDebug SpecSys MTele Trace PSysTrace MSim SpecSim PSim.
Import ListNotations.
Open Scope Z_scope.

(** [None]: a reading *)
Definition may_turn (p : nat) (e : event) : bool := match turn e with Some k => (p <=? k)%nat | None => true end.
Definition simst : Type := sys * cells * list Z * fifo * list (list Z) * pysim * nat.
Fixpoint srun (rd : fifo -> option (fifo * list Z)) (C : conf) (st : simst) (l : list (option event)) : option simst :=
  match l with
  | [] => Some st
  | Some e :: r =>
    let '(y, f, b, u, g, q, p) := st in
    if ev_okb C y e && negb (is_power e) && may_turn p e
    then '(y', f', s) <- tstep C y f e ;; u' <- uart_writes u (concat s) ;;
         srun rd C (y', f', b ++ concat s, u', g, q, match turn e with Some k => S k | None => p end) r
    else None
  | None :: r =>
    let '(y, f, b, u, g, q, p) := st in '(u', d) <- rd u ;; srun rd C (y, f, b, u', g ++ [d], sim_handle q d, 0%nat) r
  end.
Definition is_sim (C : conf) (st : simst) : Prop := let '(y, f, b, u, g, q, p) := st in simulated C y f b u g q p.
Lemma srun_ok rd C l : (forall u, rd u = xy_uart_get_tx u) -> forall st st', is_sim C st -> srun rd C st l = Some st' -> is_sim C st'.
Proof.
  intros Hrd. induction l as [|[e|] l IH]; intros st st' H E; [cbn in E; apply Some_inj in E; subst; exact H| |]; destruct st as ((((((y, f), b), u), g), q), p); cbn [srun] in E.
  - destruct (ev_okb C y e && negb (is_power e) && may_turn p e) eqn:O; [|discriminate E]. rewrite !andb_true_iff in O. destruct O as ((O1 & O2) & O3). apply ev_okb_ok in O1. apply negb_true_iff in O2.
    apply bind_inv in E. destruct E as (((y', f'), s) & E1 & E). apply bind_inv in E. destruct E as (u' & E2 & E). eapply IH; [|exact E]. cbn [is_sim] in *.
    eapply sim_event; try eassumption. unfold may_turn in O3. destruct (turn e); [apply Nat.leb_le; exact O3|exact Logic.I].
  - apply bind_inv in E. destruct E as ((u', d) & E1 & E). eapply IH; [|exact E]. cbn [is_sim] in *. rewrite Hrd in E1. eapply sim_read; eassumption.
Qed.
(** SET held at power-up: the m328p build starts in the debug mode. *)
Definition simr (l : list (option event)) (P : simst -> bool) : bool :=
  match tboot conf_m328p (factory_ee conf_m328p) SET_KEY with
  | Some (y, f, s) =>
    match uart_writes fifo_reset (concat s) with
    | Some u => match srun xy_uart_get_tx conf_m328p (y, f, concat s, u, [], sim_reset, 0%nat) l with Some st => P st | None => false end
    | None => false
    end
  | None => false
  end.
Lemma simr_ok l P : simr l P = true -> exists y f b u g q p, simulated conf_m328p y f b u g q p /\ P (y, f, b, u, g, q, p) = true.
Proof.
  unfold simr. intros K. destruct (tboot _ _ _) as [((y0, f0), s0)|] eqn:B; [|discriminate K]. destruct (uart_writes _ _) as [u0|] eqn:U; [|discriminate K].
  destruct (srun _ _ _ _) as [st|] eqn:E; [|discriminate K]. eapply srun_ok in E.
  2: reflexivity.
  - destruct st as ((((((y, f), b), u), g), q), p). exists y, f, b, u, g, q, p. split; [exact E|exact K].
  - cbn [is_sim]. eapply sim_boot; try eassumption. unfold SET_KEY, is_u8; lia.
Qed.
(** A reading after every work function that may send something *)
Definition reading (l : list event) : list (option event) := flat_map (fun e => match turn e with Some _ => [Some e; None] | None => [Some e] end) l.
(** A temperature and a current were measured and 21 lines sent; the decoder has taken three of them. *)
Lemma case91 : exists y f b u g q p, simulated conf_m328p y f b u g q p /\ y_dbg y = true /\ f (CItem Mt) = 310 /\ q_val q (CItem Mt) = (310, 1) /\
  f (CItem Tr) = 20107 /\ q_val q (CItem Tr) = (0, 64) /\ lines_in b = 21%nat /\ taken g [] 0 = 3%nat.
Proof.
  assert (K : simr (None :: reading (cycles 1 310 100)) (fun st => let '(y, f, b, u, g, q, p) := st in y_dbg y && ((f (CItem Mt) =? 310) && ((fst (q_val q (CItem Mt)) =? 310) && ((snd (q_val q (CItem Mt)) =? 1) &&
    ((f (CItem Tr) =? 20107) && ((fst (q_val q (CItem Tr)) =? 0) && ((snd (q_val q (CItem Tr)) =? 64) && (Nat.eqb (lines_in b) 21 && Nat.eqb (taken g [] 0) 3)))))))) = true) by (vm_compute; reflexivity).
  destruct (simr_ok _ _ K) as (y & f & b & u & g & q & p & S & P). cbv beta iota in P. rewrite !andb_true_iff, !Z.eqb_eq, !Nat.eqb_eq in P. destruct P as (P0 & P1 & P2 & P3 & P4 & P5 & P6 & P7 & P8).
  exists y, f, b, u, g, q, p. split; [exact S|]. split; [exact P0|]. split; [exact P1|]. split; [rewrite (surjective_pairing (q_val q (CItem Mt))); congruence|].
  split; [exact P4|]. split; [rewrite (surjective_pairing (q_val q (CItem Tr))); congruence|]. split; assumption.
Qed.

Lemma case89 : exists f, piped f [7; 8; 9] [7; 8] /\ exists f', uart_get_tx f 5 = Some (f', [9]).
Proof.
  destruct (writes_piped [7; 8; 9] fifo_reset [] [] piped_reset) as (f & E & P); [apply Nat.leb_le; vm_compute; reflexivity|]. cbn in E. apply Some_inj in E. subst f.
  eexists. split; [eapply (piped_read _ _ _ 2 _ [7; 8] P); reflexivity|]. eexists. reflexivity.
Qed.
Lemma case90 : exists b ch, sstream [SHello; SVal 300 (CItem Tr) 20107; SVal 301 (CPid false TI) (-5)] b /\ b = concat ch ++ [] /\ length ch = 4%nat /\
  q_val (fold_left sim_handle ch sim_reset) (CPid false TI) = (-5, 64) /\ q_val (fold_left sim_handle ch sim_reset) (CItem Tr) = (20107, 64).
Proof.
  exists (greeting ++ [49; 50; 99; 58; 32; 116; 114; 32; 50; 48; 49; 48; 55; 13; 10] ++ [49; 50; 100; 58; 32; 112; 105; 100; 45; 99; 32; 105; 32; 45; 53; 13; 10] ++ []).
  exists [[13; 10]; [115; 116; 13; 10; 49; 50; 99; 58; 32; 116; 114; 32; 50; 48; 49; 48; 55; 13]; [10; 49; 50; 100; 58; 32; 112; 105; 100; 45; 99; 32; 105; 32; 45; 53; 13]; [10]].
  split; [|repeat split; vm_compute; reflexivity].
  apply (ss_cons SHello); [exact Logic.I|reflexivity|]. apply (ss_cons (SVal 300 (CItem Tr) 20107)); [cbn; unfold is_s24; lia|vm_compute; reflexivity|].
  apply (ss_cons (SVal 301 (CPid false TI) (-5))); [cbn; unfold is_s24; lia|vm_compute; reflexivity|]. constructor.
Qed.
