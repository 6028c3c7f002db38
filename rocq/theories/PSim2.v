(** * Proofs about the simulator: the firmware in it *)
From Coq Require Import ZArith List Bool Lia.
From Verif Require Import Base PBase MConf MSettings MState MMain MDebug SpecSettings SpecSys PDebug MTele SpecTele PTele PTele2 PTele3 PTele4 PSysSet PSys PSysSafe
  PTele5 PTele6 PTele7 MSim SpecSim PSim.
Import ListNotations.
Open Scope Z_scope.

Lemma sstream_app l b l' b' : sstream l b -> sstream l' b' -> sstream (l ++ l') (b ++ b').
Proof. induction 1 as [|m b l t R E T IH]; intros H; [exact H|]. cbn [app]. rewrite <- app_assoc. constructor; auto. Qed.
Lemma said_app l r c : forall d, said (l ++ r) c d = said r c (said l c d).
Proof. induction l as [|[|now x v] l IH]; intros d; cbn [app said]; auto. Qed.
Definition tb_only (a : act) : Prop := match a with APrint i _ => i = Tb | _ => True end.
(** What was said of a cell is still its value; the first message is a greeting. *)
Definition told (en : bool) (f : cells) (l : list smsg) : Prop :=
  (en = true -> forall c v, c <> CItem Tb -> said l c None = Some v -> v = f c) /\ match l with [] => en = false | m :: _ => m = SHello end.
Lemma begun_app {A} (en en' : bool) (m0 : A) l r : match l with [] => en = false | m :: _ => m = m0 end -> (l = [] -> match r with [] => en' = false | m :: _ => m = m0 end) ->
  match l ++ r with [] => en' = false | m :: _ => m = m0 end.
Proof. destruct l; [intros _ H; apply H; reflexivity|intros H _; exact H]. Qed.
Lemma perform1_told now en f a l : rngv a -> tb_only a -> told en f l -> exists s ms, perform1 now en f a = Some (enf en a, upd f a, s) /\ sstream ms (concat s) /\
  told (enf en a) (upd f a) (l ++ ms).
Proof.
  intros R Tb1 (H & H0). destruct (perform1_ok now en f a R) as (s & E & _ & _ & S). exists s. destruct a as [c v|i v|b]; cbn [enf upd rngv tb_only] in *.
  - destruct S as [(-> & Hs)|(b & En & N & -> & Eb)].
    + exists []. split; [exact E|]. split; [constructor|]. rewrite app_nil_r. split; [|exact H0]. intros En d w Hd Hw. destruct Hs as [Hs|Hs]; [congruence|]. rewrite (H En d w Hd Hw). unfold set_cell. destruct (cell_dec d c); congruence.
    + exists [SVal now c v]. split; [exact E|]. split; [cbn [concat]; constructor; [exact R|exact Eb|constructor]|]. split; [|apply (begun_app en); [exact H0|intros ->; congruence]].
      intros _ d w Hd Hw. rewrite said_app in Hw. cbn [said] in Hw. unfold set_cell. destruct (cell_dec d c); [congruence|]. exact (H En d w Hd Hw).
  - subst i. destruct S as [->|(b & En & -> & Eb)].
    + exists []. split; [exact E|]. split; [constructor|]. rewrite app_nil_r. split; assumption.
    + exists [SVal now (CItem Tb) v]. split; [exact E|]. split; [cbn [concat]; constructor; [exact R|exact Eb|constructor]|]. split; [|apply (begun_app en); [exact H0|intros ->; congruence]].
      intros _ d w Hd Hw. rewrite said_app in Hw. cbn [said] in Hw. destruct (cell_dec d (CItem Tb)); [contradiction|]. exact (H En d w Hd Hw).
  - subst s. destruct b.
    + exists [SHello]. split; [exact E|]. split; [cbn [concat]; constructor; [exact Logic.I|reflexivity|constructor]|]. split; [|apply (begun_app en); [exact H0|reflexivity]].
      intros _ d w Hd Hw. rewrite said_app in Hw. discriminate Hw.
    + exists []. split; [exact E|]. split; [constructor|]. split; [intros X; discriminate X|apply (begun_app en); [exact H0|reflexivity]].
Qed.
Lemma perform_told now a : Forall rngv a -> Forall tb_only a -> forall en f l en' f' s, told en f l -> perform now en f a = Some (en', f', s) ->
  exists ms, sstream ms (concat s) /\ told en' f' (l ++ ms).
Proof.
  induction 1 as [|x a R _ IH]; intros P en f l en' f' s H E.
  - cbn in E. apply Some_inj in E. injection E as <- <- <-. exists []. split; [constructor|]. rewrite app_nil_r. exact H.
  - pose proof (Forall_inv P) as P1. apply Forall_inv_tail in P. destruct (perform1_told now en f x l R P1 H) as (s1 & m1 & E1 & T1 & H1). cbn [perform] in E. rewrite E1 in E. cbn [bind] in E.
    apply bind_inv in E. destruct E as (((e2, f2), s2) & E2 & E). apply Some_inj in E. injection E as <- <- <-. destruct (IH P _ _ _ _ _ _ H1 E2) as (m2 & T2 & H2).
    exists (m1 ++ m2). split; [rewrite concat_app; apply sstream_app; assumption|]. rewrite app_assoc. exact H2.
Qed.
Lemma event_tb C y e y' l : step_t C y e = Some (y', l) -> Forall tb_only l.
Proof.
  intros E. assert (e = EMeasure \/ e <> EMeasure) as [->|Ne] by (destruct e; (left; reflexivity) || (right; discriminate)).
  - pose proof (post_both _ _ _ _ (post_calls _ _ (c_measure C y)) E) as Re. cbv beta in Re. revert Re. apply Forall_impl. intros [] H; [exact Logic.I|destruct H|exact Logic.I].
  - pose proof (ui_event C y e y' l Ne E) as U. revert U. apply Forall_impl. intros [] H; [exact Logic.I| |exact Logic.I]. destruct i; try destruct H. reflexivity.
Qed.

Lemma stream_lines l b : sstream l b -> lines_in b = list_sum (map smsg_lines l).
Proof.
  induction 1 as [|m b l t R E T IH]; [reflexivity|]. destruct (msg_segs m R) as (b' & S & E' & -> & L & N & _). rewrite E in E'. apply Some_inj in E'. subst b. rewrite lines_skip by exact N. cbn [map list_sum fold_right].
  rewrite L, IH. reflexivity.
Qed.
Lemma stream_nil l b : sstream l b -> b = [] -> l = [].
Proof.
  intros [|m a l' t R E T] N; [reflexivity|]. apply app_eq_nil in N. destruct N as (-> & _). destruct m as [|now c v]; [discriminate E|]. cbn [smsg_ok smsg_bytes] in *.
  destruct (line_ok now c v R) as (b' & E' & (h & t' & Hb & _) & _). congruence.
Qed.
Lemma taken_snoc d : forall g got k, taken (g ++ [d]) got k = match d with [] => taken g got k | _ => Nat.min (S (taken g got k)) (lines_in (got ++ concat g ++ d)) end.
Proof.
  induction g as [|x g IH]; intros got k; cbn [app taken concat]; [destruct d; reflexivity|]. rewrite IH. destruct d; [reflexivity|]. rewrite <- !app_assoc. reflexivity.
Qed.
Definition quota (p : nat) : nat := match p with 0 => 52 | 1 => 297 | 2 => 337 | _ => 657 end%nat.
Record siminv (C : conf) (y : sys) (f : cells) (b : list Z) (u : fifo) (g : list (list Z)) (q : pysim) (p : nat) : Prop := {
  si_reach : reach C y;
  si_piped : piped u b (concat g);
  si_len : (length b <= length (concat g) + quota p)%nat;
  si_dec : q = fold_left sim_handle g sim_reset;
  si_msgs : exists m1 m2 r, sstream m1 (concat g) /\ sstream m2 r /\ b = concat g ++ r /\ told (y_dbg y) f (m1 ++ m2);
  si_late : concat g = [] /\ taken g [] 0 = 0%nat \/ (S (taken g [] 0) <= lines_in (concat g))%nat }.
Lemma boot_inv C p y f s : build_conf C -> is_u8 p -> tboot C (factory_ee C) p = Some (y, f, s) ->
  reach C y /\ (length (concat s) <= 52)%nat /\ exists ms, sstream ms (concat s) /\ told (y_dbg y) f ms.
Proof.
  intros HC Up E. assert (exists z, boot C (factory_ee C) p = Some z) as (z & Ez) by (unfold tboot, tout in E; apply bind_inv in E; destruct E as ((z, l) & E & _); exists z; rewrite <- (e_boot C _ p), E; reflexivity).
  destruct (tboot_eq C _ _ _ Ez) as (l & Et & U & D & X). assert (R : reach C z) by exact (reach_boot C p z Up Ez).
  assert (K : (total l <= 52)%nat) by exact (post_both _ _ _ _ (k_boot C _ p) Et).
  destruct (c_debug C) eqn:Cd.
  - destruct X as (s' & Ep & (G & _) & X). rewrite X in E. apply Some_inj in E. injection E as <- <- <-. split; [exact R|]. split; [lia|].
    apply (perform_told 0 l (ui_rng l U)) with (en := false) (f := fun _ => 0) (l := []).
    + revert U. apply Forall_impl. intros [] H; [exact Logic.I| |exact Logic.I]. destruct i; try destruct H. reflexivity.
    + split; [intros Q; discriminate Q|reflexivity].
    + exact Ep.
  - rewrite X in E. apply Some_inj in E. injection E as <- <- <-. split; [exact R|]. split; [cbn; lia|]. exists []. split; [constructor|]. rewrite (not_debug C z HC R Cd). split; [intros Q; discriminate Q|reflexivity].
Qed.
Lemma event_inv C y f e y' f' s ms : build_conf C -> reach C y -> ev_ok C y e -> is_power e = false -> tstep C y f e = Some (y', f', s) -> told (y_dbg y) f ms ->
  reach C y' /\ (length (concat s) <= bytes e)%nat /\ exists m1, sstream m1 (concat s) /\ told (y_dbg y') f' (ms ++ m1).
Proof.
  intros HC R O Pw E H. destruct (tstep_eq C y f e HC R O) as (z & l & Ez & Et & Rn & D & X). rewrite Pw in *. cbv zeta in *.
  assert (R' : reach C z) by exact (reach_step C y e z R O Ez). pose proof (post_both _ _ _ _ (event_cost C y e) Et) as K. cbv beta in K.
  destruct (c_debug C) eqn:Cd.
  - destruct X as (s' & Ep & (G & _) & X). rewrite X in E. apply Some_inj in E. injection E as <- <- <-. split; [exact R'|]. split; [lia|].
    exact (perform_told _ l Rn (event_tb C y e z l Et) _ _ _ _ _ _ H Ep).
  - rewrite X in E. apply Some_inj in E. injection E as <- <- <-. split; [exact R'|]. split; [cbn; lia|]. exists []. split; [constructor|]. rewrite app_nil_r, (not_debug C z HC R' Cd). rewrite (not_debug C y HC R Cd) in H.
    destruct H as (_ & H). split; [intros Q; discriminate Q|exact H].
Qed.
Lemma quota_turn e p : match turn e with Some k => (p <= k)%nat | None => True end -> is_power e = false -> (quota p + bytes e <= quota (match turn e with Some k => S k | None => p end))%nat.
Proof. destruct e; cbn [turn bytes is_power]; intros H Pw; try discriminate Pw; try lia; destruct p as [|[|[|p]]]; cbn; lia. Qed.
Lemma quota_max p : (quota p <= 657)%nat. Proof. destruct p as [|[|[|p]]]; cbn; lia. Qed.
Lemma in4095 n : (n <= 657)%nat -> (n <= Z.to_nat 4095)%nat. Proof. lia. Qed.
Lemma piped_writes l : forall f s g f', piped f s g -> (length s + length l <= length g + Z.to_nat 4095)%nat -> uart_writes f l = Some f' -> piped f' (s ++ l) g.
Proof. intros f s g f' P L E. destruct (writes_piped l f s g P L) as (f1 & E1 & P1). rewrite E in E1. apply Some_inj in E1. subst f1. exact P1. Qed.
Lemma read_gen n u b g u' d : piped u b g -> (Z.to_nat 4095 <= n)%nat -> uart_get_tx u n = Some (u', d) -> piped u' b (g ++ d) /\ b = g ++ d.
Proof.
  intros P Ln E. split; [exact (piped_read u b g n u' d P E)|]. destruct (fifo_faithful u b g P) as (rest & -> & L & K & _). destruct (K n) as (f1 & E1). rewrite E in E1.
  apply Some_inj in E1. injection E1 as _ ->. rewrite firstn_all2 by (clear - L Ln; lia). reflexivity.
Qed.
Lemma xy_eq : xy_uart_get_tx = fun u => uart_get_tx u (Z.to_nat 4096). Proof. reflexivity. Qed.
Lemma read_all u b g u' d : piped u b g -> xy_uart_get_tx u = Some (u', d) -> piped u' b (g ++ d) /\ b = g ++ d.
Proof. intros P E. rewrite xy_eq in E. apply (read_gen (Z.to_nat 4096) u b g u' d P); [apply Z2Nat.inj_le; lia|exact E]. Qed.
Lemma sim_inv C y f b u g q p : build_conf C -> simulated C y f b u g q p -> siminv C y f b u g q p.
Proof.
  intros HC. induction 1 as [pinb y f s u Up E W|y f b u g q p e y' f' s u' S IH O Pw T E W|y f b u g q p u' d S IH E].
  - destruct (boot_inv C pinb y f s HC Up E) as (R & L & M). split; [exact R| |exact L|reflexivity| |left; split; reflexivity].
    2: { destruct M as (ms & M1 & M2). exists [], ms, (concat s). split; [constructor|]. split; [exact M1|]. split; [reflexivity|exact M2]. }
    apply (piped_writes (concat s) fifo_reset [] [] u piped_reset); [cbn [length]; lia|exact W].
  - destruct IH as [R P L D (n1 & n2 & r & N1 & N2 & Er & M2) Lt]. set (ms := n1 ++ n2) in *. destruct (event_inv C y f e y' f' s ms HC R O Pw E M2) as (R' & L' & m1 & T1 & T2). pose proof (quota_turn e p T Pw) as Q. pose proof (quota_max (match turn e with Some k => Datatypes.S k | None => p end)) as Qm.
    split; [exact R'| |rewrite app_length; lia|exact D| |exact Lt].
    + apply (piped_writes (concat s) u b (concat g) u' P); [lia|exact W].
    + exists n1, (n2 ++ m1), (r ++ concat s). split; [exact N1|]. split; [apply sstream_app; assumption|]. split; [rewrite Er, <- app_assoc; reflexivity|rewrite app_assoc; exact T2].
  - destruct IH as [R P L D (n1 & n2 & r & N1 & N2 & Er & M) Lt]. destruct (read_all u b (concat g) u' d P E) as (P' & Eb). assert (Eg : concat (g ++ [d]) = concat g ++ d) by (rewrite concat_app; cbn [concat]; rewrite app_nil_r; reflexivity).
    assert (r = d) by (rewrite Er in Eb; apply app_inv_head in Eb; exact Eb). subst r.
    assert (Ts : sstream (n1 ++ n2) (concat g ++ d)) by (apply sstream_app; assumption).
    split; [exact R|rewrite Eg; exact P'|rewrite Eg, <- Eb; cbn; lia|rewrite fold_left_app, D; reflexivity| |].
    + exists (n1 ++ n2), [], []. split; [rewrite Eg; exact Ts|]. split; [constructor|]. rewrite !app_nil_r, Eg. split; [exact Er|exact M].
    + rewrite taken_snoc. rewrite Eg. cbn [app]. destruct d as [|x d0] eqn:Ed; [rewrite app_nil_r; exact Lt|]. assert (Nd : d <> []) by congruence. rewrite <- Ed in *. clear x d0 Ed. right.
      destruct n2 as [|m n2]; [exfalso; inversion N2; congruence|]. rewrite (stream_lines _ _ Ts) in *. rewrite map_app, list_sum_app. cbn [map list_sum fold_right].
      destruct Lt as [(Lg & Lt)|Lt].
      * rewrite Lt. rewrite Lg in N1. apply stream_nil in N1; [|reflexivity]. subst n1.
        cbn [app] in M. destruct M as (_ & ->). cbn [smsg_lines map list_sum fold_right]. lia.
      * rewrite (stream_lines _ _ N1) in Lt. assert (1 <= smsg_lines m)%nat by (destruct m; cbn; lia). lia.
Qed.

(** ** The statements *)
Lemma sim_lossless C y f b u g q p : build_conf C -> simulated C y f b u g q p -> exists rest, b = concat g ++ rest /\ (length rest <= 657)%nat /\
  (forall n, exists u', uart_get_tx u n = Some (u', firstn n rest)) /\ exists u', xy_uart_get_tx u = Some (u', rest).
Proof.
  intros HC S. destruct (sim_inv C y f b u g q p HC S) as [_ P L _ _ _]. destruct (fifo_faithful u b (concat g) P) as (rest & -> & _ & K & _). exists rest. split; [reflexivity|].
  pose proof (quota_max p). rewrite app_length in L. split; [lia|]. split; [exact K|]. rewrite xy_eq.
  assert (Ln : (length rest <= Z.to_nat 4096)%nat) by (apply (Nat.le_trans _ 657); lia). revert Ln. generalize (Z.to_nat 4096). intros n Ln. destruct (K n) as (u' & E). rewrite firstn_all2 in E by exact Ln. exists u'. exact E.
Qed.
Lemma sim_runs C y f b u g q p e : build_conf C -> simulated C y f b u g q p -> ev_ok C y e -> is_power e = false -> match turn e with Some k => (p <= k)%nat | None => True end ->
  exists y' f' s u', tstep C y f e = Some (y', f', s) /\ step C y e = Some y' /\ uart_writes u (concat s) = Some u'.
Proof.
  intros HC S O Pw T. destruct (sim_inv C y f b u g q p HC S) as [R P L _ (n1 & n2 & r & _ & _ & _ & M2) _].
  assert (X : exists y' f' s, tstep C y f e = Some (y', f', s) /\ step C y e = Some y').
  { destruct (tstep_eq C y f e HC R O) as (z & l & Ez & _ & _ & _ & X). cbv zeta in X. destruct (c_debug C); [destruct X as (s & _ & _ & X)|]; eexists _, _, _; split; eassumption. }
  destruct X as (y' & f' & s & E & Es). destruct (event_inv C y f e y' f' s (n1 ++ n2) HC R O Pw E M2) as (_ & L' & _). pose proof (quota_turn e p T Pw) as Q. pose proof (quota_max (match turn e with Some k => Datatypes.S k | None => p end)) as Qm.
  destruct (writes_piped (concat s) u b (concat g) P) as (u' & W & _); [lia|]. exists y', f', s, u'. split; [exact E|]. split; [exact Es|exact W].
Qed.
Lemma said_some l c d : said l c (Some d) = said l c None \/ said l c (Some d) = Some d /\ said l c None = None.
Proof. induction l as [|[|now x v] l IH]; cbn [said]; [right; split; reflexivity|left; reflexivity|]. destruct (cell_dec c x); [left; reflexivity|exact IH]. Qed.
(** The messages whose lines were all taken *)
Fixpoint finished (k : nat) (l : list smsg) : list smsg * list smsg :=
  match l with
  | [] => ([], [])
  | m :: r => if (smsg_lines m <=? k)%nat then let (a, b) := finished (k - smsg_lines m) r in (m :: a, b) else ([], l)
  end.
Lemma finished_ok l : forall k, let '(a, b) := finished k l in l = a ++ b /\ (list_sum (map smsg_lines a) <= k)%nat /\
  (forall c d, shown k l c d = match said a c (Some d) with Some v => v | None => 0 end) /\ (b = [] -> (list_sum (map smsg_lines l) <= k)%nat).
Proof.
  induction l as [|m l IH]; intros k; cbn [finished]; [split; [reflexivity|]; split; [cbn; lia|]; split; [intros c d; destruct k; reflexivity|intros _; cbn; lia]|].
  destruct (Nat.leb_spec (smsg_lines m) k) as [L|L].
  - specialize (IH (k - smsg_lines m)%nat). destruct (finished _ _) as (a, b). destruct IH as (E & S & V & N). split; [cbn [app]; f_equal; exact E|].
    cbn [map list_sum fold_right]. change (fold_right plus 0%nat (map smsg_lines a)) with (list_sum (map smsg_lines a)). change (fold_right plus 0%nat (map smsg_lines l)) with (list_sum (map smsg_lines l)).
    split; [lia|]. split; [|intros Hb; specialize (N Hb); lia]. intros c d. destruct m as [|now x v]; cbn [smsg_lines] in *.
    + destruct k as [|[|k]]; [lia|lia|]. cbn [shown said Nat.sub] in *. rewrite Nat.sub_0_r in V || idtac. rewrite V. destruct (said_some a c 0) as [->|(-> & ->)]; reflexivity.
    + destruct k as [|k]; [lia|]. cbn [shown said Nat.sub] in *. rewrite Nat.sub_0_r in V. rewrite V. destruct (cell_dec c x); reflexivity.
  - split; [reflexivity|]. split; [cbn; lia|]. split; [|intros Q; discriminate Q]. intros c d. destruct m as [|now x v]; cbn [smsg_lines] in L.
    + destruct k as [|[|k]]; [reflexivity|reflexivity|lia].
    + destruct k as [|k]; [reflexivity|lia].
Qed.
Lemma said_calm l c d : Forall (fun m => ~ concerns c m) l -> said l c d = d.
Proof. induction 1 as [|m l H _ IH]; [reflexivity|]. destruct m as [|now x v]; cbn [said concerns] in *; [destruct H; exact Logic.I|]. destruct (cell_dec c x) as [->|]; [destruct H; reflexivity|exact IH]. Qed.
Lemma taken_le l : forall got k, (taken l got k <= k + length (filter (fun d => negb (str_eqb d [])) l))%nat.
Proof.
  induction l as [|d l IH]; intros got k; cbn [taken filter]; [cbn [length]; lia|]. specialize (IH (got ++ d)). destruct d as [|x d].
  - apply IH.
  - specialize (IH (Nat.min (S k) (lines_in (got ++ x :: d)))). change (negb (str_eqb (x :: d) [])) with true. cbv iota. cbn [length]. lia.
Qed.
Lemma sim_shows C y f b u g q p : build_conf C -> simulated C y f b u g q p -> exists done pend, sstream (done ++ pend) b /\ (b <> [] -> pend <> []) /\
  (list_sum (map smsg_lines done) <= length (filter (fun d => negb (str_eqb d [])) g))%nat /\ q_err q = 0 /\
  forall c, q_val q c = (match said done c None with Some v => v | None => 0 end, cell_div c) /\
    (y_dbg y = true -> c <> CItem Tb -> Forall (fun m => ~ concerns c m) pend -> said done c None <> None -> q_val q c = (f c, cell_div c)).
Proof.
  intros HC S. destruct (sim_inv C y f b u g q p HC S) as [R P L D (m1 & m2 & r & M1 & M2 & Eb & Td & Bg) Lt].
  assert (Ts : sstream (m1 ++ m2) b) by (rewrite Eb; apply sstream_app; assumption). destruct (decoder_shows (m1 ++ m2) b g r Ts Eb) as (K1 & K2). rewrite <- D in K1, K2.
  pose proof (finished_ok (m1 ++ m2) (taken g [] 0)) as F. destruct (finished _ _) as (done, pend). destruct F as (E & Sd & V & N). exists done, pend. rewrite <- E. split; [exact Ts|]. split.
  { intros Hb Hp. specialize (N Hp). rewrite <- (stream_lines _ _ Ts) in N. destruct Lt as [(Lg & Lt)|Lt].
    - rewrite Lt in N. rewrite (stream_lines _ _ Ts) in N. destruct (m1 ++ m2) as [|m l]; [inversion Ts; congruence|]. rewrite Bg in N. cbn in N. lia.
    - assert (lines_in (concat g) <= lines_in b)%nat; [|lia]. rewrite (stream_lines _ _ Ts), (stream_lines _ _ M1), map_app, list_sum_app. lia. }
  split; [pose proof (taken_le g [] 0); lia|]. split; [exact K2|]. intros c. rewrite K1, V.
  assert (X : match said done c (Some 0) with Some v => v | None => 0 end = match said done c None with Some v => v | None => 0 end) by (destruct (said_some done c 0) as [->|(-> & ->)]; reflexivity).
  rewrite X. split; [reflexivity|]. intros Dg Hc Hp Hs. destruct (said done c None) as [v|] eqn:Q; [|contradiction]. f_equal. apply (Td Dg c v Hc). rewrite E, said_app, Q. apply said_calm. exact Hp.
Qed.
