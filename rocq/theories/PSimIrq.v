(** * The interrupt hand-shake of the simulator (C104) *)
From Coq Require Import List Bool Lia.
From Verif Require Import MSimIrq SpecSimIrq.
Import ListNotations.

Definition parked (p : iopc) : bool := match p with IoTop | IoDelay | IoSampled true => true | _ => false end.
Definition nosusp (p : iopc) : bool := match p with IoSampled true => false | _ => true end.
Definition opened (s : sirq) : Prop := s_req s = false /\ s_susp s = false /\ nosusp (s_io s) = true.
Definition closed (s : sirq) : Prop := s_req s = true /\ s_susp s = true /\ parked (s_io s) = true.
Definition J (st : bool) (s : sirq) (h : hw) : Prop :=
  h_saved h = s_saved s /\
  match s_m s with
  | MFree => h_in h = None /\ h_i h = s_i s
  | MReq1 | MWait1 | MClear => (h_in h = Some ODisable \/ h_in h = Some OSave) /\ h_i h = s_i s
  | MReq0 | MWait0 | MSet => (h_in h = Some OEnable \/ h_in h = Some ORestore) /\ h_i h = true
  end /\
  match s_m s with
  | MFree => (if st && negb (s_i s) then closed s else opened s) /\ (st = false -> s_saved s = [])
  | MReq1 => if st && negb (s_i s) then closed s else opened s
  | MReq0 => opened s \/ closed s
  | MWait1 => s_req s = true /\ (s_susp s = true -> parked (s_io s) = true) /\ (st && negb (s_i s) = true -> closed s)
  | MClear => closed s
  | MWait0 => s_req s = false /\ (s_susp s = false -> nosusp (s_io s) = true)
  | MSet => opened s
  end.
Definition is_ret (e : event) : bool := match e with ERet => true | _ => false end.
Definition has_ret (es : list event) : bool := existsb is_ret es.

Lemma J_reset : J false sirq_reset (mkHw false [] None).
Proof. unfold J, opened. simpl. auto 10. Qed.
Lemma J_main st s h o : J st s h -> let '(s', es) := main_step o s in J (st || has_ret es) s' (hw_events es h) /\ ~ In EIsr es.
Proof.
  destruct s as [rq su i sv m io], h as [hi hs hin]. unfold J. intros (A & B & D). cbn [s_req s_susp s_i s_saved s_m s_io h_i h_saved h_in] in *. subst hs.
  destruct m; unfold main_step; cbn [s_req s_susp s_i s_saved s_m s_io].
  - destruct B as (-> & ->). destruct o as [[]|]; [| | |destruct sv as [|[] r]|]; cbn; (split; [|intuition discriminate]);
      destruct st, i; unfold opened, closed in *; cbn in *; intuition (try congruence).
  - destruct B as (B & ->). cbn. split; [|tauto]. split; [reflexivity|]. split; [auto|]. destruct st, i; unfold opened, closed in *; cbn in *; intuition congruence.
  - destruct B as (B & ->). destruct su; cbn; (split; [|tauto]); (split; [reflexivity|]); (split; [auto|]); destruct st, i; unfold closed in *; cbn in *; intuition congruence.
  - destruct B as (B & ->). cbn. split; [|intuition discriminate]. destruct B as [-> | ->]; destruct st; unfold closed in *; cbn in *; intuition congruence.
  - destruct B as (B & ->). cbn. split; [|tauto]. split; [reflexivity|]. split; [auto|]. unfold opened, closed in *; cbn in *; intuition congruence.
  - destruct B as (B & ->). destruct su; cbn; (split; [|tauto]); (split; [reflexivity|]); (split; [auto|]); unfold opened in *; cbn in *; intuition congruence.
  - destruct B as (B & ->). cbn. split; [|intuition discriminate]. destruct B as [-> | ->]; destruct st; unfold opened in *; cbn in *; intuition congruence.
Qed.
Lemma io_noret p s : let '(s', es) := io_step p s in has_ret es = false /\ (es = [] \/ es = [EIsr]).
Proof. destruct s as [rq su i sv m io]. unfold io_step. cbn [s_io]. destruct io as [|b| |[|n]| |[|n]|]; try destruct p; cbn; auto. Qed.
Lemma J_io st s h p : J st s h -> let '(s', es) := io_step p s in J st s' h /\ (In EIsr es -> st = true -> h_i h = true).
Proof.
  destruct s as [rq su i sv m io], h as [hi hs hin]. unfold J. intros (A & B & D). cbn [s_req s_susp s_i s_saved s_m s_io h_i h_saved h_in] in *. subst hs.
  destruct io as [|[]| |[|n]| |[|n]|]; unfold io_step; cbn [s_io]; try destruct p; cbn [io_at s_req s_susp s_i s_saved s_m s_io];
    (split; [split; [reflexivity|]; split; [exact B|]|]);
    clear - D B; destruct rq, su, m; cbn in *; unfold opened, closed in *; cbn in *; try (destruct st, i; cbn in *; intuition (try congruence)).
Qed.
Lemma respects_app h es es' : respects h (es ++ es') <-> respects h es /\ respects (hw_events es h) es'.
Proof. revert h. induction es as [|e es IH]; intros h; cbn; [tauto|]. rewrite IH. tauto. Qed.
Lemma hw_events_app h es es' : hw_events (es ++ es') h = hw_events es' (hw_events es h).
Proof. revert h. induction es as [|e es IH]; intros h; cbn; [reflexivity|]. apply IH. Qed.
Lemma noisr_respects h es : ~ In EIsr es -> respects h es.
Proof. revert h. induction es as [|e es IH]; intros h N; cbn; [exact I|]. split. { intros ->. destruct N. left. reflexivity. } apply IH. intros K. apply N. right. exact K. Qed.
Lemma J_step st s h t : J st s h -> let '(s', es) := sstep t s in J (st || has_ret es) s' (hw_events es h) /\ (st = true -> respects h es).
Proof.
  intros H. destruct t as [o|p]; cbn [sstep].
  - pose proof (J_main st s h o H) as K. destruct (main_step o s) as [s' es]. destruct K as (K1 & K2). split; [exact K1|]. intros _. apply noisr_respects. exact K2.
  - pose proof (J_io st s h p H) as K. pose proof (io_noret p s) as L. destruct (io_step p s) as [s' es]. destruct K as (K1 & K2), L as (L1 & [-> | ->]).
    + cbn. rewrite orb_false_r. auto.
    + cbn. rewrite orb_false_r. split; [exact K1|]. intros E. split; [|exact I]. intros _. apply K2; [left; reflexivity|exact E].
Qed.
Lemma has_ret_app a b : has_ret (a ++ b) = has_ret a || has_ret b.
Proof. apply existsb_app. Qed.
Lemma J_run ts : forall st s h, J st s h -> let '(s', es) := srun ts s in J (st || has_ret es) s' (hw_events es h) /\ (st = true -> respects h es).
Proof.
  induction ts as [|t ts IH]; intros st s h H; cbn [srun].
  - cbn. rewrite orb_false_r. auto.
  - pose proof (J_step st s h t H) as K. destruct (sstep t s) as [s1 e]. destruct K as (K1 & K2). pose proof (IH _ _ _ K1) as L. destruct (srun ts s1) as [s2 es]. destruct L as (L1 & L2).
    rewrite has_ret_app, orb_assoc, hw_events_app. split; [exact L1|]. intros E. apply respects_app. split; [auto|]. apply L2. rewrite E. reflexivity.
Qed.
Lemma srun_app a b s : srun (a ++ b) s = let '(s1, e1) := srun a s in let '(s2, e2) := srun b s1 in (s2, e1 ++ e2).
Proof.
  revert s. induction a as [|t a IH]; intros s; cbn [srun app]. { destruct (srun b s). reflexivity. }
  destruct (sstep t s) as [s1 e]. rewrite IH. destruct (srun a s1) as [s2 e2]. destruct (srun b s2) as [s3 e3]. rewrite app_assoc. reflexivity.
Qed.
Lemma has_ret_In es : has_ret es = true <-> In ERet es.
Proof.
  unfold has_ret. rewrite existsb_exists. split.
  - intros (e & A & B). destruct e; try discriminate. exact A.
  - intros A. exists ERet. auto.
Qed.
Lemma step_events t s : let '(_, es) := sstep t s in es = [] \/ (exists e, es = [e]) \/ es = [ECall ORestore false; ERet].
Proof.
  destruct t as [o|p]; cbn [sstep].
  - unfold main_step. destruct (s_m s); try destruct o as [[]|]; try destruct (s_saved s) as [|[] r]; eauto.
  - pose proof (io_noret p s) as L. destruct (io_step p s) as [s' es]. destruct L as (_ & [-> | ->]); eauto.
Qed.
(** Events cut anywhere: the cut is between two steps, or inside irq_restore (which does nothing there). *)
Lemma respects_from ts : forall st s h es1 es2, J st s h -> snd (srun ts s) = es1 ++ es2 -> st = true \/ In ERet es1 -> respects (hw_events es1 h) es2.
Proof.
  induction ts as [|t ts IH]; intros st s h es1 es2 H E K.
  - cbn in E. symmetry in E. apply app_eq_nil in E. destruct E as (-> & ->). cbn. exact I.
  - cbn [srun] in E. pose proof (J_step st s h t H) as S1. pose proof (step_events t s) as S2. destruct (sstep t s) as [s1 e] eqn:ES. destruct S1 as (S1 & S3).
    pose proof (J_run ts _ _ _ S1) as R. pose proof (IH (st || has_ret e) s1 (hw_events e h)) as IH1. destruct (srun ts s1) as [s2 es] eqn:ER. cbn [snd] in *. destruct R as (R1 & R2).
    destruct S2 as [-> | [(x & ->) | ->]].
    + cbn [app] in E. cbn [has_ret existsb hw_events] in *. rewrite orb_false_r in *. apply IH1; assumption.
    + destruct es1 as [|y es1].
      * destruct K as [->|[]]. cbn [app] in E. rewrite <- E. cbn [hw_events]. apply (respects_app h [x] es). split; [apply S3; reflexivity|]. apply R2. reflexivity.
      * cbn [app] in E. injection E as <- E. cbn [hw_events] in *. apply IH1; [exact S1|exact E|]. cbn [has_ret existsb].
        destruct K as [->|[->|K]]; [left; reflexivity|left; cbn; apply orb_true_r|right; exact K].
    + destruct es1 as [|y es1].
      * destruct K as [->|[]]. cbn [app] in E; rewrite <- E; cbn [hw_events]. apply (respects_app h [ECall ORestore false; ERet] es). split; [apply S3; reflexivity|]. apply R2. reflexivity.
      * cbn [app] in E. injection E as <- E. destruct es1 as [|z es1].
        -- destruct K as [->|[X|[]]]; [|discriminate X]. cbn [app] in E. rewrite <- E. 
           pose proof (S3 eq_refl) as Q. assert (Q2 : respects h ([ECall ORestore false; ERet] ++ es)) by (apply respects_app; split; [exact Q|apply R2; reflexivity]).
           cbn [app respects] in Q2. cbn [respects]. tauto.
        -- cbn [app] in E. injection E as <- E. cbn [hw_events] in *. apply IH1; [exact S1|exact E|]. left. cbn. apply orb_true_r.
Qed.
Lemma sim_exclusion ts es1 es2 : snd (srun ts sirq_reset) = es1 ++ es2 -> In ERet es1 -> respects (hw_events es1 (mkHw false [] None)) es2.
Proof. intros E K. eapply respects_from; [exact J_reset|exact E|right; exact K]. Qed.
Lemma sim_complete ts : let '(s, es) := srun ts sirq_reset in
  In ERet es -> h_i (hw_events es (mkHw false [] None)) = false -> ~ in_handler s.
Proof.
  pose proof (J_run ts _ _ _ J_reset) as R. destruct (srun ts sirq_reset) as [s es]. destruct R as (R & _). intros K F (n & N).
  apply has_ret_In in K. rewrite K in R. cbn [orb] in R. destruct R as (_ & A & B). destruct s as [rq su i sv m io]. cbn [s_req s_susp s_i s_saved s_m s_io] in *.
  destruct m; destruct A as (A1 & A2); try congruence; rewrite F in A2; subst i; cbn in B; unfold closed in B; cbn in B;
  destruct N as [N|N]; subst io; cbn in B; repeat match type of B with _ /\ _ => destruct B as (? & B) | true = true -> _ => specialize (B eq_refl) end; try congruence; intuition congruence.
Qed.
Lemma sim_start : exists ts, ~ respects (mkHw false [] None) (snd (srun ts sirq_reset)).
Proof. exists [TIo None; TIo None; TIo None; TIo None; TIo (Some 3%nat)]. cbn. intros (A & _). specialize (A eq_refl). discriminate. Qed.

(** Progress *)
Definition rank (n : nat) (p : iopc) : nat :=
  match p with IoAdc => 2 * n + 9 | IoAdcIn k => n + k + 7 | IoTim => n + 6 | IoTimIn k => k + 4 | IoDelay => 3 | IoTop => 2 | IoSampled _ => 1 end.
Definition bounded (n : nat) (p : iopc) : Prop := match p with IoAdcIn k | IoTimIn k => k <= n | _ => True end.
Lemma bounded_step n t s : bounded n (s_io s) -> short_handlers n [t] -> bounded n (s_io (fst (sstep t s))).
Proof.
  intros B H. inversion H as [|? ? H1 _]; subst. destruct s as [rq su i sv m io]. destruct t as [o|p]; cbn [sstep].
  - unfold main_step. destruct m; try destruct o as [[]|]; try destruct sv as [|[] r]; try destruct su; cbn in *; exact B.
  - unfold io_step. cbn [s_io] in *. destruct io as [|[]| |[|k]| |[|k]|]; try destruct p; cbn in *; lia || exact I.
Qed.
Lemma bounded_run n ts : forall s, bounded n (s_io s) -> short_handlers n ts -> bounded n (s_io (fst (srun ts s))).
Proof.
  induction ts as [|t ts IH]; intros s B H; cbn [srun]; [exact B|]. inversion H as [|? ? H1 H2]; subst.
  assert (H3 : short_handlers n [t]) by (constructor; [exact H1|constructor]).
  pose proof (bounded_step n t s B H3) as K. destruct (sstep t s) as [s1 e]. cbn [fst] in K. specialize (IH s1 K H2). destruct (srun ts s1). exact IH.
Qed.
Lemma io_other p s : s_m (fst (io_step p s)) = s_m s /\ s_req (fst (io_step p s)) = s_req s.
Proof. destruct s as [rq su i sv m io]. unfold io_step. cbn [s_io]. destruct io as [|[]| |[|k]| |[|k]|]; try destruct p; cbn; auto. Qed.
Lemma srun_snoc_main ts o s : fst (srun (ts ++ [TMain o]) s) = fst (main_step o (fst (srun ts s))).
Proof. rewrite srun_app. destruct (srun ts s) as [s1 e1]. cbn. destruct (main_step o s1). reflexivity. Qed.

(** while the main thread waits for [want] *)
Definition wants (s : sirq) : bool := match s_m s with MWait1 => true | _ => false end.
Definition agrees (s : sirq) : Prop := s_req s = wants s.
(** once written, the flag stays *)
Definition written (s : sirq) : Prop := s_susp s = wants s /\ (forall b, s_io s = IoSampled b -> b = wants s).
Lemma io_written p s : agrees s -> written s -> written (fst (io_step p s)).
Proof.
  unfold agrees, written, wants. destruct s as [rq su i sv m io]. cbn [s_m s_req s_susp s_io]. intros A (B & D). unfold io_step. cbn [s_io].
  destruct io as [|b| |[|k]| |[|k]|]; try destruct p; cbn; try (split; [exact B|intros b0 E; discriminate E]);
    try (split; [exact B|intros b E; injection E as <-; exact A]); split; try (apply D; reflexivity); destruct b; discriminate.
Qed.
Lemma io_rank n p s : agrees s -> waiting s -> bounded n (s_io s) -> match p with Some k => k <= n | None => True end ->
  (s_io s = IoSampled (wants s) \/ (forall b, s_io s <> IoSampled b)) ->
  written (fst (io_step p s)) \/ (rank n (s_io (fst (io_step p s))) < rank n (s_io s) /\
    (s_io (fst (io_step p s)) = IoSampled (wants s) \/ (forall b, s_io (fst (io_step p s)) <> IoSampled b))).
Proof.
  unfold agrees, written, wants. destruct s as [rq su i sv m io]. cbn [s_m s_req s_susp s_io]. intros A W B P D.
  unfold io_step. cbn [s_io]. destruct io as [|b| |[|k]| |[|k]|]; try destruct p; cbn in *;
    try (right; split; [lia|right; discriminate]).
  - right. split; [lia|]. left. rewrite A. reflexivity.
  - right. split; [lia|]. left. rewrite A. reflexivity.
  - left. destruct D as [D|D]; [|destruct (D b eq_refl)]. injection D as ->. split; [reflexivity|]. destruct (match m with MWait1 => true | _ => false end); discriminate.
  - left. destruct D as [D|D]; [|destruct (D b eq_refl)]. injection D as ->. split; [reflexivity|]. destruct (match m with MWait1 => true | _ => false end); discriminate.
Qed.
Lemma main_waits o s : waiting s -> fst (main_step o s) = s \/ ~ waiting (fst (main_step o s)).
Proof.
  intros W. destruct s as [rq su i sv m io]. unfold waiting, main_step in *. cbn [s_m s_susp] in *. destruct W as [-> | ->]; destruct su; cbn; auto;
  right; intros [K|K]; discriminate K.
Qed.
Lemma main_leaves o s : waiting s -> written s -> ~ waiting (fst (main_step o s)).
Proof.
  intros W (A & _). destruct s as [rq su i sv m io]. unfold waiting, main_step, wants in *. cbn [s_m s_susp s_io] in *.
  destruct W as [-> | ->]; rewrite A; cbn; intros [K|K]; discriminate K.
Qed.
Definition ends (ts : list turn) (s : sirq) : Prop := exists a b, ts = a ++ b /\ ~ waiting (fst (srun a s)).
Lemma ends_cons t ts s : ends ts (fst (sstep t s)) -> ends (t :: ts) s.
Proof.
  intros (a & b & -> & N). exists (t :: a), b. split; [reflexivity|]. cbn [srun]. destruct (sstep t s) as [s1 e]. cbn [fst] in N. destruct (srun a s1). exact N.
Qed.
Lemma ends_now t ts s : ~ waiting (fst (sstep t s)) -> ends (t :: ts) s.
Proof. intros N. exists [t], ts. split; [reflexivity|]. cbn [srun]. destruct (sstep t s) as [s1 e]. exact N. Qed.
Lemma ends_written o ts : forall s, agrees s -> waiting s -> written s -> ends (ts ++ [TMain o]) s.
Proof.
  induction ts as [|t ts IH]; intros s A W D; cbn [app].
  - apply ends_now. cbn [sstep]. apply main_leaves; assumption.
  - destruct t as [o'|p].
    + apply ends_now. cbn [sstep]. apply main_leaves; assumption.
    + apply ends_cons. cbn [sstep]. destruct (io_other p s) as (O1 & O2). apply IH.
      * unfold agrees, wants. rewrite O1, O2. exact A.
      * unfold waiting. rewrite O1. exact W.
      * apply io_written; assumption.
Qed.
Lemma ends_rank n o : forall ts s, agrees s -> waiting s -> bounded n (s_io s) -> short_handlers n ts ->
  (s_io s = IoSampled (wants s) \/ (forall b, s_io s <> IoSampled b)) -> rank n (s_io s) <= io_turns ts -> ends (ts ++ [TMain o]) s.
Proof.
  induction ts as [|t ts IH]; intros s A W B H D R.
  - cbn in R. exfalso. destruct (s_io s); cbn in R; lia.
  - inversion H as [|? ? H1 H2]; subst. destruct t as [o'|p]; cbn [app].
    + cbn [io_turns] in R. destruct (main_waits o' s W) as [E|E]; [|apply ends_now; exact E]. apply ends_cons. cbn [sstep]. rewrite E. apply IH; assumption.
    + cbn [io_turns] in R. destruct (io_other p s) as (O1 & O2).
      assert (A' : agrees (fst (io_step p s))) by (unfold agrees, wants; rewrite O1, O2; exact A).
      assert (W' : waiting (fst (io_step p s))) by (unfold waiting; rewrite O1; exact W).
      apply ends_cons. cbn [sstep]. destruct (io_rank n p s A W B H1 D) as [K|(K1 & K2)].
      * apply ends_written; assumption.
      * apply IH; try assumption.
        -- apply (bounded_step n (TIo p) s B). constructor; [exact H1|constructor].
        -- unfold wants in *. rewrite O1. exact K2.
        -- lia.
Qed.
Lemma ends_any n o : forall ts s, agrees s -> waiting s -> bounded n (s_io s) -> short_handlers n ts -> 2 * n + 10 <= io_turns ts -> ends (ts ++ [TMain o]) s.
Proof.
  induction ts as [|t ts IH]; intros s A W B H R.
  - cbn in R. lia.
  - inversion H as [|? ? H1 H2]; subst. destruct t as [o'|p].
    + cbn [app io_turns] in *. destruct (main_waits o' s W) as [E|E]; [|apply ends_now; exact E]. apply ends_cons. cbn [sstep]. rewrite E. apply IH; assumption.
    + destruct (s_io s) as [|b| |k| |k|] eqn:EI; try (apply (ends_rank n); [exact A|exact W|rewrite EI; exact B|exact H|right; rewrite EI; discriminate|rewrite EI; cbn in *; lia]).
      cbn [app io_turns] in *. apply ends_cons. cbn [sstep]. destruct (io_other p s) as (O1 & O2).
      assert (A' : agrees (fst (io_step p s))) by (unfold agrees, wants; rewrite O1, O2; exact A).
      assert (W' : waiting (fst (io_step p s))) by (unfold waiting; rewrite O1; exact W).
      assert (X : s_io (fst (io_step p s)) = if b then IoDelay else IoAdc) by (unfold io_step; rewrite EI; reflexivity).
      apply (ends_rank n); [exact A'|exact W'|rewrite X; destruct b; exact I|exact H2|right; rewrite X; destruct b; discriminate|rewrite X; destruct b; cbn; lia].
Qed.
Lemma J_agrees st s h : J st s h -> waiting s -> agrees s.
Proof. intros (_ & _ & D) W. unfold agrees, wants. destruct W as [E|E]; rewrite E in *; tauto. Qed.
Lemma sim_progress n ts1 ts2 o : short_handlers n ts1 -> short_handlers n ts2 -> waiting (fst (srun ts1 sirq_reset)) -> 2 * n + 10 <= io_turns ts2 ->
  exists a b, ts2 ++ [TMain o] = a ++ b /\ ~ waiting (fst (srun (ts1 ++ a) sirq_reset)).
Proof.
  intros H1 H2 W R. pose proof (J_run ts1 _ _ _ J_reset) as K. pose proof (bounded_run n ts1 sirq_reset I H1) as B.
  destruct (srun ts1 sirq_reset) as [s es] eqn:E. destruct K as (K & _). cbn [fst] in *.
  destruct (ends_any n o ts2 s (J_agrees _ _ _ K W) W B H2 R) as (a & b & Q & N). exists a, b. split; [exact Q|].
  rewrite srun_app, E. destruct (srun a s) as [s2 e2]. exact N.
Qed.

(** Interrupts are served *)
Definition rank2 (n : nat) (p : iopc) : nat :=
  match p with IoAdcIn O => 1 | IoAdcIn (S _) => 0 | IoTimIn O => 5 | IoTimIn (S _) => 0 | IoDelay => 4 | IoTop => 3 | IoSampled _ => 2 | IoAdc | IoTim => 0 end.
Lemma serves ts : forall s, s_m s = MFree -> opened s -> served ts -> rank2 0 (s_io s) < io_turns ts -> In EIsr (snd (srun ts s)).
Proof.
  induction ts as [|t ts IH]; intros s M O H R; [cbn in R; lia|]. inversion H as [|? ? H1 H2]; subst. destruct t as [o|p].
  - subst o. cbn [srun sstep io_turns] in *. assert (E : main_step None s = (s, [EWork])) by (unfold main_step; rewrite M; reflexivity). rewrite E.
    specialize (IH s M O H2 R). destruct (srun ts s). right. exact IH.
  - destruct p as [k|]; [|congruence]. cbn [srun sstep io_turns] in *.
    destruct s as [rq su i sv m io]. unfold opened in O. cbn [s_m s_req s_susp s_io] in *. destruct O as (-> & -> & O). subst m.
    unfold io_step. cbn [s_io]. destruct io as [|[]| |[|j]| |[|j]|]; try discriminate O; cbn [io_at s_req s_susp s_i s_saved s_m s_io rank2] in *;
      match goal with |- context [srun ts ?x] => specialize (IH x eq_refl); destruct (srun ts x); cbn [snd app] in *; first [left; reflexivity|apply IH; [repeat split|exact H2|cbn; lia]] end.
Qed.
Lemma sim_serves ts1 ts2 : s_m (fst (srun ts1 sirq_reset)) = MFree -> h_i (hw_events (snd (srun ts1 sirq_reset)) (mkHw false [] None)) = true ->
  served ts2 -> 6 <= io_turns ts2 -> In EIsr (snd (srun ts2 (fst (srun ts1 sirq_reset)))).
Proof.
  intros M I H R. pose proof (J_run ts1 _ _ _ J_reset) as K. destruct (srun ts1 sirq_reset) as [s es]. destruct K as (K & _). cbn [fst snd] in *.
  apply serves; try assumption.
  - destruct K as (_ & A & B). rewrite M in A, B. destruct A as (_ & A). rewrite <- A, I in B. rewrite andb_false_r in B. apply B.
  - destruct (s_io s) as [| | |[|]| |[|]|]; cbn; lia.
Qed.
Definition ex_ts : list turn :=
  [TMain (Some OSave); TIo None; TMain None; TMain None; TIo None; TIo None; TIo None; TMain None; TMain (Some ORestore);
   TMain (Some OEnable); TMain None; TIo None; TIo None; TMain None; TMain None; TIo (Some 1%nat); TMain (Some ODisable); TMain None; TMain None].
Lemma case104 : let '(s, es) := srun ex_ts sirq_reset in waiting s /\ in_handler s /\ In ERet es /\ In EIsr es /\
  short_handlers 1 ex_ts.
Proof.
  assert (E : exists s es, srun ex_ts sirq_reset = (s, es) /\ s_m s = MWait1 /\ s_io s = IoAdcIn 1 /\ In ERet es /\ In EIsr es).
  { eexists _, _. split; [vm_compute; reflexivity|]. vm_compute. auto 20. }
  destruct E as (s & es & -> & A & B & D & F). split; [left; exact A|]. split; [exists 1; left; exact B|]. split; [exact D|]. split; [exact F|].
  unfold ex_ts, short_handlers. repeat constructor.
Qed.
