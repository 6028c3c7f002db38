(** * Proofs about the transmission in cycles *)
From Coq Require Import ZArith List Bool Lia.
From Verif Require Import Base PBase MDebug PDebug MUart SpecUart.
Import ListNotations.
Open Scope Z_scope.

Lemma frame_eq : frame_cycles = 9152. Proof. reflexivity. Qed.
Lemma tick_eq : tick_cycles = 8064. Proof. reflexivity. Qed.
#[global] Opaque frame_cycles tick_cycles.

(** Transmitter: the buffer is full only while the shift register is busy. *)
Definition uinv (w : world) : Prop :=
  w_shift w <= w_now w + 9152 /\ match w_buf w with Some _ => w_now w < w_shift w | None => True end.
(** When the next byte can be written *)
Definition xt (w : world) : Z := match w_buf w with Some _ => w_shift w | None => w_now w end.
(** When everything is sent *)
Definition et (w : world) : Z := match w_buf w with Some _ => w_shift w + 9152 | None => Z.max (w_shift w) (w_now w) end.
Definition all_out (w : world) : list Z := w_wire w ++ match w_buf w with Some b => [b] | None => [] end.

(** Timer: the number of compare matches is that of the multiples of 8064 *)
Definition tinv (w : world) : Prop := w_match w = 8064 * (w_now w / 8064 + 1).
Definition trel (w w' : world) : Prop :=
  w_irq w' = w_irq w /\ w_now w <= w_now w' /\
  if w_irq w then w_flag w' = w_flag w /\ w_ticks w' - w_ticks w = w_now w' / 8064 - w_now w / 8064
  else w_ticks w' = w_ticks w /\ w_flag w' = w_flag w || (w_now w / 8064 <? w_now w' / 8064).

Lemma div_le a b : a <= b -> a / 8064 <= b / 8064.
Proof. intros. apply Z.div_le_mono; lia. Qed.
Lemma trel_refl w : trel w w.
Proof. unfold trel. rewrite Z.ltb_irrefl, orb_false_r. destruct (w_irq w); repeat split; lia. Qed.
Lemma trel_trans a b c : trel a b -> trel b c -> trel a c.
Proof.
  intros (I1 & N1 & R1) (I2 & N2 & R2). rewrite I1 in I2, R2. unfold trel.
  pose proof (div_le _ _ N1). pose proof (div_le _ _ N2).
  destruct (w_irq a); destruct R1 as [A1 B1], R2 as [A2 B2]; repeat split; try congruence; try lia.
  rewrite B2, B1.
  destruct (Z.ltb_spec (w_now a / 8064) (w_now b / 8064)), (Z.ltb_spec (w_now b / 8064) (w_now c / 8064)), (Z.ltb_spec (w_now a / 8064) (w_now c / 8064));
    rewrite ?orb_false_r, ?orb_true_r; try reflexivity; lia.
Qed.
Lemma matches_eq w d : tinv w -> 0 <= d ->
  matches (w_match w) (w_now w + d) = (w_now w + d) / 8064 - w_now w / 8064.
Proof.
  unfold tinv, matches. rewrite tick_eq. intros E D. rewrite E.
  destruct (Z.ltb_spec (w_now w + d) (8064 * (w_now w / 8064 + 1))); lia.
Qed.

Lemma pass_now d w : w_now (pass d w) = w_now w + d.
Proof. unfold pass. destruct (w_buf w); [destruct (_ <=? _)|]; reflexivity. Qed.
Lemma pass_t d w : tinv w -> 0 <= d -> tinv (pass d w) /\ trel w (pass d w).
Proof.
  intros T D. pose proof (matches_eq w d T D) as M. pose proof (div_le (w_now w) (w_now w + d) ltac:(lia)) as Q.
  assert (w_match (pass d w) = w_match w + matches (w_match w) (w_now w + d) * 8064 /\
          w_irq (pass d w) = w_irq w /\
          w_flag (pass d w) = (if w_irq w then w_flag w else w_flag w || (0 <? matches (w_match w) (w_now w + d))) /\
          w_ticks (pass d w) = if w_irq w then w_ticks w + matches (w_match w) (w_now w + d) else w_ticks w) as (A & B & G & K).
  { unfold pass. rewrite tick_eq. destruct (w_buf w); [destruct (_ <=? _)|]; repeat split. }
  rewrite M in *. unfold tinv, trel in *. rewrite pass_now, A, B, G, K. split; [lia|].
  destruct (w_irq w); repeat split; try lia.
  f_equal. destruct (Z.ltb_spec 0 ((w_now w + d) / 8064 - w_now w / 8064)), (Z.ltb_spec (w_now w / 8064) ((w_now w + d) / 8064)); try reflexivity; lia.
Qed.
Lemma pass_u d w : uinv w -> 0 <= d ->
  uinv (pass d w) /\ xt (pass d w) <= Z.max (xt w) (w_now w + d) /\ et w <= et (pass d w) /\ all_out (pass d w) = all_out w /\
  (w_buf (pass d w) = None -> w_shift (pass d w) <= xt w + 9152) /\ (w_buf (pass d w) <> None -> w_shift (pass d w) = xt w).
Proof.
  unfold uinv, xt, et, all_out, pass. rewrite frame_eq. intros [S B] D. destruct (w_buf w) as [b|].
  - destruct (Z.leb_spec (w_shift w) (w_now w + d)); cbn [w_now w_shift w_buf w_wire];
      rewrite ?app_nil_r; repeat split; try lia; try congruence; intros; try lia.
  - cbn [w_now w_shift w_buf w_wire]; repeat split; try lia; congruence.
Qed.

Lemma wait_ok q : 1 <= q <= 9152 -> forall n w, uinv w -> tinv w -> (w_buf w <> None -> w_shift w - w_now w <= Z.of_nat n) ->
  exists w', wait_udre n q w = Some w' /\ uinv w' /\ tinv w' /\ trel w w' /\ w_buf w' = None /\ all_out w' = all_out w /\
    xt w' <= xt w + q /\ et w <= et w' /\ (w_buf w <> None -> w_shift w' = w_shift w + 9152) /\ (w_buf w = None -> w' = w).
Proof.
  intros Q. induction n as [|n IH]; intros w U T F; cbn [wait_udre]; unfold udre.
  - destruct (w_buf w) eqn:B.
    + destruct U as [_ U]. rewrite B in U. specialize (F ltac:(discriminate)). lia.
    + exists w. repeat split; try apply U; try exact T; try lia; auto; try (apply trel_refl); congruence.
  - destruct (w_buf w) as [b|] eqn:B.
    2:{ exists w. repeat split; try apply U; try exact T; try lia; auto; try (apply trel_refl); congruence. }
    specialize (F ltac:(discriminate)).
    destruct (pass_t q w T ltac:(lia)) as [T1 R1]. destruct (pass_u q w U ltac:(lia)) as (U1 & X1 & E1 & O1 & N1 & S1).
    pose proof (pass_now q w) as W1.
    assert (S2 : w_buf (pass q w) = None -> w_shift (pass q w) = w_shift w + 9152).
    { clear - B. unfold pass. rewrite B, frame_eq. destruct (_ <=? _); cbn; congruence. }
    assert (S3 : w_buf (pass q w) <> None -> w_shift (pass q w) = w_shift w).
    { clear - B. unfold pass. rewrite B, frame_eq. destruct (_ <=? _); cbn; congruence. }
    assert (X2 : w_now w < w_shift w /\ xt w = w_shift w) by (destruct U as [_ U]; unfold xt; rewrite B in *; lia).
    destruct (IH (pass q w) U1 T1) as (w' & G & U2 & T2 & R2 & B2 & O2 & Y2 & E2 & S4 & I2).
    { intros Bf. rewrite S3, W1 by exact Bf. lia. }
    exists w'. split; [exact G|]. split; [exact U2|]. split; [exact T2|]. split; [eapply trel_trans; eassumption|].
    split; [exact B2|]. split; [congruence|].
    destruct (w_buf (pass q w)) eqn:Bp.
    + assert (xt (pass q w) = w_shift w) by (unfold xt; rewrite Bp; apply S3; discriminate).
      split; [lia|]. split; [lia|]. split; [|congruence]. intros _. rewrite S4 by discriminate. rewrite S3 by discriminate. lia.
    + rewrite (I2 eq_refl) in *. split; [lia|]. split; [lia|]. split; [|congruence]. intros _. apply S2; reflexivity.
Qed.

Lemma write_ok b w : uinv w -> tinv w -> w_buf w = None ->
  uinv (write_udr b w) /\ tinv (write_udr b w) /\ trel w (write_udr b w) /\ all_out (write_udr b w) = all_out w ++ [b] /\
  xt (write_udr b w) = Z.max (w_now w) (w_shift w) /\ et (write_udr b w) = et w + 9152.
Proof.
  unfold uinv, write_udr, xt, et, all_out, tinv. rewrite frame_eq. intros [S _] T B. rewrite B.
  assert (R : forall x, w_irq x = w_irq w -> w_now x = w_now w -> w_ticks x = w_ticks w -> w_flag x = w_flag w -> trel w x).
  { intros x A1 A2 A3 A4. unfold trel. rewrite A1, A2, A3, A4, Z.ltb_irrefl, orb_false_r. destruct (w_irq w); repeat split; lia. }
  destruct (Z.leb_spec (w_shift w) (w_now w)); cbn [w_now w_shift w_buf w_wire w_match]; rewrite ?app_nil_r, ?app_assoc;
    (split; [lia|]); (split; [exact T|]); (split; [apply R; reflexivity|]); repeat split; lia.
Qed.
Lemma tx_ok q c b w : 1 <= q <= 9152 -> 0 <= c <= 9152 -> uinv w -> tinv w ->
  exists w', uart_tx q c b w = Some w' /\ uinv w' /\ tinv w' /\ trel w w' /\ all_out w' = all_out w ++ [b] /\
    xt w' <= xt w + 9152 /\ et w + 9152 <= et w'.
Proof.
  intros Q C U T. unfold uart_tx.
  destruct (pass_t c w T ltac:(lia)) as [T1 R1]. destruct (pass_u c w U ltac:(lia)) as (U1 & X1 & E1 & O1 & N1 & S1).
  pose proof (pass_now c w) as W1.
  destruct (wait_ok q Q (Z.to_nat frame_cycles) (pass c w) U1 T1) as (w2 & G & U2 & T2 & R2 & B2 & O2 & Y2 & E2 & S2 & I2).
  { rewrite frame_eq. intros _. destruct U1 as [U1 _]. lia. }
  rewrite G. cbn [Base.bind].
  destruct (write_ok b w2 U2 T2 B2) as (U3 & T3 & R3 & O3 & X3 & E3).
  exists (write_udr b w2). split; [reflexivity|]. split; [exact U3|]. split; [exact T3|].
  split; [eapply trel_trans; [exact R1|eapply trel_trans; eassumption]|]. split; [congruence|].
  split; [|lia]. rewrite X3.
  assert (xt w2 = w_now w2) as V by (unfold xt; rewrite B2; reflexivity).
  assert (w_now w <= xt w) as L by (destruct U as [_ U]; unfold xt; destruct (w_buf w); lia).
  destruct (w_buf (pass c w)) as [z|] eqn:B.
  - specialize (S1 ltac:(discriminate)). specialize (S2 ltac:(discriminate)).
    assert (xt (pass c w) = w_shift (pass c w)) by (unfold xt; rewrite B; reflexivity). lia.
  - rewrite (I2 eq_refl) in *. specialize (N1 eq_refl). lia.
Qed.
Lemma txs_ok q bs : 1 <= q <= 9152 -> forall cs w, Forall (fun c => 0 <= c <= 9152) cs -> uinv w -> tinv w ->
  exists w', uart_txs q cs bs w = Some w' /\ uinv w' /\ tinv w' /\ trel w w' /\ all_out w' = all_out w ++ bs /\
    xt w' <= xt w + 9152 * len bs /\ et w + 9152 * len bs <= et w'.
Proof.
  intros Q. induction bs as [|b bs IH]; intros cs w C U T; cbn [uart_txs]; unfold len.
  - exists w. rewrite app_nil_r. cbn [length]. repeat split; try apply U; try exact T; try apply trel_refl; lia.
  - destruct (tx_ok q (hd 0 cs) b w Q) as (w1 & G & U1 & T1 & R1 & O1 & X1 & E1); [destruct C; cbn; lia|exact U|exact T|].
    rewrite G. cbn [Base.bind].
    destruct (IH (tl cs) w1) as (w2 & G2 & U2 & T2 & R2 & O2 & X2 & E2); [destruct C; [constructor|assumption]|exact U1|exact T1|].
    exists w2. split; [exact G2|]. split; [exact U2|]. split; [exact T2|]. split; [eapply trel_trans; eassumption|].
    split; [rewrite O2, O1, <- app_assoc; reflexivity|]. unfold len in *. cbn [length]. lia.
Qed.

(** ** Sections with interrupts disabled *)
Definition idle_irq (w : world) : Prop := w_irq w = true /\ w_flag w = false.
Lemma cli_same w : uinv w -> tinv w -> uinv (cli w) /\ tinv (cli w) /\ w_now (cli w) = w_now w /\ xt (cli w) = xt w /\ et (cli w) = et w /\
  all_out (cli w) = all_out w /\ w_irq (cli w) = false /\ w_flag (cli w) = w_flag w /\ w_ticks (cli w) = w_ticks w.
Proof. intros U T. repeat split; try apply U; exact T. Qed.
Lemma sei_ok w : uinv w -> tinv w ->
  let w' := set_irq true w in
  uinv w' /\ tinv w' /\ idle_irq w' /\ w_now w' = w_now w /\ xt w' = xt w /\ all_out w' = all_out w /\
  w_ticks w' = w_ticks w + (if w_flag w then 1 else 0).
Proof.
  intros U T. cbn zeta. unfold set_irq, idle_irq. cbn [andb]. destruct (w_flag w) eqn:F; repeat split; try apply U; try exact T; try exact F; cbn; lia.
Qed.
Lemma section_lost w w1 w2 : idle_irq w -> w_now w1 = w_now w -> w_irq w1 = false -> w_flag w1 = w_flag w -> w_ticks w1 = w_ticks w ->
  trel w1 w2 -> w_ticks (set_irq true w2) = w_ticks w2 + (if w_flag w2 then 1 else 0) -> w_now (set_irq true w2) = w_now w2 ->
  let w' := set_irq true w2 in
  lost_ticks w <= lost_ticks w' /\ 8064 * (lost_ticks w' - lost_ticks w) <= w_now w' - w_now w /\
  (w_now w' - w_now w) / 8064 - 1 <= lost_ticks w' - lost_ticks w.
Proof.
  intros [I F] N1 I1 F1 K1 R K2 N2. cbn zeta. unfold trel in R. rewrite I1 in R. destruct R as (_ & L & R1 & R2).
  unfold lost_ticks. rewrite K2, N2, R1, R2, F1, F, K1. cbn [orb]. rewrite N1 in *.
  destruct (Z.ltb_spec (w_now w / 8064) (w_now w2 / 8064)); lia.
Qed.

Definition good (w : world) : Prop := uinv w /\ tinv w /\ idle_irq w.
Lemma good0 : good world0.
Proof. unfold good, uinv, tinv, idle_irq, world0. cbn. rewrite tick_eq. repeat split; lia. Qed.

Lemma xt_pass d w : uinv w -> 0 <= d -> xt (pass d w) - w_now (pass d w) <= xt w - w_now w.
Proof.
  intros U D. destruct (pass_u d w U D) as (_ & X & _). rewrite pass_now.
  assert (w_now w <= xt w) by (destruct U as [_ U]; unfold xt; destruct (w_buf w); lia). lia.
Qed.

Lemma print_some n a b c : exists s, print_str3 true (u16 n) a b c = Some s /\ (5 <= length s)%nat.
Proof.
  destruct (utoa_ok (u16 n)) as (t & E & N & _). unfold print_str3, timestamp. rewrite E. cbn [negb Base.bind].
  eexists. split; [reflexivity|]. rewrite !app_length. destruct t; [contradiction|]. cbn [length EOL]. lia.
Qed.

Lemma act_ok a w : good w -> timely a -> exists w' s, act_step a w = Some w' /\ act_text a w = Some s /\ good w' /\
  all_out w' = all_out w ++ s /\ w_now w <= w_now w' /\
  0 <= lost_ticks w' - lost_ticks w /\
  8064 * lost_ticks w' + (xt w' - w_now w') <= 8064 * lost_ticks w + (xt w - w_now w) + 9152 * (len s + if is_line a then 1 else 0) /\
  (is_line a = true -> len s - 3 <= lost_ticks w' - lost_ticks w /\ 5 <= len s).
Proof.
  intros (U & T & I) Ty. destruct a as [d|d|q cs e s0 s1 s2|q cs]; cbn [act_step act_text is_line timely] in *.
  - exists (pass d w), []. destruct (pass_t d w T Ty) as [T1 R]. destruct (pass_u d w U Ty) as (U1 & X1 & _ & O1 & _).
    pose proof (xt_pass d w U Ty) as X2. destruct I as [I F]. unfold trel in R. rewrite I in R. destruct R as (R1 & R2 & R3 & R4).
    repeat split; try congruence; try apply U1; try exact T1; try exact R2; rewrite ?app_nil_r; try exact O1; unfold lost_ticks, len; cbn [length]; try lia.
  - exists (irq_restore (w_irq w) (pass d (cli w))), []. cbn [irq_disable_save]. split; [reflexivity|]. split; [reflexivity|].
    destruct (cli_same w U T) as (U0 & T0 & N0 & X0 & _ & O0 & I0 & F0 & K0). destruct Ty as [D1 D2].
    destruct (pass_t d _ T0 D1) as [T1 R]. destruct (pass_u d _ U0 D1) as (U1 & X1 & _ & O1 & _).
    pose proof (xt_pass d _ U0 D1) as X2. unfold irq_restore. destruct I as [I F]. rewrite I.
    destruct (sei_ok _ U1 T1) as (U2 & T2 & I2 & N2 & Y2 & O2 & K2).
    destruct (section_lost w _ _ (conj I F) N0 I0 F0 K0 R K2 N2) as (L1 & L2 & L3).
    pose proof (pass_now d (cli w)) as W.
    split; [repeat split; try apply U2; try exact T2; apply I2|]. split; [rewrite app_nil_r; congruence|].
    split; [lia|]. split; [lia|]. split; [|discriminate]. unfold len. cbn [length]. lia.
  - destruct Ty as (Q & C & E). unfold uart_print. cbn [irq_disable_save].
    destruct (cli_same w U T) as (U0 & T0 & N0 & X0 & E0 & O0 & I0 & F0 & K0).
    destruct (print_some (w_ticks w) s0 s1 s2) as (s & P & Ls). rewrite K0, P. cbn [Base.bind].
    destruct (txs_ok q s Q cs _ C U0 T0) as (w1 & G & U1 & T1 & R1 & O1 & X1 & E1). rewrite G. cbn [Base.bind].
    destruct (pass_t e _ T1 ltac:(lia)) as [T2 R2]. destruct (pass_u e _ U1 ltac:(lia)) as (U2 & X2 & _ & O2 & _).
    pose proof (xt_pass e _ U1 ltac:(lia)) as X3. unfold irq_restore. destruct I as [I F]. rewrite I.
    destruct (sei_ok _ U2 T2) as (U3 & T3 & I3 & N3 & Y3 & O3 & K3).
    destruct (section_lost w _ _ (conj I F) N0 I0 F0 K0 (trel_trans _ _ _ R1 R2) K3 N3) as (L1 & L2 & L3).
    pose proof (pass_now e w1) as W. pose proof R1 as (_ & Le & _).
    assert (w_now w + 9152 * (len s - 2) <= w_now w1) as Lo.
    { assert (w_now w <= et w) by (unfold et; destruct U as [_ U]; destruct (w_buf w); lia).
      assert (et w1 <= w_now w1 + 2 * 9152) by (unfold et; destruct U1 as [U1 U1']; destruct (w_buf w1); lia). lia. }
    assert (5 <= len s) as Ls' by (unfold len; lia).
    exists (set_irq true (pass e w1)), s. split; [reflexivity|]. split; [reflexivity|].
    split; [repeat split; try apply U3; try exact T3; apply I3|]. split; [congruence|]. split; [lia|]. split; [lia|].
    split; [lia|]. intros _. split; [|exact Ls']. clear - L3 Lo N3 W E Ls'. lia.
  - destruct Ty as (Q & C). destruct (txs_ok q greeting Q cs w C U T) as (w1 & G & U1 & T1 & R1 & O1 & X1 & E1).
    exists w1, greeting. unfold trel in R1. destruct I as [I F]. rewrite I in R1. destruct R1 as (J & Le & R2 & R3).
    split; [exact G|]. split; [reflexivity|]. split; [repeat split; try apply U1; try exact T1; congruence|]. split; [exact O1|].
    split; [exact Le|]. assert (lost_ticks w1 = lost_ticks w) as Q1 by (unfold lost_ticks; lia). rewrite Q1.
    split; [lia|]. split; [|discriminate]. clear - X1 Le. lia.
Qed.

Lemma run_good w ls b : uart_run w ls b -> good w /\ all_out w = b /\
  8064 * lost_ticks w + (xt w - w_now w) <= 9152 * (len b + len ls) /\ 0 <= at_least ls <= lost_ticks w.
Proof.
  induction 1 as [|w ls b a w' s R IH Ty St Tx].
  - split; [exact good0|]. split; [reflexivity|]. vm_compute. intuition discriminate.
  - destruct IH as (G & O & L & A). destruct (act_ok a w G Ty) as (w1 & s1 & St1 & Tx1 & G1 & O1 & N1 & L1 & L2 & L3).
    rewrite St1 in St. rewrite Tx1 in Tx. injection St as <-. injection Tx as <-.
    split; [exact G1|]. split; [congruence|].
    assert (len (b ++ s1) = len b + len s1) as Z by (unfold len; rewrite app_length; lia). rewrite Z.
    destruct (is_line a); cbn [at_least]; unfold len in *; cbn [length] in *; [destruct (L3 eq_refl)|]; lia.
Qed.

(** ** Statements *)
Lemma uart_progress w ls b a : uart_run w ls b -> timely a ->
  exists w' s, act_step a w = Some w' /\ act_text a w = Some s /\ uart_run w' (if is_line a then s :: ls else ls) (b ++ s).
Proof.
  intros R Ty. destruct (run_good _ _ _ R) as (G & _). destruct (act_ok a w G Ty) as (w' & s & St & Tx & _).
  exists w', s. split; [exact St|]. split; [exact Tx|]. econstructor; eassumption.
Qed.
Lemma uart_wire w ls b : uart_run w ls b ->
  exists rest, b = w_wire w ++ rest /\ len rest <= 1 /\ (w_shift w <= w_now w -> rest = []).
Proof.
  intros R. destruct (run_good _ _ _ R) as ((U & _) & O & _). unfold all_out in O.
  exists (match w_buf w with Some c => [c] | None => [] end). split; [congruence|].
  destruct U as [_ U]. destruct (w_buf w); unfold len; cbn; split; try lia; reflexivity.
Qed.
Lemma uart_lost_most w ls b : uart_run w ls b -> 0 <= lost_ticks w /\ 8064 * lost_ticks w <= 9152 * (len b + len ls).
Proof.
  intros R. destruct (run_good _ _ _ R) as ((U & _) & _ & L & A).
  assert (w_now w <= xt w) by (destruct U as [_ U]; unfold xt; destruct (w_buf w); lia). lia.
Qed.
Lemma uart_lost_least w ls b : uart_run w ls b -> at_least ls <= lost_ticks w.
Proof. intros R. destruct (run_good _ _ _ R) as (_ & _ & _ & A). lia. Qed.
Lemma uart_exact w : forall ls b, uart_run w ls b -> b = [] -> w_ticks w = w_now w / 8064.
Proof.
  intros ls b R E. assert (ls = []) as F.
  { revert E. induction R as [|w ls b a w' s R IH Ty St Tx]; [reflexivity|]. intros E. apply app_eq_nil in E. destruct E as [E1 E2].
    rewrite (IH E1). destruct (run_good _ _ _ R) as (G & _). destruct (act_ok a w G Ty) as (w1 & s1 & _ & Tx1 & _ & _ & _ & _ & _ & L).
    rewrite Tx in Tx1. injection Tx1 as <-. destruct (is_line a); [|reflexivity]. destruct (L eq_refl) as [_ L5]. rewrite E2 in L5. cbn in L5. lia. }
  destruct (uart_lost_most _ _ _ R) as [A B]. rewrite E, F in B. change (9152 * (len (@nil Z) + len (@nil (list Z)))) with 0 in B. unfold lost_ticks in *. lia.
Qed.
Lemma uart_line w ls b a w' s : uart_run w ls b -> timely a -> is_line a = true -> act_step a w = Some w' -> act_text a w = Some s ->
  9152 * (len s - 2) <= w_now w' - w_now w /\ w_ticks w' <= w_ticks w + 1.
Proof.
  intros R Ty Il St Tx. destruct (run_good _ _ _ R) as ((U & T & I) & _). destruct a as [d|d|q cs e s0 s1 s2|q cs]; try discriminate.
  cbn [act_step act_text timely] in *. destruct Ty as (Q & C & E). unfold uart_print in St. cbn [irq_disable_save] in St.
  destruct (cli_same w U T) as (U0 & T0 & N0 & X0 & E0 & O0 & I0 & F0 & K0). rewrite K0, Tx in St. cbn [Base.bind] in St.
  destruct (txs_ok q s Q cs _ C U0 T0) as (w1 & G & U1 & T1 & R1 & O1 & X1 & E1). rewrite G in St. cbn [Base.bind] in St. apply Some_inj in St. subst w'.
  destruct (pass_t e _ T1 ltac:(lia)) as [T2 R2]. destruct (pass_u e _ U1 ltac:(lia)) as (U2 & _). destruct I as [I F]. rewrite I. unfold irq_restore.
  destruct (sei_ok _ U2 T2) as (U3 & T3 & I3 & N3 & Y3 & O3 & K3).
  pose proof (trel_trans _ _ _ R1 R2) as R3. unfold trel in R3. rewrite I0 in R3. destruct R3 as (_ & _ & R4 & _).
  assert (w_now w <= et w) by (unfold et; destruct U as [_ U]; destruct (w_buf w); lia).
  assert (et w1 <= w_now w1 + 2 * 9152) by (unfold et; destruct U1 as [U1 U1']; destruct (w_buf w1); lia).
  rewrite N3, pass_now, K3, R4, K0. destruct (w_flag (pass e w1)); lia.
Qed.

(** ** A case: two lines 5 ms after power-up *)
Definition tr_line : action := ALine 1000 [100; 100; 100; 100] 50 (Some (fw_name Tr)) None (Some [53]).
Definition case_acts : list action := [ACode 40500; ACrit 300; tr_line; ACode 1000].
Fixpoint play (l : list action) (x : world * list (list Z) * list Z) : option (world * list (list Z) * list Z) :=
  match l with
  | [] => Some x
  | a :: l =>
    let '(w, ls, b) := x in
    match act_step a w, act_text a w with
    | Some w', Some s => play l (w', if is_line a then s :: ls else ls, b ++ s)
    | _, _ => None
    end
  end.
Lemma play_run l : forall w ls b w' ls' b', Forall timely l -> uart_run w ls b -> play l (w, ls, b) = Some (w', ls', b') -> uart_run w' ls' b'.
Proof.
  induction l as [|a l IH]; intros w ls b w' ls' b' F R E; cbn [play] in E.
  - injection E as <- <- <-. exact R.
  - inversion F; subst. destruct (act_step a w) as [w1|] eqn:E1; [|discriminate]. destruct (act_text a w) as [s|] eqn:E2; [|discriminate].
    eapply IH; [eassumption| |exact E]. econstructor; eassumption.
Qed.
Lemma case100 : exists w ls b w' s, uart_run w ls b /\ len ls = 1 /\ w_ticks w = 6 /\ w_now w / 8064 = 13 /\
  timely tr_line /\ is_line tr_line = true /\ act_step tr_line w = Some w' /\ act_text tr_line w = Some s /\
  s = [54; 58; 32; 116; 114; 32; 53; 13; 10] /\ w_ticks w' = 7 /\ w_now w' / 8064 = 23.
Proof.
  assert (Forall timely case_acts) as Ty.
  { repeat constructor; cbn; lia. }
  let x := eval vm_compute in (play case_acts (world0, [], [])) in
  match x with Some (?w, ?ls, ?b) =>
    let y := eval vm_compute in (act_step tr_line w) in
    match y with Some ?w' => exists w, ls, b, w', [54; 58; 32; 116; 114; 32; 53; 13; 10] end
  end.
  split; [eapply play_run; [exact Ty|exact ur_boot|vm_compute; reflexivity]|].
  split; [reflexivity|]. split; [reflexivity|]. split; [reflexivity|]. split; [|repeat split; vm_compute; reflexivity].
  inversion Ty as [|? ? _ F1]; inversion F1 as [|? ? _ F2]; inversion F2; assumption.
Qed.
