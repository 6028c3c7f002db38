(** * The simulated timer and converter (C105) *)
From Coq Require Import ZArith List Bool Lia.
From Verif Require Import Base MAdc MSimHw SpecSimHw.
Import ListNotations.
Open Scope Z_scope.

Definition b2 (b : bool) : Z := if b then 1 else 0.
Lemma last_cons {A} (a : A) l d : last (a :: l) d = last l a.
Proof. revert a d. induction l as [|b l IH]; intros a d; [reflexivity|]. change (last (a :: b :: l) d) with (last (b :: l) d). rewrite !IH. reflexivity. Qed.
Lemma last_time_cons t0 i is : last_time t0 (i :: is) = last_time (fst i) is.
Proof. unfold last_time. cbn [map]. apply last_cons. Qed.

Lemma tim_fast is : forall t, t_on t = true -> 0 <= t_prev t -> forward (t_prev t) is ->
  t_ticks (tim_iters is t) + b2 (t_pend (tim_iters is t)) <= t_ticks t + b2 (t_pend t) + (last_time (t_prev t) is - t_prev t).
Proof.
  induction is as [|[sys su] is IH]; intros [on pv pd tk] O P F; cbn [t_on t_prev t_pend t_ticks] in *.
  - unfold last_time. cbn. lia.
  - subst on. rewrite last_time_cons. cbn [fst forward] in *. destruct F as (F1 & F2). cbn [tim_iters].
    assert (M : (sys - pv) mod 2 ^ 64 = sys - pv) by (apply Z.mod_small; lia).
    unfold tim_iter. cbn [fst snd]. unfold simulate_timer0, run_timer_irq. cbn [t_on t_prev t_pend t_ticks]. rewrite M.
    destruct (Z.leb_spec 1 (sys - pv)).
    + destruct su; cbn [t_on t_prev t_pend t_ticks];
        match goal with |- context [tim_iters is ?y] => specialize (IH y); cbn [t_on t_prev t_pend t_ticks] in IH; specialize (IH eq_refl ltac:(lia) F2) end;
        destruct pd; cbn [b2] in *; lia.
    + assert (sys = pv) by lia. subst sys.
      destruct su; [|destruct pd]; cbn [t_on t_prev t_pend t_ticks];
        match goal with |- context [tim_iters is ?y] => specialize (IH y); cbn [t_on t_prev t_pend t_ticks] in IH; specialize (IH eq_refl ltac:(lia) F2) end;
        cbn [b2] in *; lia.
Qed.
Lemma tim_slow d is : 1 <= d < 2 ^ 64 -> forall t, t_on t = true -> 0 <= t_prev t -> t_pend t = false -> steady d (t_prev t) is -> unsuspended is ->
  last_time (t_prev t) is - t_prev t <= d * (t_ticks (tim_iters is t) - t_ticks t).
Proof.
  intros D. induction is as [|[sys su] is IH]; intros [on pv pd tk] O P Q F U; cbn [t_on t_prev t_pend t_ticks] in *.
  - unfold last_time. cbn. lia.
  - subst on pd. rewrite last_time_cons. cbn [fst steady] in *. destruct F as (F1 & F2). inversion U as [|? ? U1 U2]; subst. cbn [snd] in U1. subst su. cbn [tim_iters].
    assert (M : (sys - pv) mod 2 ^ 64 = sys - pv) by (apply Z.mod_small; lia).
    unfold tim_iter. cbn [fst snd]. unfold simulate_timer0, run_timer_irq. cbn [t_on t_prev t_pend t_ticks]. rewrite M.
    destruct (Z.leb_spec 1 (sys - pv)); cbn [t_on t_prev t_pend t_ticks];
      match goal with |- context [tim_iters is ?y] => specialize (IH y); cbn [t_on t_prev t_pend t_ticks] in IH; specialize (IH eq_refl ltac:(lia) eq_refl) end.
    + specialize (IH F2 U2). lia.
    + assert (sys = pv) by lia. subst sys. specialize (IH F2 U2). lia.
Qed.
Lemma tim_not_fast is t0 : 0 <= t0 -> forward t0 is -> t_ticks (tim_iters is (mkTim true t0 false 0)) <= last_time t0 is - t0.
Proof. intros A F. pose proof (tim_fast is (mkTim true t0 false 0) eq_refl A F) as H. cbn [t_prev t_ticks t_pend b2] in H. destruct (t_pend (tim_iters is _)); cbn [b2] in H; lia. Qed.
Lemma tim_not_slow d is t0 : 1 <= d < 2 ^ 64 -> 0 <= t0 -> steady d t0 is -> unsuspended is -> last_time t0 is - t0 <= d * t_ticks (tim_iters is (mkTim true t0 false 0)).
Proof. intros D A F U. pose proof (tim_slow d is D (mkTim true t0 false 0) eq_refl A eq_refl F U) as H. cbn [t_prev t_ticks] in H. lia. Qed.
Lemma steady_forward d is : forall t0, steady d t0 is -> last_time t0 is < 2 ^ 64 -> 0 <= t0 -> forward t0 is.
Proof.
  assert (G : forall is t0, steady d t0 is -> t0 <= last_time t0 is).
  { intros l. induction l as [|i l IH]; intros t0 F; [unfold last_time; cbn; lia|]. rewrite last_time_cons. cbn in F. destruct F as (F1 & F2). specialize (IH _ F2). lia. }
  induction is as [|i is IH]; intros t0 F L A; [exact I|]. rewrite last_time_cons in L. cbn in *. destruct F as (F1 & F2). pose proof (G _ _ F2). split; [lia|]. apply IH; [exact F2|exact L|lia].
Qed.
Lemma tim_exact is t0 : 0 <= t0 -> steady 1 t0 is -> last_time t0 is < 2 ^ 64 -> unsuspended is ->
  t_ticks (tim_iters is (mkTim true t0 false 0)) = last_time t0 is - t0.
Proof.
  intros A F L U. pose proof (tim_not_slow 1 is t0 ltac:(lia) A F U). pose proof (tim_not_fast is t0 A (steady_forward 1 is t0 F L A)). lia.
Qed.
Lemma tim_back : exists t0 is, 0 <= t0 /\ unsuspended is /\ last_time t0 is = t0 /\ t_ticks (tim_iters is (mkTim true t0 false 0)) = 2.
Proof. exists 10, [(9, false); (10, false)]. split; [lia|]. split; [repeat constructor|]. split; reflexivity. Qed.

Lemma conv_ms bits : 0 <= bits <= 7 -> conv_runtime_ms bits = 1.
Proof.
  intros H. assert (D : bits = 0 \/ bits = 1 \/ bits = 2 \/ bits = 3 \/ bits = 4 \/ bits = 5 \/ bits = 6 \/ bits = 7) by lia.
  repeat (destruct D as [->|D]; [reflexivity|]). subst. reflexivity.
Qed.

Ltac px := cbn [x_sc x_mux x_run x_start x_pend x_data x_chan x_avail x_io x_m fst snd negb andb orb].
Definition K (x : simadc) : Prop :=
  (x_sc x = true -> x_m x = MOut /\ x_avail x = false) /\ (x_m x <> MMux -> x_chan x = x_mux x) /\
  (x_m x <> MOut -> x_sc x = false /\ x_avail x = false) /\ (x_pend x = true -> x_sc x = true /\ x_data x = x_chan x) /\
  (forall m, x_io x = IValue m -> m = x_mux x).
Lemma K_start m : K (simadc_start m).
Proof. unfold K, simadc_start. cbn. intuition congruence. Qed.
Lemma K_main n x : (forall m, x_io x <> IValue m) -> K x -> K (xmain n x).
Proof.
  destruct x as [sc mu ru st pe da ch av io m]. unfold K, xmain. cbn. intros N (A & B & C & D & E). destruct m; [destruct av| |]; cbn.
  - repeat split; intros; try congruence; try (destruct (A H); congruence); try (destruct (D H); destruct (A H0); congruence); try (exfalso; eapply N; eassumption).
    all: try (destruct sc; [destruct (A eq_refl); congruence|reflexivity]).
    all: try (destruct (D H) as (D1 & D2); destruct (A D1); congruence).
  - auto.
  - destruct (C ltac:(discriminate)) as (C1 & C2). repeat split; intros; try congruence; try (destruct (D H); congruence); try (exfalso; eapply N; eassumption).
  - destruct (C ltac:(discriminate)) as (C1 & C2). repeat split; intros; try congruence; try (destruct (D H); congruence); try (exfalso; eapply N; eassumption). apply B. discriminate.
Qed.
Lemma K_io sys su la x : K x -> K (fst (xio sys su la x)) /\ Forall right (snd (xio sys su la x)).
Proof.
  destruct x as [sc mu ru st pe da ch av io m]. unfold K, xio. cbn [x_sc x_mux x_run x_start x_pend x_data x_chan x_avail x_io x_m]. intros (A & B & C & D & E).
  destruct io as [|mm|]; cbn [fst snd].
  - split; [|constructor]. cbn. repeat split; intros; try congruence; try (apply A; assumption); try (apply B; assumption); try (apply C; assumption); try (apply D; assumption).
  - split; [|constructor]. specialize (E mm eq_refl). subst mm. unfold xconvert. px.
    destruct (conv_runtime_ms MEAS_PS_64 <=? (sys - st) mod 2 ^ 64); destruct ru, sc; px; repeat split; intros; try discriminate; try (apply A; assumption); try (apply B; assumption); try (apply C; assumption); try (apply D; assumption).
    all: destruct (A eq_refl) as (A1 & _); symmetry; apply B; rewrite A1; discriminate.
  - destruct su, pe; cbn [negb andb fst snd]; try (solve [split; [cbn; repeat split; intros; try congruence; try (apply A; assumption); try (apply B; assumption); try (apply C; assumption); try (apply D; assumption)|constructor]]).
    destruct (D eq_refl) as (D1 & D2). subst sc. destruct (A eq_refl) as (A1 & A2). subst m av. split; [|constructor; [exact D2|constructor]].
    destruct la; px; repeat split; intros; try congruence; try (apply B; assumption).
Qed.
Lemma xrun_right ts : forall x, K x -> halves_together ts x -> Forall right (snd (xrun ts x)).
Proof.
  induction ts as [|[n|sys su la] ts IH]; intros x H T; cbn [xrun halves_together] in *.
  - constructor.
  - destruct T as (T1 & T2). apply IH; [apply K_main; assumption|exact T2].
  - destruct (K_io sys su la x H) as (K1 & K2). destruct (xio sys su la x) as [x1 r]. cbn [fst snd] in *. specialize (IH x1 K1 T). destruct (xrun ts x1). cbn [snd] in *. apply Forall_app. auto.
Qed.
Lemma adc_right m ts : halves_together ts (simadc_start m) -> Forall right (snd (xrun ts (simadc_start m))).
Proof. apply xrun_right. apply K_start. Qed.
Definition race : list xturn :=
  [XIo 0 false false; XIo 0 false false; XIo 0 false false;         (* the conversion starts *)
   XIo 1 true false; XIo 1 true false; XIo 1 true false;            (* it is complete, the interrupts are suspended *)
   XIo 2 false false; XIo 2 false false; XIo 2 false true;          (* the next one starts, the handler takes the first and switches the converter off *)
   XIo 3 false false; XMain 2; XMain 2; XMain 2; XIo 3 false false; (* a value of the old input is completed after the switch to the new one *)
   XIo 3 false false].
Lemma adc_race : exists ts, snd (xrun ts (simadc_start 1)) = [mkRd 1 1; mkRd 1 2].
Proof. exists race. vm_compute. reflexivity. Qed.
Definition good : list xturn :=
  [XIo 0 false false; XIo 0 false false; XIo 0 false false; XIo 1 false false; XIo 1 false false; XIo 1 false true;
   XMain 2; XMain 2; XMain 2; XIo 3 false false; XIo 3 false false; XIo 3 false false; XIo 4 false false; XIo 4 false false; XIo 4 false false].
Lemma case105 : halves_together good (simadc_start 1) /\ snd (xrun good (simadc_start 1)) = [mkRd 1 1; mkRd 2 2] /\
  steady 1 5 [(5, false); (6, false); (6, false); (7, false)] /\ t_ticks (tim_iters [(5, false); (6, false); (6, false); (7, false)] (mkTim true 5 false 0)) = 2.
Proof. split; [vm_compute; repeat split; discriminate|]. split; [vm_compute; reflexivity|]. split; [cbn; lia|reflexivity]. Qed.
