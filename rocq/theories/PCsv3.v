(** * The table of the streams and of the running firmware *)
From Coq Require Import ZArith List Bool Lia Floats.SpecFloat.
From Verif Require Import Base PBase MUtil MConf MFixpt MScale MRing MFilter MTimer MPid MTempMap MPwm MCurr MSens MSettings
  SpecSettings MSseg MDisplay MText MState MTemp MMeas MMenu MMain MDebug SpecSys SpecRun PDebug MTele SpecTele PNum PScale PSmall PCurr
  PTele PTele2 PTele3 PTele4 PStore PSysSet PSys PSysMeas PSysCC PSysRun PSysSafe PControl PMem PTele5 SpecControl PTele6 PTele7
  SpecHost MCsv SpecCsv PCsv PCsv2.
Import ListNotations.
Open Scope Z_scope.

Lemma latest_s32 n l : Forall msg_ok l -> forall d, is_s32 d -> is_s32 (latest n l d).
Proof.
  induction 1 as [|m l M F IH]; intros d D; [exact D|]. destruct m as [|now n' v|now n' n'' v]; cbn [latest].
  - apply IH. unfold is_s32. lia.
  - apply IH. destruct (list_eq_dec Z.eq_dec n n'); [apply M|exact D].
  - apply IH. exact D.
Qed.
Lemma table_rows l rows : table l rows -> Forall msg_ok l -> Forall row_ok rows.
Proof.
  induction 1 as [|l|l now i v rows vals T IH V|l now n v rows T IH K|l now n n' v rows T IH]; intros F.
  - constructor.
  - constructor.
  - constructor; [|apply Forall_app in F; apply IH; apply F]. intros j. cbn [snd]. rewrite V. cbn [fst]. apply latest_s32; [exact F|unfold is_s32; lia].
  - apply Forall_app in F. apply IH. apply F.
  - apply Forall_app in F. apply IH. apply F.
Qed.
Lemma csv_stream l b : Forall msg_ok l -> stream l = Some b ->
  exists rows text, table l rows /\ csv_file (receive b) = Some text /\ holds (rev rows) text.
Proof.
  intros F E. destruct (decodes l b F E) as [_ T]. destruct (file_ok (receive b) (table_rows _ _ T F)) as (text & X & H).
  exists (r_rows (receive b)), text. split; [exact T|]. split; [exact X|exact H].
Qed.
Lemma csv_resync g l b : Forall msg_ok l -> stream (Hello :: l) = Some b ->
  exists rows text, table l rows /\ csv_file (receive (g ++ b)) = Some text /\ holds (rev rows) text.
Proof.
  intros F E. destruct (resync_table g l b F E) as [_ T]. destruct (file_ok (receive (g ++ b)) (table_rows _ _ T F)) as (text & X & H).
  exists (r_rows (receive (g ++ b))), text. split; [exact T|]. split; [exact X|exact H].
Qed.
Lemma cell_recovers i v n : cell_shows i v n -> recovers (item_unit i) v n.
Proof.
  unfold cell_shows. destruct (item_unit i =? 640) eqn:U.
  - apply Z.eqb_eq in U. rewrite U. intros [S B]. destruct n as [m k]. cbn [fst snd] in *. subst k. split; cbn [fst snd]; [lia|]. change (10 ^ 6) with 1000000. lia.
  - intros [S B]. split; [exact S|]. rewrite B, Z.sub_diag. change (Z.abs 0) with 0. assert (0 < 10 ^ snd n) by (apply Z.pow_pos_nonneg; lia). lia.
Qed.
Lemma recovers_unique u v w n : recovers u v n -> recovers u w n -> v = w.
Proof.
  intros [S A] [_ B]. assert (0 < 10 ^ snd n) as P by (apply Z.pow_pos_nonneg; lia). set (p := 10 ^ snd n) in *. set (x := u * fst n) in *. clearbody p x. nia.
Qed.
Lemma csv_recover i v n : cell_shows i v n -> forall w, recovers (item_unit i) w n <-> w = v.
Proof.
  intros H w. apply cell_recovers in H. split; [intros R; eapply recovers_unique; eassumption|intros ->; exact H].
Qed.

(** ** The firmware *)
Definition rxinv (rc : rx * list Z) (en : bool) : Prop := en = true ->
  snd rc = [] /\ Forall row_ok (r_rows (fst rc)) /\ (forall i, is_s32 (fst (r_val (fst rc) i)) /\ snd (r_val (fst rc) i) = item_div i) /\
  match r_rows (fst rc) with [] => forall i, r_val (fst rc) i = (0, item_div i) | row :: _ => snd row = r_val (fst rc) end.
Lemma rxinv_reset en : rxinv (rx_reset, []) en.
Proof. intros _. cbn [fst snd rx_reset r_rows r_val]. split; [reflexivity|]. split; [constructor|]. split; [intros i; split; [unfold is_s32; cbn; lia|reflexivity]|reflexivity]. Qed.
Lemma s24_s32 v : is_s24 v -> is_s32 v. Proof. unfold is_s24, is_s32. lia. Qed.
Lemma rxinv_set r c now v : is_s24 v -> rxinv (r, []) true -> rxinv (rx_set r c now v, []) true.
Proof.
  intros R H _. destruct (H eq_refl) as (_ & H2 & H3 & H4). cbn [fst snd] in *. split; [reflexivity|]. destruct c as [i|k t]; [|cbn [rx_set]; split; [exact H2|]; split; assumption].
  assert (forall j, is_s32 (fst (r_val (rx_set r (CItem i) now v) j)) /\ snd (r_val (rx_set r (CItem i) now v) j) = item_div j) as V.
  { intros j. rewrite r_val_set. destruct (item_dec j i); [split; [apply s24_s32; exact R|reflexivity]|apply H3]. }
  unfold rx_set, rx_msg in *. rewrite find_name in *. cbn [r_rows r_val] in *. split; [|split; [exact V|reflexivity]].
  constructor; [intros j; cbn [snd]; apply V|exact H2].
Qed.
Lemma perform_inv now l : Forall rngv l -> forall en f rc en' f' s, rxinv rc en -> perform now en f l = Some (en', f', s) -> rxinv (rxb rc (concat s)) en'.
Proof.
  induction 1 as [|a l R _ IH]; intros en f rc en' f' s H E.
  { cbn in E. apply Some_inj in E. injection E as <- <- <-. cbn [concat]. rewrite rxb_nil. exact H. }
  destruct (perform1_ok now en f a R) as (s1 & E1 & _ & _ & S). cbn [perform] in E. rewrite E1 in E. cbn [bind] in E.
  apply bind_inv in E. destruct E as (((e2, f2), s2) & E2 & E). apply Some_inj in E. injection E as <- <- <-.
  rewrite concat_app, rxb_app. apply (IH _ _ _ _ _ _) with (2 := E2).
  assert (forall c v b, is_s24 v -> en = true -> print_int true now (Some (prefix0 c)) (prefix1 c) v = Some b -> rxinv (rxb rc (concat [b])) true) as LN.
  { intros c v b Rv En Eb. destruct (line_ok now c v Rv) as (b' & E' & _ & _ & K). rewrite Eb in E'. apply Some_inj in E'. subst b'.
    cbn [concat]. unfold rxb. destruct (H En) as (H1 & _). rewrite H1. rewrite app_nil_r. specialize (K (fst rc) []). rewrite app_nil_r in K. rewrite K. cbn [rx_bytes].
    apply rxinv_set; [exact Rv|]. destruct rc as [r cur]. cbn [fst snd] in *. subst cur. subst en. exact H. }
  destruct a as [c v|i v|b]; cbn [enf rngv] in *.
  - destruct S as [(-> & _)|(b & En & _ & -> & Eb)]; [cbn [concat]; rewrite rxb_nil; exact H|]. rewrite En. eapply LN; eassumption.
  - destruct S as [-> |(b & En & -> & Eb)]; [cbn [concat]; rewrite rxb_nil; exact H|]. rewrite En. exact (LN (CItem i) v b R En Eb).
  - subst s1. destruct b; [|intros X; discriminate X]. cbn [concat]. unfold rxb. rewrite hello_ok. cbn [rx_bytes]. apply rxinv_reset.
Qed.
Lemma rxinv_off rc : rxinv rc false. Proof. intros X. discriminate X. Qed.
Lemma tlog_rx C y f b g : build_conf C -> tlog C y f b g -> forall n, rxinv (rx_bytes rx_reset [] (n ++ b)) (y_dbg y).
Proof.
  intros HC. induction 1 as [pinb y f s Up E|y f b g e y' f' s T IH O E]; intros n.
  - assert (exists z, boot C (factory_ee C) pinb = Some z) as (z & Ez) by (unfold tboot, tout in E; apply bind_inv in E; destruct E as ((z, l) & E & _); exists z; rewrite <- (e_boot C _ pinb), E; reflexivity).
    destruct (tboot_eq C _ _ _ Ez) as (l & Et & U & D & X). assert (R : reach C z) by exact (reach_boot C pinb z Up Ez).
    destruct (c_debug C) eqn:Cd.
    + destruct X as (s' & Ep & _ & X). rewrite X in E. apply Some_inj in E. injection E as <- <- <-.
      rewrite rx_bytes_app. exact (perform_inv 0 l (ui_rng l U) false _ (rx_bytes rx_reset [] n) _ _ _ (rxinv_off _) Ep).
    + rewrite X in E. apply Some_inj in E. injection E as <- <- <-. rewrite (not_debug C z HC R Cd). apply rxinv_off.
  - assert (reach C y) as R by exact (tlog_reach C y f b g HC T).
    destruct (tstep_eq C y f e HC R O) as (z & l & Ez & Et & Rn & D & X). cbv zeta in *. assert (R' : reach C z) by exact (reach_step C y e z R O Ez).
    destruct (c_debug C) eqn:Cd.
    2: { rewrite X in E. apply Some_inj in E. injection E as <- <- <-. rewrite (not_debug C z HC R' Cd). apply rxinv_off. }
    destruct X as (s' & Ep & _ & X). rewrite X in E. apply Some_inj in E. injection E as <- <- <-. rewrite rx_more.
    assert (Sy : rxinv (rx_bytes rx_reset [] (n ++ b)) (if is_power e then false else y_dbg y)) by (destruct (is_power e); [apply rxinv_off|exact (IH n)]).
    exact (perform_inv _ l Rn _ _ _ _ _ _ Sy Ep).
Qed.
Lemma div_unit i : item_div i = item_unit i. Proof. destruct i; reflexivity. Qed.
Lemma csv_firmware C y f b g n : build_conf C -> tlog C y f b g -> y_dbg y = true ->
  exists text nums, csv_file (receive (n ++ b)) = Some text /\ read_csv text = Some (titles, nums) /\
    (nums = [] /\ (forall i, shows (n ++ b) i 0) \/
     exists old t ns, nums = old ++ [t :: ns] /\ Forall2 (fun i x => exists v, shows (n ++ b) i v /\ cell_shows i v x) columns ns).
Proof.
  intros HC T D. destruct (tlog_rx C y f b g HC T n D) as (_ & H2 & H3 & H4). unfold shows. fold (receive (n ++ b)) in *. set (r := receive (n ++ b)) in *. clearbody r.
  destruct (file_ok r H2) as (text & X & nums & Y & S). exists text, nums. split; [exact X|]. split; [exact Y|].
  destruct (r_rows r) as [|row rows] eqn:E.
  - left. cbn [rev] in S. inversion S. split; [reflexivity|]. intros i. rewrite <- div_unit. apply H4.
  - right. cbn [rev] in S. apply Forall2_app_inv_l in S. destruct S as (old & last & _ & S & ->). inversion S as [|? w ? ? S1 S2]; subst. inversion S2; subst.
    destruct w as [|t ns]; [destruct S1|]. exists old, t, ns. split; [reflexivity|]. destruct S1 as [_ S1]. rewrite H4 in S1.
    clear - S1 H3. induction S1 as [|i x li lx A F IH]; constructor; [|exact IH]. exists (fst (r_val r i)). split; [|exact A].
    rewrite <- div_unit, <- (proj2 (H3 i)). destruct (r_val r i); reflexivity.
Qed.
(** The last row shows the cells of the firmware, but for values that are 0 or were not sent since the greeting. *)
Lemma csv_last C y f b g n i k : build_conf C -> tlog C y f b g -> y_dbg y = true -> nth_error columns k = Some i -> i <> Tb ->
  f (CItem i) <> 0 -> f (CItem i) <> g i ->
  exists text old row x, csv_file (receive (n ++ b)) = Some text /\ read_csv text = Some (titles, old ++ [row]) /\
    nth_error row (S k) = Some x /\ cell_shows i (f (CItem i)) x.
Proof.
  intros HC T D K NT NZ NG. destruct (csv_firmware C y f b g n HC T D) as (text & nums & E & R & H).
  assert (shows (n ++ b) i (f (CItem i))) as S by (destruct (tele_shown C y f b g n i HC T D NT) as [S|[_ S]]; [exact S|contradiction]).
  destruct H as [(-> & Z0)|(old & t & ns & -> & F)].
  - exfalso. specialize (Z0 i). unfold shows in *. rewrite S in Z0. injection Z0 as Z0. contradiction.
  - exists text, old, (t :: ns). cbn [nth_error].
    assert (exists x, nth_error ns k = Some x /\ exists v, shows (n ++ b) i v /\ cell_shows i v x) as (x & N & v & V & X).
    { clear - F K. revert k K. induction F as [|j x lj lx A F IH]; intros k K; [destruct k; discriminate|]. destruct k as [|k]; cbn [nth_error] in *.
      - injection K as ->. exists x. split; [reflexivity|exact A].
      - exact (IH k K). }
    exists x. split; [exact E|]. split; [exact R|]. split; [exact N|]. unfold shows in *. rewrite S in V. injection V as ->. exact X.
Qed.
Lemma csv_temperature C y f b g n : build_conf C -> c_debug C = true -> tlog C y f b g -> y_dbg y = true -> t_feedback (y_ct y) <> 0 -> t_feedback (y_ct y) <> g Tr ->
  exists text old row x, csv_file (receive (n ++ b)) = Some text /\ read_csv text = Some (titles, old ++ [row]) /\
    nth_error row 5 = Some x /\ exactly 64 (t_feedback (y_ct y)) x.
Proof.
  intros HC Cd T D NZ NG. destruct (tlog_inv C y f b g HC T) as (_ & M & _). destruct (M Cd) as (_ & M2 & _). rewrite <- M2 in *.
  apply (csv_last C y f b g n Tr 4 HC T D eq_refl); [discriminate|exact NZ|exact NG].
Qed.
