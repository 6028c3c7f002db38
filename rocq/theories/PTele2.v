(** * Making the calls: definedness, length, the receiver *)
From Coq Require Import ZArith List Bool Lia.
From Verif Require Import Base PBase MDebug SpecHost PDebug MTele SpecTele PTele.
Import ListNotations.
Open Scope Z_scope.

(** ** One line *)
Definition rngv (a : act) : Prop := match a with AReport _ v => is_s24 v | APrint _ v => is_s24 v | AEnable _ => True end.
Definition rx_set (r : rx) (c : cell) (now v : Z) : rx :=
  match c with CItem i => rx_msg r (Value now (fw_name i) v) | CPid _ _ => r end.
Lemma pid_name_ok k : name_ok (pid_name k).
Proof. split; [discriminate|]. destruct k; repeat constructor; lia. Qed.
Lemma term_name_ok t : name_ok (term_name t).
Proof. split; [destruct t; discriminate|]. destruct t; repeat constructor; lia. Qed.
Lemma utoa_len now ds : utoa (u16 now) 16 5 = Some ds -> (1 <= length ds <= 4)%nat.
Proof.
  intros E. destruct (utoa_ok now) as (d & E' & N & _). rewrite E in E'. apply Some_inj in E'. subst d.
  unfold utoa in E. apply bind_inv in E. destruct E as (s & _ & E). unfold into_buf in E.
  destruct (Z.leb_spec (Z.of_nat (length s) + 1) 5); [|discriminate E]. apply Some_inj in E. subst s.
  destruct ds; [contradiction|]. cbn [length] in *. lia.
Qed.
Lemma ltoa_len v s : is_s24 v -> ltoa10 v 12 = Some s -> (1 <= length s <= 8)%nat.
Proof.
  unfold is_s24. intros R E. assert (S : is_s32 v) by (unfold is_s32; lia). destruct (ltoa_ok v S) as (s' & E' & N & _).
  rewrite E in E'. apply Some_inj in E'. subst s'. unfold ltoa10 in E.
  assert (u32 (Z.abs v) = Z.abs v) as U by (unfold u32; lia). rewrite U in E.
  assert (0 <= Z.abs v < 10 ^ Z.of_nat 16) as R2 by (change (10 ^ Z.of_nat 16) with 10000000000000000; lia).
  destruct (digits_ok 10 (or_introl eq_refl) 16 (Z.abs v) [] R2 ltac:(discriminate)) as (ds & Ed & _ & _ & L & _).
  rewrite Ed, app_nil_r in E. cbn [bind] in E. unfold into_buf in E.
  assert (Z.of_nat (length ds) <= 7) by (apply L; [lia|change (10 ^ 7) with 10000000; lia]).
  destruct s as [|x s0]; [contradiction|]. destruct (v <? 0).
  - destruct (Z.of_nat (length (45 :: ds)) + 1 <=? 12); [|discriminate E]. apply Some_inj in E. rewrite <- E. cbn [length]. lia.
  - destruct (Z.of_nat (length ds) + 1 <=? 12); [|discriminate E]. apply Some_inj in E. subst ds. cbn [length] in *. lia.
Qed.
Definition width (c : cell) : nat := match c with CItem _ => 20 | CPid _ _ => 25 end.
Lemma line_ok now c v : is_s24 v -> exists b, print_int true now (Some (prefix0 c)) (prefix1 c) v = Some b /\
  (exists h t, b = h :: t /\ hexd h) /\ (9 <= length b <= width c)%nat /\
  forall r t, rx_bytes r [] (b ++ t) = rx_bytes (rx_set r c now v) [] t.
Proof.
  intros R. assert (S : is_s32 v) by (unfold is_s24, is_s32 in *; lia).
  assert (X : exists b, print_int true now (Some (prefix0 c)) (prefix1 c) v = Some b /\ forall r t, rx_bytes r [] (b ++ t) = rx_bytes (rx_set r c now v) [] t).
  { destruct c as [i|k t]; cbn [prefix0 prefix1 rx_set].
    - destruct (value_ok rx_reset now _ v (name_item_ok i) S) as (b & E & _). exists b. split; [exact E|]. intros r t.
      destruct (value_ok r now _ v (name_item_ok i) S) as (b' & E' & H). rewrite E in E'. apply Some_inj in E'. subst b'. apply H.
    - destruct (value2_ok rx_reset now _ _ v (pid_name_ok k) (term_name_ok t) S) as (b & E & _). exists b. split; [exact E|]. intros r u.
      destruct (value2_ok r now _ _ v (pid_name_ok k) (term_name_ok t) S) as (b' & E' & H). rewrite E in E'. apply Some_inj in E'. subst b'. apply H. }
  destruct X as (b & E & H). exists b. split; [exact E|]. split; [|split; [|exact H]].
  - unfold print_int in E. apply bind_inv in E. destruct E as (s & _ & E). destruct (print_str3_ok now (Some (prefix0 c)) (prefix1 c) (Some s)) as (t & E' & N & F & _).
    rewrite E in E'. apply Some_inj in E'. destruct t as [|x t]; [contradiction|]. exists x. eexists. split; [exact E'|]. inversion F; assumption.
  - unfold print_int in E. apply bind_inv in E. destruct E as (s & Es & E). pose proof (ltoa_len _ _ R Es) as Ls. unfold print_str3 in E. cbn [negb] in E.
    apply bind_inv in E. destruct E as (t & Et & E). unfold timestamp in Et. apply bind_inv in Et. destruct Et as (u & Eu & Et). apply Some_inj in Et.
    pose proof (utoa_len _ _ Eu) as Lu. apply Some_inj in E. rewrite <- E, <- Et. unfold EOL. rewrite !app_length.
    destruct c as [i|k x]; cbn [prefix0 prefix1 width length].
    + assert ((2 <= length (fw_name i) <= 3)%nat) by (destruct i; cbn; lia). lia.
    + assert ((length (pid_name k) = 5)%nat) by (destruct k; reflexivity). assert ((1 <= length (term_name x) <= 2)%nat) by (destruct x; cbn; lia). lia.
Qed.
Lemma print_off now a b v : is_s24 v -> print_int false now a b v = Some [].
Proof. intros R. destruct (ltoa_ok v) as (s & E & _); [unfold is_s24, is_s32 in *; lia|]. unfold print_int. rewrite E. reflexivity. Qed.

(** ** The calls *)
Definition upd (f : cells) (a : act) : cells := match a with AReport c v => set_cell f c v | _ => f end.
Definition after (l : list act) (f : cells) : cells := fold_left upd l f.
Definition enf (en : bool) (a : act) : bool := match a with AEnable b => b | _ => en end.
Definition weight (a : act) : nat := match a with AReport c _ => width c | APrint _ _ => 20 | AEnable _ => 6 end.
Definition total (l : list act) : nat := list_sum (map weight l).
Lemma report_eq en now n m o v : is_s24 v -> exists s, report en now n m o v = Some (v, s) /\
  (s = [] /\ (en = false \/ o = v) \/ en = true /\ o <> v /\ print_int true now n m v = Some s).
Proof.
  intros R. unfold report. destruct (Z.eqb_spec o v) as [->|N]; [exists []; split; [reflexivity|left; split; [reflexivity|right; reflexivity]]|].
  destruct en.
  - destruct (ltoa_ok v) as (s & E & _); [unfold is_s24, is_s32 in *; lia|].
    assert (X : exists b, print_int true now n m v = Some b).
    { unfold print_int. rewrite E. cbn [bind]. destruct (print_str3_ok now n m (Some s)) as (t & E' & _). eexists. exact E'. }
    destruct X as (b & Eb). rewrite Eb. cbn [bind]. exists b. split; [reflexivity|]. right. repeat split; assumption.
  - rewrite print_off by exact R. cbn [bind]. exists []. split; [reflexivity|left; split; [reflexivity|left; reflexivity]].
Qed.
Lemma set_same f c d : set_cell f c (f c) d = f d.
Proof. unfold set_cell. destruct (cell_dec d c); congruence. Qed.

(** One call: what is sent. *)
Definition good (weights : nat) (s : list (list Z)) : Prop :=
  (length (concat s) <= weights)%nat /\ Forall (fun x => x = greeting \/ (9 <= length x <= 25)%nat) s.
Lemma perform1_ok now en f a : rngv a -> exists s, perform1 now en f a = Some (enf en a, upd f a, s) /\ good (weight a) s /\
  (en = false -> (forall b, a <> AEnable b) -> s = []) /\
  match a with
  | AReport c v => (s = [] /\ (en = false \/ f c = v) \/ exists b, en = true /\ f c <> v /\ s = [b] /\ print_int true now (Some (prefix0 c)) (prefix1 c) v = Some b)
  | APrint i v => (s = [] \/ exists b, en = true /\ s = [b] /\ print_int true now (Some (fw_name i)) None v = Some b)
  | AEnable b => s = if b then [greeting] else []
  end.
Proof.
  intros R. destruct a as [c v|i v|b]; cbn [rngv] in R; cbn [perform1 enf upd weight].
  - destruct (report_eq en now (Some (prefix0 c)) (prefix1 c) (f c) v R) as (s & E & H). rewrite E. cbn [bind].
    destruct (line_ok now c v R) as (b & Eb & (h & t & Hb & _) & L & _).
    destruct H as [(-> & H)|(H1 & H2 & H3)].
    + exists []. split; [reflexivity|]. split; [split; [cbn; lia|constructor]|]. split; [reflexivity|left; split; [reflexivity|exact H]].
    + assert (s = b) by congruence. subst s. exists [b]. split; [rewrite Hb; reflexivity|].
      split; [split; [cbn [concat]; rewrite app_nil_r; lia|constructor; [right; destruct c; cbn [width] in L; lia|constructor]]|].
      split; [congruence|]. right. exists b. repeat split; assumption.
  - destruct en.
    + destruct (line_ok now (CItem i) v R) as (b & Eb & (h & t & Hb & _) & L & _). cbn [prefix0 prefix1 width] in *. rewrite Eb. cbn [bind].
      exists [b]. split; [rewrite Hb; reflexivity|].
      split; [split; [cbn [concat]; rewrite app_nil_r; lia|constructor; [right; lia|constructor]]|].
      split; [discriminate|]. right. exists b. repeat split; assumption.
    + rewrite print_off by exact R. cbn [bind]. exists []. split; [reflexivity|]. split; [split; [cbn; lia|constructor]|]. split; [reflexivity|left; reflexivity].
  - destruct b; cbn [enable_out].
    + exists [greeting]. split; [reflexivity|]. split; [split; [cbn; lia|constructor; [left; reflexivity|constructor]]|]. split; [intros _ H; destruct (H true eq_refl)|reflexivity].
    + exists []. split; [reflexivity|]. split; [split; [cbn; lia|constructor]|]. split; reflexivity.
Qed.
Lemma good_app m n s t : good m s -> good n t -> good (m + n) (s ++ t).
Proof. intros (A & B) (D & E). split; [rewrite concat_app, app_length; lia|]. apply Forall_app. auto. Qed.
Lemma perform_ok now l : Forall rngv l -> forall en f, exists s, perform now en f l = Some (fold_left enf l en, after l f, s) /\ good (total l) s.
Proof.
  induction 1 as [|a l R _ IH]; intros en f; [exists []; split; [reflexivity|split; [cbn; lia|constructor]]|].
  destruct (perform1_ok now en f a R) as (s & E & G & _). cbn [perform]. rewrite E. cbn [bind].
  destruct (IH (enf en a) (upd f a)) as (s' & E' & G'). rewrite E'. cbn [bind]. exists (s ++ s'). split; [reflexivity|]. apply good_app; assumption.
Qed.
Lemma perform_quiet now l : Forall rngv l -> Forall (fun a => forall b, a <> AEnable b) l -> forall f en' f' s, perform now false f l = Some (en', f', s) -> s = [].
Proof.
  induction 1 as [|a l R _ IH]; intros N f en' f' s E; [cbn in E; congruence|]. inversion N as [|? ? N1 N2]; subst.
  destruct (perform1_ok now false f a R) as (s1 & E1 & _ & Q & _). cbn [perform] in E. rewrite E1 in E. cbn [bind] in E. specialize (Q eq_refl N1). subst s1.
  assert (enf false a = false) as X by (destruct a; [reflexivity|reflexivity|destruct (N1 enable eq_refl)]). rewrite X in E.
  apply bind_inv in E. destruct E as (((e2, f2), s2) & E2 & E). rewrite (IH N2 _ _ _ _ E2) in E. apply Some_inj in E. injection E as _ _ <-. reflexivity.
Qed.

(** ** The receiver *)
Definition synced (rc : rx * list Z) (en : bool) (f : cells) (g : item -> Z) : Prop :=
  en = true -> snd rc = [] /\ forall i, i <> Tb ->
    r_val (fst rc) i = (f (CItem i), item_div i) \/ r_val (fst rc) i = (0, item_div i) /\ f (CItem i) = g i.
Definition rxb (rc : rx * list Z) (b : list Z) : rx * list Z := rx_bytes (fst rc) (snd rc) b.
Lemma rxb_app rc a b : rxb rc (a ++ b) = rxb (rxb rc a) b.
Proof. unfold rxb. apply rx_bytes_app. Qed.
Lemma rxb_nil rc : rxb rc [] = rc. Proof. destruct rc; reflexivity. Qed.
Lemma r_val_set r c now v i : r_val (rx_set r c now v) i = match c with CItem j => if item_dec i j then (v, item_div i) else r_val r i | _ => r_val r i end.
Proof.
  destruct c as [j|k t]; [|reflexivity]. cbn [rx_set]. unfold rx_msg. rewrite find_name. cbn [r_val]. unfold set_item.
  destruct (item_dec i j) as [->|N].
  - replace (item_eqb j j) with true by (symmetry; apply item_eqb_eq; reflexivity). reflexivity.
  - destruct (item_eqb i j) eqn:Q; [apply item_eqb_eq in Q; contradiction|reflexivity].
Qed.
Lemma upd_item f c v i : set_cell f c v (CItem i) = match c with CItem j => if item_dec i j then v else f (CItem i) | _ => f (CItem i) end.
Proof. unfold set_cell. destruct (cell_dec (CItem i) c) as [<-|N]; [destruct (item_dec i i); congruence|]. destruct c as [j|k t]; [|reflexivity]. destruct (item_dec i j); congruence. Qed.
Lemma line_sync rc en f g c now v b : en = true -> synced rc en f g -> is_s24 v -> print_int true now (Some (prefix0 c)) (prefix1 c) v = Some b ->
  synced (rxb rc b) en (set_cell f c v) g.
Proof.
  intros En H R E _. destruct (H En) as (H1 & H2). destruct (line_ok now c v R) as (b' & E' & _ & _ & K). rewrite E in E'. apply Some_inj in E'. subst b'.
  unfold rxb. rewrite H1. specialize (K (fst rc) []). rewrite app_nil_r in K. rewrite K. cbn [rx_bytes fst snd]. split; [reflexivity|]. intros i Hi.
  rewrite r_val_set, upd_item. specialize (H2 i Hi). destruct c as [j|k t]; [|exact H2]. destruct (item_dec i j); [left; reflexivity|exact H2].
Qed.
Lemma reports_sync now l : Forall rngv l -> Forall is_report l -> forall en f g rc en' f' s, synced rc en f g -> perform now en f l = Some (en', f', s) ->
  en' = en /\ ~ In greeting s /\ synced (rxb rc (concat s)) en' f' g.
Proof.
  induction 1 as [|a l R _ IH]; intros P en f g rc en' f' s H E.
  { cbn in E. apply Some_inj in E. injection E as <- <- <-. cbn [concat]. rewrite rxb_nil. repeat split; [intros []|apply H..]; assumption. }
  inversion P as [|? ? P1 P2]; subst. destruct a as [c v| |]; try destruct P1. cbn [rngv] in R.
  destruct (perform1_ok now en f (AReport c v) R) as (s1 & E1 & _ & _ & S). cbn [perform] in E. rewrite E1 in E. cbn [bind enf upd] in E.
  apply bind_inv in E. destruct E as (((e2, f2), s2) & E2 & E). apply Some_inj in E. injection E as <- <- <-.
  assert (X : ~ In greeting s1 /\ synced (rxb rc (concat s1)) en (set_cell f c v) g).
  { destruct S as [(-> & Hs)|(b & En & N & -> & Eb)].
    - split; [intros []|]. cbn [concat]. rewrite rxb_nil. destruct Hs as [Hs|<-]; [intros En; congruence|]. intros En. destruct (H En) as (H1 & H2). split; [exact H1|]. intros i Hi. rewrite set_same. exact (H2 i Hi).
    - split.
      + intros [G|[]]. destruct (line_ok now c v R) as (b' & E' & (h & t & Hb & Hh) & _). rewrite Eb in E'. apply Some_inj in E'. subst b'. rewrite G in Hb.
        unfold greeting in Hb. injection Hb as <- _. unfold hexd in Hh. lia.
      + cbn [concat]. rewrite app_nil_r. eapply line_sync; eassumption. }
  destruct X as (X1 & X2). destruct (IH P2 _ _ _ _ _ _ _ X2 E2) as (A & B & D). split; [exact A|]. split.
  - intros Hi. apply in_app_or in Hi. tauto.
  - rewrite concat_app, rxb_app. exact D.
Qed.
Lemma ui_sync now l : Forall is_uiact l -> forall en f g rc en' f' s, synced rc en f g -> perform now en f l = Some (en', f', s) ->
  f' = f /\ synced (rxb rc (concat s)) en' f' (if in_dec str_dec greeting s then fun i => f' (CItem i) else g).
Proof.
  induction 1 as [|a l P _ IH]; intros en f g rc en' f' s H E.
  { cbn in E. apply Some_inj in E. injection E as <- <- <-. split; [reflexivity|]. destruct (in_dec _ _ _) as [[]|_]. cbn [concat]. rewrite rxb_nil. exact H. }
  assert (R : rngv a) by (destruct a as [| |]; [destruct P| |exact I]; destruct i; try destruct P; cbn [is_uiact rngv] in *; unfold is_s16, is_s24 in *; lia).
  destruct (perform1_ok now en f a R) as (s1 & E1 & _ & _ & S). cbn [perform] in E. rewrite E1 in E. cbn [bind] in E.
  apply bind_inv in E. destruct E as (((e2, f2), s2) & E2 & E). apply Some_inj in E. injection E as <- <- <-.
  assert (Uf : upd f a = f) by (destruct a; [destruct P|reflexivity|reflexivity]). rewrite Uf in *.
  assert (X : synced (rxb rc (concat s1)) (enf en a) f (if in_dec str_dec greeting s1 then fun i => f (CItem i) else g)).
  { destruct a as [c v|i v|b]; [destruct P| |].
    - destruct S as [->|(b & En & -> & Eb)].
      + destruct (in_dec _ _ _) as [[]|_]. cbn [concat enf]. rewrite rxb_nil. exact H.
      + cbn [rngv] in R. destruct (line_ok now (CItem i) v R) as (b' & E' & (h & t & Hb & Hh) & _ & K). cbn [prefix0 prefix1] in E'. rewrite Eb in E'. apply Some_inj in E'. subst b'.
        destruct (in_dec _ _ _) as [[G|[]]|_]; [rewrite G in Hb; unfold greeting in Hb; injection Hb as <- _; unfold hexd in Hh; lia|].
        cbn [enf concat]. rewrite app_nil_r. intros _. destruct (H En) as (H1 & H2). unfold rxb. rewrite H1. specialize (K (fst rc) []). rewrite app_nil_r in K. rewrite K.
        cbn [rx_bytes fst snd]. split; [reflexivity|]. intros j Hj. rewrite r_val_set. destruct (item_dec j i) as [->|]; [destruct i; try destruct P; contradiction|]. exact (H2 j Hj).
    - subst s1. destruct b; cbn [enf].
      + destruct (in_dec _ _ _) as [_|N]; [|destruct N; left; reflexivity]. intros _. cbn [concat]. unfold rxb. rewrite hello_ok. cbn [rx_bytes fst snd]. split; [reflexivity|].
        intros j _. right. split; reflexivity.
      + intros Q. discriminate Q. }
  destruct (IH _ _ _ _ _ _ _ X E2) as (-> & D). split; [reflexivity|]. rewrite concat_app, rxb_app.
  destruct (in_dec str_dec greeting (s1 ++ s2)) as [I|N].
  - destruct (in_dec str_dec greeting s2); [exact D|]. destruct (in_dec str_dec greeting s1) as [_|N1]; [exact D|]. apply in_app_or in I. tauto.
  - destruct (in_dec str_dec greeting s2) as [I|_]; [destruct N; apply in_or_app; tauto|]. destruct (in_dec str_dec greeting s1) as [I|_]; [destruct N; apply in_or_app; tauto|]. exact D.
Qed.
