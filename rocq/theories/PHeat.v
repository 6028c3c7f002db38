(** * The heater pin *)
From Coq Require Import ZArith List Bool Lia ZifyBool.
From Verif Require Import Base PBase MConf MTimer MPid MPwm MCurr MSettings SpecSettings MState MMeas MMenu MMain SpecSys SpecRun SpecUI SpecLive SpecLoop
  MFine SpecFine MHeat SpecHeat.
Import ListNotations.
Open Scope Z_scope.

(** ** Lists *)
Lemma zlen_nil A : zlen (@nil A) = 0. Proof. reflexivity. Qed.
Lemma zlen_cons A (a : A) l : zlen (a :: l) = zlen l + 1. Proof. unfold zlen. cbn [length]. lia. Qed.
Lemma zlen_nonneg A (l : list A) : 0 <= zlen l. Proof. unfold zlen. lia. Qed.
Lemma zlen_app A (l r : list A) : zlen (l ++ r) = zlen l + zlen r. Proof. unfold zlen. rewrite app_length. lia. Qed.
Lemma ztake_le A n (l : list A) : n <= 0 -> ztake n l = [].
Proof. destruct l; cbn; auto. intros H. replace (n <=? 0) with true by lia. reflexivity. Qed.
Lemma ztake_app A : forall (l r : list A) n, zlen l <= n -> ztake n (l ++ r) = l ++ ztake (n - zlen l) r.
Proof.
  induction l as [|a l IH]; intros r n H.
  - cbn [app]. rewrite zlen_nil, Z.sub_0_r. reflexivity.
  - rewrite zlen_cons in *. pose proof (zlen_nonneg _ l). cbn [app ztake]. replace (n <=? 0) with false by lia.
    rewrite (IH r (n - 1)) by lia. f_equal. f_equal. f_equal. lia.
Qed.
Lemma ztake_app_l A : forall (l r : list A) n, n <= zlen l -> ztake n (l ++ r) = ztake n l.
Proof.
  induction l as [|a l IH]; intros r n H.
  - rewrite zlen_nil in H. rewrite !ztake_le by lia. reflexivity.
  - rewrite zlen_cons in H. cbn [app ztake]. destruct (n <=? 0) eqn:E; [reflexivity|]. rewrite IH by lia. reflexivity.
Qed.
Lemma low_app X (l r : list (X * bool)) : low (l ++ r) = low l + low r.
Proof. induction l as [|(x, p) l IH]; cbn [app low]; [lia|]. rewrite IH. lia. Qed.
Lemma ztake_In A : forall (l : list A) n a, In a (ztake n l) -> In a l.
Proof.
  induction l as [|b l IH]; intros n a; cbn [ztake]; [auto|]. destruct (n <=? 0); [intros []|].
  intros [E|H]; [left; exact E|right; eapply IH; exact H].
Qed.
Lemma ztake_ztake A : forall (l : list A) n m, n <= m -> ztake n (ztake m l) = ztake n l.
Proof.
  induction l as [|a l IH]; intros n m H; [reflexivity|]. cbn [ztake]. destruct (m <=? 0) eqn:E.
  - replace (n <=? 0) with true by lia. reflexivity.
  - cbn [ztake]. destruct (n <=? 0) eqn:E2; [reflexivity|]. rewrite IH by lia. reflexivity.
Qed.
Lemma lately_weaken X n m (P Q : X -> Prop) l : m <= n -> (forall x, P x -> Q x) -> lately n P l -> lately m Q l.
Proof.
  intros H W (L & F). split; [lia|]. rewrite Forall_forall in *. intros s I. apply W, F.
  rewrite <- (ztake_ztake _ l m n) in I by lia. eapply ztake_In; exact I.
Qed.
Lemma lately_mid X n (P : X -> Prop) : forall l1 s l2, lately n P (l1 ++ s :: l2) -> zlen l1 < n -> P (fst s).
Proof.
  intros l1 s l2 (L & F) H. rewrite ztake_app in F by lia. cbn [ztake] in F. replace (n - zlen l1 <=? 0) with false in F by lia.
  apply Forall_app in F. destruct F as (_ & F). inversion F; assumption.
Qed.

(** ** One period *)
(** The position in the period *)
Definition pos (h : t1) : Z := 4 * w_tcnt h + w_pre h.
(** [slice a q L]: the units of one period with compare value [a] up to position [q], latest first *)
Inductive slice {X : Type} (a : Z) : Z -> list (X * bool) -> Prop :=
  | sl_0 x : slice a 0 [(x, true)]
  | sl_S x q L : slice a q L -> q < 32767 -> slice a (q + 1) ((x, q + 1 <=? 4 * a + 3) :: L).
Lemma slice_len X a q (L : list (X * bool)) : slice a q L -> zlen L = q + 1 /\ 0 <= q <= 32767.
Proof. induction 1 as [x|x q L S (IH & R) H]; [split; [reflexivity|lia]|]. rewrite zlen_cons. lia. Qed.
Lemma slice_low X a q (L : list (X * bool)) : 0 <= a -> slice a q L -> low L = Z.max 0 (q - 4 * a - 3).
Proof.
  intros A. induction 1 as [x|x q L S IH H]; cbn [low]; [lia|]. rewrite IH. destruct (q + 1 <=? 4 * a + 3) eqn:E; lia.
Qed.
Lemma slice_take X a q (L : list (X * bool)) n : 0 <= a -> slice a q L -> 0 <= n <= q + 1 ->
  low (ztake n L) = Z.min n (Z.max 0 (q - 4 * a - 3)).
Proof.
  intros A S. revert n. induction S as [x|x q L S IH H]; intros n N.
  - cbn [ztake]. destruct (n <=? 0) eqn:E; cbn [low]; lia.
  - cbn [ztake]. destruct (n <=? 0) eqn:E; cbn [low]; [lia|]. rewrite IH by lia. destruct (q + 1 <=? 4 * a + 3) eqn:E2; lia.
Qed.

Section Wired.
Context {X : Type} (ini : X -> Prop) (nx : X -> event -> X -> Prop) (ocr : X -> Z) (R : X -> Prop).
Hypothesis R_ini : forall x, ini x -> R x.
Hypothesis R_nx : forall x e x', R x -> nx x e x' -> R x'.
Hypothesis R_ocr : forall x, R x -> 0 <= ocr x <= 8191.
Notation wired := (wired ini nx ocr).

(** What the units since power-up look like: the first period, or a slice after its BOTTOM *)
Inductive shape : list (X * bool) -> Z -> Z -> bool -> Prop :=
  | sh_first l q pin : zlen l <= q <= 32767 -> shape l q 8191 pin
  | sh_slice L x r q b pb a pin : shape r 32767 b pb -> R x -> slice (ocr x) q (L ++ [(x, true)]) ->
      a = ocr x -> pin = (q <=? 4 * ocr x + 3) -> shape (L ++ (x, true) :: r) q a pin.

Lemma unit_bottom o h : w_pre h = 3 -> w_tcnt h = 8191 -> t1_unit o h = mkT1 0 0 o true.
Proof. intros P T. unfold t1_unit, t1_clock, PWMCURR_MAX_DUTY. rewrite P, T. reflexivity. Qed.
Lemma unit_next o h : 0 <= w_pre h <= 3 -> 0 <= w_tcnt h <= 8191 -> pos h < 32767 ->
  pos (t1_unit o h) = pos h + 1 /\ w_cmp (t1_unit o h) = w_cmp h /\ 0 <= w_pre (t1_unit o h) <= 3 /\ 0 <= w_tcnt (t1_unit o h) <= 8191 /\
  w_pin (t1_unit o h) = if pos h =? 4 * w_cmp h + 3 then false else w_pin h.
Proof.
  unfold pos, t1_unit, t1_clock, PWMCURR_MAX_DUTY. intros P T Q. destruct (w_pre h =? 3) eqn:E.
  - replace (w_tcnt h =? 8191) with false by lia. cbn [w_pre w_tcnt w_cmp w_pin].
    repeat (split; [lia|]). destruct (w_tcnt h =? w_cmp h) eqn:E2, (4 * w_tcnt h + w_pre h =? 4 * w_cmp h + 3) eqn:E3; try reflexivity; lia.
  - cbn [w_pre w_tcnt w_cmp w_pin]. repeat (split; [lia|]).
    destruct (4 * w_tcnt h + w_pre h =? 4 * w_cmp h + 3) eqn:E3; [lia|reflexivity].
Qed.

Lemma shape_next x h l : R x -> 0 <= w_pre h <= 3 -> 0 <= w_tcnt h <= 8191 -> shape l (pos h) (w_cmp h) (w_pin h) ->
  0 <= w_pre (t1_unit (ocr x) h) <= 3 /\ 0 <= w_tcnt (t1_unit (ocr x) h) <= 8191 /\
  shape ((x, w_pin (t1_unit (ocr x) h)) :: l) (pos (t1_unit (ocr x) h)) (w_cmp (t1_unit (ocr x) h)) (w_pin (t1_unit (ocr x) h)).
Proof.
  intros RX P T S. pose proof (R_ocr x RX) as O. destruct (Z.eq_dec (pos h) 32767) as [E|E].
  - assert (P3 : w_pre h = 3) by (unfold pos in E; lia). assert (T3 : w_tcnt h = 8191) by (unfold pos in E; lia).
    rewrite (unit_bottom _ _ P3 T3). unfold pos. cbn [w_pre w_tcnt w_cmp w_pin]. split; [lia|]. split; [lia|].
    rewrite E in S. assert (Z0 : (4 * 0 + 0 <=? 4 * ocr x + 3) = true) by lia.
    refine (sh_slice [] x l (4 * 0 + 0) _ _ _ _ S RX _ eq_refl _); [apply sl_0|]. symmetry. exact Z0.
  - destruct (unit_next (ocr x) h P T) as (Q & M & P' & T' & N); [unfold pos in *; lia|].
    split; [exact P'|]. split; [exact T'|]. rewrite Q, M, N.
    inversion S as [l' q pin L EL EQ EC EP|L x' r q b pb a pin S' RX' SL A1 A2 EL EQ EC EP]; subst q.
    + replace (pos h =? 4 * 8191 + 3) with false by (unfold pos in *; lia). subst.
      apply sh_first. rewrite zlen_cons. unfold pos in *; lia.
    + destruct (slice_len _ _ _ _ SL) as (SLl & SLr).
      rewrite A1, A2.
      assert (EB : (if pos h =? 4 * ocr x' + 3 then false else pos h <=? 4 * ocr x' + 3) = (pos h + 1 <=? 4 * ocr x' + 3))
        by (clear; destruct (pos h =? 4 * ocr x' + 3) eqn:Q1; lia).
      rewrite EB.
      refine (sh_slice ((x, pos h + 1 <=? 4 * ocr x' + 3) :: L) x' r (pos h + 1) _ _ _ _ S' RX' _ eq_refl eq_refl).
      cbn [app]. apply sl_S; [exact SL|lia].
Qed.

Record heat_ok (x : X) (h : t1) (u : Z) (l : list (X * bool)) : Prop := mkHeat {
  ho_R : R x;
  ho_all : Forall (fun s => R (fst s)) l;
  ho_pre : 0 <= w_pre h <= 3;
  ho_tcnt : 0 <= w_tcnt h <= 8191;
  ho_u : 0 <= u < 126;
  ho_shape : shape l (pos h) (w_cmp h) (w_pin h)
}.
Lemma heat_start x h u : R x -> t1_started h -> 0 <= u < 126 -> heat_ok x h u [].
Proof.
  intros RX (P & T & M) U. constructor; auto. rewrite M. apply sh_first. rewrite zlen_nil. unfold pos, PWMCURR_MAX_DUTY in *. lia.
Qed.
Lemma wired_ok x h u l : wired x h u l -> heat_ok x h u l.
Proof.
  induction 1 as [x h u I T U|x h u l e x' W IH N NT NP|x h u l e x' h' u' W IH N P T U|x h u l W IH U|x h u l x' W IH U N].
  - apply heat_start; auto.
  - destruct IH. constructor; auto. eapply R_nx; eassumption.
  - destruct IH. apply heat_start; auto. eapply R_nx; eassumption.
  - destruct IH as [RX RA P T U0 S]. unfold UNITS_PER_TICK in U. destruct (shape_next x h l RX P T S) as (P' & T' & S').
    constructor; auto. lia.
  - destruct IH as [RX RA P T U0 S]. destruct (shape_next x h l RX P T S) as (P' & T' & S').
    constructor; auto; [|lia]. eapply R_nx; eassumption.
Qed.

(** ** The pin *)
Lemma shape_settled l q a pin : shape l q a pin -> 32768 <= zlen l ->
  exists L x r b pb, l = L ++ (x, true) :: r /\ shape r 32767 b pb /\ R x /\ slice (ocr x) q (L ++ [(x, true)]) /\ a = ocr x /\ pin = (q <=? 4 * ocr x + 3).
Proof. intros S H. destruct S as [l q pin I|L x r q b pb a pin S RX SL A1 A2]; [lia|]. exists L, x, r, b, pb. auto 10. Qed.
Lemma slice_pre (L : list (X * bool)) x q a : slice a q (L ++ [(x, true)]) -> zlen L = q.
Proof. intros S. apply slice_len in S. rewrite zlen_app, zlen_cons, zlen_nil in S. lia. Qed.

Lemma heat_off x h u l : wired x h u l -> lately PERIOD (fun x => ocr x = 8191) l -> w_pin h = true.
Proof.
  intros W L. destruct (wired_ok _ _ _ _ W) as [RX RA P T U S]. destruct (shape_settled _ _ _ _ S (proj1 L)) as (l1 & y & r & b & pb & E & S1 & RY & SL & A & PI).
  pose proof (slice_pre _ _ _ _ SL) as Q. pose proof (slice_len _ _ _ _ SL) as (_ & QR). rewrite E in L.
  assert (O : ocr y = 8191) by (apply (lately_mid _ _ _ l1 (y, true) r L); unfold PERIOD; lia).
  rewrite PI, O. lia.
Qed.

(** Units with the pin low in the last period *)
Lemma shape_low l q a pin : shape l q a pin -> 65536 <= zlen l ->
  exists l1 x l2 y l3, l = l1 ++ (x, true) :: l2 ++ (y, true) :: l3 /\ zlen l1 = q /\ zlen l2 = 32767 /\ 0 <= q <= 32767 /\ R x /\ R y /\
    on_units 32768 l = Z.max 0 (q - 4 * ocr x - 3) + Z.min (32767 - q) (32764 - 4 * ocr y).
Proof.
  intros S H. destruct (shape_settled _ _ _ _ S) as (l1 & x & r & b & pb & E & S1 & RX & SL & A & PI); [lia|].
  pose proof (slice_pre _ _ _ _ SL) as Q. pose proof (slice_len _ _ _ _ SL) as (_ & QR).
  assert (LR : zlen l = q + 1 + zlen r) by (rewrite E, zlen_app, zlen_cons; lia).
  destruct (shape_settled _ _ _ _ S1) as (l2 & y & l3 & b2 & pb2 & E2 & S2 & RY & SL2 & A2 & PI2); [lia|].
  pose proof (slice_pre _ _ _ _ SL2) as Q2.
  exists l1, x, l2, y, l3. rewrite E, E2. split; [reflexivity|]. split; [exact Q|]. split; [exact Q2|]. split; [exact QR|]. split; [exact RX|]. split; [exact RY|].
  pose proof (R_ocr x RX) as OX. pose proof (R_ocr y RY) as OY.
  unfold on_units.
  replace (l1 ++ (x, true) :: l2 ++ (y, true) :: l3) with ((l1 ++ [(x, true)]) ++ (l2 ++ [(y, true)]) ++ l3) by (rewrite <- !app_assoc; reflexivity).
  rewrite ztake_app by (rewrite zlen_app, zlen_cons, zlen_nil; lia). rewrite low_app.
  rewrite (slice_low _ (ocr x) q) by (try exact SL; lia).
  rewrite ztake_app_l by (rewrite !zlen_app, !zlen_cons, !zlen_nil; lia).
  rewrite (slice_take _ (ocr y) 32767) by (try exact SL2; rewrite ?zlen_app, ?zlen_cons, ?zlen_nil; lia).
  rewrite zlen_app, zlen_cons, zlen_nil. lia.
Qed.
Lemma heat_power x h u l a : wired x h u l -> lately (2 * PERIOD) (fun x => a <= ocr x) l -> 0 <= a <= 8191 ->
  on_units PERIOD l <= 4 * (8191 - a).
Proof.
  intros W L A. destruct (wired_ok _ _ _ _ W) as [RX RA P T U S]. unfold PERIOD in *.
  destruct (shape_low _ _ _ _ S) as (l1 & y & l2 & z & l3 & E & Q1 & Q2 & QR & RY & RZ & O); [destruct L; lia|].
  rewrite O. rewrite E in L.
  assert (OY : a <= ocr y) by (apply (lately_mid _ _ _ l1 (y, true) _ L); lia).
  assert (OZ : a <= ocr z).
  { apply (lately_mid X (2 * 32768) (fun x => a <= ocr x) (l1 ++ (y, true) :: l2) (z, true) l3).
    - rewrite <- app_assoc. exact L. - rewrite zlen_app, zlen_cons. lia. }
  lia.
Qed.
Lemma heat_exact x h u l a : wired x h u l -> lately (2 * PERIOD) (fun x => ocr x = a) l -> on_units PERIOD l = 4 * (8191 - a).
Proof.
  intros W L. destruct (wired_ok _ _ _ _ W) as [RX RA P T U S]. unfold PERIOD in *.
  destruct (shape_low _ _ _ _ S) as (l1 & y & l2 & z & l3 & E & Q1 & Q2 & QR & RY & RZ & O); [destruct L; lia|].
  rewrite O. rewrite E in L. pose proof (R_ocr y RY) as OX.
  assert (OY : ocr y = a) by (apply (lately_mid _ _ _ l1 (y, true) _ L); lia).
  assert (OZ : ocr z = a).
  { apply (lately_mid X (2 * 32768) (fun x => ocr x = a) (l1 ++ (y, true) :: l2) (z, true) l3).
    - rewrite <- app_assoc. exact L. - rewrite zlen_app, zlen_cons. lia. }
  lia.
Qed.
Lemma heat_duty x h u l a b : wired x h u l -> 0 < b -> 0 <= a -> lately (2 * PERIOD) (fun x => b * (8191 - ocr x) <= a * 8191) l ->
  b * on_units PERIOD l <= a * PERIOD.
Proof.
  intros W B A L. destruct (wired_ok _ _ _ _ W) as [RX RA P T U S]. unfold PERIOD in *.
  destruct (shape_low _ _ _ _ S) as (l1 & y & l2 & z & l3 & E & Q1 & Q2 & QR & RY & RZ & O); [destruct L; lia|].
  rewrite O. rewrite E in L. pose proof (R_ocr y RY) as OY0. pose proof (R_ocr z RZ) as OZ0.
  assert (OY : b * (8191 - ocr y) <= a * 8191) by (apply (lately_mid _ _ _ l1 (y, true) _ L); lia).
  assert (OZ : b * (8191 - ocr z) <= a * 8191).
  { apply (lately_mid X (2 * 32768) (fun x => b * (8191 - ocr x) <= a * 8191) (l1 ++ (y, true) :: l2) (z, true) l3).
    - rewrite <- app_assoc. exact L. - rewrite zlen_app, zlen_cons. lia. }
  set (m := Z.max (8191 - ocr y) (8191 - ocr z)).
  assert (M1 : b * m <= a * 8191) by (unfold m; destruct (Z.max_spec (8191 - ocr y) (8191 - ocr z)) as [(_ & ->)|(_ & ->)]; assumption).
  assert (M2 : Z.max 0 (pos h - 4 * ocr y - 3) + Z.min (32767 - pos h) (32764 - 4 * ocr z) <= 4 * m) by (unfold m; lia).
  nia.
Qed.
End Wired.
