(** * Basic lemmas and tactics *)
From Coq Require Import ZArith List Bool Lia ZifyBool.
From Verif Require Import Base.
Import ListNotations.
Open Scope Z_scope.
Ltac Zify.zify_post_hook ::= Z.div_mod_to_equations.

Lemma chk32_some x : -2147483648 <= x <= 2147483647 -> chk32 x = Some x.
Proof. intros. unfold chk32. destruct (_ && _) eqn:E; [easy|lia]. Qed.
Lemma chk32_inv x y : chk32 x = Some y -> y = x /\ -2147483648 <= x <= 2147483647.
Proof. unfold chk32. destruct (_ && _) eqn:E; [|easy]. intros H. inversion H. lia. Qed.
Lemma chk16_some x : -32768 <= x <= 32767 -> chk16 x = Some x.
Proof. intros. unfold chk16. destruct (_ && _) eqn:E; [easy|lia]. Qed.
Lemma chk16_inv x y : chk16 x = Some y -> y = x /\ -32768 <= x <= 32767.
Proof. unfold chk16. destruct (_ && _) eqn:E; [|easy]. intros H. inversion H. lia. Qed.

Lemma bind_some {A B} (a : A) (f : A -> option B) : bind (Some a) f = f a.
Proof. reflexivity. Qed.
Lemma bind_inv {A B} (m : option A) (f : A -> option B) b :
  bind m f = Some b -> exists a, m = Some a /\ f a = Some b.
Proof. destruct m; cbn; [eauto|easy]. Qed.

Lemma u8_id x : 0 <= x <= 255 -> u8 x = x.
Proof. unfold u8. lia. Qed.
Lemma u16_id x : 0 <= x <= 65535 -> u16 x = x.
Proof. unfold u16. lia. Qed.
Lemma u24_id x : 0 <= x <= 16777215 -> u24 x = x.
Proof. unfold u24. lia. Qed.
Lemma u32_id x : 0 <= x <= 4294967295 -> u32 x = x.
Proof. unfold u32. lia. Qed.
Lemma s16_id x : -32768 <= x <= 32767 -> s16 x = x.
Proof. unfold s16. lia. Qed.
Lemma s24_id x : -8388608 <= x <= 8388607 -> s24 x = x.
Proof. unfold s24. lia. Qed.
Lemma u8_range x : 0 <= u8 x <= 255.
Proof. unfold u8. lia. Qed.
Lemma u16_range x : 0 <= u16 x <= 65535.
Proof. unfold u16. lia. Qed.
Lemma s16_range x : -32768 <= s16 x <= 32767.
Proof. unfold s16. lia. Qed.
Lemma s24_range x : -8388608 <= s24 x <= 8388607.
Proof. unfold s24. lia. Qed.

Lemma Some_inj {A} (a b : A) : Some a = Some b -> a = b.
Proof. congruence. Qed.

(** Invert binds in hypotheses. *)
Ltac binv :=
  repeat match goal with
  | H : bind _ _ = Some _ |- _ => apply bind_inv in H; destruct H as (? & ? & H)
  | H : Some _ = Some _ |- _ => apply Some_inj in H; try subst
  | H : None = Some _ |- _ => discriminate H
  | H : chk32 _ = Some _ |- _ => apply chk32_inv in H; let E := fresh in destruct H as [E ?]; try (rewrite E in *; clear E)
  | H : chk16 _ = Some _ |- _ => apply chk16_inv in H; let E := fresh in destruct H as [E ?]; try (rewrite E in *; clear E)
  end.

Lemma shiftr6 x : Z.shiftr x 6 = x / 64.
Proof. rewrite Z.shiftr_div_pow2 by lia. reflexivity. Qed.
Lemma shiftr1 x : Z.shiftr x 1 = x / 2.
Proof. rewrite Z.shiftr_div_pow2 by lia. reflexivity. Qed.

Lemma quot_nonneg a b : 0 <= a -> 0 < b -> Z.quot a b = a / b.
Proof. intros. apply Z.quot_div_nonneg; lia. Qed.

(** zget / zupd *)
Lemma zget_some {A} (l : list A) i :
  0 <= i < Z.of_nat (length l) -> exists a, zget l i = Some a.
Proof.
  intros. unfold zget. destruct (i <? 0) eqn:E; [lia|].
  destruct (nth_error l (Z.to_nat i)) eqn:N; [eauto|].
  apply nth_error_None in N. lia.
Qed.
Lemma zget_inv {A} (l : list A) i a :
  zget l i = Some a -> 0 <= i < Z.of_nat (length l).
Proof.
  unfold zget. destruct (i <? 0) eqn:E; [easy|]. intros H.
  assert (Z.to_nat i < length l)%nat by (apply nth_error_Some; congruence). lia.
Qed.
Lemma zget_in {A} (l : list A) i a : zget l i = Some a -> In a l.
Proof.
  unfold zget. destruct (i <? 0); [easy|]. apply nth_error_In.
Qed.
Lemma upd_nat_some {A} (l : list A) i v :
  (i < length l)%nat -> exists l', upd_nat l i v = Some l'.
Proof.
  revert i. induction l; cbn; intros; [lia|]. destruct i; [eauto|].
  destruct (IHl i) as [l' ->]; [lia|eauto].
Qed.
Lemma upd_nat_len {A} (l : list A) i v l' :
  upd_nat l i v = Some l' -> length l' = length l /\ (i < length l)%nat.
Proof.
  revert i l'. induction l; cbn; intros i l' H; [discriminate H|].
  destruct i.
  - inversion H; cbn; lia.
  - destruct (upd_nat l i v) eqn:E; [|easy]. inversion H; subst. cbn.
    apply IHl in E. lia.
Qed.
Lemma upd_nat_nth {A} (l : list A) i v l' j :
  upd_nat l i v = Some l' ->
  nth_error l' j = if Nat.eqb j i then Some v else nth_error l j.
Proof.
  revert i l' j. induction l; cbn; intros i l' j H; [discriminate H|].
  destruct i.
  - inversion H; subst. destruct j; reflexivity.
  - destruct (upd_nat l i v) eqn:E; [|easy]. inversion H; subst.
    destruct j; cbn; [reflexivity|]. now apply IHl.
Qed.
Lemma zupd_some {A} (l : list A) i v :
  0 <= i < Z.of_nat (length l) -> exists l', zupd l i v = Some l'.
Proof.
  intros. unfold zupd. destruct (i <? 0) eqn:E; [lia|]. apply upd_nat_some. lia.
Qed.
Lemma zupd_len {A} (l : list A) i v l' : zupd l i v = Some l' -> length l' = length l.
Proof. unfold zupd. destruct (i <? 0); [easy|]. intros H. now apply upd_nat_len in H. Qed.
Lemma zupd_inv {A} (l : list A) i v l' :
  zupd l i v = Some l' -> 0 <= i < Z.of_nat (length l).
Proof.
  unfold zupd. destruct (i <? 0) eqn:E; [easy|]. intros H. apply upd_nat_len in H. lia.
Qed.
Lemma zget_zupd {A} (l : list A) i v l' j :
  zupd l i v = Some l' -> zget l' j = if j =? i then Some v else zget l j.
Proof.
  unfold zupd, zget. destruct (i <? 0) eqn:E; [easy|]. intros H.
  destruct (j <? 0) eqn:F.
  - destruct (j =? i) eqn:G; [lia|reflexivity].
  - rewrite (upd_nat_nth _ _ _ _ (Z.to_nat j) H).
    destruct (j =? i) eqn:G; destruct (Nat.eqb_spec (Z.to_nat j) (Z.to_nat i)); try reflexivity; lia.
Qed.
Lemma zupd_in {A} (l : list A) i v l' x :
  zupd l i v = Some l' -> In x l' -> x = v \/ In x l.
Proof.
  intros H I. apply In_nth_error in I. destruct I as [n I].
  assert (J : zget l' (Z.of_nat n) = Some x).
  { unfold zget. destruct (Z.of_nat n <? 0) eqn:E; [lia|]. now rewrite Nat2Z.id. }
  rewrite (zget_zupd _ _ _ _ _ H) in J. destruct (Z.of_nat n =? i).
  - left. congruence.
  - right. eapply zget_in; eauto.
Qed.
