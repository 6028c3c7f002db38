(** * Properties of the telemetry (C57, C58) and of the 24-bit classes of the unit tests (C59) *)
From Coq Require Import ZArith List Bool.
From Verif Require Import Base MInt24 MDebug SpecHost PHost PDebug.
Import ListNotations.
Open Scope Z_scope.

(** C57: printing never leaves a buffer. *)
Theorem C57_defined : forall l, Forall msg_ok l -> exists b, stream l = Some b.
Proof. exact stream_defined. Qed.
Print Assumptions C57_defined.
(** The table of the receiver is the one of the messages. *)
Theorem C57_decodes : forall l b, Forall msg_ok l -> stream l = Some b ->
  (forall i, r_val (receive b) i = (latest (fw_name i) l 0, item_unit i)) /\ table l (r_rows (receive b)).
Proof. exact decodes. Qed.
Print Assumptions C57_decodes.
(** Whatever was received before the greeting is forgotten. *)
Theorem C57_resync : forall g l b, Forall msg_ok l -> stream (Hello :: l) = Some b ->
  (forall i, r_val (receive (g ++ b)) i = (latest (fw_name i) l 0, item_unit i)) /\ table l (r_rows (receive (g ++ b))).
Proof. exact resync_table. Qed.
Print Assumptions C57_resync.
(** fc = 5 at 65546 ms, cy = -320 at 171 ms; three bytes of noise before. *)
Example C57_ex : stream [Hello; Value 65546 (fw_name Fc) 5; Value 171 (fw_name Cy) (-320)] =
  Some [13; 10; 115; 116; 13; 10;  97; 58; 32; 102; 99; 32; 53; 13; 10;  97; 98; 58; 32; 99; 121; 32; 45; 51; 50; 48; 13; 10] /\
  map (fun r => (fst r, snd r Fc, snd r Cy)) (r_rows (receive
    [58; 33; 255; 13; 10; 115; 116; 13; 10;  97; 58; 32; 102; 99; 32; 53; 13; 10;  97; 98; 58; 32; 99; 121; 32; 45; 51; 50; 48; 13; 10]))
  = [(171, (5, 1), (-320, 640)); (10, (5, 1), (0, 640))].
Proof. split; vm_compute; reflexivity. Qed.
(** Lines with two names (the terms of the PID controllers) are not decoded. *)
Theorem C57_two_names_ignored : forall now n n' v b, name_ok n -> name_ok n' -> is_s32 v -> print_int true now (Some n) (Some n') v = Some b ->
  forall l b0, Forall msg_ok l -> stream l = Some b0 -> receive (b0 ++ b) = receive b0.
Proof. exact two_names. Qed.
Print Assumptions C57_two_names_ignored.
Theorem C57_two_names_refuted : exists now n n' v b, name_ok n /\ name_ok n' /\ is_s32 v /\
  print_int true now (Some n) (Some n') v = Some b /\ receive b = rx_reset.
Proof. exact two_names_lost. Qed.
Print Assumptions C57_two_names_refuted.

(** C58: a line is sent exactly for the calls that change the value. *)
Theorem C58_lines : forall l old, Forall call_ok l -> exists old' b, reports true old l = Some (old', b) /\ stream (map value_of (changes old l)) = Some b.
Proof. exact reports_lines. Qed.
Print Assumptions C58_lines.
Example C58_ex : changes (fun _ => 0) [(1, Cy, 0); (2, Cy, 5); (3, Mc, 5); (4, Cy, 5); (5, Cy, 7)] = [(2, Cy, 5); (3, Mc, 5); (5, Cy, 7)].
Proof. reflexivity. Qed.
(** Switched on at power-up: the receiver shows the last value given for each item. *)
Theorem C58_receiver_knows : forall g l old' b, Forall call_ok l -> reports true (fun _ => 0) l = Some (old', b) -> forall i,
  r_val (receive (g ++ greeting ++ b)) i = (given i l 0, item_unit i).
Proof. exact receiver_ok. Qed.
Print Assumptions C58_receiver_knows.
(** Switched on later: from the first change on. *)
Theorem C58_after_change : forall g old l old' b, Forall call_ok l -> reports true old l = Some (old', b) -> forall i,
  (exists now v, In (now, i, v) l /\ v <> old i) -> r_val (receive (g ++ greeting ++ b)) i = (given i l 0, item_unit i).
Proof. exact receiver_late. Qed.
Print Assumptions C58_after_change.
(** Before that the receiver shows 0, although the value is another one. *)
Theorem C58_before_change : forall g old l old' b, Forall call_ok l -> reports true old l = Some (old', b) -> forall i,
  (forall now v, In (now, i, v) l -> v = old i) -> r_val (receive (g ++ greeting ++ b)) i = (0, item_unit i).
Proof. exact receiver_stale. Qed.
Print Assumptions C58_before_change.
Theorem C58_enabled_later_refuted : exists l1 l2 old1 old2 b i, Forall call_ok (l1 ++ l2) /\ reports false (fun _ => 0) l1 = Some (old1, []) /\
  reports true old1 l2 = Some (old2, b) /\ r_val (receive (greeting ++ b)) i <> (given i (l1 ++ l2) 0, item_unit i).
Proof. exact late_unknown. Qed.
Print Assumptions C58_enabled_later_refuted.

(** C59 *)
Theorem C59_signed : forall a b, is_s24 a -> is_s24 b ->
  (exists v, I_add a b = Some v /\ stored24 (a + b) v) /\
  (exists v, I_sub a b = Some v /\ stored24 (a - b) v) /\
  (exists v, I_iadd a b = Some v /\ stored24 (a + b) v) /\
  (exists v, I_isub a b = Some v /\ stored24 (a - b) v) /\
  (exists v, I_inc a = Some v /\ stored24 (a + 1) v) /\
  (exists v, I_dec a = Some v /\ stored24 (a - 1) v) /\
  (is_s32 (a * b) -> exists v, I_mul a b = Some v /\ stored24 (a * b) v) /\
  (b <> 0 -> exists q v, truncated a b q /\ I_div a b = Some v /\ stored24 q v) /\
  stored24 (Z.land a b) (I_and a b) /\ stored24 (Z.lor a b) (I_or a b) /\ stored24 (Z.lxor a b) (I_xor a b).
Proof. exact signed_ops. Qed.
Print Assumptions C59_signed.
Example C59_ex : I_add 8388607 1 = Some (-8388608) /\ I_mul (-3) 8388607 = Some (-8388605) /\ I_div (-8388608) (-1) = Some (-8388608) /\ U_mul 16777215 16777215 = 1.
Proof. repeat split. Qed.
(** The product of two objects must fit the [int] of the host. *)
Theorem C59_signed_mul_limit : forall a b, is_s24 a -> is_s24 b -> ~ is_s32 (a * b) -> I_mul a b = None.
Proof. exact signed_mul_host. Qed.
Print Assumptions C59_signed_mul_limit.
Theorem C59_unsigned : forall a b, is_u24 a -> is_u24 b ->
  ustored24 (a + b) (U_add a b) /\ ustored24 (a - b) (U_sub a b) /\ ustored24 (a * b) (U_mul a b) /\
  ustored24 (a + b) (U_iadd a b) /\ ustored24 (a - b) (U_isub a b) /\ ustored24 (a + 1) (U_inc a) /\ ustored24 (a - 1) (U_dec a) /\
  (b <> 0 -> exists q, truncated a b q /\ U_div a b = Some q) /\
  ustored24 (Z.land a b) (U_and a b) /\ ustored24 (Z.lor a b) (U_or a b) /\ ustored24 (Z.lxor a b) (U_xor a b).
Proof. exact unsigned_ops. Qed.
Print Assumptions C59_unsigned.
(** Comparisons and the conversion back are those of the integers. *)
Theorem C59_compare : forall a b,
  (I_lt a b = true <-> a < b) /\ (I_eq a b = true <-> a = b) /\ (I_ne a b = true <-> a <> b) /\ (I_gt a b = true <-> a > b) /\ I_to_int a = a /\
  (U_lt a b = true <-> a < b) /\ (U_eq a b = true <-> a = b) /\ (U_ne a b = true <-> a <> b) /\ (U_gt a b = true <-> a > b) /\ U_to_uint a = a.
Proof. exact compare_ops. Qed.
Print Assumptions C59_compare.
Theorem C59_conversion : forall x,
  stored24 x (I_make x) /\ ustored24 x (U_make x) /\ (is_s24 x -> I_make x = x) /\ (is_u24 x -> U_make x = x).
Proof. exact convert_ops. Qed.
Print Assumptions C59_conversion.
(** An operand of another integer type is stored into 24 bits first. *)
Theorem C59_mixed : forall a x b, stored24 x b ->
  I_add_auto a x = I_add a b /\ I_sub_auto a x = I_sub a b /\ I_mul_auto a x = I_mul a b /\ I_div_auto a x = I_div a b /\
  I_iadd_auto a x = I_iadd a b /\ I_isub_auto a x = I_isub a b /\ I_and_auto a x = I_and a b /\ I_or_auto a x = I_or a b /\ I_xor_auto a x = I_xor a b /\
  I_lt_auto a x = (a <? b) /\ I_eq_auto a x = (a =? b) /\ I_ne_auto a x = negb (a =? b) /\ I_gt_auto a x = (b <? a).
Proof. exact mixed_ops. Qed.
Print Assumptions C59_mixed.
Theorem C59_mixed_unsigned : forall a x b, ustored24 x b ->
  U_add_auto a x = U_add a b /\ U_sub_auto a x = U_sub a b /\ U_mul_auto a x = U_mul a b /\ U_div_auto a x = U_div a b /\
  U_iadd_auto a x = U_iadd a b /\ U_isub_auto a x = U_isub a b /\ U_and_auto a x = U_and a b /\ U_or_auto a x = U_or a b /\ U_xor_auto a x = U_xor a b /\
  U_lt_auto a x = (a <? b) /\ U_eq_auto a x = (a =? b) /\ U_ne_auto a x = negb (a =? b) /\ U_gt_auto a x = (b <? a).
Proof. exact umixed_ops. Qed.
Print Assumptions C59_mixed_unsigned.
(** So a comparison with a wider operand can differ from the one on the target, where the 24-bit operand is widened. *)
Theorem C59_mixed_compare_refuted : exists a b, is_s24 a /\ is_s32 b /\ I_lt_auto a b <> (a <? b).
Proof. exact mixed_compare. Qed.
Print Assumptions C59_mixed_compare_refuted.
