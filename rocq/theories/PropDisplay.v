(** * Properties of the display texts (C44, C45) *)
From Coq Require Import ZArith List Bool Lia.
From Verif Require Import Base MSseg MDisplay MText MMenu SpecNum SpecDisplay PDisplay.
Import ListNotations.
Open Scope Z_scope.

(** C44: temperatures.  [disp_buf] is the fresh six byte buffer of menu_update_display.  The text is the
    value rounded to the nearest degree, limited to -99..999, right-aligned in three characters,
    followed by the symbol and the terminating NUL; nothing is written behind the buffer. *)
Theorem C44_temperature_text : forall temp symbol,
  -2097120 < temp < 2097120 -> (length symbol <= 2)%nat ->
  exists n l rest, nearest_away temp 64 n /\ right_aligned 3 (limit (-99) 999 n) l /\
    menu_put_temp disp_buf temp symbol = Some (map Some (l ++ symbol ++ [0]) ++ rest) /\
    length (map Some (l ++ symbol ++ [0]) ++ rest) = 6%nat.
Proof. exact put_temp_ok. Qed.
Print Assumptions C44_temperature_text.

Example C44_temperature_ex :
  menu_put_temp disp_buf 22431 [67; 46] = Some (map Some [51; 53; 48; 67; 46; 0]) /\
  menu_put_temp disp_buf (-416) [67; 46] = Some (map Some [32; 45; 55; 67; 46; 0]).
Proof. split; vm_compute; reflexivity. Qed.

(** C44: gains shown with two or three fractional digits. *)
Theorem C44_gain_text_2 : forall v, 0 <= v <= 8388607 ->
  exists i f l1 l2, i = Z.min 99 (v / 64) /\ 2 * Z.abs (64 * f - 100 * (v mod 64)) <= 64 /\
    right_aligned 2 i l1 /\ zero_filled 2 f l2 /\
    menu_put_fixpt disp_buf v 2 = Some (map Some (l1 ++ [46] ++ l2 ++ [0])).
Proof. exact put_fixpt2_ok. Qed.
Print Assumptions C44_gain_text_2.

Theorem C44_gain_text_3 : forall v, 0 <= v <= 8388607 ->
  exists i f l1 l2, i = Z.min 9 (v / 64) /\ 2 * Z.abs (64 * f - 1000 * (v mod 64)) <= 64 /\
    right_aligned 1 i l1 /\ zero_filled 3 f l2 /\
    menu_put_fixpt disp_buf v 3 = Some (map Some (l1 ++ [46] ++ l2 ++ [0])).
Proof. exact put_fixpt3_ok. Qed.
Print Assumptions C44_gain_text_3.

Example C44_gain_ex :
  menu_put_fixpt disp_buf 96 2 = Some (map Some [32; 49; 46; 53; 48; 0]) /\
  menu_put_fixpt disp_buf 19 3 = Some (map Some [48; 46; 50; 57; 55; 0]).
Proof. split; vm_compute; reflexivity. Qed.

(** C44 beyond 32767 degrees: the cast to int16_t in menu.c:130 wraps, the display shows -99
    for 32768 degrees.  No reachable state displays such a value (see C36 and C34). *)
Theorem C44_wraps_beyond_int16_refuted :
  exists temp, is_s24 temp /\ 64 * 999 < temp /\
    menu_put_temp disp_buf temp [67; 46] = Some (map Some [45; 57; 57; 67; 46; 0]).
Proof. exact put_temp_wraps. Qed.
Print Assumptions C44_wraps_beyond_int16_refuted.

(** C45: for every string of 7-bit characters and every forced-point setting the segment register
    of each digit holds the picture of its character. *)
Theorem C45_show : forall d s rest, wired d -> Forall (fun c => 1 <= c <= 127) s ->
  exists d', display_show d (map Some (s ++ [0]) ++ rest) = Some d' /\
    d_enabled d' = d_enabled d /\ d_mux d' = d_mux d /\ d_timer d' = d_timer d /\
    length (d_digits d') = length (d_digits d) /\
    forall i g, nth_error (d_digits d) i = Some g -> exists v,
      nth_error (d_digits d') i = Some (set_g_sseg g (set_dd_set (g_sseg g) v)) /\
      let '(c, dot) := glyph_at s i (g_dpforce g) (g_dpon g) in
      holds (Z.of_nat i) v c dot.
Proof. exact display_show_ok. Qed.
Print Assumptions C45_show.

(** A concrete wired display showing "350C." with the heating dot forced on the third digit. *)
Example C45_show_ex : exists d h h',
  display_init 0 hw_reset disp_zero = Some (h, d) /\ wired d /\
  display_show d (map Some ([51; 53; 48; 67; 46] ++ [0])) = Some h' /\
  glyph_at [51; 53; 48; 67; 46] 3 false false = (67, true).
Proof.
  eexists. eexists. eexists. split; [vm_compute; reflexivity|].
  split; [vm_compute; reflexivity|]. split; vm_compute; reflexivity.
Qed.

(** C45: distinct decimal digits light distinct sets of segments. *)
Theorem C45_digits_distinct : forall a b, is_digit a -> is_digit b ->
  (forall s, lit a false s = lit b false s) -> a = b.
Proof. exact digits_distinct. Qed.
Print Assumptions C45_digits_distinct.

Example C45_digits_ex : is_digit 54 /\ is_digit 56 /\ lit 54 false SB <> lit 56 false SB.
Proof. repeat split; discriminate. Qed.
