(** * The unit tests of the project, checked on the model

    Written by tools/mkunittests.py from firmware/tests/test_*.c: (line number, result).  These are tests of
    the model against the expectations of the authors of the code, not proofs about it.
    Omitted: comparisons of float values (test_fixpt.c), the registers of timer_init (test_timer.c).
    [flt n d] is float_to_fixpt(n/d) (fixpt.h:71-76): rounded to nearest, halves away from zero. *)
From Coq Require Import ZArith List Bool.
From Verif Require Import Base MUtil MFixpt MScale MPid MTimer.
Import ListNotations.
Open Scope Z_scope.

Definition flt (n d : Z) : Z := if n <? 0 then - ((128 * - n + d) / (2 * d)) else (128 * n + d) / (2 * d).
Definition ap1 (f : Z -> option Z) (a : option Z) : option Z := x <- a ;; f x.
Definition ap2 (f : Z -> Z -> option Z) (a b : option Z) : option Z := x <- a ;; ap1 (f x) b.
Definition ap3 (f : Z -> Z -> Z -> option Z) (a b c : option Z) : option Z := x <- a ;; ap2 (f x) b c.
Definition ap4 (f : Z -> Z -> Z -> Z -> option Z) (a b c d : option Z) : option Z := x <- a ;; ap3 (f x) b c d.
Definition ap5 (f : Z -> Z -> Z -> Z -> Z -> option Z) (a b c d e : option Z) : option Z := x <- a ;; ap4 (f x) b c d e.
Definition cmp (f : Z -> Z -> bool) (a b : option Z) : bool := match a, b with Some x, Some y => f x y | _, _ => false end.
Definition eqo := cmp Z.eqb.
Definition geo := cmp Z.geb.
Definition leo := cmp Z.leb.
(** A controller is initialised and run; every result must be the expected one. *)
Fixpoint pid_runs (p : pid) (l : list (Z * Z * Z)) : bool :=
  match l with
  | [] => true
  | (dt, r, y) :: l => match pid_run p dt r with Some (p, y') => (y' =? y) && pid_runs p l | None => false end
  end.
Definition pid_test (k : pid_k) (il ih yl yh w : Z) (l : list (Z * Z * Z)) : bool :=
  pid_runs (pid_set_setpoint (pid_init pid_zero k il ih yl yh) w) l.

(** firmware/tests/test_common.c *)
Definition test_common : list (Z * bool) := [
  (15, eqo (ap2 sdiv_round_up (Some 10) (Some 1)) (Some 10));
  (17, eqo (ap2 sdiv_round_up (Some 10) (Some 5)) (Some 2));
  (19, eqo (ap2 sdiv_round_up (Some 10) (Some 6)) (Some 2));
  (21, eqo (ap2 sdiv_round_up (Some 10) (Some 9)) (Some 2));
  (23, eqo (ap2 sdiv_round_up (Some 10) (Some 10)) (Some 1));
  (25, eqo (ap2 sdiv_round_up (Some (-10)) (Some 1)) (Some (-10)));
  (27, eqo (ap2 sdiv_round_up (Some (-10)) (Some 5)) (Some (-2)));
  (29, eqo (ap2 sdiv_round_up (Some (-10)) (Some 6)) (Some (-1)));
  (31, eqo (ap2 sdiv_round_up (Some (-10)) (Some 9)) (Some (-1)));
  (33, eqo (ap2 sdiv_round_up (Some (-10)) (Some 10)) (Some (-1)));
  (35, eqo (ap2 sdiv_round_up (Some 10) (Some (-1))) (Some (-10)));
  (37, eqo (ap2 sdiv_round_up (Some 10) (Some (-5))) (Some (-2)));
  (39, eqo (ap2 sdiv_round_up (Some 10) (Some (-6))) (Some (-1)));
  (41, eqo (ap2 sdiv_round_up (Some 10) (Some (-9))) (Some (-1)));
  (43, eqo (ap2 sdiv_round_up (Some 10) (Some (-10))) (Some (-1)));
  (45, eqo (ap2 sdiv_round_up (Some (-10)) (Some (-1))) (Some 10));
  (47, eqo (ap2 sdiv_round_up (Some (-10)) (Some (-5))) (Some 2));
  (49, eqo (ap2 sdiv_round_up (Some (-10)) (Some (-6))) (Some 2));
  (51, eqo (ap2 sdiv_round_up (Some (-10)) (Some (-9))) (Some 2));
  (53, eqo (ap2 sdiv_round_up (Some (-10)) (Some (-10))) (Some 1));
  (59, eqo (ap2 udiv_round_up (Some 10) (Some 1)) (Some 10));
  (61, eqo (ap2 udiv_round_up (Some 10) (Some 5)) (Some 2));
  (63, eqo (ap2 udiv_round_up (Some 10) (Some 6)) (Some 2));
  (65, eqo (ap2 udiv_round_up (Some 10) (Some 9)) (Some 2));
  (67, eqo (ap2 udiv_round_up (Some 10) (Some 10)) (Some 1));
  (73, eqo (ap2 sdiv_round (Some 10) (Some 1)) (Some 10));
  (75, eqo (ap2 sdiv_round (Some 10) (Some 5)) (Some 2));
  (77, eqo (ap2 sdiv_round (Some 10) (Some 6)) (Some 2));
  (79, eqo (ap2 sdiv_round (Some 10) (Some 9)) (Some 1));
  (81, eqo (ap2 sdiv_round (Some 10) (Some 10)) (Some 1));
  (83, eqo (ap2 sdiv_round (Some 15) (Some 6)) (Some 3));
  (85, eqo (ap2 sdiv_round (Some (-10)) (Some 1)) (Some (-10)));
  (87, eqo (ap2 sdiv_round (Some (-10)) (Some 5)) (Some (-2)));
  (89, eqo (ap2 sdiv_round (Some (-10)) (Some 6)) (Some (-2)));
  (91, eqo (ap2 sdiv_round (Some (-10)) (Some 9)) (Some (-1)));
  (93, eqo (ap2 sdiv_round (Some (-10)) (Some 10)) (Some (-1)));
  (95, eqo (ap2 sdiv_round (Some (-15)) (Some 6)) (Some (-3)));
  (97, eqo (ap2 sdiv_round (Some 10) (Some (-1))) (Some (-10)));
  (99, eqo (ap2 sdiv_round (Some 10) (Some (-5))) (Some (-2)));
  (101, eqo (ap2 sdiv_round (Some 10) (Some (-6))) (Some (-2)));
  (103, eqo (ap2 sdiv_round (Some 10) (Some (-9))) (Some (-1)));
  (105, eqo (ap2 sdiv_round (Some 10) (Some (-10))) (Some (-1)));
  (107, eqo (ap2 sdiv_round (Some 15) (Some (-6))) (Some (-3)));
  (109, eqo (ap2 sdiv_round (Some (-10)) (Some (-1))) (Some 10));
  (111, eqo (ap2 sdiv_round (Some (-10)) (Some (-5))) (Some 2));
  (113, eqo (ap2 sdiv_round (Some (-10)) (Some (-6))) (Some 2));
  (115, eqo (ap2 sdiv_round (Some (-10)) (Some (-9))) (Some 1));
  (117, eqo (ap2 sdiv_round (Some (-10)) (Some (-10))) (Some 1));
  (119, eqo (ap2 sdiv_round (Some (-15)) (Some (-6))) (Some 3));
  (125, eqo (ap2 udiv_round (Some 10) (Some 1)) (Some 10));
  (127, eqo (ap2 udiv_round (Some 10) (Some 5)) (Some 2));
  (129, eqo (ap2 udiv_round (Some 10) (Some 6)) (Some 2));
  (131, eqo (ap2 udiv_round (Some 10) (Some 9)) (Some 1));
  (133, eqo (ap2 udiv_round (Some 10) (Some 10)) (Some 1));
  (135, eqo (ap2 udiv_round (Some 15) (Some 6)) (Some 3));
  (140, eqo (ap2 pow_int (Some 0) (Some 1)) (Some 0));
  (141, eqo (ap2 pow_int (Some 10) (Some 0)) (Some 1));
  (142, eqo (ap2 pow_int (Some 10) (Some 1)) (Some 10));
  (143, eqo (ap2 pow_int (Some 10) (Some 2)) (Some 100));
  (144, eqo (ap2 pow_int (Some 10) (Some 3)) (Some 1000));
  (145, eqo (ap2 pow_int (Some 10) (Some 4)) (Some 10000));
  (146, eqo (ap2 pow_int (Some 10) (Some 5)) (Some 100000));
  (147, eqo (ap2 pow_int (Some (-10)) (Some 0)) (Some 1));
  (148, eqo (ap2 pow_int (Some (-10)) (Some 1)) (Some (-10)));
  (149, eqo (ap2 pow_int (Some (-10)) (Some 2)) (Some 100));
  (150, eqo (ap2 pow_int (Some (-10)) (Some 3)) (Some (-1000)));
  (151, eqo (ap2 pow_int (Some (-10)) (Some 4)) (Some 10000));
  (152, eqo (ap2 pow_int (Some (-10)) (Some 5)) (Some (-100000)));
  (153, eqo (ap2 pow_int (Some 3) (Some 0)) (Some 1));
  (154, eqo (ap2 pow_int (Some 3) (Some 1)) (Some 3));
  (155, eqo (ap2 pow_int (Some 3) (Some 2)) (Some 9));
  (156, eqo (ap2 pow_int (Some 3) (Some 3)) (Some 27));
  (157, eqo (ap2 pow_int (Some 3) (Some 4)) (Some 81));
  (158, eqo (ap2 pow_int (Some 3) (Some 5)) (Some 243));
  (159, eqo (ap2 pow_int (Some (-3)) (Some 0)) (Some 1));
  (160, eqo (ap2 pow_int (Some (-3)) (Some 1)) (Some (-3)));
  (161, eqo (ap2 pow_int (Some (-3)) (Some 2)) (Some 9));
  (162, eqo (ap2 pow_int (Some (-3)) (Some 3)) (Some (-27)));
  (163, eqo (ap2 pow_int (Some (-3)) (Some 4)) (Some 81));
  (164, eqo (ap2 pow_int (Some (-3)) (Some 5)) (Some (-243)))].

(** firmware/tests/test_fixpt.c *)
Definition test_fixpt : list (Z * bool) := [
  (12, eqo (Some (flt (1) 1)) (ap1 int_to_fixpt (Some 1)));
  (13, eqo (Some (flt (5) 1)) (ap1 int_to_fixpt (Some 5)));
  (14, eqo (Some (flt (10) 1)) (ap1 int_to_fixpt (Some 10)));
  (15, eqo (Some (flt (1023) 1)) (ap1 int_to_fixpt (Some 1023)));
  (16, eqo (Some (flt (-1) 1)) (ap1 int_to_fixpt (Some (-1))));
  (17, eqo (Some (flt (-99) 1)) (ap1 int_to_fixpt (Some (-99))));
  (18, eqo (Some (flt (-1023) 1)) (ap1 int_to_fixpt (Some (-1023))));
  (19, eqo (ap1 fixpt_to_int (ap1 int_to_fixpt (Some 6))) (Some 6));
  (27, eqo (ap1 fixpt_to_int (Some (flt (27) 5))) (Some 5));
  (28, eqo (ap1 fixpt_to_int (Some (flt (11) 2))) (Some 6));
  (29, eqo (ap1 fixpt_to_int (Some (flt (28) 5))) (Some 6));
  (30, eqo (ap1 fixpt_to_int (Some (flt (-27) 5))) (Some (-5)));
  (31, eqo (ap1 fixpt_to_int (Some (flt (-11) 2))) (Some (-6)));
  (32, eqo (ap1 fixpt_to_int (Some (flt (-28) 5))) (Some (-6)));
  (33, eqo (ap1 fixpt_to_int (Some (flt (2) 5))) (Some 0));
  (34, eqo (ap1 fixpt_to_int (Some (flt (1) 2))) (Some 1));
  (35, eqo (ap1 fixpt_to_int (Some (flt (3) 5))) (Some 1));
  (36, eqo (ap1 fixpt_to_int (Some (flt (-2) 5))) (Some 0));
  (37, eqo (ap1 fixpt_to_int (Some (flt (-1) 2))) (Some (-1)));
  (38, eqo (ap1 fixpt_to_int (Some (flt (-3) 5))) (Some (-1)));
  (42, eqo (ap1 fixpt_get_int_part (Some (flt (0) 1))) (Some 0));
  (43, eqo (ap1 fixpt_get_int_part (Some (flt (1) 1))) (Some 1));
  (44, eqo (ap1 fixpt_get_int_part (Some (flt (3) 2))) (Some 1));
  (45, eqo (ap1 fixpt_get_int_part (Some (flt (5) 2))) (Some 2));
  (46, eqo (ap1 fixpt_get_int_part (Some (flt (-1) 1))) (Some (-1)));
  (47, eqo (ap1 fixpt_get_int_part (Some (flt (-3) 2))) (Some (-1)));
  (48, eqo (ap1 fixpt_get_int_part (Some (flt (-5) 2))) (Some (-2)));
  (50, eqo (ap2 fixpt_get_dec_fract (Some (flt (5) 4)) (Some 2)) (Some 25));
  (51, eqo (ap2 fixpt_get_dec_fract (Some (flt (-5) 4)) (Some 2)) (Some 25));
  (52, eqo (ap2 fixpt_get_dec_fract (Some (flt (5) 4)) (Some 1)) (Some 3));
  (53, eqo (ap2 fixpt_get_dec_fract (Some (flt (49) 40)) (Some 1)) (Some 2));
  (54, eqo (ap2 fixpt_get_dec_fract (Some (flt (-5) 4)) (Some 1)) (Some 3));
  (55, eqo (ap2 fixpt_get_dec_fract (Some (flt (-49) 40)) (Some 1)) (Some 2));
  (56, eqo (ap2 fixpt_get_dec_fract (Some (flt (9) 8)) (Some 1)) (Some 1));
  (57, eqo (ap2 fixpt_get_dec_fract (Some (flt (9) 8)) (Some 2)) (Some 13));
  (58, eqo (ap2 fixpt_get_dec_fract (Some (flt (9) 8)) (Some 3)) (Some 125));
  (59, eqo (ap2 fixpt_get_dec_fract (Some (flt (-9) 8)) (Some 1)) (Some 1));
  (60, eqo (ap2 fixpt_get_dec_fract (Some (flt (-9) 8)) (Some 2)) (Some 13));
  (61, eqo (ap2 fixpt_get_dec_fract (Some (flt (-9) 8)) (Some 3)) (Some 125));
  (62, eqo (ap2 fixpt_get_dec_fract (Some (flt (1) 1)) (Some 2)) (Some 0));
  (63, eqo (ap2 fixpt_get_dec_fract (Some (flt (-1) 1)) (Some 2)) (Some 0));
  (64, eqo (ap2 fixpt_get_dec_fract (Some (flt (0) 1)) (Some 2)) (Some 0))].

(** firmware/tests/test_scale.c *)
Definition test_scale : list (Z * bool) := [
  (14, eqo (ap5 scale (Some 5) (Some (-10)) (Some 10) (Some (flt (-10) 1)) (Some (flt (10) 1))) (Some (flt (5) 1)));
  (18, eqo (ap5 scale (Some 5) (Some 10) (Some (-10)) (Some (flt (10) 1)) (Some (flt (-10) 1))) (Some (flt (5) 1)));
  (22, eqo (ap5 scale (Some 5) (Some (-10)) (Some 10) (Some (flt (-1) 1)) (Some (flt (1) 1))) (Some (flt (1) 2)));
  (26, eqo (ap5 scale (Some 5) (Some 10) (Some (-10)) (Some (flt (1) 1)) (Some (flt (-1) 1))) (Some (flt (1) 2)));
  (30, eqo (ap5 scale (Some (-1)) (Some 10) (Some (-10)) (Some (flt (1) 1)) (Some (flt (-1) 1))) (Some (flt (-1) 10)));
  (34, eqo (ap5 scale (Some 1) (Some 10) (Some (-10)) (Some (flt (1) 1)) (Some (flt (-1) 1))) (Some (flt (1) 10)));
  (38, eqo (ap5 scale (Some 1000) (Some 0) (Some 2000) (Some (flt (0) 1)) (Some (flt (10) 1))) (Some (flt (5) 1)));
  (42, eqo (ap5 scale (Some 1000) (Some 0) (Some 2000) (Some (flt (0) 1)) (Some (flt (500) 1))) (Some (flt (250) 1)));
  (46, eqo (ap5 scale (Some 500) (Some 0) (Some 2000) (Some (flt (0) 1)) (Some (flt (500) 1))) (Some (flt (125) 1)));
  (50, eqo (ap5 scale (Some 1000) (Some 0) (Some 2000) (Some (flt (500) 1)) (Some (flt (0) 1))) (Some (flt (250) 1)));
  (54, eqo (ap5 scale (Some 500) (Some 0) (Some 2000) (Some (flt (500) 1)) (Some (flt (0) 1))) (Some (flt (375) 1)));
  (58, eqo (ap5 scale (Some 128) (Some (-10000)) (Some 10000) (Some (flt (-10) 1)) (Some (flt (10) 1))) (Some (flt (16) 125)));
  (62, eqo (ap5 scale (Some (-128)) (Some (-10000)) (Some 10000) (Some (flt (-10) 1)) (Some (flt (10) 1))) (Some (flt (-16) 125)));
  (66, eqo (ap5 scale (Some 0) (Some 0) (Some 1023) (Some (flt (0) 1)) (Some (flt (480) 1))) (Some (flt (0) 1)));
  (70, eqo (ap5 scale (Some 1023) (Some 0) (Some 1023) (Some (flt (0) 1)) (Some (flt (480) 1))) (Some (flt (480) 1)));
  (74, geo (ap5 scale (Some 256) (Some 0) (Some 1023) (Some (flt (0) 1)) (Some (flt (480) 1))) (Some (flt (1201) 10)) && leo (ap5 scale (Some 256) (Some 0) (Some 1023) (Some (flt (0) 1)) (Some (flt (480) 1))) (Some (flt (601) 5)));
  (79, geo (ap5 scale (Some 512) (Some 0) (Some 1023) (Some (flt (0) 1)) (Some (flt (480) 1))) (Some (flt (1201) 5)) && leo (ap5 scale (Some 512) (Some 0) (Some 1023) (Some (flt (0) 1)) (Some (flt (480) 1))) (Some (flt (2403) 10)));
  (84, geo (ap5 scale (Some 768) (Some 0) (Some 1023) (Some (flt (0) 1)) (Some (flt (480) 1))) (Some (flt (3603) 10)) && leo (ap5 scale (Some 768) (Some 0) (Some 1023) (Some (flt (0) 1)) (Some (flt (480) 1))) (Some (flt (1802) 5)));
  (89, eqo (ap5 scale (Some 0) (Some 0) (Some 1023) (Some (flt (0) 1)) (Some (flt (5) 1))) (Some (flt (0) 1)));
  (93, eqo (ap5 scale (Some 1023) (Some 0) (Some 1023) (Some (flt (0) 1)) (Some (flt (5) 1))) (Some (flt (5) 1)));
  (97, geo (ap5 scale (Some 256) (Some 0) (Some 1023) (Some (flt (0) 1)) (Some (flt (5) 1))) (Some (flt (249) 200)) && leo (ap5 scale (Some 256) (Some 0) (Some 1023) (Some (flt (0) 1)) (Some (flt (5) 1))) (Some (flt (251) 200)));
  (102, geo (ap5 scale (Some 512) (Some 0) (Some 1023) (Some (flt (0) 1)) (Some (flt (5) 1))) (Some (flt (499) 200)) && leo (ap5 scale (Some 512) (Some 0) (Some 1023) (Some (flt (0) 1)) (Some (flt (5) 1))) (Some (flt (501) 200)));
  (107, geo (ap5 scale (Some 768) (Some 0) (Some 1023) (Some (flt (0) 1)) (Some (flt (5) 1))) (Some (flt (749) 200)) && leo (ap5 scale (Some 768) (Some 0) (Some 1023) (Some (flt (0) 1)) (Some (flt (5) 1))) (Some (flt (751) 200)));
  (117, eqo (ap5 unscale (Some (flt (5) 1)) (Some (flt (-10) 1)) (Some (flt (10) 1)) (Some (-10)) (Some 10)) (Some 5));
  (121, eqo (ap5 unscale (Some (flt (5) 1)) (Some (flt (10) 1)) (Some (flt (-10) 1)) (Some 10) (Some (-10))) (Some 5));
  (125, eqo (ap5 unscale (Some (flt (250) 1)) (Some (flt (0) 1)) (Some (flt (500) 1)) (Some 0) (Some 10)) (Some 5));
  (129, eqo (ap5 unscale (Some (flt (100) 1)) (Some (flt (0) 1)) (Some (flt (200) 1)) (Some 0) (Some 500)) (Some 250));
  (133, eqo (ap5 unscale (Some (flt (50) 1)) (Some (flt (0) 1)) (Some (flt (200) 1)) (Some 0) (Some 500)) (Some 125));
  (137, eqo (ap5 unscale (Some (flt (100) 1)) (Some (flt (0) 1)) (Some (flt (200) 1)) (Some 500) (Some 0)) (Some 250));
  (141, eqo (ap5 unscale (Some (flt (50) 1)) (Some (flt (0) 1)) (Some (flt (200) 1)) (Some 500) (Some 0)) (Some 375));
  (145, eqo (ap5 unscale (Some (flt (64) 5)) (Some (flt (-100) 1)) (Some (flt (100) 1)) (Some (-2000)) (Some 2000)) (Some 256));
  (149, eqo (ap5 unscale (Some (flt (-64) 5)) (Some (flt (-100) 1)) (Some (flt (100) 1)) (Some (-2000)) (Some 2000)) (Some (-256)));
  (153, eqo (ap5 unscale (Some (flt (0) 1)) (Some (flt (0) 1)) (Some (flt (480) 1)) (Some 0) (Some 1023)) (Some 0));
  (157, eqo (ap5 unscale (Some (flt (480) 1)) (Some (flt (0) 1)) (Some (flt (480) 1)) (Some 0) (Some 1023)) (Some 1023));
  (161, eqo (ap5 unscale (Some (flt (2403) 20)) (Some (flt (0) 1)) (Some (flt (480) 1)) (Some 0) (Some 1023)) (Some 256));
  (165, eqo (ap5 unscale (Some (flt (961) 4)) (Some (flt (0) 1)) (Some (flt (480) 1)) (Some 0) (Some 1023)) (Some 512));
  (169, eqo (ap5 unscale (Some (flt (7207) 20)) (Some (flt (0) 1)) (Some (flt (480) 1)) (Some 0) (Some 1023)) (Some 768));
  (173, eqo (ap5 unscale (Some (flt (0) 1)) (Some (flt (0) 1)) (Some (flt (5) 1)) (Some 0) (Some 1023)) (Some 0));
  (177, eqo (ap5 unscale (Some (flt (5) 1)) (Some (flt (0) 1)) (Some (flt (5) 1)) (Some 0) (Some 1023)) (Some 1023));
  (181, eqo (ap5 unscale (Some (flt (5) 4)) (Some (flt (0) 1)) (Some (flt (5) 1)) (Some 0) (Some 1023)) (Some 256));
  (185, eqo (ap5 unscale (Some (flt (5) 2)) (Some (flt (0) 1)) (Some (flt (5) 1)) (Some 0) (Some 1023)) (Some 512));
  (195, eqo (ap5 unscale (Some (flt (5) 1)) (Some (flt (0) 1)) (Some (flt (5) 1)) (Some 0) (Some 8191)) (Some 8191));
  (199, eqo (ap5 unscale (Some (flt (5) 2)) (Some (flt (0) 1)) (Some (flt (5) 1)) (Some 0) (Some 8191)) (Some 4096));
  (203, eqo (ap5 unscale (Some (flt (0) 1)) (Some (flt (0) 1)) (Some (flt (5) 1)) (Some 0) (Some 8191)) (Some 0));
  (207, eqo (ap5 unscale (Some (flt (5) 1)) (Some (flt (0) 1)) (Some (flt (5) 1)) (Some 8191) (Some 0)) (Some 0));
  (211, eqo (ap5 unscale (Some (flt (5) 2)) (Some (flt (0) 1)) (Some (flt (5) 1)) (Some 8191) (Some 0)) (Some 4096));
  (215, eqo (ap5 unscale (Some (flt (0) 1)) (Some (flt (0) 1)) (Some (flt (5) 1)) (Some 8191) (Some 0)) (Some 8191));
  (227, eqo (ap5 unscale (ap5 scale (Some 100) (Some (-1000)) (Some 1000) (Some (flt (-10) 1)) (Some (flt (10) 1))) (Some (flt (-10) 1)) (Some (flt (10) 1)) (Some (-1000)) (Some 1000)) (Some 100));
  (233, eqo (ap5 unscale (ap5 scale (Some (-100)) (Some (-1000)) (Some 1000) (Some (flt (-10) 1)) (Some (flt (10) 1))) (Some (flt (-10) 1)) (Some (flt (10) 1)) (Some (-1000)) (Some 1000)) (Some (-100)));
  (239, eqo (ap5 scale (ap5 unscale (Some (flt (1) 10)) (Some (flt (-10) 1)) (Some (flt (10) 1)) (Some (-1000)) (Some 1000)) (Some (-1000)) (Some 1000) (Some (flt (-10) 1)) (Some (flt (10) 1))) (Some (flt (1) 10)));
  (245, eqo (ap5 scale (ap5 unscale (Some (flt (-1) 10)) (Some (flt (-10) 1)) (Some (flt (10) 1)) (Some (-1000)) (Some 1000)) (Some (-1000)) (Some 1000) (Some (flt (-10) 1)) (Some (flt (10) 1))) (Some (flt (-1) 10)));
  (254, eqo (ap5 rescale (Some (flt (5) 1)) (Some (flt (-10) 1)) (Some (flt (10) 1)) (Some (flt (-10) 1)) (Some (flt (10) 1))) (Some (flt (5) 1)));
  (258, eqo (ap5 rescale (Some (flt (5) 1)) (Some (flt (10) 1)) (Some (flt (-10) 1)) (Some (flt (10) 1)) (Some (flt (-10) 1))) (Some (flt (5) 1)));
  (262, eqo (ap5 rescale (Some (flt (5) 1)) (Some (flt (-10) 1)) (Some (flt (10) 1)) (Some (flt (-1) 1)) (Some (flt (1) 1))) (Some (flt (1) 2)));
  (266, eqo (ap5 rescale (Some (flt (5) 1)) (Some (flt (10) 1)) (Some (flt (-10) 1)) (Some (flt (1) 1)) (Some (flt (-1) 1))) (Some (flt (1) 2)));
  (270, eqo (ap5 rescale (Some (flt (-1) 1)) (Some (flt (10) 1)) (Some (flt (-10) 1)) (Some (flt (1) 1)) (Some (flt (-1) 1))) (Some (flt (-1) 10)));
  (274, eqo (ap5 rescale (Some (flt (1) 1)) (Some (flt (10) 1)) (Some (flt (-10) 1)) (Some (flt (1) 1)) (Some (flt (-1) 1))) (Some (flt (1) 10)));
  (278, eqo (ap5 rescale (Some (flt (100) 1)) (Some (flt (0) 1)) (Some (flt (200) 1)) (Some (flt (0) 1)) (Some (flt (10) 1))) (Some (flt (5) 1)));
  (282, eqo (ap5 rescale (Some (flt (100) 1)) (Some (flt (0) 1)) (Some (flt (200) 1)) (Some (flt (0) 1)) (Some (flt (500) 1))) (Some (flt (250) 1)));
  (286, eqo (ap5 rescale (Some (flt (50) 1)) (Some (flt (0) 1)) (Some (flt (200) 1)) (Some (flt (0) 1)) (Some (flt (500) 1))) (Some (flt (125) 1)));
  (290, eqo (ap5 rescale (Some (flt (100) 1)) (Some (flt (0) 1)) (Some (flt (200) 1)) (Some (flt (500) 1)) (Some (flt (0) 1))) (Some (flt (250) 1)));
  (294, eqo (ap5 rescale (Some (flt (50) 1)) (Some (flt (0) 1)) (Some (flt (200) 1)) (Some (flt (500) 1)) (Some (flt (0) 1))) (Some (flt (375) 1)));
  (298, eqo (ap5 rescale (Some (flt (64) 5)) (Some (flt (-100) 1)) (Some (flt (100) 1)) (Some (flt (-10) 1)) (Some (flt (10) 1))) (Some (flt (32) 25)));
  (302, eqo (ap5 rescale (Some (flt (-64) 5)) (Some (flt (-100) 1)) (Some (flt (100) 1)) (Some (flt (-10) 1)) (Some (flt (10) 1))) (Some (flt (-32) 25)));
  (306, eqo (ap5 rescale (ap1 int_to_fixpt (Some 0)) (ap1 int_to_fixpt (Some 0)) (ap1 int_to_fixpt (Some 1023)) (Some (flt (0) 1)) (Some (flt (480) 1))) (Some (flt (0) 1)));
  (310, eqo (ap5 rescale (ap1 int_to_fixpt (Some 1023)) (ap1 int_to_fixpt (Some 0)) (ap1 int_to_fixpt (Some 1023)) (Some (flt (0) 1)) (Some (flt (480) 1))) (Some (flt (480) 1)));
  (314, geo (ap5 rescale (ap1 int_to_fixpt (Some 256)) (ap1 int_to_fixpt (Some 0)) (ap1 int_to_fixpt (Some 1023)) (Some (flt (0) 1)) (Some (flt (480) 1))) (Some (flt (1201) 10)) && leo (ap5 rescale (ap1 int_to_fixpt (Some 256)) (ap1 int_to_fixpt (Some 0)) (ap1 int_to_fixpt (Some 1023)) (Some (flt (0) 1)) (Some (flt (480) 1))) (Some (flt (601) 5)));
  (319, geo (ap5 rescale (ap1 int_to_fixpt (Some 512)) (ap1 int_to_fixpt (Some 0)) (ap1 int_to_fixpt (Some 1023)) (Some (flt (0) 1)) (Some (flt (480) 1))) (Some (flt (1201) 5)) && leo (ap5 rescale (ap1 int_to_fixpt (Some 512)) (ap1 int_to_fixpt (Some 0)) (ap1 int_to_fixpt (Some 1023)) (Some (flt (0) 1)) (Some (flt (480) 1))) (Some (flt (2403) 10)));
  (324, geo (ap5 rescale (ap1 int_to_fixpt (Some 768)) (ap1 int_to_fixpt (Some 0)) (ap1 int_to_fixpt (Some 1023)) (Some (flt (0) 1)) (Some (flt (480) 1))) (Some (flt (3603) 10)) && leo (ap5 rescale (ap1 int_to_fixpt (Some 768)) (ap1 int_to_fixpt (Some 0)) (ap1 int_to_fixpt (Some 1023)) (Some (flt (0) 1)) (Some (flt (480) 1))) (Some (flt (1802) 5)));
  (329, eqo (ap5 rescale (ap1 int_to_fixpt (Some 0)) (ap1 int_to_fixpt (Some 0)) (ap1 int_to_fixpt (Some 1023)) (Some (flt (0) 1)) (Some (flt (5) 1))) (Some (flt (0) 1)));
  (333, eqo (ap5 rescale (ap1 int_to_fixpt (Some 1023)) (ap1 int_to_fixpt (Some 0)) (ap1 int_to_fixpt (Some 1023)) (Some (flt (0) 1)) (Some (flt (5) 1))) (Some (flt (5) 1)));
  (337, geo (ap5 rescale (ap1 int_to_fixpt (Some 256)) (ap1 int_to_fixpt (Some 0)) (ap1 int_to_fixpt (Some 1023)) (Some (flt (0) 1)) (Some (flt (5) 1))) (Some (flt (249) 200)) && leo (ap5 rescale (ap1 int_to_fixpt (Some 256)) (ap1 int_to_fixpt (Some 0)) (ap1 int_to_fixpt (Some 1023)) (Some (flt (0) 1)) (Some (flt (5) 1))) (Some (flt (251) 200)));
  (342, geo (ap5 rescale (ap1 int_to_fixpt (Some 512)) (ap1 int_to_fixpt (Some 0)) (ap1 int_to_fixpt (Some 1023)) (Some (flt (0) 1)) (Some (flt (5) 1))) (Some (flt (499) 200)) && leo (ap5 rescale (ap1 int_to_fixpt (Some 512)) (ap1 int_to_fixpt (Some 0)) (ap1 int_to_fixpt (Some 1023)) (Some (flt (0) 1)) (Some (flt (5) 1))) (Some (flt (501) 200)));
  (347, geo (ap5 rescale (ap1 int_to_fixpt (Some 768)) (ap1 int_to_fixpt (Some 0)) (ap1 int_to_fixpt (Some 1023)) (Some (flt (0) 1)) (Some (flt (5) 1))) (Some (flt (749) 200)) && leo (ap5 rescale (ap1 int_to_fixpt (Some 768)) (ap1 int_to_fixpt (Some 0)) (ap1 int_to_fixpt (Some 1023)) (Some (flt (0) 1)) (Some (flt (5) 1))) (Some (flt (751) 200)))].

(** firmware/tests/test_pid.c: one entry per block; each block runs one controller *)
Definition test_pid : list (Z * bool) := [
  (37, pid_test (mkK (flt (1) 1) (flt (0) 1) (flt (0) 1) (flt (1) 1)) (flt (-15) 1) (flt (15) 1) (flt (-15) 1) (flt (15) 1) (flt (10) 1)
     [((flt (1) 1), (flt (1) 1), (flt (9) 1));
      ((flt (1) 1), (flt (2) 1), (flt (8) 1));
      ((flt (1) 1), (flt (5) 1), (flt (5) 1));
      ((flt (1) 1), (flt (5) 1), (flt (5) 1))]);
  (71, pid_test (mkK (flt (3) 1) (flt (0) 1) (flt (0) 1) (flt (1) 1)) (flt (-15) 1) (flt (15) 1) (flt (-15) 1) (flt (15) 1) (flt (10) 1)
     [((flt (1) 1), (flt (1) 1), (flt (15) 1));
      ((flt (3) 2), (flt (2) 1), (flt (15) 1));
      ((flt (2) 1), (flt (5) 1), (flt (15) 1));
      ((flt (1) 1), (flt (7) 1), (flt (9) 1));
      ((flt (1) 1), (flt (15) 2), (flt (15) 2))]);
  (109, pid_test (mkK (flt (5) 2) (flt (0) 1) (flt (0) 1) (flt (1) 1)) (flt (-15) 1) (flt (15) 1) (flt (-15) 1) (flt (15) 1) (flt (10) 1)
     [((flt (1) 1), (flt (1) 1), (flt (15) 1));
      ((flt (1) 1), (flt (2) 1), (flt (15) 1));
      ((flt (1) 1), (flt (5) 1), (flt (25) 2));
      ((flt (1) 1), (flt (7) 1), (flt (15) 2));
      ((flt (1) 1), (flt (15) 2), (flt (25) 4))]);
  (147, pid_test (mkK (flt (-5) 2) (flt (0) 1) (flt (0) 1) (flt (1) 1)) (flt (-15) 1) (flt (15) 1) (flt (-15) 1) (flt (15) 1) (flt (10) 1)
     [((flt (1) 1), (flt (1) 1), (flt (-15) 1));
      ((flt (1) 1), (flt (2) 1), (flt (-15) 1));
      ((flt (1) 1), (flt (5) 1), (flt (-25) 2));
      ((flt (1) 1), (flt (7) 1), (flt (-15) 2));
      ((flt (1) 1), (flt (15) 2), (flt (-25) 4))]);
  (188, pid_test (mkK (flt (0) 1) (flt (1) 1) (flt (0) 1) (flt (1) 1)) (flt (-15) 1) (flt (15) 1) (flt (-15) 1) (flt (15) 1) (flt (10) 1)
     [((flt (1) 1), (flt (9) 1), (flt (1) 1));
      ((flt (1) 1), (flt (9) 1), (flt (2) 1));
      ((flt (1) 1), (flt (9) 1), (flt (3) 1));
      ((flt (1) 1), (flt (10) 1), (flt (3) 1));
      ((flt (1) 1), (flt (11) 1), (flt (2) 1));
      ((flt (3) 1), (flt (11) 1), (flt (-1) 1));
      ((flt (1) 2), (flt (11) 1), (flt (-3) 2));
      ((flt (1) 2), (flt (11) 1), (flt (-2) 1))]);
  (238, pid_test (mkK (flt (0) 1) (flt (-1) 1) (flt (0) 1) (flt (1) 1)) (flt (-15) 1) (flt (15) 1) (flt (-15) 1) (flt (15) 1) (flt (10) 1)
     [((flt (1) 1), (flt (9) 1), (flt (-1) 1));
      ((flt (1) 1), (flt (9) 1), (flt (-2) 1));
      ((flt (1) 1), (flt (9) 1), (flt (-3) 1));
      ((flt (1) 1), (flt (10) 1), (flt (-3) 1));
      ((flt (1) 1), (flt (11) 1), (flt (-2) 1));
      ((flt (3) 1), (flt (11) 1), (flt (1) 1));
      ((flt (1) 2), (flt (11) 1), (flt (3) 2));
      ((flt (1) 2), (flt (11) 1), (flt (2) 1))]);
  (288, pid_test (mkK (flt (0) 1) (flt (3) 2) (flt (0) 1) (flt (1) 1)) (flt (-15) 1) (flt (15) 1) (flt (-15) 1) (flt (15) 1) (flt (10) 1)
     [((flt (1) 1), (flt (9) 1), (flt (3) 2));
      ((flt (1) 1), (flt (9) 1), (flt (3) 1));
      ((flt (1) 1), (flt (9) 1), (flt (9) 2));
      ((flt (1) 1), (flt (10) 1), (flt (9) 2));
      ((flt (1) 1), (flt (11) 1), (flt (3) 1));
      ((flt (3) 1), (flt (11) 1), (flt (-3) 2));
      ((flt (1) 2), (flt (11) 1), (flt (-9) 4));
      ((flt (1) 2), (flt (11) 1), (flt (-3) 1))]);
  (341, pid_test (mkK (flt (0) 1) (flt (0) 1) (flt (1) 1) (flt (1) 1)) (flt (-15) 1) (flt (15) 1) (flt (-15) 1) (flt (15) 1) (flt (10) 1)
     [((flt (1) 1), (flt (9) 1), (flt (1) 1));
      ((flt (1) 1), (flt (8) 1), (flt (1) 1));
      ((flt (1) 1), (flt (7) 1), (flt (1) 1));
      ((flt (1) 1), (flt (5) 1), (flt (2) 1));
      ((flt (1) 1), (flt (5) 1), (flt (0) 1));
      ((flt (1) 1), (flt (7) 1), (flt (-2) 1))]);
  (383, pid_test (mkK (flt (0) 1) (flt (0) 1) (flt (-1) 1) (flt (1) 1)) (flt (-15) 1) (flt (15) 1) (flt (-15) 1) (flt (15) 1) (flt (10) 1)
     [((flt (1) 1), (flt (9) 1), (flt (-1) 1));
      ((flt (1) 1), (flt (8) 1), (flt (-1) 1));
      ((flt (1) 1), (flt (7) 1), (flt (-1) 1));
      ((flt (1) 1), (flt (5) 1), (flt (-2) 1));
      ((flt (1) 1), (flt (5) 1), (flt (0) 1));
      ((flt (1) 1), (flt (7) 1), (flt (2) 1))]);
  (425, pid_test (mkK (flt (0) 1) (flt (0) 1) (flt (3) 2) (flt (1) 1)) (flt (-15) 1) (flt (15) 1) (flt (-15) 1) (flt (15) 1) (flt (10) 1)
     [((flt (1) 1), (flt (9) 1), (flt (3) 2));
      ((flt (1) 1), (flt (8) 1), (flt (3) 2));
      ((flt (1) 1), (flt (7) 1), (flt (3) 2));
      ((flt (1) 1), (flt (5) 1), (flt (3) 1));
      ((flt (1) 1), (flt (5) 1), (flt (0) 1));
      ((flt (1) 1), (flt (7) 1), (flt (-3) 1))]);
  (470, pid_test (mkK (flt (3) 2) (flt (3) 2) (flt (3) 2) (flt (1) 1)) (flt (-15) 1) (flt (15) 1) (flt (-15) 1) (flt (15) 1) (flt (10) 1)
     [((flt (1) 1), (flt (9) 1), (flt (9) 2));
      ((flt (1) 1), (flt (8) 1), (flt (9) 1));
      ((flt (1) 1), (flt (8) 1), (flt (21) 2));
      ((flt (1) 1), (flt (9) 1), (flt (9) 1))])].

(** firmware/tests/test_timer.c *)
Definition test_timer : list (Z * bool) :=
  let ms x := match timer_ms_to_count x with Some c => c | None => 0 end in
  let now := u16 (ms 500) in
  [(9, TIMER_CPS =? 1000);
   (18, Z.abs (F_CPU - OCR0A * 64 * TIMER_CPS) <? F_CPU / 100);
   (23, timer_isr 42 =? 43)] ++
  map (fun x => (32, eqo (timer_ms_to_count x) (Some x))) [50; 100; 1000; 2000; -50; -100; -1000; -2000] ++
  map (fun x => (60, eqo (timer_count_to_ms x) (Some x))) [0; 1; 50; 100; 10000; 32767; -1; -50; -100; -10000; -32768] ++
  [(88, eqo (timer_arm 42 100) (Some 142));
   (95, eqo (t <- timer_arm 42 100 ;; timer_add t 50) (Some 192));
   (105, timer_count_since 42 42 =? 0); (108, timer_count_since 42 43 =? -1);
   (111, timer_count_since 42 41 =? 1); (114, timer_count_since 42 (u16 (-42)) =? 84);
   (122, eqo (timer_ms_since now (u16 (ms 500))) (Some 0)); (124, eqo (timer_ms_since now (u16 (ms 600))) (Some (-100)));
   (126, eqo (timer_ms_since now (u16 (ms 400))) (Some 100)); (128, eqo (timer_ms_since now (u16 (ms (-500)))) (Some 1000));
   (135, timer_expired now (u16 (ms 500))); (137, negb (timer_expired now (u16 (ms 600))));
   (139, timer_expired now (u16 (ms 400))); (141, timer_expired now (u16 (ms (-500))))].

Example test_common_passes : forallb snd test_common = true.
Proof. vm_compute. reflexivity. Qed.
Example test_fixpt_passes : forallb snd test_fixpt = true.
Proof. vm_compute. reflexivity. Qed.
Example test_scale_passes : forallb snd test_scale = true.
Proof. vm_compute. reflexivity. Qed.
Example test_pid_passes : forallb snd test_pid = true.
Proof. vm_compute. reflexivity. Qed.
Example test_timer_passes : forallb snd test_timer = true.
Proof. vm_compute. reflexivity. Qed.
(** test_scale.c:187-191: the check the authors disabled as failing ("FIXME") fails on the model, too. *)
Example test_scale_fixme : unscale (flt 15 4) (flt 0 1) (flt 5 1) 0 1023 = Some 767.
Proof. vm_compute. reflexivity. Qed.
