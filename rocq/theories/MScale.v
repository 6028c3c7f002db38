(** * Model of firmware/scale.c (SCALE_IMPL 2, UNSCALE_IMPL 1, RESCALE_IMPL 1: scale.c:25-33) *)
From Coq Require Import ZArith List Bool.
From Verif Require Import Base MUtil MFixpt.
Import ListNotations.
Open Scope Z_scope.

(** scale.c:36-38, 64-83.  [raw - raw_lo] is computed in [int], i.e. 16 bits on AVR. *)
Definition scale (raw raw_lo raw_hi phys_lo phys_hi : Z) : option Z :=
  a <- fixpt_big_sub (fixpt_inflate phys_hi) (fixpt_inflate phys_lo) ;;
  d1 <- chk16 (raw - raw_lo) ;;
  b <- int_to_fixpt_big d1 ;;
  d2 <- chk16 (raw_hi - raw_lo) ;;
  c <- int_to_fixpt_big d2 ;;
  d <- fixpt_big_mul_div a b c ;;
  r <- fixpt_big_add d (fixpt_inflate phys_lo) ;;
  Some (fixpt_deflate r).

(** scale.c:89-111 *)
Definition unscale (phys phys_lo phys_hi raw_lo raw_hi : Z) : option Z :=
  a0 <- fixpt_big_sub (fixpt_inflate phys_hi) (fixpt_inflate phys) ;;
  rl <- int_to_fixpt_big raw_lo ;;
  a <- fixpt_big_mul a0 rl ;;
  b0 <- fixpt_big_sub (fixpt_inflate phys) (fixpt_inflate phys_lo) ;;
  rh <- int_to_fixpt_big raw_hi ;;
  b <- fixpt_big_mul b0 rh ;;
  n <- fixpt_big_add a b ;;
  d <- fixpt_big_sub phys_hi phys_lo ;;
  c <- fixpt_big_div n d ;;
  i <- fixpt_big_to_int c ;;
  Some (s16 i).

(** scale.c:139-165 *)
Definition rescale (phys0 phys0_lo phys0_hi phys1_lo phys1_hi : Z) : option Z :=
  a0 <- fixpt_big_sub (fixpt_inflate phys0_hi) (fixpt_inflate phys0) ;;
  a <- fixpt_big_mul (fixpt_inflate phys1_lo) a0 ;;
  b0 <- fixpt_big_sub (fixpt_inflate phys0) (fixpt_inflate phys0_lo) ;;
  b <- fixpt_big_mul (fixpt_inflate phys1_hi) b0 ;;
  c <- fixpt_big_add a b ;;
  d <- fixpt_big_sub (fixpt_inflate phys0_hi) (fixpt_inflate phys0_lo) ;;
  r <- fixpt_big_div c d ;;
  Some (fixpt_deflate r).
