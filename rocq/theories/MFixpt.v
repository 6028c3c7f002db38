(** * Model of firmware/fixpt.h and firmware/fixpt.c

    Configuration: FIXPT_SIZE 24, FIXPT_SHIFT 6 (fixpt.h:9-10), hence
    [fixpt_t] = int24_t, [fixpt_big_t] = int32_t (fixpt.h:27-29).
    A fixpt value is its raw 24-bit integer. *)
From Coq Require Import ZArith List Bool.
From Verif Require Import Base MUtil.
Import ListNotations.
Open Scope Z_scope.

(** fixpt.h:38-39 *)
Definition FIXPT_MAX : Z := s24 (2 ^ 23 - 1).
Definition FIXPT_MIN : Z := s24 (- FIXPT_MAX).
(** fixpt.h:40-41.  Note the cast to [fixpt_t] (24 bit), not [fixpt_big_t]. *)
Definition FIXPTBIG_MAX : Z := s24 (2 ^ 31 - 1).
Definition FIXPTBIG_MIN : Z := s24 (- FIXPTBIG_MAX).

(** fixpt.h:57-64 [FLOAT_TO_FIXPT] applied to the rational constant n/d (d > 0).
    Simplification: the C macro computes in 32-bit float; for the constants of this
    firmware the exact rational gives the same raw value. Truncation is towards zero. *)
Definition fxc (n d : Z) : Z :=
  if n <? 0 then Z.quot (2 * n * 64 - d) (2 * d) else Z.quot (2 * n * 64 + d) (2 * d).

(** fixpt.c:25-28 *)
Definition fixpt_inflate (a : Z) : Z := a.

(** fixpt.c:30-38 *)
Definition fixpt_deflate (a : Z) : Z :=
  if FIXPT_MAX <=? a then FIXPT_MAX
  else if a <=? FIXPT_MIN then FIXPT_MIN
  else s24 a.

(** fixpt.h:86 [INT_TO_FIXPT_BIG], fixpt.c:40-43. [<<] is arithmetic (GCC), overflow undefined. *)
Definition int_to_fixpt_big (i : Z) : option Z := chk32 (i * 64).

(** fixpt.c:45-48.  For constant arguments fixpt.h:95-97 picks [INT_TO_FIXPT], which gives
    the same value for the constants used (0, 16, 24, 1000). *)
Definition int_to_fixpt (i : Z) : option Z :=
  t <- int_to_fixpt_big i ;; Some (fixpt_deflate t).

(** fixpt.c:50-63 *)
Definition fixpt_big_to_int (p : Z) : option Z :=
  if p <? 0 then
    p' <- chk32 (- p) ;;
    t <- chk32 (p' + 32) ;;
    chk32 (- (Z.shiftr t 6))
  else
    t <- chk32 (p + 32) ;;
    Some (Z.shiftr t 6).

(** fixpt.c:65-68 *)
Definition fixpt_to_int (p : Z) : option Z := fixpt_big_to_int (fixpt_inflate p).

(** fixpt.c:70-76 *)
Definition fixpt_get_int_part (p : Z) : option Z :=
  if 0 <=? p then Some (Z.shiftr p 6)
  else n <- chk32 (- p) ;; chk32 (- (Z.shiftr n 6)).

(** fixpt.c:94-101 *)
Definition fixpt_big_add (a b : Z) : option Z := chk32 (a + b).
(** fixpt.c:103-110 *)
Definition fixpt_big_sub (a b : Z) : option Z := chk32 (a - b).
(** fixpt.c:112-124 *)
Definition fixpt_big_mul (a b : Z) : option Z :=
  t <- chk32 (a * b) ;;
  t <- chk32 (t + 32) ;;
  Some (Z.shiftr t 6).
(** fixpt.c:126-151 *)
Definition fixpt_big_div (a b : Z) : option Z :=
  if b =? 0 then
    Some (if a <? 0 then FIXPTBIG_MIN else FIXPTBIG_MAX)
  else
    t <- chk32 (a * 64) ;;
    h <- div32 b 2 ;;
    t <- (if ((0 <=? t) && (0 <=? b)) || ((t <? 0) && (b <? 0))
          then chk32 (t + h) else chk32 (t - h)) ;;
    div32 t b.
(** fixpt.c:153-161 *)
Definition fixpt_big_mul_div (a b c : Z) : option Z :=
  t <- fixpt_big_mul a b ;; fixpt_big_div t c.

(** fixpt.c:163-170 *)
Definition fixpt_add (a b : Z) : option Z :=
  t <- fixpt_big_add (fixpt_inflate a) (fixpt_inflate b) ;; Some (fixpt_deflate t).
(** fixpt.c:172-179 *)
Definition fixpt_sub (a b : Z) : option Z :=
  t <- fixpt_big_sub (fixpt_inflate a) (fixpt_inflate b) ;; Some (fixpt_deflate t).
(** fixpt.c:181-188 *)
Definition fixpt_mul (a b : Z) : option Z :=
  t <- fixpt_big_mul (fixpt_inflate a) (fixpt_inflate b) ;; Some (fixpt_deflate t).
(** fixpt.c:190-197 *)
Definition fixpt_div (a b : Z) : option Z :=
  t <- fixpt_big_div (fixpt_inflate a) (fixpt_inflate b) ;; Some (fixpt_deflate t).
(** fixpt.c:199-208 *)
Definition fixpt_mul_div (a b c : Z) : option Z :=
  t <- fixpt_big_mul_div (fixpt_inflate a) (fixpt_inflate b) (fixpt_inflate c) ;;
  Some (fixpt_deflate t).

(** fixpt.c:210-216 *)
Definition fixpt_neg (a : Z) : Z :=
  if a <=? FIXPT_MIN then FIXPT_MAX else s24 (- a).
(** fixpt.c:218-223 *)
Definition fixpt_abs (a : Z) : Z := if a <? 0 then fixpt_neg a else a.
(** fixpt.c:236-245 *)
Definition fixpt_clamp (a lo hi : Z) : Z :=
  let a := if a <? lo then lo else a in
  if hi <? a then hi else a.
(** fixpt.c:225-234 *)
Definition fixpt_add_limited (a b lo hi : Z) : option Z :=
  r <- fixpt_add a b ;; Some (fixpt_clamp r lo hi).

(** fixpt.c:78-92.  [pow_int] yields an int32_t that is converted to uint32_t. *)
Definition fixpt_get_dec_fract (p nr_digits : Z) : option Z :=
  let p := s24 (Z.land (fixpt_abs p) 63) in
  m <- pow_int 10 nr_digits ;;
  udiv_round (u32 (u32 p * u32 m)) 64.
