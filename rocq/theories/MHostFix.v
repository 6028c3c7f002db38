(** * Model of the arithmetic of the firmware as compiled for the unit tests and the simulator

    fixpt.c, scale.c, filter.c, pid.c and timer.c are compiled by a C++ compiler with 32-bit [int]
    (tests/Makefile:1-9, simulator/Makefile:19-52), [fixpt_t] is the class Int24 and [uint24_t] the class UInt24
    of tests/fake/int24.h (tests/fake/fake.h:11-12).  Each operator is the one that overload resolution picks:
    a member operator if the left operand is an object and the class has it, else (>=, <=, unary -, >>, or an
    object on the right only) the built-in one after the conversion to [int] resp. [unsigned int]. *)
From Coq Require Import ZArith List Bool.
From Verif Require Import Base MUtil MInt24 MFixpt MPid.
Import ListNotations.
Open Scope Z_scope.

(** fixpt.h:38-41: construction of Int24 from unsigned long long and from [int] *)
Definition H_MAX : Z := I_make (2 ^ 23 - 1).
Definition H_MIN : Z := I_make (- I_to_int H_MAX).
Definition H_BIGMAX : Z := I_make (2 ^ 31 - 1).
Definition H_BIGMIN : Z := I_make (- I_to_int H_BIGMAX).

(** fixpt.c:25-28: [operator int] *)
Definition h_inflate (a : Z) : Z := I_to_int a.
(** fixpt.c:30-38: comparisons of int32_t with objects: built-in *)
Definition h_deflate (a : Z) : Z :=
  if I_to_int H_MAX <=? a then H_MAX
  else if a <=? I_to_int H_MIN then H_MIN
  else I_make a.
(** fixpt.h:86-87, fixpt.c:40-48 *)
Definition h_int_to_big (i : Z) : option Z := chk32 (i * 64).
Definition h_int_to_fixpt (i : Z) : option Z := t <- h_int_to_big i ;; Some (h_deflate t).
(** fixpt.c:50-63, on int32_t only *)
Definition h_big_to_int (p : Z) : option Z :=
  if p <? 0 then p' <- chk32 (- p) ;; t <- chk32 (p' + 32) ;; chk32 (- (Z.shiftr t 6))
  else t <- chk32 (p + 32) ;; Some (Z.shiftr t 6).
(** fixpt.c:65-68 *)
Definition h_to_int (p : Z) : option Z := h_big_to_int (h_inflate p).
(** fixpt.c:70-76; int_to_fixpt(0) is the object INT_TO_FIXPT(0) *)
Definition h_get_int_part (p : Z) : option Z :=
  if I_to_int (I_make 0) <=? I_to_int p then Some (Z.shiftr (I_to_int p) 6)
  else n <- chk32 (- I_to_int p) ;; chk32 (- (Z.shiftr n 6)).
(** fixpt.c:94-110, on int32_t only *)
Definition h_big_add (a b : Z) : option Z := chk32 (a + b).
Definition h_big_sub (a b : Z) : option Z := chk32 (a - b).
(** fixpt.c:112-124 *)
Definition h_big_mul (a b : Z) : option Z := t <- chk32 (a * b) ;; t <- chk32 (t + 32) ;; Some (Z.shiftr t 6).
(** fixpt.c:126-151; FIXPTBIG_MIN and FIXPTBIG_MAX are objects *)
Definition h_big_div (a b : Z) : option Z :=
  if b =? 0 then Some (I_to_int (if a <? 0 then H_BIGMIN else H_BIGMAX))
  else
    t <- chk32 (a * 64) ;;
    h <- div32 b 2 ;;
    t <- (if ((0 <=? t) && (0 <=? b)) || ((t <? 0) && (b <? 0)) then chk32 (t + h) else chk32 (t - h)) ;;
    div32 t b.
(** fixpt.c:153-161 *)
Definition h_big_mul_div (a b c : Z) : option Z := t <- h_big_mul a b ;; h_big_div t c.
(** fixpt.c:163-208 *)
Definition h_add (a b : Z) : option Z := t <- h_big_add (h_inflate a) (h_inflate b) ;; Some (h_deflate t).
Definition h_sub (a b : Z) : option Z := t <- h_big_sub (h_inflate a) (h_inflate b) ;; Some (h_deflate t).
Definition h_mul (a b : Z) : option Z := t <- h_big_mul (h_inflate a) (h_inflate b) ;; Some (h_deflate t).
Definition h_div (a b : Z) : option Z := t <- h_big_div (h_inflate a) (h_inflate b) ;; Some (h_deflate t).
Definition h_mul_div (a b c : Z) : option Z :=
  t <- h_big_mul_div (h_inflate a) (h_inflate b) (h_inflate c) ;; Some (h_deflate t).
(** fixpt.c:210-216 *)
Definition h_neg (a : Z) : option Z :=
  if I_to_int a <=? I_to_int H_MIN then Some H_MAX else t <- chk32 (- I_to_int a) ;; Some (I_make t).
(** fixpt.c:218-223: Int24 < Int24 *)
Definition h_abs (a : Z) : option Z := if I_lt a (I_make 0) then h_neg a else Some a.
(** fixpt.c:236-245 *)
Definition h_clamp (a lo hi : Z) : Z :=
  let a := if I_lt a lo then lo else a in
  if I_gt a hi then hi else a.
(** fixpt.c:225-234 *)
Definition h_add_limited (a b lo hi : Z) : option Z := r <- h_add a b ;; Some (h_clamp r lo hi).
(** fixpt.c:78-92: Int24 & long; [pow_int] has the same types on the host *)
Definition h_get_dec_fract (p nr_digits : Z) : option Z :=
  a <- h_abs p ;;
  let p := I_and_auto a (Z.shiftl 1 6 - 1) in
  m <- pow_int 10 nr_digits ;;
  udiv_round (u32 (u32 (I_to_int p) * u32 m)) 64.

(** util.h:17-33 with objects *)
Definition h_min (a b : Z) : Z := if I_lt a b then a else b.
Definition h_max (a b : Z) : Z := if I_gt a b then a else b.
Definition h_cclamp (v lo hi : Z) : Z := h_max (h_min v hi) lo.

(** scale.c:36-38, 64-83: [raw - raw_lo] is computed with 32 bits *)
Definition h_scale (raw raw_lo raw_hi phys_lo phys_hi : Z) : option Z :=
  a <- h_big_sub (h_inflate phys_hi) (h_inflate phys_lo) ;;
  d1 <- chk32 (raw - raw_lo) ;;
  b <- h_int_to_big d1 ;;
  d2 <- chk32 (raw_hi - raw_lo) ;;
  c <- h_int_to_big d2 ;;
  d <- h_big_mul_div a b c ;;
  r <- h_big_add d (h_inflate phys_lo) ;;
  Some (h_deflate r).
(** scale.c:89-111 *)
Definition h_unscale (phys phys_lo phys_hi raw_lo raw_hi : Z) : option Z :=
  a0 <- h_big_sub (h_inflate phys_hi) (h_inflate phys) ;;
  rl <- h_int_to_big raw_lo ;;
  a <- h_big_mul a0 rl ;;
  b0 <- h_big_sub (h_inflate phys) (h_inflate phys_lo) ;;
  rh <- h_int_to_big raw_hi ;;
  b <- h_big_mul b0 rh ;;
  n <- h_big_add a b ;;
  d <- h_big_sub (I_to_int phys_hi) (I_to_int phys_lo) ;;
  c <- h_big_div n d ;;
  i <- h_big_to_int c ;;
  Some (s16 i).
(** scale.c:139-165 *)
Definition h_rescale (phys0 phys0_lo phys0_hi phys1_lo phys1_hi : Z) : option Z :=
  a0 <- h_big_sub (h_inflate phys0_hi) (h_inflate phys0) ;;
  a <- h_big_mul (h_inflate phys1_lo) a0 ;;
  b0 <- h_big_sub (h_inflate phys0) (h_inflate phys0_lo) ;;
  b <- h_big_mul (h_inflate phys1_hi) b0 ;;
  c <- h_big_add a b ;;
  d <- h_big_sub (h_inflate phys0_hi) (h_inflate phys0_lo) ;;
  r <- h_big_div c d ;;
  Some (h_deflate r).

(** filter.h:17-21 *)
Definition h_filter_u16_set (new_value : Z) : Z := U_make new_value.
(** filter.c:25-37: [>>] is the built-in one on unsigned int; a shift of 32 or more is undefined *)
Definition h_filter_u16_run (filter_buf inp filter_shift : Z) : option (Z * Z) :=
  if (filter_shift <? 0) || (32 <=? filter_shift) then None else
  let buf := filter_buf in
  let buf := U_isub_auto buf (Z.shiftr (U_to_uint buf) filter_shift) in
  let buf := U_iadd_auto buf inp in
  let out := U_make (Z.shiftr (U_to_uint buf) filter_shift) in
  Some (buf, u16 (U_to_uint (if U_lt out (U_make 65535) then out else U_make 65535))).
(** filter.c:39-51 *)
Definition h_filter_fixpt_run (filter_buf inp div : Z) : option (Z * Z) :=
  let buf := filter_buf in
  q <- h_div buf div ;;
  buf <- h_sub buf q ;;
  buf <- h_add buf inp ;;
  out <- h_div buf div ;;
  Some (buf, out).

(** pid.c:40-94 *)
Definition h_pid_run (p : pid) (dt r : Z) : option (pid * Z) :=
  e <- h_sub (p_setpoint p) r ;;
  pt <- h_mul (kp (p_k p)) e ;;
  ie <- h_mul (ki (p_k p)) e ;;
  ied <- h_mul ie dt ;;
  i <- h_add (p_integr p) ied ;;
  let i := h_cclamp i (p_i_neglim p) (p_i_poslim p) in
  res <- h_add pt i ;;
  de <- h_sub e (p_prev_e p) ;;
  d <- h_mul_div de (kd (p_k p)) dt ;;
  pe <- h_div e (d_decay_div (p_k p)) ;;
  res <- h_add res d ;;
  Some (mkPid (p_k p) (p_setpoint p) (p_i_neglim p) (p_i_poslim p) (p_y_neglim p) (p_y_poslim p) pe i,
        h_cclamp res (p_y_neglim p) (p_y_poslim p)).

(** timer.c:29-33: the increment is done in [int] *)
Definition h_timer_isr (now : Z) : option Z := t <- chk32 (now + 1) ;; Some (u16 t).
(** timer.c:59-67: the difference of two uint16_t is an [int] *)
Definition h_timer_count_since (now timer : Z) : option Z := d <- chk32 (now - timer) ;; Some (s16 d).
Definition h_timer_expired (now timer : Z) : option bool := d <- h_timer_count_since now timer ;; Some (0 <=? d).
(** timer.c:47-57, 69-89: TIMERCPS is an uint16_t converted to int32_t; sums of two uint16_t are [int] *)
Definition h_timer_ms_to_count (millisec : Z) : option Z :=
  p <- chk32 (u16 1000 * millisec) ;; q <- sdiv_round_up p 1000 ;; Some (s16 q).
Definition h_timer_ms_since (now timer : Z) : option Z :=
  d <- h_timer_count_since now timer ;; p <- chk32 (d * 1000) ;; sdiv_round p (u16 1000).
Definition h_timer_add (timer millisec : Z) : option Z :=
  c <- h_timer_ms_to_count millisec ;; t <- chk32 (timer + u16 c) ;; Some (u16 t).
Definition h_timer_arm (now millisec : Z) : option Z := h_timer_add now millisec.
