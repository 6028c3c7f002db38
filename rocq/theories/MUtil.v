(** * Model of firmware/util.h (division macros) and firmware/util.c *)
From Coq Require Import ZArith List Bool.
From Verif Require Import Base.
Import ListNotations.
Open Scope Z_scope.

(** util.h:17-22 [min], util.h:25-29 [max], util.h:32-33 [clamp].
    The macros are used with operands of one type; the casts are then the identity. *)
Definition cmin (a b : Z) : Z := if a <? b then a else b.
Definition cmax (a b : Z) : Z := if b <? a then a else b.
Definition cclamp (v lo hi : Z) : Z := cmax (cmin v hi) lo.

(** util.h:46-56 [sdiv_round_up] at type int32_t (its only use, timer.c:49). *)
Definition sdiv_round_up (x d : Z) : option Z :=
  if xorb (x <? 0) (d <? 0) then div32 x d
  else if (x <? 0) && (d <? 0) then
    t <- chk32 (x + d) ;; t <- chk32 (t + 1) ;; div32 t d
  else
    t <- chk32 (x + d) ;; t <- chk32 (t - 1) ;; div32 t d.

(** util.h:67-75 [sdiv_round] at type int32_t (its only use, timer.c:55). *)
Definition sdiv_round (x d : Z) : option Z :=
  h <- div32 d 2 ;;
  if xorb (x <? 0) (d <? 0) then t <- chk32 (x - h) ;; div32 t d
  else t <- chk32 (x + h) ;; div32 t d.

(** util.h:59-63 [udiv_round_up] at type uint32_t (unsigned: wraps). *)
Definition udiv_round_up (x d : Z) : option Z :=
  if d =? 0 then None else Some (u32 (u32 (x + d) - 1) / d).

(** util.h:79-83 [udiv_round] at type uint32_t (unsigned: wraps); used in fixpt.c:88. *)
Definition udiv_round (x d : Z) : option Z :=
  if d =? 0 then None else Some (u32 (x + d / 2) / d).

(** util.c:32-35: first loop of [pow_int].  The loop runs at most 7 times for a
    non-zero 8-bit exponent; [fuel] bounds it, running out of fuel is [None]
    (the correctness theorem shows that it never does). *)
Fixpoint pow_strip (fuel : nat) (e x : Z) : option (Z * Z) :=
  match fuel with
  | O => None
  | S f =>
    if Z.odd e then Some (e, x)
    else x' <- chk32 (x * x) ;; pow_strip f (u8 (Z.shiftr e 1)) x'
  end.

(** util.c:38-43: second loop of [pow_int]. *)
Fixpoint pow_loop (fuel : nat) (e x y : Z) : option Z :=
  match fuel with
  | O => None
  | S f =>
    if e =? 0 then Some y
    else
      x' <- chk32 (x * x) ;;
      y' <- (if Z.odd e then chk32 (y * x') else Some y) ;;
      pow_loop f (u8 (Z.shiftr e 1)) x' y'
  end.

(** util.c:24-46 *)
Definition pow_int (b e : Z) : option Z :=
  if e =? 0 then Some 1
  else
    '(e1, x1) <- pow_strip 9 e b ;;
    pow_loop 9 (u8 (Z.shiftr e1 1)) x1 x1.
