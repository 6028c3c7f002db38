(** * Model of firmware/tests/fake/int24.h: the 24-bit integer classes of the unit tests

    The host compiler has 32-bit [int] and [unsigned int].  An object is modelled by its [m_value].
    The overloads taking [const auto &other] are modelled for integer arguments of any width. *)
From Coq Require Import ZArith Bool.
From Verif Require Import Base.
Open Scope Z_scope.

(** int24.h:195-198 *)
Definition U_mask (value : Z) : Z := Z.land (u32 value) 16777215.
(** int24.h:12-15, 23-27: construction and assignment from an integer *)
Definition U_make (other : Z) : Z := U_mask other.
(** int24.h:29-32 *)
Definition U_to_uint (a : Z) : Z := a.
(** int24.h:34-38, 47-51 *)
Definition U_inc (a : Z) : Z := U_mask (u32 (a + 1)).
Definition U_dec (a : Z) : Z := U_mask (u32 (a - 1)).
(** int24.h:60-64, 72-76 *)
Definition U_iadd (a b : Z) : Z := U_mask (u32 (a + b)).
Definition U_isub (a b : Z) : Z := U_mask (u32 (a - b)).
(** int24.h:66-70, 78-82 *)
Definition U_iadd_auto (a b : Z) : Z := U_mask (u32 (a + U_mask b)).
Definition U_isub_auto (a b : Z) : Z := U_mask (u32 (a - U_mask b)).
(** int24.h:84-87, 94-97, 104-107 *)
Definition U_and (a b : Z) : Z := U_make (Z.land a b).
Definition U_or (a b : Z) : Z := U_make (Z.lor a b).
Definition U_xor (a b : Z) : Z := U_make (Z.lxor a b).
(** int24.h:89-92, 99-102, 109-112 *)
Definition U_and_auto (a b : Z) : Z := U_make (Z.land a (U_mask b)).
Definition U_or_auto (a b : Z) : Z := U_make (Z.lor a (U_mask b)).
Definition U_xor_auto (a b : Z) : Z := U_make (Z.lxor a (U_mask b)).
(** int24.h:114-117, 124-127, 134-137 *)
Definition U_add (a b : Z) : Z := U_make (u32 (a + b)).
Definition U_sub (a b : Z) : Z := U_make (u32 (a - b)).
Definition U_mul (a b : Z) : Z := U_make (u32 (a * b)).
(** int24.h:144-147 *)
Definition U_div (a b : Z) : option Z := if b =? 0 then None else Some (U_make (a / b)).
(** int24.h:119-122, 129-132, 139-142, 149-152 *)
Definition U_add_auto (a b : Z) : Z := U_add a (U_mask b).
Definition U_sub_auto (a b : Z) : Z := U_sub a (U_mask b).
Definition U_mul_auto (a b : Z) : Z := U_mul a (U_mask b).
Definition U_div_auto (a b : Z) : option Z := U_div a (U_mask b).
(** int24.h:154-157, 164-167, 174-177, 184-187 *)
Definition U_lt (a b : Z) : bool := a <? b.
Definition U_eq (a b : Z) : bool := a =? b.
Definition U_ne (a b : Z) : bool := negb (a =? b).
Definition U_gt (a b : Z) : bool := b <? a.
(** int24.h:159-162, 169-172, 179-182, 189-192 *)
Definition U_lt_auto (a b : Z) : bool := a <? U_mask b.
Definition U_eq_auto (a b : Z) : bool := a =? U_mask b.
Definition U_ne_auto (a b : Z) : bool := negb (a =? U_mask b).
Definition U_gt_auto (a b : Z) : bool := U_mask b <? a.

(** int24.h:399-405 *)
Definition I_extend (value : Z) : Z :=
  let v := Z.land (u32 value) 16777215 in
  let v := if Z.land v (Z.shiftl 1 23) =? 0 then v else Z.lor v 4278190080 in
  s32 v.
(** int24.h:216-219, 227-231 *)
Definition I_make (other : Z) : Z := I_extend other.
(** int24.h:233-236 *)
Definition I_to_int (a : Z) : Z := a.
(** int24.h:238-242, 251-255.  The additions are [int] additions: checked. *)
Definition I_inc (a : Z) : option Z := v <- chk32 (a + 1) ;; Some (I_extend v).
Definition I_dec (a : Z) : option Z := v <- chk32 (a - 1) ;; Some (I_extend v).
(** int24.h:264-268, 276-280 *)
Definition I_iadd (a b : Z) : option Z := v <- chk32 (a + b) ;; Some (I_extend v).
Definition I_isub (a b : Z) : option Z := v <- chk32 (a - b) ;; Some (I_extend v).
(** int24.h:270-274, 282-286 *)
Definition I_iadd_auto (a b : Z) : option Z := I_iadd a (I_extend b).
Definition I_isub_auto (a b : Z) : option Z := I_isub a (I_extend b).
(** int24.h:288-291, 298-301, 308-311 *)
Definition I_and (a b : Z) : Z := I_make (Z.land a b).
Definition I_or (a b : Z) : Z := I_make (Z.lor a b).
Definition I_xor (a b : Z) : Z := I_make (Z.lxor a b).
(** int24.h:293-296, 303-306, 313-316 *)
Definition I_and_auto (a b : Z) : Z := I_and a (I_extend b).
Definition I_or_auto (a b : Z) : Z := I_or a (I_extend b).
Definition I_xor_auto (a b : Z) : Z := I_xor a (I_extend b).
(** int24.h:318-321, 328-331, 338-341, 348-351 *)
Definition I_add (a b : Z) : option Z := v <- chk32 (a + b) ;; Some (I_make v).
Definition I_sub (a b : Z) : option Z := v <- chk32 (a - b) ;; Some (I_make v).
Definition I_mul (a b : Z) : option Z := v <- chk32 (a * b) ;; Some (I_make v).
Definition I_div (a b : Z) : option Z := v <- div32 a b ;; Some (I_make v).
(** int24.h:323-326, 333-336, 343-346, 353-356 *)
Definition I_add_auto (a b : Z) : option Z := I_add a (I_extend b).
Definition I_sub_auto (a b : Z) : option Z := I_sub a (I_extend b).
Definition I_mul_auto (a b : Z) : option Z := I_mul a (I_extend b).
Definition I_div_auto (a b : Z) : option Z := I_div a (I_extend b).
(** int24.h:358-361, 368-371, 378-381, 388-391 *)
Definition I_lt (a b : Z) : bool := a <? b.
Definition I_eq (a b : Z) : bool := a =? b.
Definition I_ne (a b : Z) : bool := negb (a =? b).
Definition I_gt (a b : Z) : bool := b <? a.
(** int24.h:363-366, 373-376, 383-386, 393-396 *)
Definition I_lt_auto (a b : Z) : bool := a <? I_extend b.
Definition I_eq_auto (a b : Z) : bool := a =? I_extend b.
Definition I_ne_auto (a b : Z) : bool := negb (a =? I_extend b).
Definition I_gt_auto (a b : Z) : bool := I_extend b <? a.
