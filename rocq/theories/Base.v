(** * Base: machine integers, undefined behaviour, lists

    The firmware is compiled by avr-gcc: [int] has 16 bits, [long]/[int32_t] 32,
    [__int24] 24.  All machine integers are modelled as mathematical integers [Z];
    conversions that wrap are explicit, signed overflow is undefined behaviour and
    is modelled as [None]. *)
From Coq Require Import ZArith List Bool Lia.
Import ListNotations.
Open Scope Z_scope.

(** Option monad: [None] = undefined behaviour was executed. *)
Definition bind {A B} (m : option A) (f : A -> option B) : option B :=
  match m with Some a => f a | None => None end.
Notation "x <- m ;; k" := (bind m (fun x => k))
  (at level 61, m at next level, right associativity).
Notation "' p <- m ;; k" := (bind m (fun x => match x with p => k end))
  (at level 61, p pattern, m at next level, right associativity).

(** Conversions to unsigned types (C11 6.3.1.3p2: modulo 2^n). *)
Definition u8  (x : Z) : Z := x mod 256.
Definition u16 (x : Z) : Z := x mod 65536.
Definition u24 (x : Z) : Z := x mod 16777216.
Definition u32 (x : Z) : Z := x mod 4294967296.

(** Conversions to signed types (implementation defined; GCC: modulo 2^n). *)
Definition s8  (x : Z) : Z := (x + 128) mod 256 - 128.
Definition s16 (x : Z) : Z := (x + 32768) mod 65536 - 32768.
Definition s24 (x : Z) : Z := (x + 8388608) mod 16777216 - 8388608.
Definition s32 (x : Z) : Z := (x + 2147483648) mod 4294967296 - 2147483648.

(** Result of a signed arithmetic operation of the given width: undefined on overflow. *)
Definition chk16 (x : Z) : option Z :=
  if (-32768 <=? x) && (x <=? 32767) then Some x else None.
Definition chk32 (x : Z) : option Z :=
  if (-2147483648 <=? x) && (x <=? 2147483647) then Some x else None.

(** Signed C division (truncating); undefined for a zero divisor and for
    results that do not fit 32 bits (INT32_MIN / -1). *)
Definition div32 (a b : Z) : option Z :=
  if b =? 0 then None else chk32 (Z.quot a b).

(** Range predicates used in statements. *)
Definition is_u8  (x : Z) : Prop := 0 <= x <= 255.
Definition is_u16 (x : Z) : Prop := 0 <= x <= 65535.
Definition is_u24 (x : Z) : Prop := 0 <= x <= 16777215.
Definition is_s16 (x : Z) : Prop := -32768 <= x <= 32767.
Definition is_s24 (x : Z) : Prop := -8388608 <= x <= 8388607.
Definition is_s32 (x : Z) : Prop := -2147483648 <= x <= 2147483647.

(** Array access: [None] if out of bounds. The index is a [Z]. *)
Definition zget {A} (l : list A) (i : Z) : option A :=
  if i <? 0 then None else nth_error l (Z.to_nat i).

Fixpoint upd_nat {A} (l : list A) (i : nat) (v : A) : option (list A) :=
  match l, i with
  | [], _ => None
  | _ :: t, O => Some (v :: t)
  | h :: t, S i' => match upd_nat t i' v with Some t' => Some (h :: t') | None => None end
  end.

Definition zupd {A} (l : list A) (i : Z) (v : A) : option (list A) :=
  if i <? 0 then None else upd_nat l (Z.to_nat i) v.

(** Function memory update (EEPROM cells). *)
Definition fupd (m : Z -> Z) (a v : Z) : Z -> Z :=
  fun x => if x =? a then v else m x.
