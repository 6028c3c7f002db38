(** * Model of firmware/bitmap.h, bitmap.c: a bit map is a list of bytes *)
From Coq Require Import ZArith List Bool.
From Verif Require Import Base.
Import ListNotations.
Open Scope Z_scope.

(** bitmap.c:25-27 *)
Definition bit_to_mask8 : list Z := [1; 2; 4; 8; 16; 32; 64; 128].

(** bitmap.h:19-23 [BITMASK8] *)
Definition BITMASK8 (bitnr : Z) : option Z := zget bit_to_mask8 bitnr.

(** bitmap.h:29-34 *)
Definition bm_get_bit (bm : list Z) (bit_number : Z) : option Z :=
  let byte_number := Z.shiftr bit_number 3 in
  let bit_number := Z.land bit_number 7 in
  b <- zget bm byte_number ;; m <- BITMASK8 bit_number ;; Some (u8 (Z.land b m)).

(** bitmap.h:40-43 *)
Definition bm_get_bool (bm : list Z) (bit_number : Z) : option Z :=
  v <- bm_get_bit bm bit_number ;; Some (if v =? 0 then 0 else 1).

(** bitmap.h:46-51 *)
Definition bm_set_bit (bm : list Z) (bit_number : Z) : option (list Z) :=
  let byte_number := Z.shiftr bit_number 3 in
  let bit_number := Z.land bit_number 7 in
  b <- zget bm byte_number ;; m <- BITMASK8 bit_number ;; zupd bm byte_number (u8 (Z.lor b m)).

(** bitmap.h:54-59. [~] is applied after promotion to int; the low 8 bits are what matters. *)
Definition bm_clear_bit (bm : list Z) (bit_number : Z) : option (list Z) :=
  let byte_number := Z.shiftr bit_number 3 in
  let bit_number := Z.land bit_number 7 in
  b <- zget bm byte_number ;; m <- BITMASK8 bit_number ;;
  zupd bm byte_number (u8 (Z.land b (Z.lnot m))).

(** bitmap.h:62-69 *)
Definition bm_write_bit (bm : list Z) (bit_number bit_value : Z) : option (list Z) :=
  if bit_value =? 0 then bm_clear_bit bm bit_number else bm_set_bit bm bit_number.

(** bitmap.h:72-78 *)
Definition bm_init (size : nat) (all_set : Z) : list Z :=
  repeat (if all_set =? 0 then 0 else 255) size.
