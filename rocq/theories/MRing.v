(** * Model of firmware/ring.c *)
From Coq Require Import ZArith List Bool.
From Verif Require Import Base.
Open Scope Z_scope.

(** ring.c:25-34 *)
Definition ring_next (current max_index : Z) : Z :=
  let next := u8 (current + 1) in
  if max_index <? next then 0 else next.

(** ring.c:36-45 *)
Definition ring_prev (current max_index : Z) : Z :=
  let prev := u8 (current - 1) in
  if max_index <? prev then max_index else prev.
