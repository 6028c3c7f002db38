(** * Independent numeric specifications (no model definitions are used here) *)
From Coq Require Import ZArith Lia.
Open Scope Z_scope.

(** Saturation to the symmetric 24-bit range. *)
Definition sat24 (x : Z) : Z := Z.max (- (2 ^ 23 - 1)) (Z.min (2 ^ 23 - 1) x).

(** [r] is the real number n/d (d > 0) rounded to the nearest integer, ties up:
    r - 1/2 <= n/d < r + 1/2. *)
Definition nearest_up (n d r : Z) : Prop := (2 * r - 1) * d <= 2 * n < (2 * r + 1) * d.

(** [r] is n/d (d <> 0) rounded to the nearest integer, ties away from zero. *)
Definition nearest_away (n d r : Z) : Prop :=
  2 * Z.abs (n - r * d) <= Z.abs d /\
  (2 * Z.abs (n - r * d) = Z.abs d -> Z.abs n <= Z.abs (r * d)).

(** [r] is the ceiling of n/d (d <> 0): the least integer >= n/d. *)
Definition is_ceil (n d r : Z) : Prop :=
  (0 < d -> (r - 1) * d < n <= r * d) /\ (d < 0 -> r * d <= n < (r - 1) * d).

(** [r] is n/d (d <> 0) truncated towards zero. *)
Definition is_trunc (n d r : Z) : Prop :=
  Z.abs (r * d) <= Z.abs n /\ Z.abs (n - r * d) < Z.abs d /\ 0 <= r * n * d.
