(** * Model of firmware/filter.h, filter.c.  The filter state is its buffer. *)
From Coq Require Import ZArith List Bool.
From Verif Require Import Base MUtil MFixpt.
Open Scope Z_scope.

(** filter.h:17-21 *)
Definition lp_filter_u16_set (new_value : Z) : Z := u24 new_value.
(** filter.h:23-26 *)
Definition lp_filter_u16_reset : Z := lp_filter_u16_set 0.

(** filter.c:25-37: returns (new buffer, output) *)
Definition lp_filter_u16_run (filter_buf inp filter_shift : Z) : Z * Z :=
  let buf := filter_buf in
  let buf := u24 (buf - Z.shiftr buf filter_shift) in
  let buf := u24 (buf + inp) in
  let out := Z.shiftr buf filter_shift in
  (buf, u16 (cmin out 65535)).

(** filter.h:31-35 *)
Definition lp_filter_fixpt_set (new_value : Z) : Z := new_value.
(** filter.h:37-40 *)
Definition lp_filter_fixpt_reset : Z := lp_filter_fixpt_set 0.

(** filter.c:39-51: returns (new buffer, output) *)
Definition lp_filter_fixpt_run (filter_buf inp div : Z) : option (Z * Z) :=
  let buf := filter_buf in
  q <- fixpt_div buf div ;;
  buf <- fixpt_sub buf q ;;
  buf <- fixpt_add buf inp ;;
  out <- fixpt_div buf div ;;
  Some (buf, out).
