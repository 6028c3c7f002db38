(** * The arithmetic that the unit tests and the simulator execute is that of the target (C98)

    h_...: the functions as the host compiles them (MHostFix), with 32-bit [int] and the classes Int24 and UInt24;
    without h_: the functions on the target.  [None] is undefined behaviour. *)
From Coq Require Import ZArith List Bool.
From Verif Require Import Base MInt24 MFixpt MScale MFilter MTimer MPid MHostFix PHostFix.
Open Scope Z_scope.

(** Same result, and undefined in the same cases. *)
Theorem C98_fixpt : forall a b c d, is_s24 a ->
  h_add a b = fixpt_add a b /\ h_sub a b = fixpt_sub a b /\ h_mul a b = fixpt_mul a b /\ h_div a b = fixpt_div a b /\
  h_mul_div a b c = fixpt_mul_div a b c /\ h_neg a = Some (fixpt_neg a) /\ h_abs a = Some (fixpt_abs a) /\
  h_clamp a b c = fixpt_clamp a b c /\ h_add_limited a b c d = fixpt_add_limited a b c d /\
  h_int_to_fixpt a = int_to_fixpt a /\ h_to_int a = fixpt_to_int a /\ h_get_int_part a = fixpt_get_int_part a /\
  h_get_dec_fract a b = fixpt_get_dec_fract a b.
Proof. exact h_fixpt. Qed.
Print Assumptions C98_fixpt.
Example C98_fixpt_ex : h_add 8388607 1 = Some 8388607 /\ h_neg (-8388608) = Some 8388607 /\ h_div (-5) 0 = Some 1 /\ h_mul 8388607 8388607 = None /\ h_mul 4000 (-33) = Some (-2062).
Proof. vm_compute. repeat split. Qed.

Theorem C98_pid : forall p dt r, h_pid_run p dt r = pid_run p dt r.
Proof. exact h_pid. Qed.
Print Assumptions C98_pid.

Theorem C98_scale : forall raw raw_lo raw_hi phys phys_lo phys_hi,
  (forall v, scale raw raw_lo raw_hi phys_lo phys_hi = Some v -> h_scale raw raw_lo raw_hi phys_lo phys_hi = Some v) /\
  h_unscale phys phys_lo phys_hi raw_lo raw_hi = unscale phys phys_lo phys_hi raw_lo raw_hi.
Proof. exact h_scaling. Qed.
Print Assumptions C98_scale.
Theorem C98_rescale : forall phys0 phys0_lo phys0_hi phys1_lo phys1_hi,
  h_rescale phys0 phys0_lo phys0_hi phys1_lo phys1_hi = rescale phys0 phys0_lo phys0_hi phys1_lo phys1_hi.
Proof. exact h_rescaling. Qed.
Print Assumptions C98_rescale.
(** The converse of C98_scale is false: the host computes raw - raw_lo with 32 bits, so that a test can pass where the
    target overflows. *)
Theorem C98_scale_converse_refuted : exists raw raw_lo raw_hi phys_lo phys_hi v, is_s16 raw /\ is_s16 raw_lo /\ is_s16 raw_hi /\ is_s24 phys_lo /\ is_s24 phys_hi /\
  h_scale raw raw_lo raw_hi phys_lo phys_hi = Some v /\ scale raw raw_lo raw_hi phys_lo phys_hi = None.
Proof. exact h_scale_overflow. Qed.
Print Assumptions C98_scale_converse_refuted.

Theorem C98_filter : forall buf inp sh, is_u24 buf -> is_u16 inp -> 0 <= sh < 24 ->
  h_filter_u16_run buf inp sh = Some (lp_filter_u16_run buf inp sh) /\ h_filter_u16_set inp = lp_filter_u16_set inp.
Proof. exact h_filter. Qed.
Print Assumptions C98_filter.
Theorem C98_filter_fixpt : forall buf inp div, h_filter_fixpt_run buf inp div = lp_filter_fixpt_run buf inp div.
Proof. exact h_filter_fixpt. Qed.
Print Assumptions C98_filter_fixpt.
Example C98_filter_ex : h_filter_u16_run 0 65535 5 = Some (65535, 2047) /\ h_filter_u16_run 16777215 65535 0 = Some (65535, 65535).
Proof. vm_compute. split; reflexivity. Qed.

(** Sums and differences of the 16-bit tick counter are computed with 32 bits on the host. *)
Theorem C98_timer : forall now t m, is_u16 now -> is_u16 t ->
  h_timer_isr now = Some (timer_isr now) /\ h_timer_expired now t = Some (timer_expired now t) /\ h_timer_ms_since now t = timer_ms_since now t /\
  h_timer_arm now m = timer_arm now m /\ h_timer_add t m = timer_add t m.
Proof. exact h_timer. Qed.
Print Assumptions C98_timer.
Example C98_timer_ex : h_timer_isr 65535 = Some 0 /\ h_timer_expired 3 65530 = Some true /\ h_timer_arm 65530 100 = Some 94 /\ h_timer_ms_since 5 65535 = Some 6.
Proof. vm_compute. repeat split. Qed.
