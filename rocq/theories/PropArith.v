(** * Properties C01-C23: arithmetic, filters, timers, PID.
    This file contains only final statements, examples and [Print Assumptions]. *)
From Coq Require Import ZArith List Bool Lia.
From Verif Require Import Base SpecNum SpecPid SpecSmall MUtil MFixpt MScale MRing MBitmap MFilter MTimer
  MPid MPwm MTempMap MSens PNum PSmall PScale PPid.
Import ListNotations.
Open Scope Z_scope.

(** ** C01 *)
Theorem C01_add_sub_saturate : forall a b, is_s24 a -> is_s24 b ->
  fixpt_add a b = Some (sat24 (a + b)) /\ fixpt_sub a b = Some (sat24 (a - b)) /\
  forall lo hi, lo <= hi ->
    fixpt_add_limited a b lo hi = Some (Z.max lo (Z.min hi (sat24 (a + b)))).
Proof. exact add_sub_spec. Qed.
Print Assumptions C01_add_sub_saturate.
Example C01_ex : is_s24 8000000 /\ is_s24 500000 /\ fixpt_add 8000000 500000 = Some 8388607 /\
  fixpt_sub (-8388608) 1 = Some (-8388607).
Proof. repeat split; try (unfold is_s24; lia); vm_compute; reflexivity. Qed.

(** ** C02 *)
Theorem C02_mul_rounds : forall a b r, is_s24 a -> is_s24 b ->
  (fixpt_mul a b = Some r <->
   -(2 ^ 31) <= a * b /\ a * b + 32 <= 2 ^ 31 - 1 /\
   exists q, nearest_up (a * b) 64 q /\ r = sat24 q).
Proof. exact mul_spec. Qed.
Print Assumptions C02_mul_rounds.
(** 1.5 * -2.25 = -3.375; a product that overflows 32 bits is undefined. *)
Example C02_ex : fixpt_mul 96 (-144) = Some (-216) /\ fixpt_mul 65536 65536 = None /\
  fixpt_mul 40000 30000 = Some 8388607.
Proof. vm_compute. auto. Qed.

(** ** C03 *)
Theorem C03_div_rounds : forall a b, is_s24 a -> is_s24 b -> b <> 0 ->
  exists q, nearest_away (64 * a) b q /\ fixpt_div a b = Some (sat24 q).
Proof. exact div_spec. Qed.
Print Assumptions C03_div_rounds.
(** The specification determines the quotient. *)
Theorem C03_nearest_away_unique : forall n d r r', d <> 0 ->
  nearest_away n d r -> nearest_away n d r' -> r = r'.
Proof. exact nearest_away_unique. Qed.
Print Assumptions C03_nearest_away_unique.
Example C03_ex : fixpt_div (-96) 64 = Some (-96) /\ fixpt_div 1 128 = Some 1 /\ fixpt_div (-1) 128 = Some (-1) /\
  fixpt_div 8388607 1 = Some 8388607 /\ fixpt_div (-8388608) 8388607 = Some (-64).
Proof. vm_compute. auto 10. Qed.

(** ** C04: false as stated (FIXPTBIG_MAX/MIN are cast to 24 bits) *)
Theorem C04_div_zero_refuted : exists a, is_s24 a /\
  ~ (fixpt_div a 0 = Some (if a <? 0 then -(2 ^ 23 - 1) else 2 ^ 23 - 1)).
Proof. exists 64. split; [unfold is_s24; lia|vm_compute; discriminate]. Qed.
Print Assumptions C04_div_zero_refuted.
(** What happens instead, for every dividend: a result of the wrong sign and tiny size. *)
Theorem C04_div_zero_actual : forall a, is_s24 a ->
  fixpt_div a 0 = Some (if a <? 0 then 1 else -1).
Proof. exact div_zero_actual. Qed.
Print Assumptions C04_div_zero_actual.

(** ** C05 *)
Theorem C05_neg_abs_clamp : forall a, is_s24 a ->
  fixpt_neg a = sat24 (- a) /\ fixpt_abs a = sat24 (Z.abs a) /\
  forall lo hi, lo <= hi ->
    lo <= fixpt_clamp a lo hi <= hi /\ (lo <= a <= hi -> fixpt_clamp a lo hi = a) /\
    (a < lo -> fixpt_clamp a lo hi = lo) /\ (hi < a -> fixpt_clamp a lo hi = hi).
Proof. exact neg_abs_clamp_spec. Qed.
Print Assumptions C05_neg_abs_clamp.
Example C05_ex : fixpt_neg (-8388608) = 8388607 /\ fixpt_abs (-77) = 77 /\ fixpt_clamp 5 7 9 = 7.
Proof. vm_compute. auto. Qed.

(** ** C06 *)
Theorem C06_int_conversion :
  (forall i, -(2 ^ 25) <= i <= 2 ^ 25 - 1 -> int_to_fixpt i = Some (sat24 (64 * i))) /\
  (forall p, is_s24 p -> exists r, fixpt_to_int p = Some r /\ nearest_away p 64 r) /\
  (forall i, -131071 <= i <= 131071 ->
     exists p, int_to_fixpt i = Some p /\ fixpt_to_int p = Some i).
Proof. exact int_conv_spec. Qed.
Print Assumptions C06_int_conversion.
Example C06_ex : fixpt_to_int 96 = Some 2 /\ fixpt_to_int (-96) = Some (-2) /\ fixpt_to_int 95 = Some 1 /\
  int_to_fixpt 131072 = Some 8388607.
Proof. vm_compute. auto. Qed.

(** ** C07 *)
Theorem C07_int_part : forall p, is_s24 p ->
  exists r, fixpt_get_int_part p = Some r /\ is_trunc p 64 r.
Proof. exact int_part_spec. Qed.
Print Assumptions C07_int_part.
Theorem C07_dec_fract : forall p n, is_s24 p -> 0 <= n <= 7 -> Z.abs p <= 2 ^ 23 - 1 ->
  exists r, fixpt_get_dec_fract p n = Some r /\
    nearest_up (Z.abs p mod 64 * 10 ^ n) 64 r /\
    (n = 2 \/ n = 3 -> 0 <= r < 10 ^ n).
Proof. exact dec_fract_spec. Qed.
Print Assumptions C07_dec_fract.
(** One digit does not always fit: 63/64 = 0.98 is rounded to "10". *)
Theorem C07_one_digit_refuted : exists p, is_s24 p /\ ~ exists r, fixpt_get_dec_fract p 1 = Some r /\ 0 <= r < 10.
Proof.
  exists 63. split; [unfold is_s24; lia|]. intros (r & E & H). vm_compute in E. injection E as <-. lia.
Qed.
Print Assumptions C07_one_digit_refuted.
(** Eight digits wrap the 32-bit product. *)
Theorem C07_eight_digits_refuted : exists p r, is_s24 p /\ fixpt_get_dec_fract p 8 = Some r /\
  ~ nearest_up (Z.abs p mod 64 * 10 ^ 8) 64 r.
Proof.
  exists 63. eexists. split; [unfold is_s24; lia|]. split; [vm_compute; reflexivity|].
  unfold nearest_up. vm_compute. intros [_ H]. discriminate H.
Qed.
Print Assumptions C07_eight_digits_refuted.
Example C07_ex : fixpt_get_int_part (-100) = Some (-1) /\ fixpt_get_dec_fract (-100) 2 = Some 56 /\
  fixpt_get_dec_fract 19 2 = Some 30.
Proof. vm_compute. auto. Qed.

(** ** C08 *)
Theorem C08_pow_int : forall b e, is_s16 b -> is_u8 e -> Z.abs (b ^ e) <= 2 ^ 31 - 1 ->
  pow_int b e = Some (b ^ e).
Proof. exact pow_int_spec. Qed.
Print Assumptions C08_pow_int.
Example C08_ex : pow_int (-3) 19 = Some (-1162261467) /\ pow_int 2 30 = Some 1073741824 /\
  pow_int (-1) 255 = Some (-1) /\ pow_int 0 0 = Some 1 /\ pow_int 10 10 = None.
Proof. vm_compute. auto 10. Qed.

(** ** C09 *)
Theorem C09_sdiv_round_up : forall x d r,
  is_s32 x -> is_s32 d -> d <> 0 -> sdiv_round_up x d = Some r -> is_ceil x d r.
Proof. exact sdiv_round_up_spec. Qed.
Print Assumptions C09_sdiv_round_up.
Theorem C09_sdiv_round_up_defined : forall x d,
  is_s32 x -> is_s32 d -> d <> 0 -> ~ (x = -(2 ^ 31) /\ d = -1) ->
  -(2 ^ 31) <= x + d <= 2 ^ 31 - 1 -> exists r, sdiv_round_up x d = Some r.
Proof. exact sdiv_round_up_def. Qed.
Print Assumptions C09_sdiv_round_up_defined.
Theorem C09_sdiv_round : forall x d, is_s32 x -> is_s32 d -> d <> 0 ->
  Z.abs x + Z.abs d / 2 <= 2147483647 ->
  exists r, sdiv_round x d = Some r /\ nearest_away x d r.
Proof.
  intros x d Hx Hd N B.
  exact (ex_intro _ _ (conj (sdiv_round_eq x d Hx Hd N B) (divaway_spec x d N))).
Qed.
Print Assumptions C09_sdiv_round.
Theorem C09_udiv : forall x d, 0 <= x -> 0 < d -> x + d <= 2 ^ 32 - 1 ->
  (exists r, udiv_round_up x d = Some r /\ is_ceil x d r) /\
  (exists r, udiv_round x d = Some r /\ nearest_away x d r).
Proof. exact udiv_spec. Qed.
Print Assumptions C09_udiv.
Example C09_ex : sdiv_round_up 7 2 = Some 4 /\ sdiv_round_up (-7) 2 = Some (-3) /\ sdiv_round_up (-7) (-2) = Some 4 /\
  sdiv_round (-7) 2 = Some (-4) /\ sdiv_round 7 (-3) = Some (-2) /\ udiv_round 5 2 = Some 3 /\ udiv_round_up 5 4 = Some 2.
Proof. vm_compute. auto 10. Qed.

(** ** C10 *)
Theorem C10_ring : forall c m,
  (is_u8 c -> is_u8 m -> 0 <= ring_next c m <= m /\ 0 <= ring_prev c m <= m) /\
  (0 <= c <= m -> m <= 255 ->
     ring_prev (ring_next c m) m = c /\ ring_next (ring_prev c m) m = c).
Proof. intros c m. exact (conj (ring_range c m) (ring_inverse c m)). Qed.
Print Assumptions C10_ring.
Theorem C10_ring_iterate : forall c m n, 0 <= c <= m -> m <= 255 ->
  Nat.iter n (fun x => ring_next x m) c = (c + Z.of_nat n) mod (m + 1) /\
  Nat.iter n (fun x => ring_prev x m) c = (c - Z.of_nat n) mod (m + 1).
Proof. exact ring_iter. Qed.
Print Assumptions C10_ring_iterate.
Theorem C10_ring_visits_once : forall c m t, 0 <= c <= m -> m <= 255 -> 0 <= t <= m ->
  exists n : nat, Z.of_nat n <= m /\ Nat.iter n (fun x => ring_next x m) c = t /\
    forall n' : nat, Z.of_nat n' <= m -> Nat.iter n' (fun x => ring_next x m) c = t -> n' = n.
Proof. exact ring_visits. Qed.
Print Assumptions C10_ring_visits_once.
Example C10_ex : ring_next 5 5 = 0 /\ ring_prev 0 5 = 5 /\ ring_next 255 255 = 0 /\ ring_prev 200 5 = 5.
Proof. vm_compute. auto. Qed.

(** ** C11 *)
Theorem C11_bitmap : forall ws bm, Forall is_u8 bm ->
  (forall i v, In (i, v) ws -> 0 <= i < 8 * Z.of_nat (length bm)) ->
  exists bm', bm_writes bm ws = Some bm' /\ length bm' = length bm /\ Forall is_u8 bm' /\
    forall j, 0 <= j < 8 * Z.of_nat (length bm) ->
      bm_get_bool bm' j = Some (if last_written (bit_of bm j) j ws then 1 else 0).
Proof. exact bm_writes_spec. Qed.
Print Assumptions C11_bitmap.
Theorem C11_bitmap_one_bit : forall bm i v, Forall is_u8 bm -> 0 <= i < 8 * Z.of_nat (length bm) ->
  exists bm', bm_write_bit bm i v = Some bm' /\ length bm' = length bm /\ Forall is_u8 bm' /\
    forall j, 0 <= j < 8 * Z.of_nat (length bm) ->
      bit_of bm' j = if j =? i then negb (v =? 0) else bit_of bm j.
Proof. exact bm_write_spec. Qed.
Print Assumptions C11_bitmap_one_bit.
Theorem C11_bitmap_set_clear : forall bm i, Forall is_u8 bm -> 0 <= i < 8 * Z.of_nat (length bm) ->
  (exists bm', bm_set_bit bm i = Some bm' /\ length bm' = length bm /\ Forall is_u8 bm' /\
    forall j, 0 <= j < 8 * Z.of_nat (length bm) -> bit_of bm' j = if j =? i then true else bit_of bm j) /\
  (exists bm', bm_clear_bit bm i = Some bm' /\ length bm' = length bm /\ Forall is_u8 bm' /\
    forall j, 0 <= j < 8 * Z.of_nat (length bm) -> bit_of bm' j = if j =? i then false else bit_of bm j).
Proof. intros bm i F H. exact (conj (bm_set_spec bm i F H) (bm_clear_spec bm i F H)). Qed.
Print Assumptions C11_bitmap_set_clear.
Theorem C11_bitmap_get : forall bm i, Forall is_u8 bm -> 0 <= i < 8 * Z.of_nat (length bm) ->
  bm_get_bit bm i = Some (if bit_of bm i then 2 ^ (i mod 8) else 0) /\
  bm_get_bool bm i = Some (if bit_of bm i then 1 else 0).
Proof. intros bm i F H. exact (conj (bm_get_bit_spec bm i F H) (bm_get_bool_spec bm i F H)). Qed.
Print Assumptions C11_bitmap_get.
Theorem C11_bitmap_init : forall n v j, 0 <= j < 8 * Z.of_nat n ->
  Forall is_u8 (bm_init n v) /\ bit_of (bm_init n v) j = negb (v =? 0).
Proof. exact bm_init_spec. Qed.
Print Assumptions C11_bitmap_init.
Example C11_ex : Forall is_u8 [0; 255] /\ bm_writes [0; 255] [(9, 0); (3, 7); (9, 1); (10, 0)] = Some [8; 251].
Proof. split; [repeat constructor; unfold is_u8; lia|vm_compute; reflexivity]. Qed.

(** ** C12 *)
Theorem C12_filter_running_max : forall s v xs n o, 0 <= s <= 8 -> is_u16 v -> Forall is_u16 xs ->
  nth_error (lp_outputs (lp_filter_u16_set v) s xs) n = Some o ->
  0 <= o <= fold_left Z.max (firstn (S n) xs) v.
Proof. exact lp_running_max. Qed.
Print Assumptions C12_filter_running_max.
Theorem C12_filter_no_wrap : forall s xs, 0 <= s <= 8 -> forall buf,
  0 <= buf <= 65535 * 2 ^ s -> Forall is_u16 xs -> lp_final buf s xs = lp_ideal buf s xs.
Proof. exact lp_no_wrap. Qed.
Print Assumptions C12_filter_no_wrap.
Theorem C12_filter_converges : forall s x buf, 0 <= s <= 8 -> 0 <= x <= 65535 -> 0 <= buf <= 65535 * 2 ^ s ->
  (buf <= x * 2 ^ s -> forall n, lp_const_out s x n buf <= lp_const_out s x (S n) buf <= x) /\
  (x * 2 ^ s <= buf -> forall n, x <= lp_const_out s x (S n) buf <= lp_const_out s x n buf) /\
  exists N, forall n, (N <= n)%nat -> lp_const_out s x n buf = x.
Proof. exact lp_converges. Qed.
Print Assumptions C12_filter_converges.
Example C12_ex : lp_outputs lp_filter_u16_reset 4 [1000; 1000; 0; 1023] = [62; 121; 113; 170].
Proof. vm_compute. reflexivity. Qed.

(** ** C13: false as stated *)
Theorem C13_priming_refuted : exists v, is_u16 v /\
  snd (lp_filter_u16_run (lp_filter_u16_set v) v MEASCURR_FILTER_SHIFT) <> v.
Proof. exists 65. split; [unfold is_u16; lia|vm_compute; discriminate]. Qed.
Print Assumptions C13_priming_refuted.
(** What happens instead: the level drops to about v/8 (15/16 of v/16 plus v/16). *)
Theorem C13_priming_actual : forall v, 0 <= v <= 1023 ->
  snd (lp_filter_u16_run (lp_filter_u16_set v) v MEASCURR_FILTER_SHIFT) = (2 * v - v / 16) / 16.
Proof. exact lp_prime_actual. Qed.
Print Assumptions C13_priming_actual.

(** ** C14 *)
Theorem C14_model_filter : forall d lo hi xs, 1 <= d <= 64 -> 0 <= lo <= hi -> hi <= 3200 -> forall buf,
  lo * d <= buf <= hi * d -> Forall (fun x => lo <= x <= hi) xs ->
  exists os, lpf_outputs buf (d * 64) xs = Some os /\ length os = length xs /\
    Forall (fun o => lo <= o <= hi) os.
Proof. exact lpf_outputs_bound. Qed.
Print Assumptions C14_model_filter.
(** The same from a reset on. *)
Theorem C14_reset : forall d hi xs, 1 <= d <= 64 -> 0 <= hi <= 3200 -> Forall (fun x => 0 <= x <= hi) xs ->
  exists os, lpf_outputs lp_filter_fixpt_reset (d * 64) xs = Some os /\ length os = length xs /\ Forall (fun o => 0 <= o <= hi) os.
Proof. exact lpf_reset. Qed.
Print Assumptions C14_reset.
Example C14_ex : lpf_outputs (1280 * 16) (16 * 64) [3200; 3200; 100] = Some [1400; 1513; 1424].
Proof. vm_compute. reflexivity. Qed.

(** ** C15 *)
Theorem C15_scale_general : forall raw rl rh pl ph,
  is_s16 (raw - rl) -> is_s16 (rh - rl) -> rl < rh -> is_s24 pl -> is_s24 ph ->
  Z.abs ((ph - pl) * (raw - rl)) * 64 + 32 * Z.abs (rh - rl) <= 2147483647 ->
  exists q, scale raw rl rh pl ph = Some (sat24 q) /\
    2 * Z.abs ((rh - rl) * (q - pl) - (raw - rl) * (ph - pl)) <= rh - rl.
Proof. exact scale_general. Qed.
Print Assumptions C15_scale_general.
Theorem C15_sensor_channels : forall c, c = meascurr_config \/ (exists smd, c = meastemp_config smd) ->
  (forall code, 0 <= code <= 1023 ->
    exists v, scale code (mc_raw_lo c) (mc_raw_hi c) (mc_phys_lo c) (mc_phys_hi c) = Some v /\
      2 * Z.abs ((mc_raw_hi c - mc_raw_lo c) * (v - mc_phys_lo c)
                 - (code - mc_raw_lo c) * (mc_phys_hi c - mc_phys_lo c))
        <= mc_raw_hi c - mc_raw_lo c) /\
  scale (mc_raw_lo c) (mc_raw_lo c) (mc_raw_hi c) (mc_phys_lo c) (mc_phys_hi c) = Some (mc_phys_lo c) /\
  scale (mc_raw_hi c) (mc_raw_lo c) (mc_raw_hi c) (mc_phys_lo c) (mc_phys_hi c) = Some (mc_phys_hi c) /\
  (forall a b v w, 0 <= a -> a <= b -> b <= 1023 ->
     scale a (mc_raw_lo c) (mc_raw_hi c) (mc_phys_lo c) (mc_phys_hi c) = Some v ->
     scale b (mc_raw_lo c) (mc_raw_hi c) (mc_phys_lo c) (mc_phys_hi c) = Some w -> v <= w).
Proof. exact chan_spec_configs. Qed.
Print Assumptions C15_sensor_channels.
(** 310 counts on the SMD board are 314.2 degrees. *)
Example C15_ex : scale 310 210 411 9600 30720 = Some 20107.
Proof. vm_compute. reflexivity. Qed.

(** ** C16 *)
Theorem C16_pwm_linear : forall p, 0 <= p <= 3200 ->
  exists v, pwmcurr_set p = Some v /\ 0 <= v <= 8191 /\ Z.abs (3200 * v - 8191 * (3200 - p)) < 3200.
Proof. exact pwmcurr_spec. Qed.
Print Assumptions C16_pwm_linear.
Theorem C16_pwm_endpoints : pwmcurr_set 0 = Some 8191 /\ pwmcurr_set 3200 = Some 0.
Proof. exact (conj eq_refl eq_refl). Qed.
Print Assumptions C16_pwm_endpoints.
Theorem C16_pwm_antitone : forall p q v w, 0 <= p -> p <= q -> q <= 3200 ->
  pwmcurr_set p = Some v -> pwmcurr_set q = Some w -> w <= v.
Proof. exact pwmcurr_antitone. Qed.
Print Assumptions C16_pwm_antitone.
Example C16_ex : pwmcurr_set 1280 = Some 4915.
Proof. vm_compute. reflexivity. Qed.

(** ** C17 *)
Theorem C17_temp_to_amps : forall x, 0 <= x <= 30720 ->
  exists a, temp_to_amps x = Some a /\ 0 <= a <= 3200 /\
    (x <= 16000 -> nearest_away x 5 a) /\ (16000 <= x -> a = 3200).
Proof. exact temp_to_amps_spec. Qed.
Print Assumptions C17_temp_to_amps.
Theorem C17_temp_to_amps_mono : forall x y a b, -600000 <= x -> x <= y -> y <= 600000 ->
  temp_to_amps x = Some a -> temp_to_amps y = Some b -> a <= b.
Proof. exact temp_to_amps_mono. Qed.
Print Assumptions C17_temp_to_amps_mono.
Example C17_ex : temp_to_amps 8000 = Some 1600 /\ temp_to_amps 30720 = Some 3200 /\ temp_to_amps 13 = Some 3.
Proof. vm_compute. auto. Qed.

(** ** C18 *)
Theorem C18_timer_oneshot : forall t0 d k, 0 <= d <= 32767 -> 0 <= k < d + 32768 ->
  exists tm, timer_arm (counter t0) d = Some tm /\
    (timer_expired (counter (t0 + k)) tm = true <-> d <= k).
Proof. exact timer_oneshot. Qed.
Print Assumptions C18_timer_oneshot.
(** The interrupt advances the counter by exactly one tick of real time. *)
Theorem C18_counter_step : forall t, 0 <= t -> timer_isr (counter t) = counter (t + 1).
Proof. exact counter_step. Qed.
Print Assumptions C18_counter_step.
Example C18_ex : timer_arm (counter 65000) 1000 = Some 464 /\ timer_expired (counter 65999) 464 = false /\
  timer_expired (counter 66000) 464 = true.
Proof. vm_compute. auto. Qed.

(** ** C19: false as stated *)
Theorem C19_stays_expired_refuted : exists t0 d tm k1 k2, 0 <= d <= 32767 /\ 0 <= k1 < k2 /\
  timer_arm (counter t0) d = Some tm /\
  timer_expired (counter (t0 + k1)) tm = true /\ timer_expired (counter (t0 + k2)) tm = false.
Proof. exists 0, 1000, 1000, 1000, 33768. repeat split; try lia; vm_compute; reflexivity. Qed.
Print Assumptions C19_stays_expired_refuted.
(** Exact behaviour at all later times: expired half of the time, with period 65536. *)
Theorem C19_expired_actual : forall t0 d k, 0 <= d <= 32767 ->
  exists tm, timer_arm (counter t0) d = Some tm /\
    timer_expired (counter (t0 + k)) tm = ((k - d) mod 65536 <? 32768).
Proof. exact timer_expired_actual. Qed.
Print Assumptions C19_expired_actual.

(** ** C20 *)
Theorem C20_ms_since : forall t0 k, 0 <= k <= 32767 ->
  timer_ms_since (counter (t0 + k)) (timer_set_now (counter t0)) = Some k.
Proof. exact ms_since_eq. Qed.
Print Assumptions C20_ms_since.
Theorem C20_periodic_no_drift : forall p polls, 0 <= p <= 32767 -> forall due fs,
  ideal_timer due p polls = Some fs -> poll_timer (counter due) p polls = Some fs.
Proof. exact poll_timer_ideal. Qed.
Print Assumptions C20_periodic_no_drift.
Example C20_ex : ideal_timer 65530 10 [65520; 65530; 65531; 65560; 65560; 65560; 65561] =
  Some [false; true; false; true; true; true; false].
Proof. vm_compute. reflexivity. Qed.

(** ** C21: false as stated: a tick lasts 8064 CPU cycles, a millisecond 8000 *)
Theorem C21_tick_1ms_refuted : ~ (tick_cpu_cycles * 1000 = F_CPU).
Proof. vm_compute. discriminate. Qed.
Print Assumptions C21_tick_1ms_refuted.
Theorem C21_tick_within_1_percent : forall n, 0 <= n ->
  n * (F_CPU / 1000) <= n * tick_cpu_cycles /\
  100 * (n * tick_cpu_cycles - n * (F_CPU / 1000)) <= n * (F_CPU / 1000).
Proof. exact tick_bound. Qed.
Print Assumptions C21_tick_within_1_percent.

(** ** C22 *)
Theorem C22_pid_limits : forall ops p p' l, pid_lims_ok p -> pid_exec p ops = Some (p', l) ->
  Forall (fun yi => p_y_neglim p <= fst yi <= p_y_poslim p /\
                    p_i_neglim p <= snd yi <= p_i_poslim p) l.
Proof. exact pid_exec_limits. Qed.
Print Assumptions C22_pid_limits.
Example C22_ex :
  let p := pid_init pid_zero (mkK 96 19 13 128) (-1920) 5120 0 30720 in
  pid_lims_ok p /\
  option_map snd (pid_exec p [PSetSetpoint 22400; PRun 3 1280; PRun 3 1400; PReset; PRun 3 30000]) =
  Some [(30720, 294); (30720, 586); (0, -106)].
Proof. split; [unfold pid_lims_ok; cbn; lia|vm_compute; reflexivity]. Qed.

(** ** C23 *)
Theorem C23_pid_law : forall p dt r p' y,
  is_s24 (p_setpoint p) -> is_s24 r -> is_s24 dt -> is_s24 (p_prev_e p) -> is_s24 (p_integr p) ->
  is_s24 (kd (p_k p)) -> is_s24 (d_decay_div (p_k p)) ->
  is_s24 (p_i_neglim p) -> is_s24 (p_i_poslim p) ->
  dt <> 0 -> d_decay_div (p_k p) <> 0 -> pid_lims_ok p ->
  pid_run p dt r = Some (p', y) ->
  pid_law (kp (p_k p)) (ki (p_k p)) (kd (p_k p)) (d_decay_div (p_k p))
          (p_i_neglim p) (p_i_poslim p) (p_y_neglim p) (p_y_poslim p)
          (p_setpoint p) (p_integr p) (p_prev_e p) dt r
          y (p_integr p') (p_prev_e p').
Proof. exact pid_run_law. Qed.
Print Assumptions C23_pid_law.
Theorem C23_pid_defined : forall p dt r,
  pid_region p -> Z.abs dt <= 2100 -> Z.abs (p_setpoint p - r) <= 32768 ->
  is_s24 (p_setpoint p) -> is_s24 r -> exists p' y, pid_run p dt r = Some (p', y).
Proof. exact pid_run_defined. Qed.
Print Assumptions C23_pid_defined.
Theorem C23_pid_zero_error : forall p dt,
  p_prev_e p = 0 -> p_integr p = 0 -> is_s24 (p_setpoint p) ->
  dt <> 0 -> is_s24 dt -> d_decay_div (p_k p) <> 0 -> is_s24 (d_decay_div (p_k p)) ->
  p_i_neglim p <= 0 <= p_i_poslim p -> p_y_neglim p <= 0 <= p_y_poslim p ->
  pid_run p dt (p_setpoint p) = Some (p, 0).
Proof. exact pid_zero_output. Qed.
Print Assumptions C23_pid_zero_error.
Theorem C23_pid_forgets : forall p k,
  p_integr (pid_set_factors p k) = 0 /\ p_prev_e (pid_set_factors p k) = 0 /\ p_k (pid_set_factors p k) = k /\
  p_setpoint (pid_set_factors p k) = p_setpoint p /\
  p_integr (pid_reset p) = 0 /\ p_prev_e (pid_reset p) = 0 /\ p_k (pid_reset p) = p_k p /\
  p_setpoint (pid_reset p) = p_setpoint p.
Proof. intros p k. exact (conj eq_refl (conj eq_refl (conj eq_refl (conj eq_refl (conj eq_refl (conj eq_refl (conj eq_refl eq_refl))))))). Qed.
Print Assumptions C23_pid_forgets.
Example C23_ex :
  let p := pid_set_setpoint (pid_init pid_zero (mkK 96 19 13 128) (-1920) 5120 0 30720) 22400 in
  pid_region p /\ option_map snd (pid_run p 32 22300) = Some 205.
Proof. split; [unfold pid_region, pid_lims_ok; cbn; lia|vm_compute; reflexivity]. Qed.
