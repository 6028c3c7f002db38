(** * Model of firmware/measure.c, measure_current.c, measure_temp.c *)
From Coq Require Import ZArith List Bool.
From Verif Require Import Base MConf MFixpt MScale MRing MFilter MTimer MTempMap MPwm MCurr MSens MSettings
  MState MTemp.
Import ListNotations.
Open Scope Z_scope.

(** measure.h:47-51 *)
Definition MEAS_CHAN_CURRENT : Z := 0.
Definition MEAS_CHAN_TEMP : Z := 1.
Definition NR_MEAS_CHANS : Z := 2.

(** measure.c:74-105: the initial value of [meas]; the converter is off *)
Definition meas_zero : meas :=
  mkMeas [mkChan 0 false false 0; mkChan 0 false false 0] 0 0 0 0 false false.
(** measure.c:78, 89: the config pointers of the channels *)
Definition chan_config (C : conf) (id : Z) : option mconfig :=
  zget [meascurr_config; meastemp_config (c_smd C)] id.

(** measure_current.c:55-73 (debug output omitted) *)
Definition meascurr_filter_handler (y : sys) (raw_adc : Z) : sys * Z :=
  let u := y_mc y in
  let '(u, filtered) :=
    if u_init u then
      let '(b, f) := lp_filter_u16_run (u_filter u) raw_adc MEASCURR_FILTER_SHIFT in
      (set_u_filter u b, f)
    else (set_u_filter u (lp_filter_u16_set raw_adc), raw_adc) in
  (set_y_mc y u, if filtered <? MEASURE_MAX_RESULT then filtered else MEASURE_MAX_RESULT).

(** measure.c:110-120 *)
Definition measure_user_filter_handler (y : sys) (chan_id raw_adc : Z) : sys * Z :=
  if chan_id =? MEAS_CHAN_CURRENT then meascurr_filter_handler y raw_adc else (y, raw_adc).

(** measure_current.c:78-101 *)
Definition meascurr_result_handler (y : sys) (v : Z) (p : plaus) : option sys :=
  let c := y_cc y in
  let flags := contrcurr_get_emerg c in
  let flags := match p with
               | MEAS_PLAUSIBLE => Z.land flags (u8 (Z.lnot EMERG_UNPLAUS_FEEDBACK))
               | MEAS_PLAUS_TIMEOUT => Z.lor flags EMERG_UNPLAUS_FEEDBACK
               | MEAS_NOT_PLAUSIBLE => flags
               end in
  c <- contrcurr_set_emerg c flags ;;
  let u := y_mc y in
  '(c, u) <- match p with
             | MEAS_PLAUSIBLE =>
               c <- contrcurr_set_feedback (y_now y) c v ;; Some (c, set_u_prev u v)
             | MEAS_NOT_PLAUSIBLE =>
               c <- contrcurr_set_feedback (y_now y) c (u_prev u) ;; Some (c, u)
             | MEAS_PLAUS_TIMEOUT => Some (c, u)
             end ;;
  Some (set_y_mc (set_y_cc y c) (set_u_init u true)).

(** measure_temp.c:61-81 *)
Definition meastemp_result_handler (y : sys) (v : Z) (p : plaus) : option sys :=
  let y := match p with
           | MEAS_PLAUSIBLE => contrtemp_set_emerg y false
           | MEAS_PLAUS_TIMEOUT => contrtemp_set_emerg y true
           | MEAS_NOT_PLAUSIBLE => y
           end in
  match p with
  | MEAS_PLAUSIBLE =>
    let y := set_y_mt y v in
    let y := set_y_cc y (contrcurr_set_restricted (y_cc y) (v <? CONTRCURR_RESTRICT_TOTEMP)) in
    contrtemp_set_feedback y v
  | MEAS_NOT_PLAUSIBLE => contrtemp_set_feedback y (y_mt y)
  | MEAS_PLAUS_TIMEOUT => Some y
  end.

(** measure.c:127-140 *)
Definition measure_user_result_handler (y : sys) (chan_id phys : Z) (p : plaus) : option sys :=
  if chan_id =? MEAS_CHAN_TEMP then meastemp_result_handler y phys p
  else meascurr_result_handler y phys p.

(** measure.c:183-202, with adc_trigger (155-181) reduced to switching the converter on *)
Definition adc_trigger_next_chan (C : conf) (y : sys) : option sys :=
  let m := y_meas y in
  let active_chan := ring_next (m_chan m) (NR_MEAS_CHANS - 1) in
  config <- chan_config C active_chan ;;
  t <- timer_arm (y_now y) (mc_avg_ms config) ;;
  let m := set_m_timer (set_m_count (set_m_sum (set_m_chan m active_chan) 0) 0) t in
  Some (set_y_meas y (set_m_adc m true)).

(** measure.c:239-265: the plausibility check; returns the channel, the value and the verdict *)
Definition plaus_check (config : mconfig) (now : Z) (ch : chan) (phys : Z)
  : option (chan * Z * plaus) :=
  let '(ch, phys, plaus) :=
    if phys <? mc_plaus_neg config then (ch, mc_plaus_neg config, MEAS_NOT_PLAUSIBLE)
    else if mc_plaus_pos config <? phys then (ch, mc_plaus_pos config, MEAS_NOT_PLAUSIBLE)
    else (set_ch_timeout (set_ch_running ch false) false, phys, MEAS_PLAUSIBLE) in
  ch <- (match plaus with
         | MEAS_PLAUSIBLE => Some ch
         | _ => if negb (ch_running ch) then
                  t <- timer_arm now (mc_plaus_ms config) ;;
                  Some (set_ch_running (set_ch_timer ch t) true)
                else Some ch
         end) ;;
  let ch := if ch_running ch && timer_expired now (ch_timer ch) then set_ch_timeout ch true else ch in
  let plaus := if ch_timeout ch then MEAS_PLAUS_TIMEOUT else plaus in
  Some (ch, phys, plaus).

(** measure.c:217-218: the mean of the samples.  Division by an [avg_count] of 0 is undefined. *)
Definition raw_average (m : meas) : option Z :=
  if m_count m =? 0 then None else Some (u16 (m_sum m / m_count m)).

(** measure.c:204-268 (debug output omitted). *)
Definition measure_handle_result (C : conf) (y : sys) : option sys :=
  let m := y_meas y in
  let id := m_chan m in
  ch <- zget (m_chans m) id ;;
  config <- chan_config C id ;;
  raw_adc <- raw_average m ;;
  let '(y, raw_adc) := measure_user_filter_handler y id raw_adc in
  phys <- scale (s16 raw_adc) (s16 (mc_raw_lo config)) (s16 (mc_raw_hi config))
                (mc_phys_lo config) (mc_phys_hi config) ;;
  phys <- (if c_adj C then fixpt_sub phys (ch_adj ch) else Some phys) ;;
  '(ch, phys, plaus) <- plaus_check config (y_now y) ch phys ;;
  chans <- zupd (m_chans m) id ch ;;
  let y := set_y_meas y (set_m_chans m chans) in
  measure_user_result_handler y id phys plaus.

(** measure.c:270-288 [ISR(ADC_vect)] and adc_disable (142-148); [adc] is the register ADC *)
Definition adc_isr (y : sys) (adc : Z) : sys :=
  let m := y_meas y in
  let m := set_m_sum m (u32 (m_sum m + adc)) in
  let m := set_m_count m (u16 (m_count m + 1)) in
  let m := if timer_expired (y_now y) (m_timer m) then set_m_adc (set_m_avail m true) false else m in
  set_y_meas y m.

(** measure.c:290-293 *)
Definition measure_start (C : conf) (y : sys) : option sys := adc_trigger_next_chan C y.

(** measure.c:295-308 *)
Definition measure_work (C : conf) (y : sys) : option sys :=
  let result_available := m_avail (y_meas y) in
  let y := set_y_meas y (set_m_avail (y_meas y) false) in
  if result_available then
    y <- measure_handle_result C y ;; adc_trigger_next_chan C y
  else Some y.

(** measure.c:310-316 *)
Definition measure_adjust_set (C : conf) (y : sys) (id adjustment : Z) : option sys :=
  if c_adj C then
    let m := y_meas y in
    ch <- zget (m_chans m) id ;;
    chans <- zupd (m_chans m) id (set_ch_adj ch adjustment) ;;
    Some (set_y_meas y (set_m_chans m chans))
  else Some y.
(** measure.c:318-325 *)
Definition measure_adjust_get (C : conf) (y : sys) (id : Z) : option Z :=
  if c_adj C then ch <- zget (m_chans (y_meas y)) id ;; Some (ch_adj ch) else int_to_fixpt 0.

(** measure.c:327-334: one discarded conversion, the converter is off afterwards *)
Definition measure_init (y : sys) : sys := set_y_meas y (set_m_adc (y_meas y) false).

(** measure_current.c:121-124 *)
Definition meascurr_init (y : sys) : sys := set_y_mc y (set_u_init (y_mc y) false).

(** measure_temp.c:43-51 *)
Definition meastemp_adjust_set (C : conf) (y : sys) (adjustment : Z) : option sys :=
  if c_adj C then
    y <- measure_adjust_set C y MEAS_CHAN_TEMP adjustment ;;
    let y := put_settings y (set_s_adj (get_settings y) adjustment) in
    y <- sys_store y ;;
    Some (menu_request_display_update y)
  else Some y.
(** measure_temp.c:53-56 *)
Definition meastemp_adjust_get (C : conf) (y : sys) : option Z := measure_adjust_get C y MEAS_CHAN_TEMP.
(** measure_temp.c:113-118 *)
Definition meastemp_init (C : conf) (y : sys) : option sys :=
  if c_adj C then measure_adjust_set C y MEAS_CHAN_TEMP (s_adj (get_settings y)) else Some y.
